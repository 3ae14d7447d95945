(* ALTER TABLE: changes to the columns and the keys of a table (DefinitionSpec.v). *)
From Verif Require Import Chars Token Cst Core MiniRust Program Bundles ParserView ParserGeneric ShapeSound GroupingSpec GroupingExpr
  Forward GrammarSpec GrammarTactics GrammarExpr GrammarReach GrammarOps GrammarBinary GrammarItems GrammarTypes GrammarCalls GrammarQuery GrammarSelect
  DefinitionSpec StatementSpec StatementDeeds StatementDml DefinitionRules DefinitionPhrases DefinitionTypes.
Local Open Scope string_scope.
Local Open Scope list_scope.
Local Notation length := List.length.

(* parser.rs:3434-3453, 3457-3470, 3485-3509, 3515-3543 *)
Definition change_loop (d : kind) : cmd fn :=
  match f_body parse_alter_table_statement with
  | Seq _ (Seq _ (Seq _ (Seq _ (Seq _ (Seq _ (Seq (CaseUpper _ _ _ (CaseUpper _ _ (MiniRust.If _ (Seq _ (Seq add _)) (Seq _ (Seq constrain _)))
      (CaseUpper _ _ (MiniRust.If _ _ (Seq _ (Seq rename _))) (CaseUpper _ _ (Seq _ (Seq drop _)) _)))) _)))))) =>
      match d with AddingColumns => add | AddingConstraints => constrain | Dropping => drop | Renaming => rename end
  | _ => Skip end.

Section WithUnicode.
Context (U : unicode) (HU : ascii_faithful U).
Local Notation steps := (steps U).
Local Notation calls := (calls U).
Local Notation is_word := (is_word U).
Local Notation word_in := (word_in U).
Local Notation tree := (tree U).
Local Notation wf := (wf U).
Local Notation fits := (fits_known U).
Local Notation reads_as := (reads_as U).
Ltac ahead ::= first [apply tok_coltype | apply tok_yield | apply tok_items | apply tok_query | apply tok_type | apply tok_table | eassumption].
Ltac call ::= first [eassumption | apply (two_call U) | apply (three_call U)].
Ltac special ::= fail.

Definition change_frame (d : kind) (l : list node) (sp : bool) (n : node) : env :=
  [(match d with AddingColumns => "add_columns" | AddingConstraints => "add_constraints" | Dropping => "drop_columns" | Renaming => "rename_columns" end, VVec l);
   ("alter", VNode n); ("semicolon", VBool sp)].
Definition change_word (d : kind) : string := match d with AddingColumns | AddingConstraints => "ADD" | Dropping => "DROP" | Renaming => "RENAME" end.
(* one time through the loop *)
Definition change_read (d : kind) (c : change) : Prop :=
  (forall l sp n b f R, wf_change U d c f -> fits (Among [";"; ""]) (b_tok f) ->
    exists b' e, match change_loop d with MiniRust.While _ body => steps body (change_frame d l sp n) (b :: yield_change c ++ f :: R) Norm e (b' :: f :: R) | _ => False end /\
      env_leave 3 e = change_frame d (l ++ [tree_change U c None]) sp n) /\
  (forall l sp n b m f R, wf_change U d c m -> is_word m "," ->
    exists e, match change_loop d with MiniRust.While _ body => steps body (change_frame d l sp n) (b :: yield_change c ++ m :: f :: R) Norm e (m :: f :: R) | _ => False end /\
      env_leave 3 e = change_frame d (l ++ [tree_change U c (Some m)]) sp n).
Ltac opened := cbn [change_loop parse_alter_table_statement f_body]; unfold change_frame; cbn [yield_change tree_change opt2 kid_exists app].
Ltac words := repeat match goal with H : _ /\ _ |- _ => destruct H end;
  repeat match goal with H : GrammarSpec.is_word _ _ _ |- _ => apply fits_word in H | H : GrammarSpec.word_in _ _ _ |- _ => apply fits_among in H end.
Ltac split_app := repeat (rewrite <- app_assoc; cbn [app]).
Lemma add_column_read k c e x t : change_read AddingColumns (AddColumn k c e x t).
Proof.
  split.
  - intros l sp n b f R (Kk & Kc & We & (_ & Ix) & Wt) Kf.
    destruct (every_coltype U HU t true true false ltac:(discriminate) Wt f R) as (b1 & C).
    { split; [eapply fits_weaken; [exact Kf|reflexivity]|]. split; intros _; (eapply fits_weaken; [exact Kf|reflexivity]). }
    apply (identifier_avoids U HU) with (ws := ["IF"]) in Ix; [|reflexivity].
    destruct e as [((i & m) & e)|]; opened; words; split_app; (eexists; eexists; split; [step HU|reflexivity]).
  - intros l sp n b m f R (Kk & Kc & We & (_ & Ix) & Wt) Km. apply fits_word in Km.
    destruct (every_coltype U HU t true true false ltac:(discriminate) Wt m (f :: R)) as (b1 & C).
    { split; [eapply fits_weaken; [exact Km|reflexivity]|]. split; intros _; (eapply fits_weaken; [exact Km|reflexivity]). }
    apply (identifier_avoids U HU) with (ws := ["IF"]) in Ix; [|reflexivity].
    destruct e as [((i & o) & e)|]; opened; words; split_app; (eexists; split; [step HU|reflexivity]).
Qed.
Lemma add_key_read k d : change_read AddingConstraints (AddKey k d).
Proof.
  split.
  - intros l sp n b f R (Kk & W) Kf. destruct d as [|c p y g e]; [contradiction|].
    destruct (constraint_call U HU c p y g e f R W ltac:(eapply fits_weaken; [exact Kf|reflexivity])) as (b1 & C).
    opened. set (T := tree_declaration U (PrimaryKey c p y g e)) in *. clearbody T.
    assert (Y : exists h r, yield_declaration (PrimaryKey c p y g e) ++ f :: R = h :: r) by (destruct c as [(? & ?)|]; cbn [yield_declaration opt2 app]; eauto). destruct Y as (h & r & Y). rewrite Y in *.
    words. eexists; eexists; split; [step HU|reflexivity].
  - intros l sp n b m f R (Kk & W) Km. apply fits_word in Km. destruct d as [|c p y g e]; [contradiction|].
    destruct (constraint_call U HU c p y g e m (f :: R) W ltac:(eapply fits_weaken; [exact Km|reflexivity])) as (b1 & C).
    opened. set (T := tree_declaration U (PrimaryKey c p y g e)) in *. clearbody T.
    assert (Y : exists h r, yield_declaration (PrimaryKey c p y g e) ++ m :: f :: R = h :: r) by (destruct c as [(? & ?)|]; cbn [yield_declaration opt2 app]; eauto). destruct Y as (h & r & Y). rewrite Y in *.
    words. eexists; split; [step HU|reflexivity].
Qed.
Ltac path_here p f R P S K := pose proof (path_call U HU p f R P S ltac:(eapply fits_weaken; [exact K|reflexivity])).
Lemma drop_it_read k c e p : change_read Dropping (DropIt k c e p).
Proof.
  split.
  - intros l sp n b f R (Kk & Kc & We & P & S) Kf. path_here p f R P S Kf. pose proof (path_first_avoids U HU p ["IF"] P eq_refl) as K1.
    destruct e as [(i & e)|]; opened; cbn [perhaps2] in We; words; split_app; (eexists; eexists; split; [step HU|reflexivity]).
  - intros l sp n b m f R (Kk & Kc & We & P & S) Km. apply fits_word in Km. path_here p m (f :: R) P S Km. pose proof (path_first_avoids U HU p ["IF"] P eq_refl) as K1.
    destruct e as [(i & e)|]; opened; cbn [perhaps2] in We; words; split_app; (eexists; split; [step HU|reflexivity]).
Qed.
Lemma drop_key_read k p y e : change_read Dropping (DropKey k p y e).
Proof.
  split.
  - intros l sp n b f R (Kk & Kp & Ky & We) Kf. destruct e as [(i & e)|]; opened; cbn [perhaps2] in We; words; split_app; (eexists; eexists; split; [step HU|reflexivity]).
  - intros l sp n b m f R (Kk & Kp & Ky & We) Km. apply fits_word in Km.
    destruct e as [(i & e)|]; opened; cbn [perhaps2] in We; words; split_app; (eexists; split; [step HU|reflexivity]).
Qed.
Lemma rename_it_read k c e p t q : change_read Renaming (RenameIt k c e p t q).
Proof.
  split.
  - intros l sp n b f R (Kk & Kc & We & P & S & Kt & Q & S') Kf. apply fits_word in Kt. path_here q f R Q S' Kf. path_here p t (yield q ++ f :: R) P S Kt.
    pose proof (path_first_avoids U HU p ["IF"] P eq_refl) as K1.
    destruct e as [(i & e)|]; opened; cbn [perhaps2] in We; words; split_app; (eexists; eexists; split; [step HU|reflexivity]).
  - intros l sp n b m f R (Kk & Kc & We & P & S & Kt & Q & S') Km. apply fits_word in Km, Kt. path_here q m (f :: R) Q S' Km. path_here p t (yield q ++ m :: f :: R) P S Kt.
    pose proof (path_first_avoids U HU p ["IF"] P eq_refl) as K1.
    destruct e as [(i & e)|]; opened; cbn [perhaps2] in We; words; split_app; (eexists; split; [step HU|reflexivity]).
Qed.
Lemma every_change d c : (exists nx, wf_change U d c nx) -> change_read d c.
Proof.
  intros (nx & W). destruct d, c; try contradiction W; [apply add_column_read | apply add_key_read | apply drop_it_read | apply drop_key_read | apply rename_it_read].
Qed.
(* what the changes begin with *)
Lemma change_first d c nx : wf_change U d c nx -> exists k r, yield_change c = k :: r /\ fits (Among [change_word d]) (b_tok k).
Proof. destruct d, c; cbn [wf_change]; try contradiction; intros (K & _); apply fits_word in K; cbn [yield_change]; eauto. Qed.
Lemma changes_first d cs nx : wf_changes U d cs nx -> exists k r, yield_changes cs = k :: r /\ fits (Among [change_word d]) (b_tok k).
Proof.
  destruct cs as [c|c m r]; cbn [wf_changes yield_changes]; [apply change_first|]. intros (W & _). apply change_first in W as (k & l & -> & K). cbn [app]. eauto.
Qed.
Lemma change_turn d l sp n b k r bs' ct e' : fits (Among [change_word d]) (b_tok k) ->
  (exists e1 bs1, match change_loop d with MiniRust.While _ body => steps body (change_frame d l sp n) (b :: k :: r) Norm e1 bs1 | _ => False end /\
    steps (change_loop d) (env_leave 3 e1) bs1 ct e' bs') ->
  steps (change_loop d) (change_frame d l sp n) (b :: k :: r) ct e' bs'.
Proof.
  intros K (e1 & bs1 & B & S). destruct d; cbn [change_loop parse_alter_table_statement f_body change_word] in *; (eapply steps_while_more; [decide_ HU|exact B|exact S]).
Qed.
Lemma change_ended d l sp n b f R : fits (Among [";"; ""]) (b_tok f) -> steps (change_loop d) (change_frame d l sp n) (b :: f :: R) Norm (change_frame d l sp n) (b :: f :: R).
Proof. intro K. destruct d; cbn [change_loop parse_alter_table_statement f_body]; (apply steps_while_end; decide_ HU). Qed.
Lemma changes_steps d cs : forall l sp n b f R, wf_changes U d cs f -> fits (Among [";"; ""]) (b_tok f) ->
  exists b', steps (change_loop d) (change_frame d l sp n) (b :: yield_changes cs ++ f :: R) Norm (change_frame d (l ++ tree_changes U cs) sp n) (b' :: f :: R).
Proof.
  induction cs as [c|c m r IH]; intros l sp n b f R W Kf; cbn [wf_changes yield_changes tree_changes] in *.
  - destruct (every_change d c ltac:(eauto)) as (H & _). destruct (H l sp n b f R W Kf) as (b' & e & S & E). exists b'.
    destruct (change_first d c f W) as (k & t & Y & K). rewrite Y in *. cbn [app] in *.
    apply change_turn; [exact K|]. exists e, (b' :: f :: R). split; [exact S|]. rewrite E. now apply change_ended.
  - destruct W as (W & Km & Wr). destruct (every_change d c ltac:(eauto)) as (_ & H).
    destruct (changes_first d r f Wr) as (k2 & t2 & Y2 & K2).
    destruct (IH (l ++ [tree_change U c (Some m)]) sp n m f R Wr Kf) as (b' & S').
    assert (Y' : yield_changes r ++ f :: R = k2 :: t2 ++ f :: R) by (rewrite Y2; reflexivity). rewrite Y' in S'.
    destruct (H l sp n b m k2 (t2 ++ f :: R) W Km) as (e & S & E). exists b'.
    rewrite <- app_assoc. cbn [app]. rewrite Y'. destruct (change_first d c m W) as (k & t & Y & K). rewrite Y in *. cbn [app] in *.
    apply change_turn; [exact K|]. exists e, (m :: k2 :: t2 ++ f :: R). split; [exact S|]. rewrite E. rewrite <- app_assoc in S'. exact S'.
Qed.
Ltac special ::= lazymatch goal with |- Forward.steps _ (MiniRust.While _ _) _ _ _ _ _ => eassumption end.
Ltac phrase_ := phrase HU.
(* the second token *)
Lemma changes_second d cs nx : wf_changes U d cs nx -> exists k c r, yield_changes cs = k :: c :: r /\ fits (Among [change_word d]) (b_tok k) /\
  match d with AddingColumns | Renaming => fits (Among ["COLUMN"]) (b_tok c) | AddingConstraints => fits (Among ["PRIMARY"; "CONSTRAINT"]) (b_tok c) | Dropping => True end.
Proof.
  assert (H : forall c nx, wf_change U d c nx -> exists k c' r, yield_change c = k :: c' :: r /\ fits (Among [change_word d]) (b_tok k) /\
    match d with AddingColumns | Renaming => fits (Among ["COLUMN"]) (b_tok c') | AddingConstraints => fits (Among ["PRIMARY"; "CONSTRAINT"]) (b_tok c') | Dropping => True end).
  { clear cs nx. intros c nx W. destruct d, c; cbn [wf_change] in W; try contradiction W; cbn [yield_change change_word].
    - destruct W as (K1 & K2 & _). apply fits_word in K1, K2. eauto 7.
    - destruct d as [|c p y g e]; [destruct W; contradiction|]. destruct W as (K1 & Wc & Kp & _). apply fits_word in K1, Kp. destruct c as [(c & x)|]; cbn [yield_declaration opt2 app].
      + destruct Wc as (Kc & _). apply fits_word in Kc. do 3 eexists. split; [reflexivity|]. split; [exact K1|]. eapply fits_weaken; [exact Kc|reflexivity].
      + do 3 eexists. split; [reflexivity|]. split; [exact K1|]. eapply fits_weaken; [exact Kp|reflexivity].
    - destruct W as (K1 & _). apply fits_word in K1. eauto 7.
    - destruct W as (K1 & _). apply fits_word in K1. eauto 7.
    - destruct W as (K1 & K2 & _). apply fits_word in K1, K2. eauto 7. }
  destruct cs as [c|c m r]; cbn [wf_changes yield_changes]; [apply H|]. intros (W & _). apply H in W as (k & c' & l & -> & K). cbn [app]. eauto 7.
Qed.
Ltac changed d := intros sp0 n0 ps0 b0 f R T L W; open_parts W; led_by L;
  match goal with W : wf_changes _ _ ?cs ?f |- _ =>
    let b' := fresh "b'" in let S := fresh "S" in destruct (changes_steps d cs [] sp0 n0 b0 f R W L) as (b' & S);
    let k := fresh "k" in let c := fresh "c" in let r := fresh "r" in let Y := fresh "Y" in let K1 := fresh "K1" in let K2 := fresh "K2" in
    destruct (changes_second d cs f W) as (k & c & r & Y & K1 & K2); rewrite app_nil_r; rewrite Y in *; cbn [app change_word] in *;
    cbn [change_loop parse_alter_table_statement f_body] in S; unfold change_frame in S;
    let l := fresh "l" in unfold with_parts; cbn [DefinitionSpec.kids_parts DefinitionSpec.kids_part app]; set (l := tree_changes U cs) in *; clearbody l; clear W; exists b'; cbn [with_kids fold_left fst snd]; step HU end.
Lemma alter_table_add_reads : reads_as F_parse_alter_table_statement AlterTableAdd.
Proof. reads_. do 3 phrase_. one HU; [changed AddingColumns|]. ends HU. Qed.
Lemma alter_table_constrain_reads : reads_as F_parse_alter_table_statement AlterTableConstrain.
Proof. reads_. do 3 phrase_. one HU; [changed AddingConstraints|]. ends HU. Qed.
Lemma alter_table_drop_reads : reads_as F_parse_alter_table_statement AlterTableDrop.
Proof. reads_. do 3 phrase_. one HU; [changed Dropping|]. ends HU. Qed.
Lemma alter_table_rename_column_reads : reads_as F_parse_alter_table_statement AlterTableRenameColumn.
Proof. reads_. do 3 phrase_. one HU; [changed Renaming|]. ends HU. Qed.
(* ALTER COLUMN: the semicolon is left to ALTER TABLE *)
Ltac special ::= lazymatch goal with
  | |- Forward.steps _ (Seq (MiniRust.If (CAnd (CTok 1 (TIs ";")) (CVar "semicolon")) _ _) (MiniRust.Return (EVar ?x))) _ _ _ _ _ =>
      eapply (tail_steps U HU x false None); [envr | envr | left; reflexivity]
  end.
Lemma alter_column_call k c e x a f R : is_word k "ALTER" -> is_word c "COLUMN" -> perhaps2 U e ["IF"] ["EXISTS"] -> name U x -> wf_alteration U a -> fits (Among [";"; ""]) (b_tok f) ->
  exists b, calls F_parse_alter_column_statement [VBool false] (k :: c :: opt2 e ++ x :: yield_alteration a ++ f :: R)
    (VNode (made N_AlterColumnStatement k ([("what", keyword c)] ++ kid_exists e ++ [("ident", ident x)] ++ kids_alteration U a))) (b :: f :: R).
Proof.
  intros Kk Kc We (_ & Ix) W Kf. apply (identifier_avoids U HU) with (ws := ["IF"]) in Ix; [|reflexivity].
  destruct a as [s o g|s d y t|s o v|d o|d o l]; cbn [wf_alteration yield_alteration kids_alteration app] in *.
  - destruct W as (Ks & Ko & Wg). destruct (with_group_call U HU o false g f R Wg) as (b1 & C).
    destruct e as [(i & e)|]; cbn [perhaps2 opt2 kid_exists app] in *; words; (eexists; eapply calls_body; [reflexivity|]; cbn [prog parse_alter_column_statement f_body f_params combine]; step HU).
  - destruct W as (Ks & Kd & Ky & Wt). destruct (returns_call U HU t f R Wt ltac:(eapply fits_weaken; [exact Kf|reflexivity])) as (b1 & C).
    destruct e as [(i & e)|]; cbn [perhaps2 opt2 kid_exists app] in *; words; (eexists; eapply calls_body; [reflexivity|]; cbn [prog parse_alter_column_statement f_body f_params combine]; step HU).
  - destruct W as (Ks & Ko & Wv). pose proof (expr_call U HU v true [";"; ""] f R Wv Kf eq_refl) as C.
    destruct e as [(i & e)|]; cbn [perhaps2 opt2 kid_exists app] in *; words; (eexists; eapply calls_body; [reflexivity|]; cbn [prog parse_alter_column_statement f_body f_params combine]; step HU).
  - destruct e as [(i & e)|]; cbn [perhaps2 opt2 kid_exists app] in *; words; (eexists; eapply calls_body; [reflexivity|]; cbn [prog parse_alter_column_statement f_body f_params combine]; step HU).
  - destruct e as [(i & e)|]; cbn [perhaps2 opt2 kid_exists app] in *; words; (eexists; eapply calls_body; [reflexivity|]; cbn [prog parse_alter_column_statement f_body f_params combine]; step HU).
Qed.
Lemma alter_table_column_reads : reads_as F_parse_alter_table_statement AlterTableColumn.
Proof.
  reads_. do 3 phrase_. one HU; [|ends HU].
  intros sp0 n0 ps0 b0 f R T L W. open_parts W; led_by L. destruct Wp as (Kk & Kc & We & Nx & Wa).
  destruct (alter_column_call k0 c e x a f R Kk Kc We Nx Wa L) as (b1 & C). apply fits_word in Kk.
  repeat (progress (cbn [app]; rewrite <- ?app_assoc, ?app_nil_r)). eexists. kids. step HU.
Qed.
End WithUnicode.
