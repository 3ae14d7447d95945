(* MERGE is read as written. *)
From Verif Require Import Chars Token Cst Core MiniRust Program Bundles ParserView ParserGeneric ShapeSound GroupingSpec GroupingExpr
  Forward GrammarSpec GrammarTactics GrammarExpr GrammarReach GrammarOps GrammarBinary GrammarItems GrammarTypes GrammarCalls GrammarQuery GrammarSelect
  StatementSpec StatementDeeds StatementPipes StatementDml StatementInsert DefinitionDeeds.
Local Open Scope string_scope.
Local Open Scope list_scope.
Local Notation length := List.length.

Section WithUnicode.
Context (U : unicode) (HU : ascii_faithful U).
Local Notation steps := (steps U).
Local Notation calls := (calls U).
Local Notation is_word := (is_word U).
Local Notation word_in := (word_in U).
Local Notation tree := (tree U).
Local Notation wf := (wf U).
Local Notation fits := (fits_known U).
Local Notation led := (led U).
Local Notation stops := (stops U).
Local Notation shut := (shut U).
Local Notation reads := (reads U).
Local Notation deed_ok := (deed_ok U).
Local Notation expr_call := (expr_call U HU).
Local Notation list_call := (list_call U HU).
Local Notation group_call := (group_call U HU).
Local Notation path_call := (path_call U HU).
Local Notation tuples_read := (tuples_read U HU).
Local Notation names_steps := (names_steps U HU).
Local Notation stops_known := (stops_known U).
Local Notation stops_shut := (stops_shut U).
Local Notation tail_steps := (tail_steps U HU).
Ltac ahead ::= first [apply tok_yield | apply tok_items | apply tok_query | apply tok_type | apply tok_table | eassumption].
Ltac call ::= first [eassumption | apply two_call].
Ltac body f := eapply calls_body; [reflexivity|]; cbn [prog f f_body f_params combine].
Ltac dispatch := body parse_statement; step HU.
Ltac starts := intros sp so next rest W S; pose proof (stops_known _ _ _ _ S) as Kn; pose proof (stops_shut _ _ _ _ S) as Sh; unfold StatementDeeds.reads; cbn [yield_deed tree_deed wf_deed] in *.
(* the statement is read by [f] *)
Ltac via f :=
  lazymatch goal with |- Forward.calls _ _ ?a ?l ?v ?bs => let C' := fresh "C'" in assert (C' : calls f a l v bs); [|dispatch] end.
Ltac words := repeat match goal with H : GrammarSpec.is_word _ _ _ |- _ => apply fits_word in H | H : GrammarSpec.word_in _ _ _ |- _ => apply fits_among in H
  | H : perhaps _ _ _ |- _ => apply fits_among in H | H : perhaps2 _ (Some (_, _)) _ _ |- _ => destruct H | H : perhaps2 _ None _ _ |- _ => clear H
  | H : perhaps _ None _ |- _ => clear H end.

Ltac special ::=
  lazymatch goal with
  | |- Forward.steps _ (Seq (MiniRust.If (CAnd (CTok 1 (TIs ";")) (CVar "semicolon")) _ _) (MiniRust.Return (EVar ?x))) _ _ _ _ _ =>
      eapply (tail_steps x); [envr | envr | eassumption]
  | L : forall e b, Forward.steps _ (MiniRust.While ?c ?a) _ _ _ _ _ |- Forward.steps _ (MiniRust.While ?c ?a) _ _ _ _ _ => apply L
  end.

Definition action_enders : list string := ["WHEN"; ";"; ""].
Definition action_ok (a : action) : Prop := forall f rest, fits (Among action_enders) (b_tok f) ->
  match a with
  | DeleteIt k => True
  | UpdateIt _ _ _ => exists b, calls F_parse_update_statement [VBool false] (yield_action a ++ f :: rest) (VNode (tree_action U a)) (b :: f :: rest)
  | InsertIt _ _ _ => exists b, calls F_parse_insert_statement [VBool false] (yield_action a ++ f :: rest) (VNode (tree_action U a)) (b :: f :: rest)
  end.
Lemma open_shut f : shut false None f. Proof. left. reflexivity. Qed.
Lemma every_action a : wf_action U a -> action_ok a.
Proof.
  intros W f rest K. pose proof (open_shut f) as Sh. destruct a as [k|k s es|k c v]; cbn [wf_action yield_action tree_action] in *; [exact Logic.I| |].
  - destruct W as (Kk & Ks & We & _). destruct (list_call false es _ f rest We K eq_refl) as (b & C). words. exists b. cbn [app]. body parse_update_statement.
    change (b :: f :: rest) with (left_over None b f rest). change (made N_UpdateStatement k ?l) with (with_semi None (made N_UpdateStatement k l)). step HU.
  - destruct W as (Kk & Wc & Wv). cbn [app]. rewrite <- !app_assoc.
    assert (D : exists b, calls F_parse_insert_statement [VBool false] (k :: yield_columns c ++ yield_values v ++ f :: rest)
      (VNode (with_semi None (made N_InsertStatement k (kid_columns U c ++ [("input", CNode (tree_values U v))])))) (left_over None b f rest)); [|exact D].
    destruct v as [vk ts|vk]; cbn [yield_values wf_values tree_values app] in *.
    + destruct Wv as (Kv & Wt). destruct (tuples_read ts f rest Wt ltac:(eapply fits_weaken; [exact K|reflexivity])) as (b' & L). unfold tuples_loop in L. cbn [parse_insert_statement f_body] in L.
      destruct c as [|lp es rp]; cbn [yield_columns wf_columns kid_columns app hd] in *.
      * words. eexists; body parse_insert_statement; step HU.
      * destruct Wc as (Kl & We & Kr). rewrite <- !app_assoc. cbn [app]. pose proof (group_call lp es rp (vk :: yield_tuples ts ++ f :: rest) Kl We Kr) as Cg. words.
        eexists; body parse_insert_statement; step HU.
    + destruct c as [|lp es rp]; cbn [yield_columns wf_columns kid_columns app hd] in *.
      * words. eexists; body parse_insert_statement; step HU.
      * destruct Wc as (Kl & We & Kr). rewrite <- !app_assoc. cbn [app]. pose proof (group_call lp es rp (vk :: f :: rest) Kl We Kr) as Cg. words.
        eexists; body parse_insert_statement; step HU.
Qed.

Definition mframe (l : list node) (m : value) (sp : bool) : env :=
  [("whens", VVec l); ("on", VUndef); ("using", VUndef); ("merge", m); ("semicolon", VBool sp)].
Fixpoint skip (n : nat) (c : cmd fn) : cmd fn := match n, c with S n, Seq _ b => skip n b | _, _ => c end.
Definition first_of (c : cmd fn) : cmd fn := match c with Seq a _ => a | _ => c end.
Definition whens_loop : cmd fn := first_of (skip 16 (f_body parse_merge_statement)).
Definition action_part : cmd fn := match whens_loop with MiniRust.While _ a => first_of (skip 11 a) | _ => Skip end.
Lemma action_steps a f rest : wf_action U a -> fits (Among action_enders) (b_tok f) ->
  exists b', forall t w l m sp, steps action_part (("stmt", VUndef) :: ("then", t) :: ("when", w) :: mframe l m sp) (yield_action a ++ f :: rest) Norm
    (("stmt", VNode (tree_action U a)) :: ("then", t) :: ("when", w) :: mframe l m sp) (b' :: f :: rest).
Proof.
  intros W K. pose proof (every_action a W f rest K) as A. unfold action_part, whens_loop, mframe. cbn [parse_merge_statement f_body skip first_of].
  destruct a as [k|k s es|k c v]; cbn [wf_action yield_action tree_action app] in *.
  - exists k. intros. words. step HU.
  - destruct A as (b & A), W as (Kk & _). exists b. intros. words. step HU.
  - destruct A as (b & A), W as (Kk & _). exists b. intros. words. step HU.
Qed.
Ltac special ::=
  lazymatch goal with
  | |- Forward.steps _ (Seq (MiniRust.If (CAnd (CTok 1 (TIs ";")) (CVar "semicolon")) _ _) (MiniRust.Return (EVar ?x))) _ _ _ _ _ =>
      eapply (tail_steps x); [envr | envr | eassumption]
  | L : forall e b, Forward.steps _ (MiniRust.While ?c ?a) _ _ _ _ _ |- Forward.steps _ (MiniRust.While ?c ?a) _ _ _ _ _ => apply L
  | A : forall t w l m sp, Forward.steps _ (CaseUpper 0 ["DELETE"] ?c ?a) _ _ _ _ _ |- Forward.steps _ (CaseUpper 0 ["DELETE"] ?c ?a) _ _ _ _ _ => apply A
  end.
Lemma matches_steps ms : forall next rest, wf_matches U ms -> fits (Among [";"; ""]) (b_tok next) ->
  forall b, exists b', forall l m sp, steps whens_loop (mframe l m sp) (b :: yield_matches ms ++ next :: rest) Norm (mframe (l ++ tree_matches U ms) m sp) (b' :: next :: rest).
Proof.
  induction ms as [|w n m b c t a r IH]; intros next rest W K b0; cbn [wf_matches yield_matches tree_matches] in *.
  - exists b0. intros l m sp. rewrite app_nil_r. unfold whens_loop. cbn [parse_merge_statement f_body skip first_of app]. apply steps_while_end. decide_ HU.
  - destruct W as (Kw & Kn & Km & Kb & Wc & Kt & Wa & Wr).
    assert (R : exists f' r', yield_matches r ++ next :: rest = f' :: r' /\ fits (Among action_enders) (b_tok f')).
    { destruct r; cbn [yield_matches app wf_matches] in *; (eexists _, _; split; [reflexivity|]); [|destruct Wr as (Wr & _); apply fits_word in Wr]; (eapply fits_weaken; [eassumption|reflexivity]). }
    destruct R as (f' & r' & R & Kf). destruct (action_steps a f' r' Wa Kf) as (b1 & A). specialize (IH next rest Wr K b1). destruct IH as (b' & IH). exists b'. intros l m0 sp.
    specialize (IH (l ++ [made N_WhenClause w (kid "not" n ++ [("matched", keyword m)] ++ kids "by_target_or_source" b ++ kid_clause U "and" c ++
      [("then", CNode (made N_KeywordWithStatement t [("stmt", CNode (tree_action U a))]))])]) m0 sp). rewrite <- app_assoc in IH. rewrite R in IH.
    cbn [app] in IH |- *. repeat (progress (rewrite <- ?app_assoc; cbn [app])). rewrite R.
    unfold whens_loop, action_part, mframe in *. cbn [parse_merge_statement f_body skip first_of] in *.
    unfold whens_loop in A. cbn [parse_merge_statement f_body skip first_of] in A.
    destruct c as [|ck ce]; cbn [yield_clause wf_clause kid_clause app] in *.
    + clear Wc. destruct n as [n|], b as [(k1 & k2)|]; cbn [opt opt2 app kid kids] in *; words; (eapply steps_while_more; [decide_ HU|step HU|exact IH]).
    + destruct Wc as (Kc & Wc). apply fits_word in Kt. pose proof (expr_call ce true _ t (yield_action a ++ f' :: r') Wc Kt eq_refl) as C.
      destruct n as [n|], b as [(k1 & k2)|]; cbn [opt opt2 app kid kids] in *; words; (eapply steps_while_more; [decide_ HU|step HU|exact IH]).
Qed.
Lemma tok_source s rest : tok_at (yield_source s ++ rest) 0 = Some (b_tok (first_table (Base s))). Proof. exact (tok_table (Base s) rest). Qed.
Ltac ahead ::= first [apply tok_yield | apply tok_items | apply tok_query | apply tok_type | apply tok_table | apply tok_source | apply tok_item | eassumption].
Lemma target_call s f rest : wf_source U s f -> is_word f "USING" ->
  exists b', calls F_parse_table [VBool true] (yield_source s ++ f :: rest) (VNode (tree_source U s)) (b' :: f :: rest).
Proof.
  intros W K. destruct (source_steps U HU s true f rest W) as (b' & H).
  - eapply (phrases U HU). exact W.
  - eapply (led_more U); [apply (led_word U HU); [exact K|reflexivity]|reflexivity].
  - exists b'. apply fits_word in K. eapply calls_body; [reflexivity|]. apply H. unfold tframe. cbn [drop parse_table f_body].
    eapply steps_seq; [apply steps_while_end; decide_ HU|]. step HU.
Qed.
Lemma item_call x f rest : wf_item U true x -> is_word f "ON" ->
  exists b, calls F_parse_expr [VNum usize_max; VBool true; VBool false; VBool false; VBool true] (yield_item x ++ f :: rest) (VNode (tree_item U x)) (b :: f :: rest).
Proof.
  intros W K. apply fits_word in K. eapply (phrases U HU); [exact W|eapply fits_weaken; [exact K|reflexivity]|]. eapply (no_fuse U HU); [exact K|reflexivity].
Qed.
Ltac special ::=
  lazymatch goal with
  | |- Forward.steps _ (Seq (MiniRust.If (CAnd (CTok 1 (TIs ";")) (CVar "semicolon")) _ _) (MiniRust.Return (EVar ?x))) _ _ _ _ _ =>
      eapply (tail_steps x); [envr | envr | eassumption]
  | L : forall m sp, Forward.steps _ (MiniRust.While ?c ?a) _ _ _ _ _ |- Forward.steps _ (MiniRust.While ?c ?a) _ _ _ _ _ => apply L
  end.
Lemma merge_ok k i t u x o e ms : deed_ok (Merge k i t u x o e ms).
Proof.
  starts. destruct W as (Kk & Ki & Wt & Ft & Ku & Wx & Ko & We & Wm). cbn [app]. repeat (progress (rewrite <- ?app_assoc; cbn [app])).
  assert (R : exists f' r', yield_matches ms ++ next :: rest = f' :: r' /\ fits (Among action_enders) (b_tok f')).
  { destruct ms; cbn [yield_matches app wf_matches] in *; (eexists _, _; split; [reflexivity|]); [|destruct Wm as (Wm & _); apply fits_word in Wm]; (eapply fits_weaken; [eassumption|reflexivity]). }
  destruct R as (f' & r' & R & Kf). pose proof (expr_call e true _ f' r' We Kf eq_refl) as C.
  destruct (target_call t u (yield_item x ++ o :: yield e ++ yield_matches ms ++ next :: rest) Wt Ku) as (b1 & C1).
  destruct (item_call x o (yield e ++ yield_matches ms ++ next :: rest) Wx Ko) as (b2 & C2).
  destruct (matches_steps ms next rest Wm Kn (lastb e)) as (b' & L). unfold whens_loop, mframe in L. cbn [parse_merge_statement f_body skip first_of] in L.
  assert (L' : forall m sp, steps _ _ _ _ _ _) by (intros m sp'; exact (L [] m sp')). clear L. rename L' into L. cbn [app] in L.
  rewrite R in *. apply avoids_word in Ft.
  assert (D : exists b, calls F_parse_merge_statement [VBool sp] (k :: opt i ++ yield_source t ++ u :: yield_item x ++ o :: yield e ++ f' :: r')
     (VNode (with_semi so (made N_MergeStatement k
      (kid "into" i ++
       [("table_name", CNode (tree_source U t)); ("using", CNode (made N_KeywordWithExpr u [("expr", CNode (tree_item U x))]));
        ("on", CNode (made N_KeywordWithExpr o [("expr", CNode (tree e))])); ("whens", CVec (tree_matches U ms))])))) (left_over so b next rest));
    [|destruct D as (b & D); exists b; words; dispatch].
  words. destruct i as [i|]; cbn [opt app kid] in *; words; eexists; body parse_merge_statement; step HU.
Qed.

Theorem every_deed d : deed_ok d.
Proof.
  destruct d; [apply ask_ok|apply piped_ok|apply insert_ok|apply insert_query_ok|apply delete_ok|apply truncate_ok|apply update_ok|apply merge_ok|apply drop_ok|apply variables_ok|apply assign_ok
    |apply execute_ok|apply transaction_ok|apply leave_ok|apply return_ok|apply raise_ok|apply call_it_ok|apply assert_ok|apply define_ok]; exact HU.
Qed.
End WithUnicode.
