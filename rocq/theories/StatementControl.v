(* IF, CASE and labelled statements are read as written; so is every statement. *)
From Verif Require Import Chars Token Cst Core MiniRust Program Bundles ParserView ParserGeneric ShapeSound GroupingSpec GroupingExpr
  Forward GrammarSpec GrammarTactics GrammarExpr GrammarReach GrammarOps GrammarBinary GrammarItems GrammarTypes GrammarCalls GrammarQuery GrammarSelect
  StatementSpec StatementDeeds StatementDml StatementInsert StatementMerge StatementBlocks StatementProcedure.
Local Open Scope string_scope.
Local Open Scope list_scope.
Local Notation length := List.length.

Section WithUnicode.
Context (U : unicode) (HU : ascii_faithful U).
Local Notation steps := (steps U).
Local Notation calls := (calls U).
Local Notation is_word := (is_word U).
Local Notation word_in := (word_in U).
Local Notation tree := (tree U).
Local Notation wf := (wf U).
Local Notation fits := (fits_known U).
Local Notation led := (led U).
Local Notation stops := (stops U).
Local Notation shut := (shut U).
Local Notation reads := (reads U).
Local Notation deed_ok := (deed_ok U).
Local Notation expr_call := (expr_call U HU).
Local Notation list_call := (list_call U HU).
Local Notation group_call := (group_call U HU).
Local Notation path_call := (path_call U HU).
Local Notation tuples_read := (tuples_read U HU).
Local Notation names_steps := (names_steps U HU).
Local Notation stops_known := (stops_known U).
Local Notation stops_shut := (stops_shut U).
Local Notation tail_steps := (tail_steps U HU).
Local Notation stmt_ok := (stmt_ok U).
Local Notation block_all := (block_all U).
Local Notation block_steps := (block_steps U HU).
Local Notation kws_call := (kws_call U HU).
Ltac ahead ::= first [apply tok_yield | apply tok_items | apply tok_query | apply tok_type | apply tok_table | eassumption].
Ltac call ::= first [eassumption | apply two_call].
Ltac body f := eapply calls_body; [reflexivity|]; cbn [prog f f_body f_params combine].
Ltac dispatch := body parse_statement; step HU.
Ltac starts := intros sp so next rest W S; pose proof (stops_known _ _ _ _ S) as Kn; pose proof (stops_shut _ _ _ _ S) as Sh; unfold StatementDeeds.reads; cbn [yield_deed tree_deed wf_deed] in *.
(* the statement is read by [f] *)
Ltac via f :=
  lazymatch goal with |- Forward.calls _ _ ?a ?l ?v ?bs => let C' := fresh "C'" in assert (C' : calls f a l v bs); [|dispatch] end.
Ltac words := repeat match goal with H : GrammarSpec.is_word _ _ _ |- _ => apply fits_word in H | H : GrammarSpec.word_in _ _ _ |- _ => apply fits_among in H
  | H : perhaps _ _ _ |- _ => apply fits_among in H | H : perhaps2 _ (Some (_, _)) _ _ |- _ => destruct H | H : perhaps2 _ None _ _ |- _ => clear H
  | H : perhaps _ None _ |- _ => clear H end.

Ltac special ::=
  lazymatch goal with
  | |- Forward.steps _ (Seq (MiniRust.If (CAnd (CTok 1 (TIs ";")) (CVar "semicolon")) _ _) (MiniRust.Return (EVar ?x))) _ _ _ _ _ =>
      eapply (tail_steps x); [envr | envr | eassumption]
  | L : forall e, Forward.steps _ (MiniRust.While ?c ?a) _ _ _ _ _ |- Forward.steps _ (MiniRust.While ?c ?a) _ _ _ _ _ => apply L
  end.

Ltac kws k bl ws f rest b C := destruct (kws_call k bl ws f rest) as (b & C); [eassumption | eassumption | eassumption | reflexivity ..|].
Ltac begin_stmt := intros sp so next rest W (Sh & _); unfold StatementDeeds.reads; cbn [yield_stmt tree_stmt wf_stmt] in *; repeat (progress (cbn [app]; rewrite <- ?app_assoc)).

(* ----- IF ----- *)
Fixpoint elses_all (r : elses) : Prop :=
  match r with NoElse => True | Else _ b => block_all b | ElseIf _ _ _ b r => block_all b /\ elses_all r end.
Fixpoint last_else (r : elses) : elses := match r with ElseIf _ _ _ _ r => last_else r | _ => r end.
Lemma last_wf r : wf_elses U r -> wf_elses U (last_else r).
Proof. induction r as [|k b|k c t b r IH]; cbn [wf_elses last_else]; auto. intros (_ & _ & _ & _ & W). auto. Qed.
Lemma last_all r : elses_all r -> elses_all (last_else r).
Proof. induction r as [|k b|k c t b r IH]; cbn [elses_all last_else]; auto. intros (_ & W). auto. Qed.
Lemma last_kid r : kid_else U (last_else r) = kid_else U r.
Proof. induction r as [|k b|k c t b r IH]; cbn [last_else kid_else]; auto. Qed.
Lemma last_elseifs r : tree_elseifs U (last_else r) = [].
Proof. induction r as [|k b|k c t b r IH]; cbn [last_else tree_elseifs]; auto. Qed.
Definition elseif_loop : cmd fn := first_of (skip 6 (f_body parse_if_statement)).
Definition if_enders : list string := ["ELSEIF"; "ELSE"; "END"].
Lemma elses_start r e rest : wf_elses U r -> is_word e "END" -> exists f r', yield_elses r ++ e :: rest = f :: r' /\ fits (Among if_enders) (b_tok f).
Proof.
  intros W K. destruct r as [|k b|k c t b r]; cbn [yield_elses wf_elses app] in *; (eexists _, _; split; [reflexivity|]); try destruct W as (W & _); words; (eapply fits_weaken; [eassumption|reflexivity]).
Qed.
Lemma elseif_steps r : forall e rest, wf_elses U r -> elses_all r -> is_word e "END" -> forall b, exists b', forall l n sp,
  steps elseif_loop [("elseifs", VVec l); ("if_", n); ("semicolon", VBool sp)] (b :: yield_elses r ++ e :: rest) Norm
    [("elseifs", VVec (l ++ tree_elseifs U r)); ("if_", n); ("semicolon", VBool sp)] (b' :: yield_elses (last_else r) ++ e :: rest).
Proof.
  induction r as [|k bl|k c t bl r IH]; intros e rest W A K b; cbn [wf_elses elses_all yield_elses last_else tree_elseifs app] in *; unfold elseif_loop in *; cbn [parse_if_statement f_body skip first_of] in *.
  - exists b. intros l n sp. rewrite app_nil_r. words. apply steps_while_end. decide_ HU.
  - exists b. intros l n sp. rewrite app_nil_r. destruct W as (Kk & W). words. apply steps_while_end. decide_ HU.
  - destruct W as (Kk & Wc & Kt & Wb & Wr), A as (Ab & Ar). destruct (elses_start r e rest Wr K) as (f & r' & E & Kf).
    repeat (progress (cbn [app]; rewrite <- ?app_assoc)). pose proof K as K0. apply fits_word in K, Kk, Kt.
    kws t bl if_enders f r' b1 C. rewrite <- E in *. pose proof (expr_call c true _ t (yield_block bl ++ yield_elses r ++ e :: rest) Wc Kt eq_refl) as C1.
    destruct (IH e rest Wr Ar K0 b1) as (b' & St). exists b'. intros l n sp.
    specialize (St (l ++ [made N_ElseIfClause k [("condition", CNode (tree c)); ("then", tree_stmts t (tree_block U bl))]]) n sp). rewrite <- app_assoc in St. cbn [app] in St.
    unfold if_enders, tree_stmts in *. eapply steps_while_more; [decide_ HU|step HU|]. exact St.
Qed.
Ltac run_if St' M' := body parse_if_statement; do 6 (eapply steps_seq; [step HU|norm]); (eapply steps_seq; [apply St'|norm]); (eapply steps_seq; [exact M'|norm]); step HU.
Lemma if_ok k c t b r e i : block_all b -> elses_all r -> stmt_ok (If k c t b r e i).
Proof.
  intros A Ar. begin_stmt. destruct W as (Kk & Wc & Kt & Wb & Wr & Ke & Ki). destruct (elses_start r e (i :: next :: rest) Wr Ke) as (f & r' & E & Kf).
  kws t b if_enders f r' b1 C. rewrite <- E in *. destruct (elseif_steps r e (i :: next :: rest) Wr Ar Ke b1) as (b2 & St).
  assert (St' := fun n => St [] n sp). clear St. cbn [app] in St'. unfold elseif_loop in St'. cbn [parse_if_statement f_body skip first_of] in St'.
  words. pose proof (expr_call c true _ t (yield_block b ++ yield_elses r ++ e :: i :: next :: rest) Wc Kt eq_refl) as C1.
  assert (M : forall n, exists v, steps (MiniRust.If (CNonEmpty "elseifs") (PushVec "if_" "elseifs" (XVar "elseifs")) Skip)
      [("elseifs", VVec (tree_elseifs U r)); ("if_", VNode (made N_IfStatement k n)); ("semicolon", VBool sp)] (b2 :: yield_elses (last_else r) ++ e :: i :: next :: rest) Norm
      [("elseifs", v); ("if_", VNode (made N_IfStatement k (match r with ElseIf _ _ _ _ _ => map_insert "elseifs" (CVec (tree_elseifs U r)) n | _ => n end))); ("semicolon", VBool sp)]
      (b2 :: yield_elses (last_else r) ++ e :: i :: next :: rest)).
  { intro n. destruct r as [|? ?|? ? ? ? ?]; eexists; (eapply steps_eq; [eapply steps_if; [eapply (decides_nonempty U); reflexivity|]|]); cbn [tree_elseifs length Nat.ltb Nat.leb].
    1, 3: apply steps_skip. 1, 2: reflexivity. - step HU. - reflexivity. }
  assert (T : match r with ElseIf _ _ _ _ _ => [("elseifs", CVec (tree_elseifs U r))] | _ => [] end ++ kid_else U r = match r with ElseIf _ _ _ _ _ => [("elseifs", CVec (tree_elseifs U r))] | _ => [] end ++ kid_else U (last_else r)) by now rewrite last_kid.
  apply last_wf in Wr. apply last_all in Ar. rewrite <- last_kid. destruct (M [("condition", CNode (tree c)); ("then", tree_stmts t (tree_block U b))]) as (v & M').
  assert (L : last_else r = NoElse \/ exists ek eb, last_else r = Else ek eb) by (clear; induction r; cbn [last_else]; eauto).
  exists i. via F_parse_if_statement.
  destruct L as [L|(ek & eb & L)]; rewrite L in *; cbn [wf_elses elses_all yield_elses kid_else app] in *.
  - destruct r as [|? ?|? ? ? ? ?]; try discriminate L; cbn [app map_insert String.eqb Ascii.eqb Bool.eqb] in *; run_if St' M'.
  - destruct Wr as (Kek & Web). words. kws ek eb ["END"] e (i :: next :: rest) b3 C2. unfold tree_stmts in C2.
    destruct r as [|? ?|? ? ? ? ?]; try discriminate L; cbn [app map_insert String.eqb Ascii.eqb Bool.eqb] in *; run_if St' M'.
Qed.


(* ----- CASE ----- *)
Fixpoint cases_all (ws : cases) : Prop :=
  match ws with LastCase _ _ _ b => block_all b | LastCaseElse _ _ _ b _ b' => block_all b /\ block_all b' | MoreCases _ _ _ b r => block_all b /\ cases_all r end.
Definition case_loop : cmd fn := first_of (skip 3 (f_body parse_case_statement)).
Definition case_body : cmd fn := match case_loop with MiniRust.While _ c => c | _ => Skip end.
Definition case_else : cmd fn := first_of (skip 4 (f_body parse_case_statement)).
Definition case_enders : list string := ["WHEN"; "ELSE"; "END"].
Definition arm (w : bundle) (c : expr) (t : bundle) (b : block) : node :=
  made N_CaseStatementArm w [("expr", CNode (tree c)); ("then", keyword t); ("stmts", CVec (tree_block U b))].
Lemma arm_steps w c t bl f rest : is_word w "WHEN" -> wf c -> is_word t "THEN" -> wf_block U bl -> block_all bl -> fits (Among case_enders) (b_tok f) ->
  forall l n sp b, exists b' x y, steps case_body [("arms", VVec l); ("case", n); ("semicolon", VBool sp)] (b :: w :: yield c ++ t :: yield_block bl ++ f :: rest) Norm
    (x :: y :: [("arms", VVec (l ++ [arm w c t bl])); ("case", n); ("semicolon", VBool sp)]) (b' :: f :: rest).
Proof.
  intros Kw Wc Kt Wb A Kf l n sp b. words. unfold case_enders in Kf. pose proof (expr_call c true _ t (yield_block bl ++ f :: rest) Wc Kt eq_refl) as C1.
  destruct (block_steps (CNot (CTok 1 (TIn ["WHEN"; "ELSE"; "END"]))) [("when", VNode (made N_CaseStatementArm w [("expr", CNode (tree c)); ("then", keyword t)])); ("arms", VVec l); ("case", n); ("semicolon", VBool sp)] f rest)
    with (bl := bl) (b := t) as (b' & St); [| |exact Wb|exact A|].
  { intros l0 b1 g r1 Kg. apply (decides_not U _ _ _ false). decide_ HU. }
  { intros l0 b1. apply (decides_not U _ _ _ true). decide_ HU. }
  specialize (St []). cbn [app] in St. unfold block_loop in St. exists b'. eexists _, _. unfold case_body, case_loop, arm. cbn [parse_case_statement f_body skip first_of].
  do 7 (eapply steps_seq; [step HU|norm]). eapply steps_seq; [exact St|norm]. step HU.
Qed.
Lemma cases_start r e rest : wf_cases U r -> exists f r', yield_cases r ++ e :: rest = f :: r' /\ fits (Among ["WHEN"]) (b_tok f).
Proof. intros W. destruct r; cbn [yield_cases wf_cases app] in *; (eexists _, _; split; [reflexivity|]); destruct W as (W & _); words; exact W. Qed.
Lemma cases_steps r : forall e rest, wf_cases U r -> cases_all r -> is_word e "END" -> forall l n sp b, exists b1 b2 m,
  steps case_loop [("arms", VVec l); ("case", n); ("semicolon", VBool sp)] (b :: yield_cases r ++ e :: rest) Norm
    [("arms", VVec m); ("case", n); ("semicolon", VBool sp)] b1 /\
  steps case_else [("arms", VVec m); ("case", n); ("semicolon", VBool sp)] b1 Norm
    [("arms", VVec (l ++ tree_cases U r)); ("case", n); ("semicolon", VBool sp)] (b2 :: e :: rest).
Proof.
  induction r as [w c t bl|w c t bl k bl'|w c t bl r IH]; intros e rest W A K l n sp b; cbn [wf_cases cases_all yield_cases tree_cases app] in *;
    repeat (progress (cbn [app]; rewrite <- ?app_assoc)).
  - destruct W as (Kw & Wc & Kt & Wb). pose proof (fits_word _ _ _ K) as Ke.
    destruct (arm_steps w c t bl e rest Kw Wc Kt Wb A) with (l := l) (n := n) (sp := sp) (b := b) as (b1 & x & y & St); [eapply fits_weaken; [exact Ke|reflexivity]|].
    words. eexists _, b1, _. split.
    + eapply steps_while_more; [decide_ HU|exact St|norm]. apply steps_while_end. decide_ HU.
    + unfold case_else. cbn [parse_case_statement f_body skip first_of]. step HU.
  - destruct W as (Kw & Wc & Kt & Wb & Kk & Wb'), A as (Ab & Ab'). pose proof (fits_word _ _ _ Kk) as Kk'.
    destruct (arm_steps w c t bl k (yield_block bl' ++ e :: rest) Kw Wc Kt Wb Ab) with (l := l) (n := n) (sp := sp) (b := b) as (b1 & x & y & St); [eapply fits_weaken; [exact Kk'|reflexivity]|].
    words. destruct (block_steps (CNot (CTok 1 (TIs "END"))) [("else_", VNode (made N_CaseStatementArm k [])); ("arms", VVec (l ++ [arm w c t bl])); ("case", n); ("semicolon", VBool sp)] e rest)
      with (bl := bl') (b := k) as (b' & St'); [| |exact Wb'|exact Ab'|].
    { intros l0 b2 g r1 Kg. apply (decides_not U _ _ _ false). decide_ HU. }
    { intros l0 b2. apply (decides_not U _ _ _ true). decide_ HU. }
    specialize (St' []). cbn [app] in St'. unfold block_loop in St'.
    eexists _, b', _. split.
    + eapply steps_while_more; [decide_ HU|exact St|norm]. apply steps_while_end. decide_ HU.
    + unfold case_else. cbn [parse_case_statement f_body skip first_of].
      eapply steps_eq; [eapply (steps_if U) with (v := true); [decide_ HU|cbv iota]|].
      * do 3 (eapply steps_seq; [step HU|norm]). eapply steps_seq; [exact St'|norm]. step HU.
      * norm. now rewrite <- app_assoc.
  - destruct W as (Kw & Wc & Kt & Wb & Wr), A as (Ab & Ar). destruct (cases_start r e rest Wr) as (f & r' & E & Kf).
    destruct (arm_steps w c t bl f r' Kw Wc Kt Wb Ab) with (l := l) (n := n) (sp := sp) (b := b) as (b1 & x & y & St); [eapply fits_weaken; [exact Kf|reflexivity]|].
    rewrite <- E in St. destruct (IH e rest Wr Ar K (l ++ [arm w c t bl]) n sp b1) as (b2 & b3 & m & S1 & S2). rewrite <- app_assoc in S2. cbn [app] in S2.
    exists b2, b3, m. split; [|exact S2]. words. eapply steps_while_more; [decide_ HU|exact St|norm]. exact S1.
Qed.


Ltac run_case S1 S2 := body parse_case_statement; do 3 (eapply steps_seq; [step HU|norm]); (eapply steps_seq; [exact S1|norm]); (eapply steps_seq; [exact S2|norm]); step HU.
Lemma case_ok k s ws e c : cases_all ws -> stmt_ok (CaseDo k s ws e c).
Proof.
  intros A. begin_stmt. destruct W as (Kk & Ws & Ww & Ke & Kc). destruct (cases_start ws e (c :: next :: rest) Ww) as (f & r' & E & Kf).
  exists c. destruct s as [x|]; cbn [yield_subject app] in *.
  - destruct (cases_steps ws e (c :: next :: rest) Ww A Ke [] (VNode (made N_CaseStatement k [("expr", CNode (tree x))])) sp (lastb x)) as (b1 & b2 & m & S1 & S2). cbn [app] in S2.
    rewrite E in *. pose proof (expr_call x true _ f r' Ws Kf eq_refl) as C1. pose proof (first_avoids U x Ws) as Fx. words.
    via F_parse_case_statement. run_case S1 S2.
  - destruct (cases_steps ws e (c :: next :: rest) Ww A Ke [] (VNode (made N_CaseStatement k [])) sp k) as (b1 & b2 & m & S1 & S2). cbn [app] in S2.
    rewrite E in *. words. via F_parse_case_statement. run_case S1 S2.
Qed.


(* ----- labels ----- *)
Lemma decides_haskey x k e bs n : env_get x e = Some (VNode n) -> child k n = None -> decides U (CHasKey x k) e bs false.
Proof. intros G C s V. cbn [eval_cond]. now rewrite G, C. Qed.
Lemma child_made k ty b l : k <> "leading_comments" -> k <> "trailing_comments" -> child k (made ty b l) = map_get k l.
Proof.
  intros N1 N2. unfold child, made. cbn [n_children]. unfold comment_list.
  destruct (b_lead b), (b_trail b); cbn [app map_get]; repeat match goal with |- context [String.eqb ?a ?c] => destruct (String.eqb_spec a c); [congruence|] end; reflexivity.
Qed.
Lemma unlabelled s k : can_be_labelled s -> k = "leading_label" \/ k = "colon" -> child k (tree_stmt U s None) = None.
Proof.
  intros L Hk. destruct s; try contradiction; cbn [tree_stmt with_semi]; rewrite child_made by (destruct Hk; subst; discriminate); destruct Hk; subst; try reflexivity.
  all: destruct b; destruct h; reflexivity.
Qed.
Lemma labelled_ok l c s t : stmt_ok s -> stmt_ok (Labelled l c s t).
Proof.
  intros A. begin_stmt. destruct W as ((Nl & Ll) & Kc & L & Ws & Wt).
  assert (Kl : fits (Avoids statement_words) (b_tok l)) by now apply fits_avoids.
  pose proof (unlabelled s "leading_label" L (or_introl eq_refl)) as U1. pose proof (unlabelled s "colon" L (or_intror eq_refl)) as U2.
  assert (X : forall next' rest', wf_stmt U s next' -> exists b, calls F_parse_statement [VBool false] (yield_stmt s ++ next' :: rest') (VNode (tree_stmt U s None)) (b :: next' :: rest')).
  { intros next' rest' W'. destruct (A false None next' rest' W') as (b & C); [|exists b; exact C]. split; [now left|]. destruct s; try contradiction; exact Logic.I. }
  assert (Kfirst : exists f r, yield_stmt s = f :: r). { destruct (stmt_starts U HU s _ Ws) as (f & r & -> & _). eauto. }
  destruct Kfirst as (f & r & Ef).
  generalize dependent (tree_stmt U s None). intros n U1 U2 X.
  assert (D : forall e bs, env_get "stmt" e = Some (VNode n) -> decides U (COr (CHasKey "stmt" "leading_label") (CHasKey "stmt" "colon")) e bs false).
  { intros e bs G. apply decides_or_false; eapply decides_haskey; eassumption. }
  destruct t as [tb|]; cbn [opt hd app] in *.
  - destruct (X tb (next :: rest) Ws) as (b & C). exists tb. rewrite Ef in *. cbn [app] in *.
    assert (Kt : fits (Avoids [";"]) (b_tok tb)) by (apply identifier_avoids; [exact HU|apply Wt|reflexivity]).
    words. via F_parse_labeled_statement. body parse_labeled_statement. do 5 (eapply steps_seq; [step HU|norm]).
    eapply steps_seq; [eapply steps_eq; [eapply (steps_if U) with (v := false); [apply D; reflexivity|apply steps_skip]|reflexivity]|norm]. step HU.
  - destruct (X next rest Ws) as (b & C). exists b. rewrite Ef in *. cbn [app] in *.
    words. via F_parse_labeled_statement. body parse_labeled_statement. do 5 (eapply steps_seq; [step HU|norm]).
    eapply steps_seq; [eapply steps_eq; [eapply (steps_if U) with (v := false); [apply D; reflexivity|apply steps_skip]|reflexivity]|norm]. step HU.
Qed.


(* ----- every statement ----- *)
Fixpoint every_stmt (s : stmt) : stmt_ok s
with every_block (b : block) : block_all b
with every_handler (h : handler) : handler_all U h
with every_elses (r : elses) : elses_all r
with every_cases (ws : cases) : cases_all ws.
Proof.
  - destruct s.
    + intros sp so next rest W (_ & S). exact (every_deed U HU d sp so next rest W S).
    + apply (begin_ok U HU); auto.
    + apply if_ok; auto.
    + apply (loop_ok U HU); auto.
    + apply (repeat_ok U HU); auto.
    + apply (while_ok U HU); auto.
    + apply (for_ok U HU); auto.
    + apply case_ok; auto.
    + apply labelled_ok; auto.
    + apply (procedure_ok U HU); auto.
  - destruct b; cbn [StatementBlocks.block_all]; auto.
  - destruct h; cbn [handler_all]; auto.
  - destruct r; cbn [elses_all]; auto.
  - destruct ws; cbn [cases_all]; auto.
Qed.
End WithUnicode.
