(* INSERT and UPDATE are read as written. *)
From Verif Require Import Chars Token Cst Core MiniRust Program Bundles ParserView ParserGeneric ShapeSound GroupingSpec GroupingExpr
  Forward GrammarSpec GrammarTactics GrammarExpr GrammarReach GrammarOps GrammarBinary GrammarItems GrammarTypes GrammarCalls GrammarQuery GrammarSelect
  StatementSpec StatementDeeds StatementDml.
Local Open Scope string_scope.
Local Open Scope list_scope.
Local Notation length := List.length.

Section WithUnicode.
Context (U : unicode) (HU : ascii_faithful U).
Local Notation steps := (steps U).
Local Notation calls := (calls U).
Local Notation is_word := (is_word U).
Local Notation word_in := (word_in U).
Local Notation tree := (tree U).
Local Notation wf := (wf U).
Local Notation fits := (fits_known U).
Local Notation led := (led U).
Local Notation stops := (stops U).
Local Notation shut := (shut U).
Local Notation reads := (reads U).
Local Notation deed_ok := (deed_ok U).
Local Notation expr_call := (expr_call U HU).
Local Notation list_call := (list_call U HU).
Local Notation group_call := (group_call U HU).
Local Notation path_call := (path_call U HU).
Local Notation names_steps := (names_steps U HU).
Local Notation stops_known := (stops_known U).
Local Notation stops_shut := (stops_shut U).
Local Notation tail_steps := (tail_steps U HU).
Ltac ahead ::= first [apply tok_yield | apply tok_items | apply tok_query | apply tok_type | apply tok_table | eassumption].
Ltac call ::= first [eassumption | apply two_call].
Ltac body f := eapply calls_body; [reflexivity|]; cbn [prog f f_body f_params combine].
Ltac dispatch := body parse_statement; step HU.
Ltac starts := intros sp so next rest W S; pose proof (stops_known _ _ _ _ S) as Kn; pose proof (stops_shut _ _ _ _ S) as Sh; unfold StatementDeeds.reads; cbn [yield_deed tree_deed wf_deed] in *.
(* the statement is read by [f] *)
Ltac via f :=
  lazymatch goal with |- Forward.calls _ _ ?a ?l ?v ?bs => let C' := fresh "C'" in assert (C' : calls f a l v bs); [|dispatch] end.
Ltac words := repeat match goal with H : GrammarSpec.is_word _ _ _ |- _ => apply fits_word in H | H : GrammarSpec.word_in _ _ _ |- _ => apply fits_among in H
  | H : perhaps _ _ _ |- _ => apply fits_among in H | H : perhaps2 _ (Some (_, _)) _ _ |- _ => destruct H | H : perhaps2 _ None _ _ |- _ => clear H
  | H : perhaps _ None _ |- _ => clear H end.

Ltac special ::=
  lazymatch goal with
  | |- Forward.steps _ (Seq (MiniRust.If (CAnd (CTok 1 (TIs ";")) (CVar "semicolon")) _ _) (MiniRust.Return (EVar ?x))) _ _ _ _ _ =>
      eapply (tail_steps x); [envr | envr | eassumption]
  | L : forall e b, Forward.steps _ (MiniRust.While ?c ?a) _ _ _ _ _ |- Forward.steps _ (MiniRust.While ?c ?a) _ _ _ _ _ => apply L
  end.

(* ----- INSERT ----- *)
Definition tuples_loop : cmd fn := match f_body parse_insert_statement with
  Seq _ (Seq _ (Seq _ (Seq _ (Seq (MiniRust.If _ (Seq _ (Seq _ (Seq _ (Seq a _)))) _) _)))) => a | _ => Skip end.
Lemma tuples_steps ts : forall next rest, wf_tuples U ts -> fits (Avoids ["("; ","]) (b_tok next) ->
  exists b', forall l e b, steps tuples_loop (("lparens", VVec l) :: e) (b :: yield_tuples ts ++ next :: rest) Norm (("lparens", VVec (l ++ tree_tuples U ts)) :: e) (b' :: next :: rest).
Proof.
  induction ts as [lp es rp|lp es rp c r IH]; intros next rest W K; cbn [wf_tuples yield_tuples tree_tuples app] in *; unfold tuples_loop in *; cbn [parse_insert_statement f_body] in *.
  - destruct W as (Kl & W & Kr). pose proof (group_call lp es rp (next :: rest) Kl W Kr) as C. exists rp. intros l e b. cbn [app]. rewrite <- app_assoc. cbn [app]. words.
    eapply steps_while_more; [decide_ HU| |].
    + do 2 (eapply steps_seq; [step HU|norm]).
      eapply steps_seq; [eapply steps_eq; [eapply (steps_if U) with (v := false); [decide_ HU|cbv iota; step HU]|apply env_leave_same; reflexivity]|]. step HU.
    + eapply steps_eq; [apply steps_while_end; decide_ HU|]. unfold env_leave. cbn [length]. replace (S (S (length e)) - S (length e)) with 1 by lia. reflexivity.
  - destruct W as (Kl & W & Kr & Kc & Wr). destruct (IH next rest Wr K) as (b' & St). pose proof (group_call lp es rp (c :: yield_tuples r ++ next :: rest) Kl W Kr) as C.
    exists b'. intros l e b. cbn [app]. rewrite <- app_assoc. cbn [app]. words. specialize (St (l ++ [with_comma c (tree_group U lp es rp)]) e c).
    unfold tree_group in *. rewrite comma_made in *. rewrite <- app_assoc in St. cbn [app] in St. eapply steps_while_more; [decide_ HU| |].
    + do 2 (eapply steps_seq; [step HU|norm]).
      eapply steps_seq; [eapply steps_eq; [eapply (steps_if U) with (v := true); [decide_ HU|cbv iota; step HU]|apply env_leave_same; reflexivity]|]. step HU.
    + unfold env_leave. cbn [length]. replace (S (S (length e)) - S (length e)) with 1 by lia. exact St.
Qed.
Lemma tuples_read ts f rest : wf_tuples U ts -> fits (Avoids ["("; ","]) (b_tok f) ->
  exists b', forall e b, steps tuples_loop (("lparens", VVec []) :: e) (b :: yield_tuples ts ++ f :: rest) Norm (("lparens", VVec (tree_tuples U ts)) :: e) (b' :: f :: rest).
Proof. intros W K. destruct (tuples_steps ts f rest W K) as (b' & St). exists b'. intros e b. apply (St []). Qed.
Lemma insert_ok k i p c v : deed_ok (Insert k i p c v).
Proof.
  starts. destruct W as (Kk & Ki & P & Fp & Sp & Wc & Wv). cbn [app]. rewrite <- !app_assoc.
  assert (Fp' : fits (Avoids (["VALUES"; "ROW"; "INTO"] ++ ["("])) (b_tok (first p))) by (apply avoids_both; [now apply fits_avoids|now apply path_first_avoids]). cbn [app] in Fp'. clear Fp.
  assert (D : exists b, calls F_parse_insert_statement [VBool sp] (k :: opt i ++ yield p ++ yield_columns c ++ yield_values v ++ next :: rest)
    (VNode (with_semi so (made N_InsertStatement k (kid "into" i ++ [("target_name", CNode (tree p))] ++ kid_columns U c ++ [("input", CNode (tree_values U v))]))))
    (left_over so b next rest)); [|destruct D as (b & D); exists b; words; dispatch].
  destruct v as [vk ts|vk]; cbn [yield_values wf_values tree_values app] in *.
  - destruct Wv as (Kv & Wt). destruct (tuples_read ts next rest Wt ltac:(eapply fits_weaken; [exact Kn|reflexivity])) as (b' & L). unfold tuples_loop in L. cbn [parse_insert_statement f_body] in L.
    destruct c as [|lp es rp]; cbn [yield_columns wf_columns kid_columns app hd] in *.
    + words. pose proof (path_call p vk (yield_tuples ts ++ next :: rest) P Sp ltac:(eapply fits_weaken; [exact Kv|reflexivity])) as Cp.
      destruct i as [i|]; cbn [opt app kid] in *; words; eexists; body parse_insert_statement; step HU.
    + destruct Wc as (Kl & We & Kr). rewrite <- !app_assoc. cbn [app]. pose proof (group_call lp es rp (vk :: yield_tuples ts ++ next :: rest) Kl We Kr) as Cg. words.
      pose proof (path_call p lp (yields es ++ rp :: vk :: yield_tuples ts ++ next :: rest) P Sp ltac:(eapply fits_weaken; [exact Kl|reflexivity])) as Cp.
      destruct i as [i|]; cbn [opt app kid] in *; words; eexists; body parse_insert_statement; step HU.
  - destruct c as [|lp es rp]; cbn [yield_columns wf_columns kid_columns app hd] in *.
    + words. pose proof (path_call p vk (next :: rest) P Sp ltac:(eapply fits_weaken; [exact Wv|reflexivity])) as Cp.
      destruct i as [i|]; cbn [opt app kid] in *; words; eexists; body parse_insert_statement; step HU.
    + destruct Wc as (Kl & We & Kr). rewrite <- !app_assoc. cbn [app]. pose proof (group_call lp es rp (vk :: next :: rest) Kl We Kr) as Cg. words.
      pose proof (path_call p lp (yields es ++ rp :: vk :: next :: rest) P Sp ltac:(eapply fits_weaken; [exact Kl|reflexivity])) as Cp.
      destruct i as [i|]; cbn [opt app kid] in *; words; eexists; body parse_insert_statement; step HU.
Qed.
Lemma query_starts q : exists r, yield_query q = first_query q :: r.
Proof.
  induction q; cbn [yield_query first_query]; eauto.
  - destruct IHq1 as (r & ->). cbn [app]. eauto.
  - destruct IHq as (r & ->). cbn [app]. eauto.
Qed.
Lemma insert_query_ok k i p c q : deed_ok (InsertQuery k i p c q).
Proof.
  starts. destruct W as (Kk & Ki & P & Fp & Sp & Wc & Wq & Fq). cbn [app]. rewrite <- !app_assoc.
  assert (Fp' : fits (Avoids (["VALUES"; "ROW"; "INTO"] ++ ["("])) (b_tok (first p))) by (apply avoids_both; [now apply fits_avoids|now apply path_first_avoids]). cbn [app] in Fp'. clear Fp.
  destruct (every_query U HU q next Wq false None next rest Wq (stops_inner U _ _ _ _ S)) as (b1 & Cq). cbn [left_over] in Cq.
  pose proof (wf_first_query U q next Wq) as Kq. apply fits_among in Kq.
  assert (D : exists b, calls F_parse_insert_statement [VBool sp] (k :: opt i ++ yield p ++ yield_columns c ++ yield_query q ++ next :: rest)
    (VNode (with_semi so (made N_InsertStatement k (kid "into" i ++ [("target_name", CNode (tree p))] ++ kid_columns U c ++ [("input", CNode (tree_query U q None))]))))
    (left_over so b next rest)); [|destruct D as (b & D); exists b; words; dispatch].
  destruct c as [|lp es rp]; cbn [yield_columns wf_columns kid_columns app hd] in *.
  - assert (Kq' : fits (Among ["SELECT"; "WITH"]) (b_tok (first_query q))).
    { destruct (fits_either U (first_query q) ["SELECT"; "WITH"] ["("] Kq) as [K|K]; [exact K|]. apply among_word in K as (v & [<-|[]] & K). contradiction. }
    clear Kq. assert (Y : exists r, yield_query q = first_query q :: r) by apply query_starts. destruct Y as (r & Y). rewrite Y in Sp. cbn [hd] in Sp.
    assert (Cp : calls F_parse_identifier [] (yield p ++ yield_query q ++ next :: rest) (VNode (tree p)) (lastb p :: yield_query q ++ next :: rest)).
    { rewrite Y. apply path_call; [exact P|exact Sp|eapply fits_weaken; [exact Kq'|reflexivity]]. }
    words. destruct i as [i|]; cbn [opt app kid] in *; words; eexists; body parse_insert_statement; step HU.
  - destruct Wc as (Kl & We & Kr). rewrite <- !app_assoc. cbn [app]. pose proof (group_call lp es rp (yield_query q ++ next :: rest) Kl We Kr) as Cg. words.
    pose proof (path_call p lp (yields es ++ rp :: yield_query q ++ next :: rest) P Sp ltac:(eapply fits_weaken; [exact Kl|reflexivity])) as Cp.
    destruct i as [i|]; cbn [opt app kid] in *; words; eexists; body parse_insert_statement; step HU.
Qed.

(* ----- UPDATE ----- *)
Lemma table_call t ws f rest : wf_table U t f -> fits (Among ws) (b_tok f) -> forallb (fun w => existsb (String.eqb w) after_tables && plain w) ws = true ->
  exists b, calls F_parse_table [VBool true] (yield_table t ++ f :: rest) (VNode (tree_table U t)) (b :: f :: rest).
Proof.
  intros W K A. assert (E : forallb plain ws = true /\ known_in (Among ws) after_tables = Some true).
  { cbn [known_in]. assert (E : forallb (fun w => existsb (String.eqb w) after_tables) ws = true /\ forallb plain ws = true).
    { clear K. induction ws as [|w ws IH]; [split; reflexivity|]. cbn [forallb] in A |- *. apply andb_prop in A as (A1 & A2). apply andb_prop in A1 as (A1 & A3).
      destruct (IH A2) as (-> & ->). now rewrite A1, A3. }
    destruct E as (-> & ->). split; reflexivity. }
  destruct E as (E1 & E2). apply (table_parts U HU); [eapply (phrases U HU); exact W|exact W|].
  exists f, rest. split; [reflexivity|]. split; [eapply fits_weaken; [exact K|exact E2]|]. intros _. eapply (no_fuse U HU); [exact K|exact E1].
Qed.
Lemma update_ok k t s es f w : deed_ok (Update k t s es f w).
Proof.
  starts. destruct W as (Kk & Wt & Ft & Ks & We & _ & Wf & Ww). cbn [app]. rewrite <- !app_assoc. cbn [app]. rewrite <- !app_assoc. apply avoids_word in Ft. words.
  destruct w as [|wk we]; cbn [yield_clause app hd wf_clause kid_clause] in *.
  - destruct f as [|fk ft]; cbn [yield_from app wf_from kid_from] in *.
    + destruct (list_call false es _ next rest We Kn eq_refl) as (b1 & C1). destruct (table_call t _ s (yields es ++ next :: rest) Wt Ks eq_refl) as (b2 & C2).
      eexists. via F_parse_update_statement. body parse_update_statement. step HU.
    + destruct Wf as (Kf & Wf). words. destruct (table_call ft _ next rest Wf Kn eq_refl) as (b3 & C3).
      destruct (list_call false es _ fk (yield_table ft ++ next :: rest) We Kf eq_refl) as (b1 & C1).
      destruct (table_call t _ s (yields es ++ fk :: yield_table ft ++ next :: rest) Wt Ks eq_refl) as (b2 & C2).
      eexists. via F_parse_update_statement. body parse_update_statement. step HU.
  - destruct Ww as (Kw & Ww). pose proof (expr_call we true _ next rest Ww Kn eq_refl) as Ce. words. destruct f as [|fk ft]; cbn [yield_from app wf_from kid_from] in *.
    + destruct (list_call false es _ wk (yield we ++ next :: rest) We Kw eq_refl) as (b1 & C1). destruct (table_call t _ s (yields es ++ wk :: yield we ++ next :: rest) Wt Ks eq_refl) as (b2 & C2).
      eexists. via F_parse_update_statement. body parse_update_statement. step HU.
    + destruct Wf as (Kf & Wf). words. destruct (table_call ft _ wk (yield we ++ next :: rest) Wf Kw eq_refl) as (b3 & C3).
      destruct (list_call false es _ fk (yield_table ft ++ wk :: yield we ++ next :: rest) We Kf eq_refl) as (b1 & C1).
      destruct (table_call t _ s (yields es ++ fk :: yield_table ft ++ wk :: yield we ++ next :: rest) Wt Ks eq_refl) as (b2 & C2).
      eexists. via F_parse_update_statement. body parse_update_statement. step HU.
Qed.
End WithUnicode.
