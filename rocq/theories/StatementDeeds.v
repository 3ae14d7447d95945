(* The statements of StatementSpec.v that have no statements in them are read as written. *)
From Verif Require Import Chars Token Cst Core MiniRust Program Bundles ParserView ParserGeneric ShapeSound GroupingSpec GroupingExpr
  Forward GrammarSpec GrammarTactics GrammarExpr GrammarReach GrammarOps GrammarBinary GrammarItems GrammarTypes GrammarCalls GrammarQuery GrammarSelect
  StatementSpec.
Local Open Scope string_scope.
Local Open Scope list_scope.
Local Notation length := List.length.

Section WithUnicode.
Context (U : unicode) (HU : ascii_faithful U).
Local Notation steps := (steps U).
Local Notation calls := (calls U).
Local Notation is_word := (is_word U).
Local Notation word_in := (word_in U).
Local Notation tree := (tree U).
Local Notation wf := (wf U).
Local Notation fits := (fits_known U).
Local Notation led := (led U).
Ltac ahead ::= first [apply tok_yield | apply tok_items | apply tok_query | apply tok_type | apply tok_table | eassumption].
Ltac call ::= eassumption.
Ltac special ::= fail.

(* ----- the end of a statement ----- *)
(* whatever comes after the statement, a semicolon is part of it exactly if [so] says so *)
Definition shut (sp : bool) (so : option bundle) (next : bundle) : Prop :=
  match so with
  | None => sp = false \/ fits (Avoids [";"]) (b_tok next)
  | Some s => s = next /\ sp = true /\ is_word s ";"
  end.
Definition stops (sp : bool) (so : option bundle) (next : bundle) (rest : list bundle) : Prop :=
  match so with
  | None => is_word next "" /\ rest = []
  | Some s => s = next /\ sp = true /\ is_word s ";"
  end.
Lemma stops_shut sp so next rest : stops sp so next rest -> shut sp so next.
Proof.
  destruct so; [auto|]. intros (K & _). right. apply fits_word in K. eapply fits_weaken; [exact K|reflexivity].
Qed.
Lemma stops_known sp so next rest : stops sp so next rest -> fits (Among [";"; ""]) (b_tok next).
Proof.
  intros S. apply fits_among. destruct so; cbn [stops] in S.
  - destruct S as (-> & _ & K). exists ";". cbn; auto.
  - destruct S as (K & _). exists "". cbn; auto.
Qed.
Lemma stops_closes sp so next rest : stops sp so next rest -> closes U sp so next rest.
Proof. destruct so; cbn [stops closes]; tauto. Qed.
Lemma stops_inner sp so next rest : stops sp so next rest -> closes U false None next rest.
Proof. destruct so; cbn [stops closes]; [intros (-> & _ & K)|]; tauto. Qed.

Definition tail (x : string) : cmd fn :=
  Seq (MiniRust.If (CAnd (CTok 1 (TIs ";")) (CVar "semicolon")) (Seq Next (Push x "semicolon" (EConstruct N_Symbol))) Skip) (MiniRust.Return (EVar x)).
Definition tail_env (x : string) (so : option bundle) (n : node) (e : env) : env :=
  match so with
  | None => match env_set x VUndef e with Some e' => e' | None => e end
  | Some _ => match env_set x (VNode (with_semi so n)) e with Some e1 =>
      match env_set x VUndef e1 with Some e' => e' | None => e1 end | None => e end
  end.
Lemma env_set_ok x v : forall (e : env) w, env_get x e = Some w -> exists e', env_set x v e = Some e' /\ env_get x e' = Some v /\ length e' = length e.
Proof.
  induction e as [|(y & u) e IH]; cbn [env_get env_set]; intros w G; [discriminate|]. destruct (String.eqb x y) eqn:E.
  - eexists. split; [reflexivity|]. cbn [env_get length]. now rewrite E.
  - destruct (IH w G) as (e' & -> & G' & L). eexists. split; [reflexivity|]. cbn [env_get length]. rewrite E. auto.
Qed.
Lemma env_leave_same (e e' : env) : length e' = length e -> env_leave (length e) e' = e'.
Proof. intro L. unfold env_leave. now rewrite L, Nat.sub_diag. Qed.
Lemma tail_steps x sp so n e b next rest : env_get x e = Some (VNode n) -> env_get "semicolon" e = Some (VBool sp) -> shut sp so next ->
  steps (tail x) e (b :: next :: rest) (Ret (VNode (with_semi so n))) (tail_env x so n e) (left_over so b next rest).
Proof.
  intros G Gs S. unfold tail, tail_env. destruct so as [s|]; cbn [shut with_semi left_over] in *.
  - destruct S as (-> & -> & K). apply fits_word in K. destruct (env_set_ok x (VNode (with_kid "semicolon" (symbol next) n)) e _ G) as (e1 & E1 & G1 & L1). rewrite E1.
    destruct (env_set_ok x VUndef e1 _ G1) as (e2 & E2 & _ & _). rewrite E2.
    eapply steps_seq.
    + eapply steps_eq; [eapply steps_if; [eapply decides_and_true; [decide_ HU|eapply decides_var; exact Gs]|]|apply (env_leave_same e e1 L1)].
      cbv iota. eapply steps_seq; [apply steps_next; discriminate|]. eapply steps_push_kid; [mk|exact G|exact E1].
    + eapply steps_return. eapply makes_var; eassumption.
  - destruct (env_set_ok x VUndef e _ G) as (e1 & E1 & _ & _). rewrite E1.
    assert (D : decides U (CAnd (CTok 1 (TIs ";")) (CVar "semicolon")) e (b :: next :: rest) false).
    { destruct S as [->|K]; [|apply decides_and_false; decide_ HU]. eapply decides_off_is; [tok|exact Gs]. }
    eapply steps_seq; [eapply steps_eq; [eapply steps_if; [exact D|apply steps_skip]|now apply env_leave_same]|].
    eapply steps_return. eapply makes_var; eassumption.
Qed.
Ltac special ::=
  lazymatch goal with
  | |- Forward.steps _ (Seq (MiniRust.If (CAnd (CTok 1 (TIs ";")) (CVar "semicolon")) _ _) (MiniRust.Return (EVar ?x))) _ _ _ _ _ =>
      eapply (tail_steps x); [envr | envr | eassumption]
  end.
Lemma steps_for2 n body e bs e1 bs1 : env_get n e = Some (VNum 2) -> steps body e bs Norm e1 bs1 -> steps (ForFrom1 n body) e bs Norm (env_leave (length e) e1) bs1.
Proof.
  intros G [k B]. exists k. intros s V. destruct (B s V) as (s1 & E1 & V1). exists s1. split; [|exact V1]. cbn [exec]. rewrite G.
  change (N.to_nat 2 - 1) with 1. cbn [repeat_body]. unfold bind. rewrite E1. reflexivity.
Qed.
Lemma steps_for3 n body e bs e1 bs1 e2 bs2 : env_get n e = Some (VNum 3) -> steps body e bs Norm e1 bs1 -> steps body (env_leave (length e) e1) bs1 Norm e2 bs2 ->
  steps (ForFrom1 n body) e bs Norm (env_leave (length (env_leave (length e) e1)) e2) bs2.
Proof.
  intros G [k B] [k' B']. exists (k + k'). intros s V. destruct (B s V) as (s1 & E1 & V1). destruct (B' s1 V1) as (s2 & E2 & V2). exists s2. split; [|exact V2].
  cbn [exec]. rewrite G. change (N.to_nat 3 - 1) with 2. cbn [repeat_body]. unfold bind at 1.
  rewrite (exec_more U k (k + k') _ _ _ _ _ ltac:(lia) E1). cbn [after_body]. unfold bind. rewrite (exec_more U k' (k + k') _ _ _ _ _ ltac:(lia) E2). reflexivity.
Qed.
Lemma two_call a b rest : calls F_parse_n_keywords [VNum 2] (a :: b :: rest) (VVec [keyword_ a; keyword_ b]) (b :: rest).
Proof.
  eapply calls_body; [reflexivity|]. cbn [prog parse_n_keywords f_body f_params combine].
  eapply steps_seq; [step HU|]. eapply steps_seq; [step HU|]. eapply steps_seq; [eapply steps_eq; [eapply steps_for2; [envr|step HU]|envr]|]. step HU.
Qed.
Lemma three_call a b c rest : calls F_parse_n_keywords [VNum 3] (a :: b :: c :: rest) (VVec [keyword_ a; keyword_ b; keyword_ c]) (c :: rest).
Proof.
  eapply calls_body; [reflexivity|]. cbn [prog parse_n_keywords f_body f_params combine].
  eapply steps_seq; [step HU|]. eapply steps_seq; [step HU|]. eapply steps_seq; [eapply steps_eq; [eapply steps_for3; [envr|step HU|norm; step HU]|envr]|]. step HU.
Qed.

(* ----- the phrases in a statement ----- *)
Lemma expr_call e od ws f rest : wf e -> fits (Among ws) (b_tok f) -> forallb (fun w => existsb (String.eqb w) enders && plain w) ws = true ->
  calls F_parse_expr [VNum usize_max; VBool false; VBool false; VBool false; VBool od] (yield e ++ f :: rest) (VNode (tree e)) (lastb e :: f :: rest).
Proof. intros W K A. eapply (plain_call U HU); [now apply (phrases U HU)|exact K|exact A]. Qed.
Lemma list_ok al tr es : wfs U al tr es -> exprs_ok U al es.
Proof. intro W. eapply (exprs_items U HU); [exact W|]. eapply (phrases U HU). exact W. Qed.
Lemma list_call al es ws f rest : wfs U al false es -> fits (Among ws) (b_tok f) -> forallb (fun w => existsb (String.eqb w) (ends_of al) && plain w) ws = true ->
  exists b, calls F_parse_exprs [VStrs []; VBool al; VBool true] (yields es ++ f :: rest) (VVec (trees U es)) (b :: f :: rest).
Proof.
  intros W K A. eapply (exprs_plain U HU); [eapply list_ok; exact W|exact K|exact A|reflexivity|reflexivity|]. apply trails_false in W. congruence.
Qed.
Lemma group_call lp es rp rest : is_word lp "(" -> wfs U false true es -> is_word rp ")" ->
  calls F_parse_grouped_exprs [VBool false] (lp :: yields es ++ rp :: rest) (VNode (tree_group U lp es rp)) (rp :: rest).
Proof. intros Kl W Kr. eapply (grouped_call U HU); eauto. eapply list_ok; exact W. Qed.
Lemma path_call p next rest : path U p -> separated U p next -> fits (Avoids ["."]) (b_tok next) ->
  calls F_parse_identifier [] (yield p ++ next :: rest) (VNode (tree p)) (lastb p :: next :: rest).
Proof. intros P S K. apply (ident_call U HU); [exact P|now apply separated_last|exact K]. Qed.
Lemma one_name_call b next rest : name U b -> separated U (Atom b) next -> fits (Avoids ["."]) (b_tok next) ->
  calls F_parse_identifier [] (b :: next :: rest) (VNode (made N_Identifier b [])) (b :: next :: rest).
Proof.
  intros P S K. pose proof (path_call (Atom b) next rest P S K) as C. cbn [yield app lastb] in C.
  change (tree (Atom b)) with (made (match kind U (b_tok b) with Some ty => ty | None => N_Unknown end) b []) in C. now rewrite (name_kind U b P) in C.
Qed.
Lemma separated_word p next : path U p -> word_in next [","; "."; "("; ")"; ";"] -> separated U p next.
Proof. intros P K. unfold separated. destruct p; cbn [path last_name] in *; try contradiction; auto. Qed.

Lemma comma_made c ty b l : with_comma c (made ty b l) = made ty b (map_insert "comma" (symbol c) l).
Proof. unfold with_comma. now rewrite with_kid_made. Qed.

(* ----- lists of names ----- *)
Definition names_loop : cmd fn := match f_body parse_declare_statement with Seq _ (Seq _ (Seq a _)) => a | _ => Skip end.
Lemma leave_one x (e e' : env) : length e' = length e -> env_leave (length e) (x :: e') = e'.
Proof. intro L. unfold env_leave. cbn [List.length]. rewrite L. replace (S (length e) - length e) with 1 by lia. reflexivity. Qed.
Lemma names_steps ns : forall next rest, wf_names U ns next -> fits (Avoids [","; "."]) (b_tok next) ->
  exists b', forall l e b, steps names_loop (("idents", VVec l) :: e) (b :: yield_names ns ++ next :: rest) Norm (("idents", VVec (l ++ tree_names ns)) :: e) (b' :: next :: rest).
Proof.
  induction ns as [x|x c r IH]; intros next rest W K; cbn [wf_names yield_names tree_names app] in *; unfold names_loop in *; cbn [parse_declare_statement f_body] in *.
  - destruct W as (Nx & Sx). exists x. intros l e b. pose proof (one_name_call x next rest Nx Sx ltac:(eapply fits_weaken; [exact K|reflexivity])) as C.
    eapply steps_eq; [eapply steps_while_brk; [apply decides_true|]|].
    + eapply steps_seq; [step HU|]. eapply (steps_if U) with (v := false); [decide_ HU|]. cbv iota. eapply steps_seq; [step HU|]. apply steps_break.
    + unfold env_leave. cbn [length]. now rewrite !Nat.sub_diag.
  - destruct W as (Nx & Kc & W). destruct (IH next rest W K) as (b' & St). exists b'. intros l e b.
    pose proof (one_name_call x c (yield_names r ++ next :: rest) Nx (separated_word (Atom x) c Nx (ex_intro _ "," (conj (or_introl eq_refl) Kc)))) as C.
    apply fits_word in Kc. specialize (C ltac:(eapply fits_weaken; [exact Kc|reflexivity])). specialize (St (l ++ [with_comma c (made N_Identifier x [])]) e c).
    rewrite comma_made in *. rewrite <- app_assoc in St. cbn [app] in St. eapply steps_while_more; [apply decides_true| |].
    + eapply steps_seq; [step HU|]. eapply (steps_if U) with (v := true); [decide_ HU|]. cbv iota. eapply steps_seq; [step HU|]. eapply steps_seq; [step HU|].
      eapply steps_seq; [step HU|]. step HU.
    + unfold env_leave. cbn [length]. replace (S (S (length e)) - S (length e)) with 1 by lia. cbn [skipn length]. rewrite Nat.sub_diag. cbn [skipn]. exact St.
Qed.

(* ----- one statement after the other ----- *)
Definition reads (f : fn) (sp : bool) (so : option bundle) (l : list bundle) (n : node) (next : bundle) (rest : list bundle) : Prop :=
  exists b, calls f [VBool sp] (l ++ next :: rest) (VNode n) (left_over so b next rest).
Ltac body f := eapply calls_body; [reflexivity|]; cbn [prog f f_body f_params combine].
Definition deed_ok (d : deed) : Prop := forall sp so next rest, wf_deed U d next -> stops sp so next rest ->
  reads F_parse_statement sp so (yield_deed d) (tree_deed U d so) next rest.
Ltac dispatch := body parse_statement; step HU.
Ltac starts := intros sp so next rest W S; pose proof (stops_known _ _ _ _ S) as Kn; pose proof (stops_shut _ _ _ _ S) as Sh; unfold reads; cbn [yield_deed tree_deed wf_deed] in *.

Lemma ask_ok q : deed_ok (Ask q).
Proof.
  starts. destruct (every_query U HU q next W sp so next rest W (stops_closes _ _ _ _ S)) as (b & C). exists b.
  apply wf_first_query in W. apply fits_among in W. clear Kn. dispatch.
Qed.
(* the statement is read by [f] *)
Ltac via f :=
  lazymatch goal with |- Forward.calls _ _ ?a ?l ?v ?bs => let C' := fresh "C'" in assert (C' : calls f a l v bs); [|dispatch] end.
Ltac words := repeat match goal with H : GrammarSpec.is_word _ _ _ |- _ => apply fits_word in H | H : GrammarSpec.word_in _ _ _ |- _ => apply fits_among in H
  | H : perhaps _ _ _ |- _ => apply fits_among in H | H : perhaps2 _ (Some (_, _)) _ _ |- _ => destruct H | H : perhaps2 _ None _ _ |- _ => clear H
  | H : perhaps _ None _ |- _ => clear H end.
Lemma truncate_ok k t p : deed_ok (Truncate k t p).
Proof.
  starts. destruct W as (Kk & Kt & P & Sp). pose proof (path_call p next rest P Sp ltac:(eapply fits_weaken; [exact Kn|reflexivity])) as C. eexists. cbn [app].
  words. via F_parse_truncate_statement. body parse_truncate_statement. step HU.
Qed.
Lemma assign_ok k x eq e : deed_ok (Assign k x eq e).
Proof.
  starts. destruct W as (Kk & Ke & W). pose proof (expr_call (Infix x eq e) true _ next rest W Kn eq_refl) as C. eexists.
  change (yield (Infix x eq e)) with (yield x ++ eq :: yield e) in C. cbn [app].
  words. via F_parse_set_statement. body parse_set_statement. step HU.
Qed.
Lemma call_it_ok k e : deed_ok (CallIt k e).
Proof.
  starts. destruct W as (Kk & W & _). pose proof (expr_call e true _ next rest W Kn eq_refl) as C. eexists. cbn [app].
  words. via F_parse_call_statement. body parse_call_statement. step HU.
Qed.
Lemma return_ok k : deed_ok (Return k).
Proof.
  starts. eexists. cbn [app]. words. via F_parse_single_token_statement. body parse_single_token_statement. step HU.
Qed.
Lemma leave_ok k l : deed_ok (Leave k l).
Proof.
  starts. destruct W as (Kk & W). destruct l as [x|]; cbn [opt app].
  - destruct W as (_ & I). apply identifier_avoids with (ws := [";"]) in I; [|exact HU|reflexivity]. eexists. words. via F_parse_break_continue_statement. body parse_break_continue_statement. step HU.
  - clear Kn. eexists. words. via F_parse_break_continue_statement. body parse_break_continue_statement. step HU.
Qed.
Lemma transaction_ok k t : deed_ok (Transaction k t).
Proof.
  starts. destruct W as (Kk & Kt). destruct t as [x|]; cbn [opt app] in *.
  - eexists. words. 
    lazymatch goal with |- Forward.calls _ _ ?a ?l ?v ?bs => assert (C' : calls F_parse_transaction_statement a l v bs) by (body parse_transaction_statement; step HU) end.
    destruct (fits_either U k ["BEGIN"] ["COMMIT"; "ROLLBACK"] Kk) as [K|K]; clear Kk; dispatch.
  - eexists. words.
    lazymatch goal with |- Forward.calls _ _ ?a ?l ?v ?bs => assert (C' : calls F_parse_transaction_statement a l v bs) by (body parse_transaction_statement; step HU) end.
    destruct (fits_either U k ["BEGIN"] ["COMMIT"; "ROLLBACK"] Kk) as [K|K]; clear Kk; [|dispatch].
    assert (D : forall e, decides U (COr (CTok 1 (TIn ["TRANSACTION"; ";"])) (CEof 1)) e (k :: next :: rest) true).
    { intro e. destruct so as [s|]; cbn [stops] in S.
      - destruct S as (-> & _ & K'). clear Kn. words. decide_ HU.
      - clear Kn. destruct S as (K' & ->). words. apply decides_or_false; [decide_ HU|]. eapply decides_eq; [apply decides_eof|reflexivity]. }
    body parse_statement. eapply steps_seq; [step HU|]. eapply steps_seq_ret. norm.
    idtac.
    Ltac special ::=
      lazymatch goal with
      | D : forall e, decides _ ?c e _ _ |- Forward.steps _ (Seq (MiniRust.If ?c _ _) _) _ _ _ _ _ =>
         eapply steps_seq_ret; eapply steps_eq; [eapply steps_if; [apply D | norm; step HU] | envr]
      end.
    step HU.
Qed.
Ltac special ::=
  lazymatch goal with
  | |- Forward.steps _ (Seq (MiniRust.If (CAnd (CTok 1 (TIs ";")) (CVar "semicolon")) _ _) (MiniRust.Return (EVar ?x))) _ _ _ _ _ =>
      eapply (tail_steps x); [envr | envr | eassumption]
  end.
Lemma raise_ok k u : deed_ok (Raise k u).
Proof.
  starts. destruct W as (Kk & W). destruct u as [|x e]; cbn [yield_clause app wf_clause kid_clause] in *.
  - eexists. words. via F_parse_raise_statement. body parse_raise_statement. step HU.
  - destruct W as (Kx & W). pose proof (expr_call e true _ next rest W Kn eq_refl) as C. eexists. words. via F_parse_raise_statement. body parse_raise_statement. step HU.
Qed.
Lemma assert_ok k e d : deed_ok (Assert k e d).
Proof.
  starts. destruct W as (Kk & W & D). destruct d as [(a & x)|]; cbn [app] in *; rewrite <- ?app_assoc, ?app_nil_r; cbn [app].
  - destruct D as (Ka & Wx). pose proof (expr_call x true _ next rest Wx Kn eq_refl) as C. words. pose proof (expr_call e true _ a (yield x ++ next :: rest) W Ka eq_refl) as C1.
    eexists. via F_parse_assert_satement. body parse_assert_satement. step HU.
  - words. pose proof (expr_call e true _ next rest W Kn eq_refl) as C1. eexists. via F_parse_assert_satement. body parse_assert_satement. step HU.
Qed.

End WithUnicode.
