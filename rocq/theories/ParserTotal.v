(* Every parse ends, and where it can panic. *)
From Verif Require Import Chars Token Cst Core MiniRust Lexer Program Api Bundles ParserView ParserGeneric
  TermCheck Typing LexSpec LexGrammar LexProofs LexTheorems LexProps ParserSpec ParserInvariance.
Local Open Scope list_scope.
Local Notation length := List.length.

(* Functions that call others before they consume a token rank above them. *)
Definition rank (f : fn) : nat :=
  match f with
  | F_parse_code => 6
  | F_parse_statement => 5
  | F_parse_exprs | F_parse_table => 3
  | F_parse_expr => 2
  | F_parse_identifier | F_parse_select_statement | F_parse_with_pipe_operator
  | F_parse_match_recognize_pipe_operator | F_parse_pattern | F_parse_loop_statement
  | F_parse_repeat_statement => 1
  | _ => 0
  end.

Lemma program_ends f : term_ok rank (rank f) (f_body (prog f)) false = true.
Proof. destruct f; vm_compute; reflexivity. Qed.
Lemma program_typed f : tfun fn_sig (snd (fn_sig f)) (prog f) (fst (fn_sig f)) = true.
Proof. destruct f; vm_compute; reflexivity. Qed.

Section WithUnicode.
Context (U : unicode).

Lemma start_view ts t : is_comment t = false ->
  exists s bs, parser_new (ts ++ [t]) = Some s /\ view s bs /\ flats bs = ts ++ [t] /\ tokens s = ts ++ [t].
Proof.
  intro Ht. destruct (grouped_exists ts t Ht) as (bs & G & F).
  destruct (parser_new_view _ G) as (s & N & V & T). exists s, bs. rewrite <- F. auto.
Qed.

Lemma run_code_fine fuel ts t s : is_comment t = false -> parser_new (ts ++ [t]) = Some s ->
  fine (ts ++ [t]) (fun v => exists l, v = VVec l) (run U prog fuel F_parse_code [] s).
Proof.
  intros Ht N. destruct (start_view ts t Ht) as (s' & bs & N' & V & F & T). rewrite N in N'. injection N' as <-.
  eapply fine_weaken; [|apply (run_fine (ts ++ [t]) U fn_sig prog program_typed fuel F_parse_code []); [constructor|now exists bs]].
  intros v (l & -> & _). eauto.
Qed.

Theorem parse_tokens_total ts t : is_comment t = false -> exists fuel, parse_tokens U fuel (ts ++ [t]) <> NoFuel.
Proof.
  intro Ht. destruct (start_view ts t Ht) as (s & bs & N & V & F & T).
  destruct (run_ends U prog rank program_ends (length bs) 6 F_parse_code [] s bs V (le_n _) (le_n _)) as [fuel H].
  exists fuel. unfold parse_tokens. rewrite N. pose proof (run_code_fine fuel ts t s Ht N) as K.
  destruct (run U prog fuel F_parse_code [] s) as [v s1|e s1|s1| |]; try discriminate; [|contradiction|contradiction].
  destruct K as [[l ->] _]. discriminate.
Qed.

Theorem parse_tokens_more fuel fuel' ts : fuel <= fuel' -> parse_tokens U fuel ts <> NoFuel ->
  parse_tokens U fuel' ts = parse_tokens U fuel ts.
Proof.
  unfold parse_tokens. intros H N. destruct (parser_new ts) as [s|]; [|reflexivity].
  destruct (run_less U prog fuel fuel' H F_parse_code [] s) as [E|E]; rewrite E in *; [contradiction|reflexivity].
Qed.

Lemma parse_more fuel fuel' code : fuel <= fuel' -> parse U fuel code <> NoFuel -> parse U fuel' code = parse U fuel code.
Proof. unfold parse. destruct (tokenize U code); try reflexivity. apply parse_tokens_more. Qed.

Theorem parses_functional code o o' : parses U code o -> parses U code o' -> o = o'.
Proof.
  intros [N [f E]] [N' [f' E']]. subst.
  destruct (Nat.le_ge_cases f f') as [L|L]; [symmetry|]; now apply parse_more.
Qed.

Theorem parses_total code : exists o, parses U code o.
Proof.
  assert (K : exists fuel, parse U fuel code <> NoFuel).
  { unfold parse. destruct (tokenize U code) as [ts|e| |] eqn:T; try (exists 0; discriminate).
    - destruct (tokenize_ends U ts code T) as (ts0 & ->). apply parse_tokens_total. reflexivity.
    - exfalso. revert T. apply tokenize_total. }
  destruct K as [fuel K]. exists (parse U fuel code). split; [exact K|now exists fuel].
Qed.

(* a panic happens at a token without text *)
Theorem parse_tokens_panic fuel ts t : is_comment t = false -> Forall (fun t => literal t <> []) ts ->
  parse_tokens U fuel (ts ++ [t]) = Panicked ->
  literal t = [] /\ exists s0 s, parser_new (ts ++ [t]) = Some s0 /\ run U prog fuel F_parse_code [] s0 = Panic s /\ get_token 0 s = Ok t s.
Proof.
  intros Ht Hts. unfold parse_tokens. destruct (start_view ts t Ht) as (s & bs & N & V & F & T). rewrite N.
  pose proof (run_code_fine fuel ts t s Ht N) as K.
  destruct (run U prog fuel F_parse_code [] s) as [v s1|e s1|s1| |] eqn:R; try discriminate.
  - destruct v; discriminate.
  - intros _. destruct K as (b & bs' & V1 & T1 & E).
    assert (b_tok b = t).
    { destruct V1 as (pre & Et & _). rewrite T1, flats_cons in Et.
      assert (I : In (b_tok b) (ts ++ [t])).
      { rewrite Et, !in_app_iff. right. left. unfold flat. rewrite in_app_iff. right. now left. }
      rewrite in_app_iff in I. destruct I as [I|[I|[]]]; [|auto]. rewrite Forall_forall in Hts. now apply Hts in I. }
    subst t. split; [exact E|]. exists s, s1. split; [reflexivity|]. split; [exact R|].
    now rewrite (get_token_view _ _ 0 V1).
Qed.

Theorem parse_panic fuel code : parse U fuel code = Panicked ->
  tokenize U code = Panicked \/
  exists ts s0 s, tokenize U code = Success (ts ++ [eof_token]) /\ parser_new (ts ++ [eof_token]) = Some s0 /\
    run U prog fuel F_parse_code [] s0 = Panic s /\ get_token 0 s = Ok eof_token s.
Proof.
  unfold parse. destruct (tokenize U code) as [ts|e| |] eqn:T; try discriminate; [|now left].
  intro P. right. destruct (tokenize_ends U ts code T) as (ts0 & ->).
  apply parse_tokens_panic in P; [|reflexivity|].
  - destruct P as [_ (s0 & s & N & R & G)]. exists ts0, s0, s. auto.
  - pose proof (tokenize_visible _ _ _ T) as V. eapply Forall_impl; [|exact V].
    intros t (c & l & Hl & _) E. congruence.
Qed.

(* errors are reported at tokens *)
Theorem parse_tokens_error fuel ts t e : is_comment t = false -> parse_tokens U fuel (ts ++ [t]) = Failure e ->
  (exists u, In u (ts ++ [t]) /\ is_comment u = false /\ e_line e = line u /\ e_column e = column u) /\
  (forall u, e_detail e = Some u -> In u (ts ++ [t]) /\ is_comment u = false).
Proof.
  intro Ht. unfold parse_tokens. destruct (start_view ts t Ht) as (s & bs & N & V & F & T). rewrite N.
  pose proof (run_moves U prog fuel F_parse_code [] s bs V) as K.
  destruct (run U prog fuel F_parse_code [] s) as [v s1|e1 s1|s1| |] eqn:R; try discriminate.
  - destruct v; discriminate.
  - intros [= ->]. cbn in K. destruct K as [(u & Hu & El & Ec) D].
    assert (W : forall u, In u (map b_tok bs) -> In u (ts ++ [t]) /\ is_comment u = false).
    { intros w Hw. rewrite <- F. rewrite <- (grouped_code_tokens bs) in Hw by (eapply view_grouped; eauto).
      unfold code_tokens in Hw. apply filter_In in Hw as [H1 H2]. split; [exact H1|]. now apply negb_true_iff. }
    split; [|intros w Hw; apply W, D, Hw].
    exists u. destruct (W u Hu). auto.
Qed.

(* ----- statements without fuel ----- *)
Lemma parses_at a b oa ob : parses U a oa -> parses U b ob ->
  exists fuel, parse U fuel a = oa /\ parse U fuel b = ob.
Proof.
  intros [Na [f Ea]] [Nb [g Eb]]. subst. exists (max f g). split; apply parse_more; auto; lia.
Qed.

Theorem parses_error code e : parses U code (Failure e) ->
  tokenize U code = Failure e \/
  exists ts, tokenize U code = Success ts /\
    (exists t, In t ts /\ is_comment t = false /\ e_line e = line t /\ e_column e = column t) /\
    (forall t, e_detail e = Some t -> In t ts /\ is_comment t = false).
Proof.
  intros [_ [fuel E]]. unfold parse in E. destruct (tokenize U code) as [ts|e'| |] eqn:T; try discriminate.
  - right. exists ts. split; [reflexivity|]. destruct (tokenize_ends U ts code T) as (ts0 & ->).
    eapply parse_tokens_error; eauto.
  - left. congruence.
Qed.

Theorem parses_comments a b tsa tsb oa ob :
  tokenize U a = Success tsa -> tokenize U b = Success tsb ->
  map literal (code_tokens tsa) = map literal (code_tokens tsb) ->
  touches (code_tokens tsa) = touches (code_tokens tsb) ->
  parses U a oa -> parses U b ob ->
  same_outcome (paired (code_tokens tsa) (code_tokens tsb)) oa ob.
Proof.
  intros Ta Tb El Et Pa Pb. destruct (parses_at _ _ _ _ Pa Pb) as (fuel & <- & <-).
  unfold parse. rewrite Ta, Tb. destruct (tokenize_ends U _ _ Ta) as (la & ->). destruct (tokenize_ends U _ _ Tb) as (lb & ->).
  now apply comments_irrelevant.
Qed.

Theorem parses_recased a b oa ob : ascii_faithful U -> recased a b -> parses U a oa -> parses U b ob ->
  match tokenize U a with Success _ => same_outcome recased_token oa ob | _ => oa = ob end.
Proof.
  intros HU R Pa Pb. destruct (parses_at _ _ _ _ Pa Pb) as (fuel & <- & <-). now apply case_irrelevant.
Qed.

Theorem parses_relaid a b ts oa ob : tables_ok U ->
  tokenize U a = Success (ts ++ [eof_token]) -> relaid a b (map literal ts) ->
  (N.of_nat (length a) < usize_max - 1)%N -> (N.of_nat (length b) < usize_max - 1)%N ->
  parses U a oa -> parses U b ob ->
  same_outcome (fun t1 t2 => literal t1 = literal t2) oa ob.
Proof.
  intros HU T R La Lb Pa Pb. destruct (parses_at _ _ _ _ Pa Pb) as (fuel & <- & <-). eapply layout_irrelevant; eauto.
Qed.

(* C34 *)
Theorem try_leaves_no_trace {fn} (call : fn -> list value -> M value) lf x f args h e vs e1 s er s' :
  eval_args U args e s = Ok (vs, e1) s -> call f vs s = Err er s' ->
  exec U call lf (Try x f args h) e s = scoped (length e1) (exec U call lf h e1) s.
Proof. intros H1 H2. cbn [exec]. rewrite H1, H2, restore_org. reflexivity. Qed.
End WithUnicode.
