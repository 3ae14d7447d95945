(* What the shape checker gives for a whole parse: the statements, each with the slice of
   the tokens it is made of. *)
From Verif Require Import Chars Token Cst Core MiniRust Lexer Program Api Bundles ParserView ParserGeneric TreeSpec
  AbsInt NodeIndex Shape ShapeSound ShapeTable ShapeCheck ParserTotal.
Local Open Scope string_scope.
Local Open Scope list_scope.
Local Notation length := List.length.
Local Notation concat := List.concat.

(* the types of top-level statements *)
Definition statement_ctx : ctx := match table F_parse_statement with c :: _ => c | [] => Ctx false None None None [] AUndef false None end.
Definition statement_types : N := match cx_ret statement_ctx with ANd d _ => types_of d | _ => 0%N end.
Lemma statement_ctx_ok : In statement_ctx (table F_parse_statement) /\
  exists d, statement_ctx = Ctx false None None None [ABo (Some true)] (ANd d false) true None /\ complete schema d = true.
Proof. split; [now left|]. eexists. split; [reflexivity|]. vm_compute. reflexivity. Qed.

Section WithUnicode.
Context (U : unicode) (HU : ascii_faithful U).

Lemma conf_mono BS BS' n : (forall b, In b BS -> In b BS') -> conf U BS schema n -> conf U BS' schema n.
Proof.
  intros M. induction n as [n IH1 IH2] using node_induction. intros [D N S K1 K2]. constructor; auto.
  - unfold deco in *. destruct (n_token n); [|exact D]. destruct D as (b & I & R). exists b. split; [auto|exact R].
  - intros k c I Ck. eapply IH1; eauto.
  - intros k l c I Ck J. eapply IH2; eauto.
Qed.

(* [n] is a statement made of the tokens of [sl], except the [L] *)
Definition made_of (bs : list bundle) (n : node) (sl : list bundle) : Prop :=
  sl <> [] /\ conf U bs schema n /\ has_type statement_types (n_type n) = true /\
  exists L, Forall (lost_ok U bs schema rules (fun w => weight w (flats bs))) L /\
    forall w, weight w (tree_tokens n) + lost_weight w L = weight w (flats sl).
Lemma made_of_mono pre bs n sl : made_of bs n sl -> made_of (pre ++ bs) n sl.
Proof.
  assert (M : forall b, In b bs -> In b (pre ++ bs)) by (intros b I; rewrite in_app_iff; now right).
  intros (Ne & C & T & L & HL & W). split; [exact Ne|]. split; [eapply conf_mono; eauto|]. split; [exact T|]. exists L. split; [|exact W].
  apply (lost_ok_mono _ _ _ _ (fun w => weight w (flats bs))).
  { intro w. unfold flats. rewrite map_app, concat_app, weight_app. lia. }
  eapply Forall_impl; [|exact HL]. intros x [(r & Ir & Hp & Hk & (Cx & Rx) & (Cy & Ry)) B]. split; [|exact B].
  exists r. refine (conj Ir (conj Hp (conj Hk (conj (conj _ Rx) (conj _ Ry))))); eapply conf_mono; eauto.
Qed.

Lemma statement_made fuel s bs v s' : view s bs -> run U prog fuel F_parse_statement [VBool true] s = Ok v s' ->
  exists n sl b rest, v = VNode n /\ view s' (b :: rest) /\ bs = sl ++ rest /\ made_of bs n sl.
Proof.
  intros V Ev. destruct statement_ctx_ok as [I (d & Ec & Cd)].
  destruct (run_shape U HU bs schema rules table prog program_shape fuel F_parse_statement statement_ctx I
    [VBool true] s bs v s' V (suffix_refl bs)) as (bs' & V' & Sx & Va & _ & L & HL & W).
  - rewrite Ec. constructor; [|constructor]. exists true. split; [reflexivity|]. now intros ? [= <-].
  - rewrite Ec. repeat split; intros; exact Logic.I.
  - exact Ev.
  - assert (Et : statement_types = types_of d) by (unfold statement_types; now rewrite Ec).
    rewrite Ec in Va, W. cbn [cx_ret cx_exit cx_used] in Va, W. destruct Va as (n & -> & No & _).
    destruct (view_cons _ _ V') as (b & rest & ->). destruct Sx as [pre E]. exists n, (pre ++ [b]), b, rest.
    split; [reflexivity|]. split; [exact V'|]. split; [rewrite E, <- app_assoc; reflexivity|].
    destruct (complete_ok _ _ _ _ _ Cd No) as (Cn & Tn & _).
    split; [destruct pre; discriminate|]. split; [exact Cn|]. split; [now rewrite Et|]. exists L. split; [exact HL|].
    intro w. specialize (W w). unfold values_weight, value_weight, rem in W. cbn [map value_tokens list_sum fold_right tl] in W.
    assert (Ef : flats bs = flats (pre ++ [b]) ++ flats rest).
    { rewrite E. unfold flats. change (b :: rest) with ([b] ++ rest). now rewrite app_assoc, map_app, concat_app. }
    rewrite weight_nil, Ef, weight_app in W. lia.
Qed.

Definition code_loop : cmd fn :=
  (LetNode "stmt" (ECall F_parse_statement [ABool (BConst true)]) ;;
   VecPush "stmts" (EVar "stmt") ;; Next)%cmd.
Lemma code_loop_ok fuel lf : forall k l s bs r s', view s bs ->
  iterate k (fun e =>
        v <- eval_cond U (CNot (CEof 0)) e ;;
        if v : bool then (r <- exec U (run U prog fuel) lf code_loop e ;; ret (after_body (length e) r))
        else ret (false, Norm, e)) [("stmts", VVec l)] s = Ok r s' ->
  exists stmts slices lst, r = (Norm, [("stmts", VVec (l ++ stmts))]) /\ view s' [lst] /\
    bs = concat slices ++ [lst] /\ Forall2 (made_of bs) stmts slices.
Proof.
  induction k as [|k IH]; intros l s bs r s' V Ev; [discriminate|].
  cbn [iterate] in Ev. apply bind_Ok in Ev as ([[go ct] e1] & s1 & E1 & Ev).
  apply bind_Ok in E1 as (v & s2 & E2 & E1).
  cbn [eval_cond] in E2. unfold bind in E2. cbn [eval_num] in E2.
  assert (E3 : v = negb (Nat.leb (length bs) 1) /\ s2 = s).
  { clear - V E2. rewrite (is_eof_view _ _ _ V) in E2. injection E2 as <- <-. auto. }
  destruct E3 as [-> ->]. destruct (Nat.leb_spec (length bs) 1) as [Le|Lt]; cbn [negb] in E1.
  - injection E1 as <- <- <- <-. cbn iota in Ev. injection Ev as <- <-.
    destruct (view_cons _ _ V) as (b & [|b1 bs1] & ->); [|cbn in Le; lia]. exists [], [], b. rewrite app_nil_r.
    split; [reflexivity|]. split; [exact V|]. split; [reflexivity|constructor].
  - apply bind_Ok in E1 as ([ct1 e2] & s3 & Ex & E1). cbn [code_loop exec] in Ex.
    apply bind_Ok in Ex as ([ct2 e3] & s4 & Ex1 & Ex). apply bind_Ok in Ex1 as ([n e4] & s5 & Ec & Ex1).
    cbn [eval_nexp] in Ec. unfold call_node in Ec. cbn [eval_args eval_bexp] in Ec. cbn [bind ret] in Ec. unfold bind, ret in Ec.
    destruct (run U prog fuel F_parse_statement [VBool true] s) as [v s6|? ?|?| |] eqn:Er; try discriminate.
    destruct (statement_made _ _ _ _ _ V Er) as (n' & sl & b & rest & -> & V' & Eb & M). injection Ec as <- <- <-.
    injection Ex1 as <- <- <-. cbn [fst snd] in Ex.
    apply bind_Ok in Ex as ([ct3 e5] & s7 & Ex1 & Ex).
    apply bind_Ok in Ex1 as ([n2 e6] & s8 & Ev2 & Ex1). cbn in Ev2. injection Ev2 as <- <- <-. cbn in Ex1. injection Ex1 as <- <- <-.
    apply bind_Ok in Ex as (tt1 & s9 & En & Ex). injection Ex as <- <- <-.
    destruct rest as [|b1 rest].
    { rewrite (next_token_end _ _ V') in En. discriminate. }
    destruct (next_token_view _ _ _ _ V') as (s10 & En' & V'' & _). rewrite En in En'. injection En' as _ <-.
    cbn in E1. injection E1 as <- <- <- <-. cbn iota in Ev.
    destruct (IH _ _ _ _ _ V'' Ev) as (stmts & slices & lst & Er' & Vl & Es & Fs).
    exists (n' :: stmts), (sl :: slices), lst. rewrite <- app_assoc in Er'. split; [exact Er'|]. split; [exact Vl|].
    split; [cbn [concat]; rewrite <- app_assoc, <- Es; exact Eb|]. constructor; [exact M|].
    rewrite Eb. clear - Fs. induction Fs; constructor; [now apply made_of_mono|assumption].
Qed.

Theorem parse_tokens_made fuel ts t bs ns : is_comment t = false -> grouped bs -> flats bs = ts ++ [t] ->
  parse_tokens U fuel (ts ++ [t]) = Success ns ->
  exists stmts slices lst, ns = stmts ++ [decorate lst (node_empty N_EOF)] /\
    bs = concat slices ++ [lst] /\ Forall2 (made_of bs) stmts slices.
Proof.
  intros Ht G Fl. unfold parse_tokens. rewrite <- Fl. destruct (parser_new_view _ G) as (s & N & V & T). rewrite N.
  destruct (run U prog fuel F_parse_code [] s) as [v s1|? ?|?| |] eqn:Er; try discriminate.
  destruct v; try discriminate. intros [= <-].
  destruct fuel as [|fuel]; [discriminate|]. cbn [run] in Er. unfold call_body in Er.
  cbn [prog parse_code f_params f_body length combine Nat.eqb] in Er.
  apply bind_Ok in Er as ([ct e1] & s2 & Ex & Er). cbn [fst] in Er. destruct ct; try discriminate. injection Er as -> <-.
  cbn [exec] in Ex. apply bind_Ok in Ex as ([ct2 e2] & s3 & Ex1 & Ex). cbn in Ex1. injection Ex1 as <- <- <-.
  apply bind_Ok in Ex as ([ct3 e3] & s4 & Ex1 & Ex). fold code_loop in Ex1.
  destruct (code_loop_ok fuel fuel fuel [] s bs (ct3, e3) s4 V Ex1) as (stmts & slices & lst & [= -> ->] & Vl & Es & Fs).
  apply bind_Ok in Ex as ([ct5 e5] & s5 & Ex2 & Ex). apply bind_Ok in Ex2 as ([n6 e6] & s6 & Ex3 & Ex2).
  cbn [eval_nexp] in Ex3. apply bind_Ok in Ex3 as (n7 & s7 & Ec & Ex3). injection Ex3 as <- <- <-.
  rewrite (construct_node_view U _ _ _ N_EOF Vl) in Ec. injection Ec as <- <-.
  cbn in Ex2. injection Ex2 as <- <- <-. cbn in Ex. injection Ex as <- _ _. exists stmts, slices, lst. auto.
Qed.
End WithUnicode.
