(* Facts that hold of every MiniRust program: the parser only moves forward, errors
   are reported at tokens, more fuel never changes a result. *)
From Verif Require Import Chars Token Cst Core MiniRust Bundles ParserView.
Local Open Scope list_scope.
Local Notation length := List.length.

(* [e] is reported at a token of [bs], and the token it quotes, if any, is one too *)
Definition located (bs : list bundle) (e : error) : Prop :=
  (exists t, In t (map b_tok bs) /\ e_line e = line t /\ e_column e = column t) /\
  (forall t, e_detail e = Some t -> In t (map b_tok bs)).

Definition suffix (bs' bs : list bundle) : Prop := exists pre, bs = pre ++ bs'.

Lemma suffix_refl bs : suffix bs bs. Proof. now exists []. Qed.
Lemma suffix_trans a b c : suffix a b -> suffix b c -> suffix a c.
Proof. intros [p ->] [q ->]. exists (q ++ p). apply app_assoc. Qed.
Lemma suffix_cons b bs bs' : suffix bs' bs -> suffix bs' (b :: bs).
Proof. intros [p ->]. now exists (b :: p). Qed.
Lemma suffix_length a b : suffix a b -> length a <= length b.
Proof. intros [p ->]. rewrite app_length. lia. Qed.
Lemma suffix_In a b t : suffix a b -> In t (map b_tok a) -> In t (map b_tok b).
Proof. intros [p ->] H. rewrite map_app, in_app_iff. now right. Qed.

Lemma located_suffix a b e : suffix a b -> located a e -> located b e.
Proof.
  intros S [(t & Ht & E) D]. split; [exists t; split; [eapply suffix_In|]; eauto|].
  intros u Hu. eapply suffix_In; eauto.
Qed.

Lemma view_nonempty s bs : view s bs -> 1 <= length bs.
Proof. intro V. destruct (view_cons _ _ V) as (b & bs' & ->). cbn. lia. Qed.

Lemma In_last (A : Type) (l : list A) d : l <> [] -> In (last l d) l.
Proof.
  intro H. destruct (exists_last H) as (l' & a & ->). rewrite last_last, in_app_iff. right. now left.
Qed.

Lemma located_eof bs : bs <> [] -> located bs (eof_error bs).
Proof.
  intro H. split; [|discriminate].
  exists (b_tok (last bs (Bundle [] eof_token []))). split; [|now split].
  apply in_map. now apply In_last.
Qed.

Lemma view_not_nil s bs : view s bs -> bs <> [].
Proof. intro V. destruct (view_cons _ _ V) as (b & bs' & ->). discriminate. Qed.

Lemma located_token bs t msg d :
  In t (map b_tok bs) -> (forall u, d = Some u -> In u (map b_tok bs)) ->
  located bs (from_token t msg d).
Proof. intros H D. split; [exists t; now repeat split|exact D]. Qed.

(* Reading code: the state is unchanged, errors are located *)
Definition reads {A} (bs : list bundle) (s : pstate) (r : res A) : Prop :=
  match r with
  | Ok _ s' => s' = s
  | Err e _ => located bs e
  | Panic s' => s' = s
  | Fuel => False
  | Stuck => True
  end.

(* Code that may move forward *)
Definition moves {A} (bs : list bundle) (s : pstate) (r : res A) : Prop :=
  match r with
  | Ok _ s' => (exists bs', suffix bs' bs /\ view s' bs') /\ tokens s' = tokens s
  | Err e _ => located bs e
  | _ => True
  end.

Lemma reads_bind {A B} bs s (m : M A) (f : A -> M B) :
  reads bs s (m s) -> (forall a, m s = Ok a s -> reads bs s (f a s)) -> reads bs s (bind m f s).
Proof. unfold bind, reads. intros H F. destruct (m s); try assumption. subst. now apply F. Qed.

Lemma reads_moves {A} bs s (r : res A) : view s bs -> reads bs s r -> moves bs s r.
Proof.
  intros V. destruct r; cbn; auto. intros ->. split; [|reflexivity]. exists bs. split; [apply suffix_refl|exact V].
Qed.

Lemma moves_bind {A B} bs s (m : M A) (f : A -> M B) :
  moves bs s (m s) ->
  (forall a s' bs', m s = Ok a s' -> suffix bs' bs -> view s' bs' -> moves bs' s' (f a s')) ->
  moves bs s (bind m f s).
Proof.
  unfold bind, moves. intros H F. destruct (m s) as [a s'|e s'|s'| |] eqn:E; try assumption.
  destruct H as ((bs' & S & V) & T). specialize (F _ _ _ eq_refl S V).
  destruct (f a s'); try assumption; try exact I.
  - destruct F as ((bs2 & S2 & V2) & T2). split; [|congruence]. exists bs2.
    split; [eapply suffix_trans|]; eauto.
  - eapply located_suffix; eauto.
Qed.

Lemma moves_ret {A} bs s (a : A) : view s bs -> moves bs s (ret a s).
Proof. intro V. split; [|reflexivity]. exists bs. split; [apply suffix_refl|exact V]. Qed.

Section WithUnicode.
Context (U : unicode).

Lemma get_token_reads s bs k : view s bs -> reads bs s (get_token k s).
Proof.
  intro V. rewrite (get_token_view _ _ _ V).
  destruct (nth_error bs k); [reflexivity|]. apply located_eof. eapply view_not_nil; eauto.
Qed.

Lemma get_token_In s bs k t : view s bs -> get_token k s = Ok t s -> In t (map b_tok bs).
Proof.
  intro V. rewrite (get_token_view _ _ _ V).
  destruct (nth_error bs k) eqn:E; [|discriminate]. intros [= <-].
  apply in_map. eapply nth_error_In; eauto.
Qed.

Lemma get_precedence_reads s bs k : view s bs -> reads bs s (get_precedence U k s).
Proof.
  intro V. unfold get_precedence. apply reads_bind; [now apply get_token_reads|]. intros t _.
  repeat match goal with |- reads _ _ ((if ?c then _ else _) _) => destruct c; [try reflexivity|] end;
    try reflexivity.
  apply reads_bind; [now apply get_token_reads|]. intros t1 _.
  destruct (mem_str _ _); [reflexivity|]. destruct (mem_str _ _); [reflexivity|].
  apply reads_bind; [now apply get_token_reads|]. intros t2 H2.
  apply reads_bind; [now apply get_token_reads|]. intros t3 H3.
  apply located_token; [eapply get_token_In; eauto|].
  intros u [= <-]. eapply get_token_In; eauto.
Qed.

Lemma eval_cond_reads c e s bs : view s bs -> reads bs s (eval_cond U c e s).
Proof.
  intro V. revert e. induction c; intro e; cbn [eval_cond];
    try (destruct (env_get _ _) as [[]|]; (exact I || reflexivity)).
  - reflexivity.
  - apply reads_bind; [now apply get_token_reads|]. intros t _. destruct p; try reflexivity.
    cbn [eval_tpred]. destruct (env_get _ _) as [[]|]; (exact I || reflexivity).
  - rewrite (is_eof_view _ _ _ V). reflexivity.
  - apply reads_bind; [apply IHc|]. reflexivity.
  - apply reads_bind; [apply IHc1|]. intros [] _; [apply IHc2|reflexivity].
  - apply reads_bind; [apply IHc1|]. intros [] _; [reflexivity|apply IHc2].
  - apply reads_bind; [now apply get_precedence_reads|]. intros p _.
    destruct (env_get _ _) as [[]|]; (exact I || reflexivity).
  - apply reads_bind; [now apply get_token_reads|]. intros t _. destruct (first_char _); reflexivity.
  - apply reads_bind; [now apply get_token_reads|]. intros t _. destruct (last_char _); reflexivity.
  - rewrite (get_token_view _ _ _ V). destruct (nth_error _ _); reflexivity.
  - apply reads_bind; [now apply get_token_reads|]. intros t _.
    apply reads_bind; [now apply get_token_reads|]. reflexivity.
  - destruct (view_cons _ _ V) as (b & bs' & ->). rewrite (paren_opens_query_view _ _ _ _ V).
    destruct (paren_view _ _); [reflexivity|]. apply located_eof. discriminate.
Qed.

Lemma eval_num_reads n e s bs : view s bs -> reads bs s (eval_num U n e s).
Proof.
  intro V. destruct n; cbn [eval_num]; try reflexivity.
  - destruct (env_get _ _) as [[]|]; (exact I || reflexivity).
  - now apply get_precedence_reads.
Qed.

Lemma set_or_stuck_reads x v e s bs : reads bs s (set_or_stuck x v e s).
Proof. unfold set_or_stuck. destruct (env_set _ _ _); [reflexivity|exact I]. Qed.

Lemma take_node_reads x e s bs : reads bs s (take_node x e s).
Proof.
  unfold take_node. destruct (env_get _ _) as [[]|]; try exact I.
  apply reads_bind; [apply set_or_stuck_reads|]. reflexivity.
Qed.
Lemma take_vec_reads x e s bs : reads bs s (take_vec x e s).
Proof.
  unfold take_vec. destruct (env_get _ _) as [[]|]; try exact I.
  apply reads_bind; [apply set_or_stuck_reads|]. reflexivity.
Qed.

Lemma with_node_reads x f e s bs : reads bs s (with_node x f e s).
Proof. unfold with_node. destruct (env_get _ _) as [[]|]; try exact I. apply set_or_stuck_reads. Qed.

Lemma norm_reads m s bs : reads bs s (m s) -> reads bs s (norm m s).
Proof. intro H. unfold norm. apply reads_bind; [exact H|]. reflexivity. Qed.

Lemma construct_node_reads ty s bs : view s bs -> reads bs s (construct_node U ty s).
Proof.
  intro V. destruct (view_cons _ _ V) as (b & bs' & ->). rewrite (construct_node_view _ _ _ _ _ V).
  destruct (constructed _ _ _ _); [reflexivity|]. apply located_eof. discriminate.
Qed.

Lemma next_token_moves s bs : view s bs -> moves bs s (next_token s).
Proof.
  intro V. destruct (view_cons _ _ V) as (b & bs' & ->). destruct bs' as [|b' bs'].
  - rewrite (next_token_end _ _ V). apply located_eof. discriminate.
  - destruct (next_token_view _ _ _ _ V) as (s' & -> & V' & T). split; [|exact T].
    exists (b' :: bs'). split; [apply suffix_cons, suffix_refl|exact V'].
Qed.

Section Exec.
Context {fn : Type}.

Lemma eval_args_reads args e s bs : view s bs -> reads bs s (eval_args U args e s).
Proof.
  intro V. revert e. induction args as [|a args IH]; intro e; cbn [eval_args]; [reflexivity|].
  apply reads_bind.
  - destruct a.
    + destruct (eval_bexp _ _); [reflexivity|exact I].
    + apply reads_bind; [now apply eval_num_reads|]. reflexivity.
    + reflexivity.
    + apply reads_bind; [apply take_node_reads|]. reflexivity.
  - intros [v e1] _. apply reads_bind; [apply IH|]. intros [vs e2] _. reflexivity.
Qed.

Variable call : fn -> list value -> M value.
Variable lf : nat.
Hypothesis call_moves : forall f vs s bs, view s bs -> moves bs s (call f vs s).

Lemma call_node_moves f args e s bs : view s bs -> moves bs s (call_node U call f args e s).
Proof.
  intro V. unfold call_node. apply moves_bind; [now apply reads_moves, eval_args_reads|].
  intros [vs e1] s1 bs1 _ S1 V1. apply moves_bind; [now apply call_moves|].
  intros v s2 bs2 _ S2 V2. destruct v; try exact I. now apply moves_ret.
Qed.

Lemma eval_nexp_moves x e s bs : view s bs -> moves bs s (eval_nexp U call x e s).
Proof.
  intro V. destruct x; cbn [eval_nexp].
  - apply moves_bind; [now apply reads_moves, construct_node_reads|]. intros. now apply moves_ret.
  - now apply call_node_moves.
  - now apply reads_moves, take_node_reads.
  - now apply moves_ret.
  - destruct (env_get _ _) as [[]|]; try exact I. destruct (rev ns); [exact I|].
    apply moves_bind; [now apply reads_moves, set_or_stuck_reads|]. intros. now apply moves_ret.
Qed.

Lemma eval_nexps_moves xs : forall e s bs, view s bs -> moves bs s (eval_nexps U call xs e s).
Proof.
  induction xs as [|x xs IH]; intros e s bs V; cbn [eval_nexps]; [now apply moves_ret|].
  apply moves_bind; [now apply eval_nexp_moves|]. intros [n e1] s1 bs1 _ S1 V1.
  apply moves_bind; [now apply IH|]. intros [ns e2] s2 bs2 _ S2 V2. now apply moves_ret.
Qed.

Lemma eval_vexp_moves x e s bs : view s bs -> moves bs s (eval_vexp U call x e s).
Proof.
  intro V. destruct x; cbn [eval_vexp].
  - now apply moves_ret.
  - now apply reads_moves, take_vec_reads.
  - apply moves_bind; [now apply reads_moves, eval_args_reads|].
    intros [vs e1] s1 bs1 _ S1 V1. apply moves_bind; [now apply call_moves|].
    intros w s2 bs2 _ S2 V2. destruct w; try exact I. now apply moves_ret.
  - now apply eval_nexps_moves.
Qed.

Lemma iterate_moves n step :
  (forall e s bs, view s bs -> moves bs s (step e s)) ->
  forall e s bs, view s bs -> moves bs s (iterate n step e s).
Proof.
  intro H. induction n as [|n IH]; intros e s bs V; cbn [iterate]; [exact I|].
  apply moves_bind; [now apply H|]. intros [[go c] e'] s' bs' _ S V'.
  destruct go; [now apply IH|now apply moves_ret].
Qed.

Lemma repeat_moves n body :
  (forall e s bs, view s bs -> moves bs s (body e s)) ->
  forall e s bs, view s bs -> moves bs s (repeat_body n body e s).
Proof.
  intro H. induction n as [|n IH]; intros e s bs V; cbn [repeat_body]; [now apply moves_ret|].
  apply moves_bind; [now apply H|]. intros r s' bs' _ S V'.
  destruct (after_body _ _) as [[[] c] e']; [now apply IH|now apply moves_ret].
Qed.

Lemma scoped_moves n m s bs : moves bs s (m s) -> moves bs s (scoped n m s).
Proof. intro H. unfold scoped. apply moves_bind; [exact H|]. intros. now apply moves_ret. Qed.

Lemma restore_org org s : restore org s = org.
Proof. destruct org. reflexivity. Qed.

Ltac step := first
  [ apply moves_bind; [first [now apply eval_nexp_moves|now apply eval_vexp_moves
      |now apply reads_moves, eval_cond_reads|now apply reads_moves, eval_num_reads
      |now apply reads_moves, get_token_reads|now apply next_token_moves
      |apply reads_moves; [assumption|apply set_or_stuck_reads]]|intros ? ? ? _ ? ?]
  | now apply moves_ret
  | exact I
  | apply reads_moves; [assumption|]; apply norm_reads;
      first [apply set_or_stuck_reads|apply with_node_reads]
  | apply scoped_moves ].

Lemma fail_moves {A} k msg d s bs : view s bs ->
  @moves A bs s (bind (get_token k) (fun t => match d with
      | None => fail_ (from_token t msg None)
      | Some k' => bind (get_token k') (fun t' => fail_ (from_token t msg (Some t')))
      end) s).
Proof.
  intro V.
  pose proof (get_token_reads s bs k V) as R. unfold bind.
  destruct (get_token k s) as [t s'|er s'|s'| |] eqn:E; cbn in R; try exact I; try assumption.
  subst s'. destruct d as [k'|].
  - pose proof (get_token_reads s bs k' V) as R'.
    destruct (get_token k' s) as [t' s'|er s'|s'| |] eqn:E'; cbn in R'; try exact I; try assumption.
    subst s'. apply located_token; [eapply get_token_In; eauto|].
    intros u [= <-]. eapply get_token_In; eauto.
  - apply located_token; [eapply get_token_In; eauto|]. discriminate.
Qed.

Lemma exec_moves c : forall en s bs, view s bs -> moves bs s (exec U call lf c en s).
Proof.
  induction c; intros en s bs V; cbn [exec];
    try (match goal with |- moves _ _ (bind (get_token ?k) (fun t => match ?d with _ => _ end) _) =>
           now apply fail_moves end); repeat step.
  - apply moves_bind; [now apply IHc1|]. intros [[] e'] s' bs' _ S V'; try now apply moves_ret.
    now apply IHc2.
  - destruct (env_get _ _) as [[]|]; repeat step.
  - destruct a; [now apply IHc1|now apply IHc2].
  - destruct (mem_pats _ _); [now apply IHc1|now apply IHc2].
  - destruct (mem_pats _ _); [now apply IHc1|now apply IHc2].
  - destruct (env_get _ _) as [[]|]; repeat step.
    destruct (mem_pats _ _); [now apply IHc1|now apply IHc2].
  - apply iterate_moves; [|assumption]. intros e' s' bs' V'. repeat step.
    destruct a; repeat step. apply moves_bind; [now apply IHc|]. intros. now apply moves_ret.
  - apply iterate_moves; [|assumption]. intros e' s' bs' V'.
    destruct (env_get _ _) as [[]|]; repeat step. destruct (rev ns); repeat step.
    apply moves_bind; [now apply IHc|]. intros. now apply moves_ret.
  - destruct (env_get _ _) as [[]|]; repeat step. apply repeat_moves; assumption.
  - pose proof (eval_args_reads args en s bs V) as R.
    destruct (eval_args U args en s) as [[vs e1] s1|er s1|s1| |]; cbn in R; try exact I; try assumption.
    subst s1. pose proof (call_moves f vs s bs V) as C.
    destruct (call f vs s) as [v s2|er s2|s2| |]; cbn in C; try exact I; try assumption.
    + destruct C as ((bs2 & S2 & V2) & T2). destruct v; try exact I.
      assert (K : moves bs2 s2 (norm (set_or_stuck x (VNode n) e1) s2)).
      { apply reads_moves; [assumption|]. apply norm_reads, set_or_stuck_reads. }
      destruct (norm _ _); cbn in K |- *; try exact I; try assumption.
      * destruct K as ((bs3 & S3 & V3) & T3). split; [|congruence]. exists bs3.
        split; [eapply suffix_trans|]; eauto.
      * eapply located_suffix; eauto.
    + rewrite restore_org. apply scoped_moves. now apply IHc.
Qed.
End Exec.

Theorem run_moves {fn} (prog : fn -> fundef fn) fuel : forall f vs s bs,
  view s bs -> moves bs s (run U prog fuel f vs s).
Proof.
  induction fuel as [|fuel IH]; intros f vs s bs V; cbn [run]; [exact I|].
  unfold call_body. destruct (Nat.eqb _ _); [|exact I].
  apply moves_bind; [now apply exec_moves|]. intros [c e'] s' bs' _ S V'. cbn [fst].
  destruct c; try exact I. now apply moves_ret.
Qed.

(* ----- more fuel ----- *)
(* [r] is at most as defined as [r'] *)
Definition less {A} (r r' : res A) : Prop := r = Fuel \/ r = r'.

Lemma less_refl {A} (r : res A) : less r r. Proof. now right. Qed.
Lemma less_bind {A B} (m m' : M A) (f f' : A -> M B) s :
  less (m s) (m' s) -> (forall a s', less (f a s') (f' a s')) -> less (bind m f s) (bind m' f' s).
Proof.
  intros [H|H] F; unfold bind.
  - rewrite H. now left.
  - rewrite H. destruct (m' s); try apply less_refl. apply F.
Qed.

Section Mono.
Context {fn : Type}.
Variables call call' : fn -> list value -> M value.
Variables lf lf' : nat.
Hypothesis call_less : forall f vs s, less (call f vs s) (call' f vs s).
Hypothesis lf_le : lf <= lf'.

Lemma call_node_less f args e s : less (call_node U call f args e s) (call_node U call' f args e s).
Proof.
  unfold call_node. apply less_bind; [apply less_refl|]. intros [vs e1] s1.
  apply less_bind; [apply call_less|]. intros. apply less_refl.
Qed.
Lemma eval_nexp_less x e s : less (eval_nexp U call x e s) (eval_nexp U call' x e s).
Proof. destruct x; cbn [eval_nexp]; try apply less_refl. apply call_node_less. Qed.
Lemma eval_nexps_less xs : forall e s, less (eval_nexps U call xs e s) (eval_nexps U call' xs e s).
Proof.
  induction xs as [|x xs IH]; intros e s; cbn [eval_nexps]; [apply less_refl|].
  apply less_bind; [apply eval_nexp_less|]. intros [n e1] s1.
  apply less_bind; [apply IH|]. intros. apply less_refl.
Qed.
Lemma eval_vexp_less x e s : less (eval_vexp U call x e s) (eval_vexp U call' x e s).
Proof.
  destruct x; cbn [eval_vexp]; try apply less_refl.
  - apply less_bind; [apply less_refl|]. intros [vs e1] s1.
    apply less_bind; [apply call_less|]. intros. apply less_refl.
  - apply eval_nexps_less.
Qed.

Lemma iterate_less n n' step step' : n <= n' ->
  (forall e s, less (step e s) (step' e s)) ->
  forall e s, less (iterate n step e s) (iterate n' step' e s).
Proof.
  intros Hn H. revert n' Hn. induction n as [|n IH]; intros n' Hn e s; [now left|].
  destruct n' as [|n']; [lia|]. cbn [iterate]. apply less_bind; [apply H|].
  intros [[go c] e'] s'. destruct go; [apply IH; lia|apply less_refl].
Qed.
Lemma repeat_less n body body' :
  (forall e s, less (body e s) (body' e s)) ->
  forall e s, less (repeat_body n body e s) (repeat_body n body' e s).
Proof.
  intros H. induction n as [|n IH]; intros e s; cbn [repeat_body]; [apply less_refl|].
  apply less_bind; [apply H|]. intros r s'.
  destruct (after_body _ _) as [[[] c] e']; [apply IH|apply less_refl].
Qed.

Lemma exec_less c : forall en s, less (exec U call lf c en s) (exec U call' lf' c en s).
Proof.
  induction c; intros en s; cbn [exec]; try apply less_refl;
    try (apply less_bind; [first [apply eval_nexp_less|apply eval_vexp_less]|intros; apply less_refl]).
  - apply less_bind; [apply IHc1|]. intros [[] e'] s'; try apply less_refl. apply IHc2.
  - apply less_bind; [apply less_refl|]. intros b s'. apply less_bind; [|intros; apply less_refl].
    destruct b; [apply IHc1|apply IHc2].
  - apply less_bind; [apply less_refl|]. intros b s'. apply less_bind; [|intros; apply less_refl].
    destruct (mem_pats _ _); [apply IHc1|apply IHc2].
  - apply less_bind; [apply less_refl|]. intros b s'. apply less_bind; [|intros; apply less_refl].
    destruct (mem_pats _ _); [apply IHc1|apply IHc2].
  - destruct (env_get _ _) as [[]|]; try apply less_refl.
    apply less_bind; [|intros; apply less_refl].
    destruct (mem_pats _ _); [apply IHc1|apply IHc2].
  - apply iterate_less; [exact lf_le|]. intros e' s'.
    apply less_bind; [apply less_refl|]. intros [] s2; [|apply less_refl].
    apply less_bind; [apply IHc|]. intros; apply less_refl.
  - apply iterate_less; [exact lf_le|]. intros e' s'.
    destruct (env_get _ _) as [[]|]; try apply less_refl. destruct (rev ns); [apply less_refl|].
    apply less_bind; [apply less_refl|]. intros e1 s1.
    apply less_bind; [apply IHc|]. intros; apply less_refl.
  - destruct (env_get _ _) as [[]|]; try apply less_refl. now apply repeat_less.
  - destruct (eval_args U args en s) as [[vs e1] s1|er s1|s1| |]; try apply less_refl.
    destruct (call_less f vs s1) as [->| ->]; [now left|].
    destruct (call' f vs s1) as [v s2|er s2|s2| |]; try apply less_refl.
    apply less_bind; [apply IHc|]. intros. apply less_refl.
Qed.
End Mono.

Theorem run_less {fn} (prog : fn -> fundef fn) n n' : n <= n' -> forall f vs s,
  less (run U prog n f vs s) (run U prog n' f vs s).
Proof.
  revert n'. induction n as [|n IH]; intros n' Hn f vs s; [now left|].
  destruct n' as [|n']; [lia|]. cbn [run]. unfold call_body.
  destruct (Nat.eqb _ _); [|apply less_refl].
  apply less_bind; [|intros; apply less_refl].
  apply exec_less; [intros; apply IH|]; lia.
Qed.
End WithUnicode.
