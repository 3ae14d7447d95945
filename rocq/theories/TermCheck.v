(* A syntactic check of MiniRust programs under which every run ends: loops consume a
   token in each iteration, and a function calls only functions of lower rank before it
   has consumed a token. *)
From Verif Require Import Chars Token Cst Core MiniRust Bundles ParserView ParserGeneric.
Local Open Scope list_scope.
Local Notation length := List.length.

Section Check.
Context {fn : Type}.
Variable rank : fn -> nat.

(* [a]: whether a token has been consumed since the start of the function; the calls
   made before that have rank below r *)
Definition low_nexp (r : nat) (a : bool) (e : nexp fn) : bool :=
  match e with ECall f _ => a || (rank f <? r) | _ => true end.
Definition low_vexp (r : nat) (a : bool) (v : vexp fn) : bool :=
  match v with
  | XCall f _ => a || (rank f <? r)
  | XList es => forallb (low_nexp r a) es
  | _ => true
  end.

(* whether a token has been consumed when the command completes normally *)
Fixpoint adv (c : cmd fn) (a : bool) : bool :=
  match c with
  | Seq c1 c2 => adv c2 (adv c1 a)
  | Next | Break | Fail _ _ _ | Return _ | ReturnVec _ => true
  | If _ c1 c2 | CaseUpper _ _ c1 c2 | CaseLiteral _ _ c1 c2 | CaseVar _ _ c1 c2 => adv c1 a && adv c2 a
  | Try _ f _ h => a
  | _ => a
  end.

Definition mentions_arg (v : string) (a : arg) : bool :=
  match a with ANode x => String.eqb v x | _ => false end.
Definition mentions_nexp (v : string) (e : nexp fn) : bool :=
  match e with
  | EConstruct _ | EEmpty _ => false
  | ECall _ args => existsb (mentions_arg v) args
  | EVar x | EPop x => String.eqb v x
  end.
(* v is neither bound nor changed; only simple commands are recognised *)
Fixpoint leaves (v : string) (c : cmd fn) : bool :=
  match c with
  | Skip | Next => true
  | Seq c1 c2 => leaves v c1 && leaves v c2
  | SetNode x e | Push x _ e => negb (String.eqb v x) && negb (mentions_nexp v e)
  | SetType x _ => negb (String.eqb v x)
  | _ => false
  end.

(* r: the rank of the function whose body this is *)
Fixpoint term_ok (r : nat) (c : cmd fn) (a : bool) : bool :=
  match c with
  | Seq c1 c2 => term_ok r c1 a && term_ok r c2 (adv c1 a)
  | LetNode _ e | SetNode _ e | Push _ _ e | VecPush _ e | Return e => low_nexp r a e
  | LetVec _ v | SetVec _ v | PushVec _ _ v | ReturnVec v => low_vexp r a v
  | If _ c1 c2 | CaseUpper _ _ c1 c2 | CaseLiteral _ _ c1 c2 | CaseVar _ _ c1 c2 =>
      term_ok r c1 a && term_ok r c2 a
  | While _ b => term_ok r b a && adv b false
  | WhilePop x v b => term_ok r b a && leaves v b && negb (String.eqb v x)
  | ForFrom1 _ b => term_ok r b a
  | Try _ f _ h => (a || (rank f <? r)) && term_ok r h a
  | _ => true
  end.
End Check.

(* ----- environments ----- *)
Lemma env_set_names x v e e' : env_set x v e = Some e' -> map fst e' = map fst e.
Proof.
  revert e'. induction e as [|[y w] e IH]; intros e' H; cbn [env_set] in H; [discriminate|].
  destruct (String.eqb x y); [injection H as <-; reflexivity|].
  destruct (env_set x v e) as [e2|]; [|discriminate]. injection H as <-. cbn. f_equal. now apply IH.
Qed.
Lemma env_set_get x y v e e' : env_set x v e = Some e' ->
  env_get y e' = if String.eqb y x then Some v else env_get y e.
Proof.
  revert e'. induction e as [|[z w] e IH]; intros e' H; cbn [env_set] in H; [discriminate|].
  destruct (String.eqb_spec x z) as [->|Hx].
  - injection H as <-. cbn [env_get]. destruct (String.eqb y z); reflexivity.
  - destruct (env_set x v e) as [e2|]; [|discriminate]. injection H as <-. cbn [env_get].
    destruct (String.eqb_spec y z) as [->|Hy].
    + destruct (String.eqb_spec z x); [congruence|reflexivity].
    + now apply IH.
Qed.

Section WithUnicode.
Context (U : unicode).
Context {fn : Type}.

(* a changed environment with the same names and the same value of v *)
Definition keeps (v : string) (e e' : env) : Prop := map fst e' = map fst e /\ env_get v e' = env_get v e.
Lemma keeps_refl v e : keeps v e e. Proof. now split. Qed.
Lemma keeps_trans v e1 e2 e3 : keeps v e1 e2 -> keeps v e2 e3 -> keeps v e1 e3.
Proof. intros [] []. split; congruence. Qed.

Lemma bind_ok {A B} (m : M A) (f : A -> M B) s b s' : bind m f s = Ok b s' ->
  exists a s1, m s = Ok a s1 /\ f a s1 = Ok b s'.
Proof. unfold bind. destruct (m s); try discriminate. eauto. Qed.

Lemma set_keeps v x w e s e' s' : String.eqb v x = false -> set_or_stuck x w e s = Ok e' s' -> keeps v e e'.
Proof.
  unfold set_or_stuck. intros Hv. destruct (env_set x w e) as [e2|] eqn:E; [|discriminate].
  intros [= <- <-]. split; [eapply env_set_names; eauto|]. rewrite (env_set_get _ _ _ _ _ E), Hv. reflexivity.
Qed.
Lemma take_keeps v x e s n e' s' : String.eqb v x = false -> take_node x e s = Ok (n, e') s' -> keeps v e e'.
Proof.
  unfold take_node. intros Hv H. destruct (env_get x e) as [[]|]; try discriminate.
  apply bind_ok in H as (e2 & s1 & H1 & H2). injection H2 as <- <- <-. eapply set_keeps; eauto.
Qed.
Lemma args_keeps v args : forall e s vs e' s', existsb (mentions_arg v) args = false ->
  eval_args U args e s = Ok (vs, e') s' -> keeps v e e'.
Proof.
  induction args as [|a args IH]; intros e s vs e' s' Hm H; cbn [eval_args] in H.
  - injection H as <- <- <-. apply keeps_refl.
  - cbn [existsb] in Hm. apply orb_false_elim in Hm as [Ha Hm].
    apply bind_ok in H as ([w e1] & s1 & H1 & H). apply bind_ok in H as ([ws e2] & s2 & H2 & H).
    injection H as <- <- <-. eapply keeps_trans; [|eapply IH; eauto].
    destruct a.
    + destruct (eval_bexp _ _); [|discriminate]. injection H1 as <- <- <-. apply keeps_refl.
    + apply bind_ok in H1 as (k & s3 & _ & H1). injection H1 as <- <- <-. apply keeps_refl.
    + injection H1 as <- <- <-. apply keeps_refl.
    + apply bind_ok in H1 as ([k e3] & s3 & H0 & H1). injection H1 as <- <- <-.
      eapply take_keeps; [|exact H0]. exact Ha.
Qed.

Section Exec.
Variable call : fn -> list value -> M value.
Variable lf : nat.

Lemma nexp_keeps v x e s n e' s' : mentions_nexp v x = false ->
  eval_nexp U call x e s = Ok (n, e') s' -> keeps v e e'.
Proof.
  intros Hm H. destruct x; cbn [eval_nexp mentions_nexp] in *.
  - apply bind_ok in H as (k & s1 & _ & H). injection H as <- <- <-. apply keeps_refl.
  - unfold call_node in H. apply bind_ok in H as ([vs e1] & s1 & H1 & H).
    apply bind_ok in H as (w & s2 & _ & H). destruct w; try discriminate. injection H as <- <- <-.
    eapply args_keeps; eauto.
  - eapply take_keeps; eauto.
  - injection H as <- <- <-. apply keeps_refl.
  - destruct (env_get _ _) as [[]|]; try discriminate. destruct (rev ns); [discriminate|].
    apply bind_ok in H as (e2 & s1 & H1 & H). injection H as <- <- <-. eapply set_keeps; eauto.
Qed.
Lemma with_keeps v x f e s e' s' : String.eqb v x = false -> with_node x f e s = Ok e' s' -> keeps v e e'.
Proof.
  unfold with_node. intros Hv. destruct (env_get _ _) as [[]|]; try discriminate. now apply set_keeps.
Qed.
Lemma norm_ok m s ct e s' : norm m s = Ok (ct, e) s' -> ct = Norm /\ m s = Ok e s'.
Proof. unfold norm. intro H. apply bind_ok in H as (e1 & s1 & H1 & H). injection H as <- <- <-. auto. Qed.

Lemma leaves_keeps v c : leaves v c = true -> forall e s ct e' s',
  exec U call lf c e s = Ok (ct, e') s' -> ct = Norm /\ keeps v e e'.
Proof.
  induction c; intros Hl en st ct en' st' H; try discriminate Hl; cbn [exec leaves] in *.
  - injection H as <- <- <-. split; [reflexivity|apply keeps_refl].
  - apply andb_true_iff in Hl as [L1 L2]. apply bind_ok in H as ([ct1 e1] & s1 & H1 & H).
    destruct (IHc1 L1 _ _ _ _ _ H1) as [-> K1]. destruct (IHc2 L2 _ _ _ _ _ H) as [-> K2].
    split; [reflexivity|eapply keeps_trans; eauto].
  - apply andb_true_iff in Hl as [L1 L2]. apply negb_true_iff in L1, L2.
    apply bind_ok in H as ([n e1] & s1 & H1 & H). apply norm_ok in H as [-> H].
    split; [reflexivity|]. eapply keeps_trans; [eapply nexp_keeps; eauto|eapply set_keeps; eauto].
  - apply bind_ok in H as (u & s1 & H1 & H). injection H as <- <- <-. split; [reflexivity|apply keeps_refl].
  - apply andb_true_iff in Hl as [L1 L2]. apply negb_true_iff in L1, L2.
    apply bind_ok in H as ([n e1] & s1 & H1 & H). apply norm_ok in H as [-> H].
    split; [reflexivity|]. eapply keeps_trans; [eapply nexp_keeps; eauto|eapply with_keeps; eauto].
  - apply negb_true_iff in Hl. apply norm_ok in H as [-> H]. split; [reflexivity|eapply with_keeps; eauto].
Qed.

(* ----- progress ----- *)
Variable call_moves : forall f vs s bs, view s bs -> moves bs s (call f vs s).

(* [a] tells whether fewer than n tokens are left *)
Definition left (n : nat) (a : bool) (bs : list bundle) : Prop :=
  if a then length bs < n else length bs <= n.
Lemma left_weaken n a bs : left n a bs -> left n false bs.
Proof. destruct a; cbn; lia. Qed.
Lemma left_suffix n a bs bs' : suffix bs' bs -> left n a bs -> left n a bs'.
Proof. intros S. apply suffix_length in S. destruct a; cbn; lia. Qed.
Lemma left_mono n a b bs : (b = true -> a = true) -> left n a bs -> left n b bs.
Proof. destruct a, b; cbn; intros; try lia. Qed.

Lemma next_left s bs s' u n a : view s bs -> left n a bs -> next_token s = Ok u s' ->
  exists bs', suffix bs' bs /\ view s' bs' /\ left n true bs'.
Proof.
  intros V L H. destruct (view_cons _ _ V) as (b & bs' & ->). destruct bs' as [|b' bs'].
  - rewrite (next_token_end _ _ V) in H. discriminate.
  - destruct (next_token_view _ _ _ _ V) as (s2 & E & V' & _). rewrite E in H. injection H as <- <-.
    exists (b' :: bs'). split; [apply suffix_cons, suffix_refl|]. split; [exact V'|].
    cbn [left]. apply left_weaken in L. cbn [length left] in *. lia.
Qed.

Lemma exec_progress c : forall n a e s bs ct e' s', view s bs -> left n a bs ->
  exec U call lf c e s = Ok (ct, e') s' ->
  exists bs', suffix bs' bs /\ view s' bs' /\ (ct = Norm -> left n (adv c a) bs').
Proof.
  assert (D : forall c n a e s bs ct e' s', view s bs -> left n a bs ->
    exec U call lf c e s = Ok (ct, e') s' ->
    exists bs', suffix bs' bs /\ view s' bs' /\ left n a bs').
  { clear c. intros c n a e s bs ct e' s' V L H. pose proof (exec_moves U call lf call_moves c e s bs V) as Mv.
    rewrite H in Mv. destruct Mv as ((bs' & S' & V') & _). exists bs'. repeat split; auto. eapply left_suffix; eauto. }
  assert (Sc : forall n a b e s bs k c0 ct e' s' (b0 : bool),
    (b = true -> b0 = true) -> view s bs ->
    (forall ct1 e1 s1, exec U call lf c0 e s = Ok (ct1, e1) s1 ->
       exists bs', suffix bs' bs /\ view s1 bs' /\ (ct1 = Norm -> left n b0 bs')) ->
    scoped k (exec U call lf c0 e) s = Ok (ct, e') s' ->
    left n a bs -> exists bs', suffix bs' bs /\ view s' bs' /\ (ct = Norm -> left n b bs')).
  { intros n a b e s bs k c0 ct e' s' b0 Hb V K H L. apply bind_ok in H as ([ct1 e1] & s1 & H1 & H).
    injection H as <- <- <-. destruct (K _ _ _ H1) as (bs' & S' & V' & L'). exists bs'. repeat split; auto.
    intro E. eapply left_mono; [exact Hb|auto]. }
  induction c; intros n0 a0 en st bs ct en' st' V L H;
    try (destruct (D _ _ _ _ _ _ _ _ _ V L H) as (bs' & S' & V' & L'); exists bs'; repeat split; auto; fail);
    try (destruct (D _ _ _ _ _ _ _ _ _ V L H) as (bs' & S' & V' & L'); exists bs'; repeat split; auto;
         cbn [exec] in H; unfold bind in H;
         repeat match type of H with match ?m with _ => _ end = _ => destruct m; try discriminate H end;
         injection H as <- <- <-; discriminate).
  - cbn [exec] in H. apply bind_ok in H as ([ct1 e1] & s1 & H1 & H).
    destruct (IHc1 _ _ _ _ _ _ _ _ V L H1) as (bs1 & S1 & V1 & L1).
    destruct ct1 as [| |w].
    + destruct (IHc2 _ _ _ _ _ _ _ _ V1 (L1 eq_refl) H) as (bs2 & S2 & V2 & L2).
      exists bs2. split; [eapply suffix_trans; eauto|]. auto.
    + injection H as <- <- <-. exists bs1. repeat split; auto. discriminate.
    + injection H as <- <- <-. exists bs1. repeat split; auto. discriminate.
  - cbn [exec] in H. apply bind_ok in H as (u & s1 & H1 & H). injection H as <- <- <-.
    destruct (next_left _ _ _ _ _ _ V L H1) as (bs' & S' & V' & L'). exists bs'. auto.
  - cbn [exec] in H. apply bind_ok in H as (b & s1 & H1 & H).
    match type of H1 with eval_cond _ ?q _ _ = _ => pose proof (eval_cond_reads U q en st bs V) as R end.
    rewrite H1 in R. cbn in R. subst s1.
    cbn [adv]. destruct b.
    + match type of H with scoped _ (exec _ _ _ ?q _) _ = _ =>
        eapply (Sc n0 a0 _ en st bs _ q ct en' st' (adv q a0)); [|exact V| |exact H|exact L]; eauto end.
      intro E. now apply andb_true_iff in E.
    + match type of H with scoped _ (exec _ _ _ ?q _) _ = _ =>
        eapply (Sc n0 a0 _ en st bs _ q ct en' st' (adv q a0)); [|exact V| |exact H|exact L]; eauto end.
      intro E. now apply andb_true_iff in E.
  - cbn [exec] in H. apply bind_ok in H as (b & s1 & H1 & H).
    pose proof (get_token_reads st bs k V) as R. rewrite H1 in R. cbn in R. subst s1.
    cbn [adv]. destruct (mem_pats _ _).
    + match type of H with scoped _ (exec _ _ _ ?q _) _ = _ =>
        eapply (Sc n0 a0 _ en st bs _ q ct en' st' (adv q a0)); [|exact V| |exact H|exact L]; eauto end.
      intro E. now apply andb_true_iff in E.
    + match type of H with scoped _ (exec _ _ _ ?q _) _ = _ =>
        eapply (Sc n0 a0 _ en st bs _ q ct en' st' (adv q a0)); [|exact V| |exact H|exact L]; eauto end.
      intro E. now apply andb_true_iff in E.
  - cbn [exec] in H. apply bind_ok in H as (b & s1 & H1 & H).
    pose proof (get_token_reads st bs k V) as R. rewrite H1 in R. cbn in R. subst s1.
    cbn [adv]. destruct (mem_pats _ _).
    + match type of H with scoped _ (exec _ _ _ ?q _) _ = _ =>
        eapply (Sc n0 a0 _ en st bs _ q ct en' st' (adv q a0)); [|exact V| |exact H|exact L]; eauto end.
      intro E. now apply andb_true_iff in E.
    + match type of H with scoped _ (exec _ _ _ ?q _) _ = _ =>
        eapply (Sc n0 a0 _ en st bs _ q ct en' st' (adv q a0)); [|exact V| |exact H|exact L]; eauto end.
      intro E. now apply andb_true_iff in E.
  - cbn [exec] in H. destruct (env_get x en) as [[]|]; try discriminate.
    cbn [adv]. destruct (mem_pats _ _).
    + match type of H with scoped _ (exec _ _ _ ?q _) _ = _ =>
        eapply (Sc n0 a0 _ en st bs _ q ct en' st' (adv q a0)); [|exact V| |exact H|exact L]; eauto end.
      intro E. now apply andb_true_iff in E.
    + match type of H with scoped _ (exec _ _ _ ?q _) _ = _ =>
        eapply (Sc n0 a0 _ en st bs _ q ct en' st' (adv q a0)); [|exact V| |exact H|exact L]; eauto end.
      intro E. now apply andb_true_iff in E.
  - exfalso. cbn [exec] in H. apply bind_ok in H as (t & s1 & _ & H). destruct d; [|discriminate].
    apply bind_ok in H as (t' & s2 & _ & H). discriminate.
Qed.
End Exec.

(* ----- termination ----- *)
Variable prog : fn -> fundef fn.
Variable rank : fn -> nat.
Hypothesis prog_ok : forall f, term_ok rank (rank f) (f_body (prog f)) false = true.
Notation Run := (run U prog).

(* g, given enough fuel, ends *)
Definition ends {A} (g : nat -> res A) : Prop := exists F, g F <> Fuel.
Definition mono {A} (g : nat -> res A) : Prop := forall n n', n <= n' -> less (g n) (g n').

Lemma mono_ends {A} (g : nat -> res A) n n' : mono g -> n <= n' -> g n <> Fuel -> g n' = g n.
Proof. intros Hm Hn Hf. destruct (Hm n n' Hn) as [E|E]; congruence. Qed.

Lemma ends_const {A} (r : res A) : r <> Fuel -> ends (fun _ => r).
Proof. now exists 0. Qed.
Lemma ends_bind {A B} (m : nat -> M A) (f : nat -> A -> M B) s :
  mono (fun F => m F s) -> (forall a s', mono (fun F => f F a s')) ->
  ends (fun F => m F s) ->
  (forall F a s', m F s = Ok a s' -> ends (fun F => f F a s')) ->
  ends (fun F => bind (m F) (f F) s).
Proof.
  intros Mm Mf [F1 H1] H2. destruct (m F1 s) as [a s'|e s'|s'| |] eqn:E1; [| | | |].
  - destruct (H2 _ _ _ E1) as [F2 H]. exists (max F1 F2). unfold bind.
    rewrite (mono_ends _ F1 (max F1 F2) Mm), E1; [|lia|congruence].
    now rewrite (mono_ends _ F2 (max F1 F2) (Mf a s')) by (lia || exact H).
  - exists F1. unfold bind. rewrite E1. discriminate.
  - exists F1. unfold bind. rewrite E1. discriminate.
  - congruence.
  - exists F1. unfold bind. rewrite E1. discriminate.
Qed.
Lemma mono_const {A} (r : res A) : mono (fun _ => r).
Proof. intros n n' _. apply less_refl. Qed.
Lemma mono_run f vs s : mono (fun F => Run F f vs s).
Proof. intros n n' H. now apply run_less. Qed.
Lemma mono_exec c e s : mono (fun F => exec U (Run F) F c e s).
Proof. intros n n' H. apply exec_less; [|exact H]. intros. now apply run_less. Qed.
Lemma mono_nexp x e s : mono (fun F => eval_nexp U (Run F) x e s).
Proof. intros n n' H. apply eval_nexp_less. intros. now apply run_less. Qed.
Lemma mono_nexps x e s : mono (fun F => eval_nexps U (Run F) x e s).
Proof. intros n n' H. apply eval_nexps_less. intros. now apply run_less. Qed.
Lemma mono_vexp x e s : mono (fun F => eval_vexp U (Run F) x e s).
Proof. intros n n' H. apply eval_vexp_less. intros. now apply run_less. Qed.
Lemma mono_bind {A B} (m : nat -> M A) (f : nat -> A -> M B) s :
  mono (fun F => m F s) -> (forall a s', mono (fun F => f F a s')) ->
  mono (fun F => bind (m F) (f F) s).
Proof. intros Mm Mf n n' H. apply less_bind; [now apply Mm|]. intros. now apply Mf. Qed.

Lemma reads_not_fuel {A} bs s (r : res A) : reads bs s r -> r <> Fuel.
Proof. intros H ->. exact H. Qed.

Section Body.
Variables (n0 r : nat).
Hypothesis IH : forall f vs s bs, view s bs ->
  (length bs < n0 \/ (length bs <= n0 /\ rank f < r)) -> ends (fun F => Run F f vs s).

Lemma call_ends f a vs s bs : view s bs -> left n0 a bs -> a || (rank f <? r) = true ->
  ends (fun F => Run F f vs s).
Proof.
  intros V L H. apply (IH f vs s bs V). destruct a; [left; exact L|right]. split; [exact L|].
  now apply Nat.ltb_lt.
Qed.

Lemma args_not_fuel args e s bs : view s bs -> eval_args U args e s <> Fuel.
Proof. intro V. eapply reads_not_fuel, eval_args_reads, V. Qed.

Lemma nexp_ends x a e s bs : view s bs -> left n0 a bs -> low_nexp rank r a x = true ->
  ends (fun F => eval_nexp U (Run F) x e s).
Proof.
  intros V L H. destruct x; cbn [eval_nexp low_nexp] in *.
  - apply ends_const. apply (reads_not_fuel bs s). apply reads_bind; [now apply construct_node_reads|]. reflexivity.
  - unfold call_node. apply (ends_bind (fun _ => eval_args U args e)).
    + apply mono_const.
    + intros [vs e1] s1. apply mono_bind; [apply mono_run|intros; apply mono_const].
    + apply ends_const. eapply args_not_fuel; eauto.
    + intros _ [vs e1] s1 E. pose proof (eval_args_reads U args e s bs V) as R. rewrite E in R. cbn in R. subst s1.
      apply (ends_bind (fun F => Run F f vs)); [apply mono_run|intros; apply mono_const|eapply call_ends; eauto|].
      intros F v s2 _. apply ends_const. destruct v; discriminate.
  - apply ends_const. eapply reads_not_fuel, (take_node_reads x e s bs).
  - apply ends_const. discriminate.
  - apply ends_const. destruct (env_get _ _) as [[]|]; try discriminate. destruct (rev ns); [discriminate|].
    apply (reads_not_fuel bs s). apply reads_bind; [apply set_or_stuck_reads|]. reflexivity.
Qed.

Lemma call_view F x e s bs n e' s' : view s bs -> eval_nexp U (Run F) x e s = Ok (n, e') s' ->
  exists bs', suffix bs' bs /\ view s' bs'.
Proof.
  intros V H. pose proof (eval_nexp_moves U (Run F) (run_moves U prog F) x e s bs V) as Mv.
  rewrite H in Mv. destruct Mv as [Mv _]. exact Mv.
Qed.

Lemma nexps_ends xs : forall a e s bs, view s bs -> left n0 a bs -> forallb (low_nexp rank r a) xs = true ->
  ends (fun F => eval_nexps U (Run F) xs e s).
Proof.
  induction xs as [|x xs IHx]; intros a e s bs V L H; cbn [eval_nexps forallb] in *.
  - apply ends_const. discriminate.
  - apply andb_true_iff in H as [Hx Hr]. apply (ends_bind (fun F => eval_nexp U (Run F) x e)).
    + apply mono_nexp.
    + intros [n e1] s1. apply mono_bind; [apply mono_nexps|intros [? ?] ?; apply mono_const].
    + eapply nexp_ends; eauto.
    + intros F [n e1] s1 E. destruct (call_view _ _ _ _ _ _ _ _ V E) as (bs' & S' & V').
      apply (ends_bind (fun F => eval_nexps U (Run F) xs e1)).
      * apply mono_nexps.
      * intros [? ?] ?. apply mono_const.
      * eapply IHx; [exact V'|eapply left_suffix; eauto|exact Hr].
      * intros _ [? ?] ? _. apply ends_const. discriminate.
Qed.

Lemma vexp_ends x a e s bs : view s bs -> left n0 a bs -> low_vexp rank r a x = true ->
  ends (fun F => eval_vexp U (Run F) x e s).
Proof.
  intros V L H. destruct x; cbn [eval_vexp low_vexp] in *.
  - apply ends_const. discriminate.
  - apply ends_const. eapply reads_not_fuel, (take_vec_reads v e s bs).
  - apply (ends_bind (fun _ => eval_args U args e)).
    + apply mono_const.
    + intros [vs e1] s1. apply mono_bind; [apply mono_run|intros; apply mono_const].
    + apply ends_const. eapply args_not_fuel; eauto.
    + intros _ [vs e1] s1 E. pose proof (eval_args_reads U args e s bs V) as R. rewrite E in R. cbn in R. subst s1.
      apply (ends_bind (fun F => Run F f vs)); [apply mono_run|intros; apply mono_const|eapply call_ends; eauto|].
      intros F v s2 _. apply ends_const. destruct v; discriminate.
  - eapply nexps_ends; eauto.
Qed.

Lemma scoped_ends k c e s : ends (fun F => exec U (Run F) F c e s) ->
  ends (fun F => scoped k (exec U (Run F) F c e) s).
Proof.
  intro H. unfold scoped. apply (ends_bind (fun F => exec U (Run F) F c e)); [apply mono_exec| |exact H|].
  - intros. apply mono_const.
  - intros. apply ends_const. discriminate.
Qed.
Lemma mono_scoped k c e s : mono (fun F => scoped k (exec U (Run F) F c e) s).
Proof. apply (mono_bind (fun F => exec U (Run F) F c e)); [apply mono_exec|]. intros. apply mono_const. Qed.

Lemma ends_read {A B} (m : M A) (f : nat -> A -> M B) s bs :
  reads bs s (m s) -> (forall a s', mono (fun F => f F a s')) ->
  (forall a, m s = Ok a s -> ends (fun F => f F a s)) -> ends (fun F => bind m (f F) s).
Proof.
  intros R Mf H. apply (ends_bind (fun _ => m)); [apply mono_const|exact Mf|apply ends_const; eapply reads_not_fuel, R|].
  intros _ a s' E. rewrite E in R. cbn in R. subst s'. now apply H.
Qed.

(* a loop whose fuel is the same as the fuel of its body *)
Lemma mono_iterate step : (forall e s, mono (fun F => step F e s)) ->
  forall e s, mono (fun F => iterate F (step F) e s).
Proof. intros H e s n n' Hn. apply (iterate_less 0 0 (le_n 0)); [exact Hn|]. intros. now apply H. Qed.
Lemma iterate_ends (step : nat -> env -> M (bool * ctl * env)) (meas : env -> pstate -> nat -> Prop) :
  (forall e s, mono (fun F => step F e s)) ->
  (forall e s m, meas e s m -> ends (fun F => step F e s)) ->
  (forall F e s m c e' s', meas e s m -> step F e s = Ok (true, c, e') s' -> exists m', m' < m /\ meas e' s' m') ->
  forall m e s, meas e s m -> ends (fun F => iterate F (step F) e s).
Proof.
  intros Ms He Hd. induction m as [m IHm] using (well_founded_induction lt_wf). intros e s Hm.
  destruct (He e s m Hm) as [F1 H1].
  destruct (step F1 e s) as [[[go c] e'] s'|er s'|s'| |] eqn:E1; try congruence.
  - destruct go.
    + destruct (Hd _ _ _ _ _ _ _ Hm E1) as (m' & Hlt & Hm'). destruct (IHm m' Hlt e' s' Hm') as [F2 H2].
      exists (S (max F1 F2)). cbn [iterate]. unfold bind.
      rewrite (mono_ends _ F1 (S (max F1 F2)) (Ms e s)), E1; [|lia|congruence].
      intro X. apply H2. destruct (iterate_less 0 0 (le_n 0) F2 (max F1 F2) (step F2) (step (S (max F1 F2)))
        ltac:(lia) (fun e s => Ms e s F2 (S (max F1 F2)) ltac:(lia)) e' s'); congruence.
    + exists (S F1). cbn [iterate]. unfold bind. rewrite (mono_ends _ F1 (S F1) (Ms e s)), E1; [discriminate|lia|congruence].
  - exists (S F1). cbn [iterate]. unfold bind. rewrite (mono_ends _ F1 (S F1) (Ms e s)), E1; [discriminate|lia|congruence].
  - exists (S F1). cbn [iterate]. unfold bind. rewrite (mono_ends _ F1 (S F1) (Ms e s)), E1; [discriminate|lia|congruence].
  - exists (S F1). cbn [iterate]. unfold bind. rewrite (mono_ends _ F1 (S F1) (Ms e s)), E1; [discriminate|lia|congruence].
Qed.

Lemma repeat_ends (body : nat -> env -> M (ctl * env)) (inv : env -> pstate -> Prop) :
  (forall e s, mono (fun F => body F e s)) ->
  (forall e s, inv e s -> ends (fun F => body F e s)) ->
  (forall F e s c e' s', inv e s -> body F e s = Ok (c, e') s' -> forall e2, inv e2 s') ->
  forall k e s, inv e s -> ends (fun F => repeat_body k (body F) e s).
Proof.
  intros Mb He Hi. induction k as [|k IHk]; intros e s Hs; cbn [repeat_body]; [apply ends_const; discriminate|].
  apply (ends_bind (fun F => body F e)); [apply Mb| |now apply He|].
  - intros x s'. destruct (after_body _ _) as [[[] c] e']; [|apply mono_const].
    intros n n' Hn. apply repeat_less. intros. now apply Mb.
  - intros F [c e'] s' E. destruct (after_body _ _) as [[[] c'] e2]; [|apply ends_const; discriminate].
    apply IHk. eapply Hi; eauto.
Qed.

Lemma exec_ends c : forall a e s bs, view s bs -> left n0 a bs -> term_ok rank r c a = true ->
  ends (fun F => exec U (Run F) F c e s).
Proof.
  induction c; intros ad en st bs V L Ht; cbn [exec term_ok] in *.
  - apply ends_const. discriminate.
  - apply andb_true_iff in Ht as [T1 T2].
    apply (ends_bind (fun F => exec U (Run F) F c1 en)); [apply mono_exec| |eapply IHc1; eauto|].
    + intros [[] e'] s'; try apply mono_const. apply mono_exec.
    + intros F [ct e'] s' E.
      destruct (exec_progress (Run F) F (run_moves U prog F) c1 n0 ad _ _ _ _ _ _ V L E) as (bs' & S' & V' & L').
      destruct ct; try (apply ends_const; discriminate). eapply IHc2; eauto.
  - apply (ends_bind (fun F => eval_nexp U (Run F) e en)); [apply mono_nexp|intros; apply mono_const|eapply nexp_ends; eauto|].
    intros. apply ends_const. discriminate.
  - apply (ends_bind (fun F => eval_nexp U (Run F) e en)); [apply mono_nexp|intros; apply mono_const|eapply nexp_ends; eauto|].
    intros _ y s' _. apply ends_const. eapply reads_not_fuel with (bs := bs), norm_reads, set_or_stuck_reads.
  - apply (ends_bind (fun F => eval_vexp U (Run F) v en)); [apply mono_vexp|intros; apply mono_const|eapply vexp_ends; eauto|].
    intros. apply ends_const. discriminate.
  - apply (ends_bind (fun F => eval_vexp U (Run F) v en)); [apply mono_vexp|intros; apply mono_const|eapply vexp_ends; eauto|].
    intros _ y s' _. apply ends_const. eapply reads_not_fuel with (bs := bs), norm_reads, set_or_stuck_reads.
  - eapply ends_read; [eapply eval_cond_reads; eassumption|intros; apply mono_const|]. intros. apply ends_const. discriminate.
  - eapply ends_read; [eapply eval_cond_reads; eassumption|intros; apply mono_const|]. intros. apply ends_const.
    eapply reads_not_fuel with (bs := bs), norm_reads, set_or_stuck_reads.
  - eapply ends_read; [eapply eval_num_reads; eassumption|intros; apply mono_const|]. intros. apply ends_const. discriminate.
  - eapply ends_read; [eapply eval_num_reads; eassumption|intros; apply mono_const|]. intros. apply ends_const.
    eapply reads_not_fuel with (bs := bs), norm_reads, set_or_stuck_reads.
  - apply ends_const. discriminate.
  - eapply ends_read; [eapply get_token_reads; eassumption|intros; apply mono_const|]. intros. apply ends_const. discriminate.
  - apply ends_const. discriminate.
  - apply ends_const. intro X. unfold bind in X.
    destruct (view_cons _ _ V) as (b & bs' & ->). destruct bs' as [|b' bs'].
    + rewrite (next_token_end _ _ V) in X. discriminate.
    + destruct (next_token_view _ _ _ _ V) as (s' & E & V' & _). rewrite E in X. discriminate.
  - apply (ends_bind (fun F => eval_nexp U (Run F) e en)); [apply mono_nexp|intros; apply mono_const|eapply nexp_ends; eauto|].
    intros _ y s' _. apply ends_const. eapply reads_not_fuel with (bs := bs), norm_reads, with_node_reads.
  - apply (ends_bind (fun F => eval_vexp U (Run F) v en)); [apply mono_vexp|intros; apply mono_const|eapply vexp_ends; eauto|].
    intros _ y s' _. apply ends_const. eapply reads_not_fuel with (bs := bs), norm_reads, with_node_reads.
  - apply (ends_bind (fun F => eval_nexp U (Run F) e en)); [apply mono_nexp|intros; apply mono_const|eapply nexp_ends; eauto|].
    intros _ y s' _. apply ends_const. destruct (env_get _ _) as [[]|]; try discriminate.
    eapply reads_not_fuel with (bs := bs), norm_reads, set_or_stuck_reads.
  - apply ends_const. eapply reads_not_fuel with (bs := bs), norm_reads, with_node_reads.
  - apply andb_true_iff in Ht as [T1 T2].
    eapply ends_read; [eapply eval_cond_reads; eassumption| |].
    + intros [] s'; apply mono_scoped.
    + intros [] _; apply scoped_ends; [eapply IHc1|eapply IHc2]; eauto.
  - apply andb_true_iff in Ht as [T1 T2].
    eapply ends_read; [eapply get_token_reads; eassumption| |].
    + intros y s'. destruct (mem_pats _ _); apply mono_scoped.
    + intros y _. destruct (mem_pats _ _); apply scoped_ends; [eapply IHc1|eapply IHc2]; eauto.
  - apply andb_true_iff in Ht as [T1 T2].
    eapply ends_read; [eapply get_token_reads; eassumption| |].
    + intros y s'. destruct (mem_pats _ _); apply mono_scoped.
    + intros y _. destruct (mem_pats _ _); apply scoped_ends; [eapply IHc1|eapply IHc2]; eauto.
  - apply andb_true_iff in Ht as [T1 T2].
    destruct (env_get _ _) as [[]|]; try (apply ends_const; discriminate).
    destruct (mem_pats _ _); apply scoped_ends; [eapply IHc1|eapply IHc2]; eauto.
  - (* While *)
    apply andb_true_iff in Ht as [T1 T2].
    assert (Ms : forall q e s, mono (fun F => bind (eval_cond U q e) (fun v : bool =>
        if v then bind (exec U (Run F) F c0 e) (fun r => ret (after_body (length e) r))
        else ret (false, Norm, e)) s)).
    { intros q e s. apply (mono_bind (fun _ => eval_cond U q e)); [apply mono_const|].
      intros [] s'; [|apply mono_const].
      apply (mono_bind (fun F => exec U (Run F) F c0 e)); [apply mono_exec|]. intros; apply mono_const. }
    apply (iterate_ends _ (fun e s m => exists bs, view s bs /\ left n0 ad bs /\ length bs = m)) with (m := length bs).
    + intros e s. apply Ms.
    + intros e s m (bs1 & V1 & L1 & Em). eapply ends_read; [eapply eval_cond_reads; eassumption| |].
      * intros [] s'; [|apply mono_const].
        apply (mono_bind (fun F => exec U (Run F) F c0 e)); [apply mono_exec|]. intros; apply mono_const.
      * intros [] _; [|apply ends_const; discriminate].
        apply (ends_bind (fun F => exec U (Run F) F c0 e)); [apply mono_exec|intros; apply mono_const|eapply IHc; eauto|].
        intros. apply ends_const. discriminate.
    + intros F e s m ct e' s' (bs1 & V1 & L1 & Em) H.
      apply bind_ok in H as (b & s1 & H1 & H).
      match type of H1 with eval_cond _ ?q _ _ = _ => pose proof (eval_cond_reads U q e s bs1 V1) as R end.
      rewrite H1 in R. cbn in R. subst s1. destruct b; [|discriminate].
      apply bind_ok in H as ([ct1 e1] & s1 & H2 & H).
      destruct ct1; cbn [after_body] in H; try discriminate. injection H as <- <- <-.
      destruct (exec_progress (Run F) F (run_moves U prog F) c0 (length bs1) false _ _ _ _ _ _ V1 (le_n _) H2) as (bs' & S' & V' & L').
      rewrite T2 in L'. exists (length bs'). split; [rewrite <- Em; exact (L' eq_refl)|].
      exists bs'. repeat split; auto. eapply left_suffix; eauto.
    + exists bs. auto.
  - (* WhilePop *)
    apply andb_true_iff in Ht as [Ht T3]. apply andb_true_iff in Ht as [T1 T2]. apply negb_true_iff in T3.
    assert (Ms : forall e s, mono (fun F => (match env_get v e with
        | Some (VVec l) =>
            match rev l with
            | [] => ret (false, Norm, e)
            | n :: r =>
                bind (set_or_stuck v (VVec (rev r)) e) (fun e1 =>
                bind (exec U (Run F) F c ((x, VNode n) :: e1)) (fun r => ret (after_body (length e) r)))
            end
        | _ => stuck
        end) s)).
    { intros e s. destruct (env_get v e) as [[]|]; try apply mono_const. destruct (rev ns); [apply mono_const|].
      apply (mono_bind (fun _ => set_or_stuck v (VVec (rev l)) e)); [apply mono_const|]. intros e1 s1.
      apply (mono_bind (fun F => exec U (Run F) F c ((x, VNode n) :: e1))); [apply mono_exec|]. intros; apply mono_const. }
    apply (iterate_ends _ (fun e s m => (exists bs, view s bs /\ left n0 ad bs) /\
        match env_get v e with Some (VVec l) => m = length l | _ => True end))
      with (m := match env_get v en with Some (VVec l) => length l | _ => 0 end).
    + exact Ms.
    + intros e s m ((bs1 & V1 & L1) & Hm). destruct (env_get v e) as [[]|]; try (apply ends_const; discriminate).
      destruct (rev ns); [apply ends_const; discriminate|].
      eapply (ends_read _ _ _ bs1); [apply set_or_stuck_reads| |].
      * intros e1 s1. apply (mono_bind (fun F => exec U (Run F) F c ((x, VNode n) :: e1))); [apply mono_exec|]. intros; apply mono_const.
      * intros e1 _. apply (ends_bind (fun F => exec U (Run F) F c ((x, VNode n) :: e1)));
          [apply mono_exec|intros; apply mono_const|eapply IHc; eauto|]. intros. apply ends_const. discriminate.
    + intros F e s m ct e' s' ((bs1 & V1 & L1) & Hm) H.
      destruct (env_get v e) as [[]|] eqn:Ev; try discriminate H. destruct (rev ns) as [|n l] eqn:Er; [discriminate H|].
      apply bind_ok in H as (e1 & s1 & H1 & H). apply bind_ok in H as ([ct1 e2] & s2 & H2 & H).
      assert (s1 = s) as ->. { unfold set_or_stuck in H1. destruct (env_set _ _ _); [|discriminate]. now injection H1. }
      destruct (leaves_keeps (Run F) F v c T2 _ _ _ _ _ H2) as [-> [Kn Kg]].
      cbn [after_body] in H. injection H as <- <- <-.
      assert (Hget : env_get v e1 = Some (VVec (rev l)) /\ length e1 = length e).
      { unfold set_or_stuck in H1. destruct (env_set v (VVec (rev l)) e) as [e3|] eqn:E3; [|discriminate].
        injection H1 as <-. split; [rewrite (env_set_get _ _ _ _ _ E3), String.eqb_refl; reflexivity|].
        apply env_set_names in E3. rewrite <- (map_length fst), E3. apply map_length. }
      destruct Hget as [Hg Hl].
      destruct e2 as [|[y w] e2]; [discriminate|]. cbn [map fst] in Kn. injection Kn as -> Kn.
      assert (L2 : length e2 = length e). { rewrite <- Hl, <- (map_length fst), Kn. apply map_length. }
      assert (El : env_leave (length e) ((x, w) :: e2) = e2).
      { unfold env_leave. cbn [length]. rewrite L2. replace (S (length e) - length e) with 1 by lia. reflexivity. }
      rewrite El. exists (length (rev l)). cbn [env_get] in Kg. rewrite T3 in Kg. rewrite Kg, Hg.
      split; [|split; [|reflexivity]].
      * rewrite Hm, <- (rev_length ns), Er, rev_length. cbn. lia.
      * pose proof (exec_moves U (Run F) F (run_moves U prog F) c _ _ _ V1 : moves bs1 s (exec U (Run F) F c ((x, VNode n) :: e1) s)) as Mv.
        rewrite H2 in Mv. destruct Mv as ((bs' & S' & V') & _). exists bs'. split; [exact V'|eapply left_suffix; eauto].
    + split; [exists bs; auto|]. destruct (env_get v en) as [[]|]; auto.
  - (* ForFrom1 *)
    destruct (env_get _ _) as [[]|]; try (apply ends_const; discriminate).
    apply (repeat_ends (fun F => exec U (Run F) F c) (fun e s => exists bs, view s bs /\ left n0 ad bs)).
    + intros. apply mono_exec.
    + intros e s (bs1 & V1 & L1). eapply IHc; eauto.
    + intros F e s ct e' s' (bs1 & V1 & L1) H e2.
      pose proof (exec_moves U (Run F) F (run_moves U prog F) c e s bs1 V1) as Mv.
      rewrite H in Mv. destruct Mv as ((bs' & S' & V') & _). exists bs'. split; [exact V'|eapply left_suffix; eauto].
    + exists bs. auto.
  - apply ends_const. discriminate.
  - apply (ends_bind (fun F => eval_nexp U (Run F) e en)); [apply mono_nexp|intros; apply mono_const|eapply nexp_ends; eauto|].
    intros. apply ends_const. discriminate.
  - apply (ends_bind (fun F => eval_vexp U (Run F) v en)); [apply mono_vexp|intros; apply mono_const|eapply vexp_ends; eauto|].
    intros. apply ends_const. discriminate.
  - eapply ends_read; [eapply get_token_reads; eassumption|intros; apply mono_const|]. intros t _.
    apply ends_const. destruct d; [|discriminate]. intro X. pose proof (get_token_reads st bs n V) as R.
    unfold bind in X. destruct (get_token n st); try discriminate. exact R.
  - (* Try *)
    apply andb_true_iff in Ht as [T1 T2].
    pose proof (eval_args_reads U args en st bs V) as R.
    destruct (eval_args U args en st) as [[vs e1] s1|er s1|s1| |]; try (apply ends_const; discriminate); [|contradiction].
    cbn in R. subst s1. destruct (call_ends f ad vs st bs V L T1) as [F1 H1].
    assert (K : ends (fun F => scoped (length e1) (exec U (Run F) F c e1) st)) by (apply scoped_ends; eapply IHc; eauto).
    destruct K as [F2 H2]. exists (max F1 F2).
    rewrite (mono_ends _ F1 (max F1 F2) (mono_run f vs st)) by (lia || exact H1).
    destruct (Run F1 f vs st) as [w s2|er s2|s2| |]; try discriminate; [| |congruence].
    + destruct w; try discriminate. eapply reads_not_fuel with (bs := bs), norm_reads, set_or_stuck_reads.
    + rewrite restore_org. now rewrite (mono_ends _ F2 (max F1 F2) (mono_scoped (length e1) c e1 st)) by (lia || exact H2).
Qed.
End Body.

Theorem run_ends : forall n r f vs s bs, view s bs -> length bs <= n -> rank f <= r ->
  ends (fun F => Run F f vs s).
Proof.
  induction n as [n IHn] using (well_founded_induction lt_wf).
  induction r as [r IHr] using (well_founded_induction lt_wf).
  intros f vs s bs V Hn Hr.
  assert (B : ends (fun F => exec U (Run F) F (f_body (prog f)) (combine (f_params (prog f)) vs) s)).
  { apply (exec_ends n (rank f)) with (a := false) (bs := bs); [|exact V|exact Hn|apply prog_ok].
    intros g ws s1 bs1 V1 [H|[H1 H2]].
    - eapply (IHn (length bs1) H (rank g)); eauto.
    - eapply (IHr (rank g) ltac:(lia)); eauto. }
  destruct B as [F HF]. exists (S F). cbn [run]. unfold call_body.
  destruct (Nat.eqb _ _); [|discriminate]. unfold bind.
  destruct (exec U (Run F) F (f_body (prog f)) (combine (f_params (prog f)) vs) s) as [[ct e] s'|er s'|s'| |]; try congruence.
  cbn [fst]. destruct ct; discriminate.
Qed.
End WithUnicode.
