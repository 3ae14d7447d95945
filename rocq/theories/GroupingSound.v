(* Soundness of the domain of GroupingDomain. *)
From Verif Require Import Chars Token Cst Core MiniRust Program Bundles ParserView ParserGeneric TreeSpec AbsInt ShapeSound
  GroupingSpec GroupingDomain.
Local Open Scope string_scope.
Local Open Scope list_scope.
Local Notation length := List.length.

Definition put (k : string) (v : content) (n : node) : node :=
  match n with Node t ty m => Node t ty (map_insert k v m) end.

Local Ltac easy_split :=
  repeat match goal with |- _ /\ _ => split end; cbn [fst snd]; auto; try exact Logic.I; eauto.

Section WithUnicode.
Context (U : unicode).
Local Notation well_grouped := (well_grouped U).
Local Notation left_operand := (left_operand U).
Local Notation right_operands := (right_operands U).
Local Notation last_operand := (last_operand U).
Local Notation suffixed := (suffixed U).
Local Notation ends_by := (ends_by U).

(* ----- nodes ----- *)
Definition good (n : node) : Prop := forall m, within m n -> well_grouped m.
Definition good_content (c : content) : Prop := match c with CNode n => good n | CVec l => Forall good l end.
Lemma good_eq n : good n <-> well_grouped n /\ forall k c, In (k, c) (n_children n) -> good_content c.
Proof.
  split.
  - intro G. split; [apply G; constructor|]. intros k [c|l] I; cbn.
    + intros m W. apply G. econstructor 2; eauto.
    + apply Forall_forall. intros c Ic m W. apply G. econstructor 3; eauto.
  - intros [W K] m H. inversion H as [|? k c I Hw|? k l c I J Hw]; subst; [exact W| |].
    + exact (K _ _ I m Hw).
    + specialize (K _ _ I). cbn in K. rewrite Forall_forall in K. exact (K c J m Hw).
Qed.

Lemma child_put k k' v n : child k (put k' v n) = if String.eqb k k' then Some v else child k n.
Proof. destruct n. cbn. apply map_get_insert. Qed.
Lemma left_put k v n : left_operand (put k v n) = left_operand n. Proof. now destruct n. Qed.
Lemma right_put k v n : right_operands (put k v n) = right_operands n. Proof. now destruct n. Qed.
Lemma last_put k v n : last_operand (put k v n) = last_operand n. Proof. now destruct n. Qed.
Lemma type_put k v n : n_type (put k v n) = n_type n. Proof. now destruct n. Qed.
Lemma last_key n q k : last_operand n = Some (q, k) -> In k operand_keys.
Proof.
  unfold GroupingSpec.last_operand, GroupingSpec.right_operands, operand_keys.
  destruct (n_type n); try discriminate; try (destruct (token_level _ _ _); [|discriminate]); cbn [option_map last];
    intros [= <- <-]; cbn; tauto.
Qed.

Lemma put_grouped k v n : well_grouped n ->
  (forall q c, v = CNode c -> left_operand n = Some (q, k) -> suffixed c \/ ends_by q c) ->
  (forall q ks c, v = CNode c -> right_operands n = Some (q, ks) -> In k ks ->
     forall q' k', left_operand c = Some (q', k') -> (q' < q)%N) ->
  well_grouped (put k v n).
Proof.
  intros [L R] Hl Hr. constructor.
  - intros q k0 l. rewrite left_put, child_put. intros E. destruct (String.eqb_spec k0 k) as [Ek|Ek].
    + intros [= ->]. subst. now apply Hl.
    + now apply L.
  - intros q ks k0 r. rewrite right_put, child_put. intros E I. destruct (String.eqb_spec k0 k) as [Ek|Ek].
    + intros [= ->]. subst. eapply Hr; eauto.
    + eapply R; eauto.
Qed.
Lemma put_good k v n : good n -> good_content v ->
  (forall q c, v = CNode c -> left_operand n = Some (q, k) -> suffixed c \/ ends_by q c) ->
  (forall q ks c, v = CNode c -> right_operands n = Some (q, ks) -> In k ks ->
     forall q' k', left_operand c = Some (q', k') -> (q' < q)%N) ->
  good (put k v n).
Proof.
  rewrite !good_eq. intros [W K] V Hl Hr. split; [now apply put_grouped|].
  intros k0 c I. destruct n as [t ty m]. cbn [put n_children] in *. apply In_insert in I as [[_ ->]|I]; [exact V|eauto].
Qed.

Lemma suffixed_put k v n : ~ In k operand_keys -> suffixed n -> suffixed (put k v n).
Proof.
  intros N S. destruct S as [n k0 c I C|n q k0 r L C S].
  - destruct (String.eqb k0 k) eqn:E; [apply (GroupingSpec.suffixed_here U _ k0 v)|apply (GroupingSpec.suffixed_here U _ k0 c)];
      rewrite ?child_put, ?E; auto.
  - econstructor 2; [rewrite last_put; exact L| |exact S]. rewrite child_put.
    destruct (String.eqb_spec k0 k) as [->|_]; [|exact C]. elim N. eapply last_key; eauto.
Qed.
Lemma ends_put k v n q : ~ In k operand_keys -> ends_by q n -> ends_by q (put k v n).
Proof.
  intros N S. destruct S as [n L|n p k0 r L Le C S].
  - constructor 1. now rewrite last_put.
  - econstructor 2; [rewrite last_put; exact L|exact Le| |exact S]. rewrite child_put.
    destruct (String.eqb_spec k0 k) as [->|_]; [|exact C]. elim N. eapply last_key; eauto.
Qed.
Lemma ends_mono p q n : (p <= q)%N -> ends_by p n -> ends_by q n.
Proof. intros L E. induction E as [n E|n r k c E Le C _ IH]; [now constructor 1|]. econstructor 2; eauto. lia. Qed.

(* ----- kinds ----- *)
Definition closed_type (ty : node_type) : bool :=
  match ty with
  | N_BinaryOperator | N_UnaryOperator | N_BetweenOperator | N_IsDistinctFromOperator => false
  | _ => true
  end.
(* the values of the parameters that KVal refers to *)
Context (rho : nat -> value).
Definition scalar (v : value) : Prop := match v with VBool _ | VNum _ => True | _ => False end.
Hypothesis rho_scalar : forall i, scalar (rho i).
Definition kind_ok (k : kind) (n : node) : Prop :=
  match k with
  | KVal i => False
  | KAny => True
  | KFit q => suffixed n \/ ends_by q n
  | KClosed => closed_type (n_type n) = true
  | KPlain => plain_type (n_type n) = true
  | KPost k q => type_kind (n_type n) = Some (KPost k q)
  end.
Lemma closed_last n : closed_type (n_type n) = true -> right_operands n = None /\ last_operand n = None.
Proof. unfold GroupingSpec.last_operand, GroupingSpec.right_operands. destruct (n_type n); try discriminate; auto. Qed.
Lemma plain_left n : plain_type (n_type n) = true -> left_operand n = None.
Proof. unfold plain_type, GroupingSpec.left_operand. destruct (n_type n); try discriminate; auto. Qed.
Lemma plain_closed ty : plain_type ty = true -> closed_type ty = true.
Proof. unfold plain_type. destruct ty; try discriminate; auto. Qed.
Lemma post_left n k q : type_kind (n_type n) = Some (KPost k q) -> left_operand n = Some (q, k).
Proof. unfold GroupingSpec.left_operand. destruct (n_type n); try discriminate; cbn; now intros [= <- <-]. Qed.
Lemma post_closed ty k q : type_kind ty = Some (KPost k q) -> closed_type ty = true.
Proof. destruct ty; try discriminate; auto. Qed.
Lemma closed_kind_ok k n : closed_kind k = true -> kind_ok k n -> closed_type (n_type n) = true.
Proof.
  destruct k; try discriminate; cbn; intros _; [auto|apply plain_closed|apply post_closed].
Qed.
Lemma fits_ok q k n : fits q k = true -> kind_ok k n -> suffixed n \/ ends_by q n.
Proof.
  intros F K. destruct (closed_kind k) eqn:C.
  - right. constructor 1. apply closed_last. eapply closed_kind_ok; eauto.
  - destruct k as [|p| | | |]; try discriminate. cbn in F, K. apply N.leb_le in F. destruct K as [K|K]; [now left|right].
    eapply ends_mono; eauto.
Qed.
Lemma kind_eqb_eq a b : kind_eqb a b = true -> a = b.
Proof.
  destruct a, b; try discriminate; try reflexivity; cbn.
  - intro H. apply N.eqb_eq in H. congruence.
  - intro H. apply andb_true_iff in H as [H1 H2]. apply String.eqb_eq in H1. apply N.eqb_eq in H2. congruence.
  - intro H. apply Nat.eqb_eq in H. congruence.
Qed.
Lemma kind_le_ok a b n : kind_le a b = true -> kind_ok a n -> kind_ok b n.
Proof.
  unfold kind_le. destruct b; intros L K; cbn.
  - exact Logic.I.
  - eapply fits_ok; eauto.
  - eapply closed_kind_ok; eauto.
  - apply kind_eqb_eq in L. now subst.
  - apply kind_eqb_eq in L. now subst.
  - apply kind_eqb_eq in L. now subst.
Qed.
Lemma kind_join_ok a b n : kind_ok a n \/ kind_ok b n -> kind_ok (kind_join a b) n.
Proof.
  unfold kind_join. destruct (kind_eqb a b) eqn:E; [apply kind_eqb_eq in E; subst; tauto|].
  destruct (closed_kind a) eqn:Ca; [|intros _; exact Logic.I]. destruct (closed_kind b) eqn:Cb; [|intros _; exact Logic.I].
  intros [H|H]; [exact (closed_kind_ok _ _ Ca H)|exact (closed_kind_ok _ _ Cb H)].
Qed.

Lemma not_operand k : negb (existsb (String.eqb k) operand_keys) = true -> ~ In k operand_keys.
Proof.
  intros H I. apply negb_true_iff in H. assert (existsb (String.eqb k) operand_keys = true) as E; [|congruence].
  apply existsb_exists. exists k. split; [exact I|apply String.eqb_refl].
Qed.
Lemma right_keys n q ks k : right_operands n = Some (q, ks) -> In k ks -> In k operand_keys.
Proof.
  unfold GroupingSpec.right_operands, operand_keys.
  destruct (n_type n); try discriminate; try (destruct (token_level _ _ _); [|discriminate]); cbn [option_map];
    intros [= <- <-]; cbn; tauto.
Qed.
Lemma left_keys n q k : left_operand n = Some (q, k) -> In k operand_keys.
Proof.
  unfold GroupingSpec.left_operand, operand_keys.
  destruct (n_type n); try discriminate; try (destruct (token_level _ _ _); [|discriminate]); cbn [option_map];
    intros [= <- <-]; cbn; tauto.
Qed.
Lemma kind_put t k v n : (closed_kind t = true \/ ~ In k operand_keys) -> kind_ok t n -> kind_ok t (put k v n).
Proof.
  destruct t; cbn; rewrite ?type_put; auto. intros [|N] [K|K]; try discriminate; [left|right]; [now apply suffixed_put|now apply ends_put].
Qed.
Lemma put_nonoperand k v n : ~ In k operand_keys -> good n -> good_content v -> good (put k v n).
Proof.
  intros N G V. apply put_good; [exact G|exact V| |].
  - intros q c _ L. elim N. eapply left_keys; eauto.
  - intros q ks c _ R I. elim N. eapply right_keys; eauto.
Qed.
Lemma push_kind_ok t k c n m : push_ok t k c = true -> kind_ok t n -> good n -> kind_ok c m -> good m ->
  kind_ok t (push_node k m n) /\ good (push_node k m n).
Proof.
  intros P Kt Gn Kc Gm. change (push_node k m n) with (put k (CNode m) n).
  destruct t as [|q| | |k' q|i]; cbn [push_ok] in P; [| | | | |now elim Kt].
  1-3: apply not_operand in P; split; [apply kind_put; auto|now apply put_nonoperand].
  - split; [apply kind_put; auto|]. pose proof (plain_closed _ Kt) as C. apply closed_last in C as [C _]. apply plain_left in Kt.
    apply put_good; [exact Gn|exact Gm| |]; intros; congruence.
  - split; [apply kind_put; auto|]. pose proof (post_closed _ _ _ Kt) as C. apply closed_last in C as [C _]. apply post_left in Kt.
    apply put_good; [exact Gn|exact Gm| |]; [|intros; congruence].
    intros q0 c0 [= <-] L. rewrite Kt in L. injection L as <- <-. rewrite String.eqb_refl in P. eapply fits_ok; eauto.
Qed.
Lemma push_vec_kind_ok t k n l : push_vec_ok t k = true -> kind_ok t n -> good n -> Forall good l ->
  kind_ok t (push_node_vec k l n) /\ good (push_node_vec k l n).
Proof.
  intros P Kt Gn Gl. change (push_node_vec k l n) with (put k (CVec l) n).
  split; [apply kind_put; [|exact Kt]|apply put_good; [exact Gn|exact Gl|discriminate|discriminate]].
  destruct t; cbn [push_vec_ok] in P; solve [left; reflexivity | right; now apply not_operand].
Qed.
Lemma set_type_good ty n : plain_type ty = true -> good n -> good (set_type ty n).
Proof.
  intros P. rewrite !good_eq. intros [_ K]. destruct n as [t ty0 m]. cbn [set_type n_children] in *. split; [|exact K].
  assert (L : left_operand (Node t ty m) = None) by now apply plain_left.
  assert (R : right_operands (Node t ty m) = None) by now apply closed_last, plain_closed.
  constructor; intros; congruence.
Qed.

(* ----- nodes made from a token ----- *)
Lemma comments_good l : Forall good (comment_children l).
Proof.
  unfold comment_children. apply Forall_map, Forall_forall. intros c _. rewrite good_eq. split; [|intros ? ? []].
  constructor; intros; discriminate.
Qed.
Lemma bare_good t ty : good (Node t ty []).
Proof. rewrite good_eq. split; [|intros ? ? []]. constructor; intros; discriminate. Qed.
Lemma decorate_good b n : good n -> good (decorate b n).
Proof.
  assert (P : forall k l m, ~ In k operand_keys -> good m -> good (push_comments k (comment_children l) m)).
  { intros k l m N G. unfold push_comments. destruct (comment_children l) eqn:E; [exact G|].
    rewrite <- E. apply (put_nonoperand k (CVec (comment_children l)) m); [exact N|exact G|apply comments_good]. }
  intro G. unfold decorate. apply P; [|apply P; [|exact G]]; cbn; intuition discriminate.
Qed.
Lemma decorate_same b n : n_type (decorate b n) = n_type n /\ n_token (decorate b n) = n_token n.
Proof. destruct n. unfold decorate, push_comments. destruct (comment_children (b_trail b)), (comment_children (b_lead b)); auto. Qed.
Lemma decorate_child b n k : In k ("order" :: "null_order" :: operand_keys) -> child k (decorate b n) = child k n.
Proof.
  intro I. assert (P : forall k' l m, k <> k' -> child k (push_comments k' (comment_children l) m) = child k m).
  { intros k' l m Ne. unfold push_comments. destruct (comment_children l); [reflexivity|].
    change (push_node_vec ?a ?b ?c) with (put a (CVec b) c). rewrite child_put. now destruct (String.eqb_spec k k'). }
  unfold decorate. rewrite !P; [reflexivity| |]; intros ->; cbn in I; intuition discriminate.
Qed.
Lemma classify_plain t nx ty : classify U t nx = Some ty -> plain_type ty = true.
Proof.
  unfold classify. repeat match goal with |- (if ?c then _ else _) = _ -> _ => destruct c; [now intros [= <-]|] end.
  destruct nx; [|discriminate]. destruct (_ || _); now intros [= <-].
Qed.
Lemma constructed_ok ty b nx n : constructed U ty b nx = Some n ->
  good n /\ type_kind (n_type n) = type_kind ty /\ (ty <> N_EOF -> n_token n = Some (b_tok b)) /\
  (ty <> N_Unknown -> n_type n = ty) /\
  (forall k, In k ("order" :: "null_order" :: operand_keys) -> child k n = None).
Proof.
  assert (D : forall t ty', good (decorate b (Node t ty' [])) /\ n_type (decorate b (Node t ty' [])) = ty' /\
    n_token (decorate b (Node t ty' [])) = t /\
    (forall k, In k ("order" :: "null_order" :: operand_keys) -> child k (decorate b (Node t ty' [])) = None)).
  { intros t ty'. destruct (decorate_same b (Node t ty' [])) as [T1 T2].
    split; [apply decorate_good, bare_good|]. split; [exact T1|]. split; [exact T2|].
    intros k I. now rewrite decorate_child. }
  unfold constructed. intro E.
  assert (C : (ty = N_EOF /\ n = decorate b (Node None N_EOF [])) \/
    (ty = N_Unknown /\ exists ty', classify U (b_tok b) nx = Some ty' /\ n = decorate b (Node (Some (b_tok b)) ty' [])) \/
    (ty <> N_EOF /\ ty <> N_Unknown /\ n = decorate b (Node (Some (b_tok b)) ty []))).
  { destruct ty; try (right; right; injection E as <-; split; [discriminate|]; split; [discriminate|reflexivity]).
    - left. injection E as <-. auto.
    - right; left. split; [reflexivity|]. destruct (classify U (b_tok b) nx) as [ty'|]; [|discriminate].
      injection E as <-. eauto. }
  destruct C as [[-> ->]|[(-> & ty' & C & ->)|(Ne & Nu & ->)]].
  - destruct (D None N_EOF) as (G & T & K & Ch). rewrite T. split; [exact G|]. split; [reflexivity|].
    split; [congruence|]. now split.
  - destruct (D (Some (b_tok b)) ty') as (G & T & K & Ch). rewrite T. split; [exact G|].
    split; [|split; [now rewrite K|]; split; [congruence|exact Ch]]. apply classify_plain in C. unfold plain_type in C. destruct (type_kind ty') as [[]|]; try discriminate. reflexivity.
  - destruct (D (Some (b_tok b)) ty) as (G & T & K & Ch). rewrite T. split; [exact G|]. easy_split.
Qed.
Lemma construct_ok ty s bs n s' : view s bs -> construct_node U ty s = Ok n s' ->
  s' = s /\ exists b bs', bs = b :: bs' /\ constructed U ty b (tok_at bs' 0) = Some n.
Proof.
  intros V. destruct (view_cons _ _ V) as (b & bs' & ->). rewrite (construct_node_view U _ _ _ _ V).
  destruct (constructed U ty b (tok_at bs' 0)) eqn:E; [|discriminate]. intros [= <- <-]. split; [reflexivity|eauto].
Qed.

(* ----- values ----- *)
Definition good_val (v : value) : Prop :=
  match v with VNode n => good n | VVec l => Forall good l | _ => True end.
Definition kind_val (k : kind) (v : value) : Prop :=
  match k with KVal i => v = rho i | _ => match v with VNode n => kind_ok k n | _ => True end end.
Lemma kind_val_node k n : kind_val k (VNode n) -> kind_ok k n.
Proof. destruct k; auto. intro E. pose proof (rho_scalar i) as R. now rewrite <- E in R. Qed.
Lemma kind_val_of k n : kind_ok k n -> kind_val k (VNode n).
Proof. destruct k; auto. now intros []. Qed.
Local Hint Resolve kind_val_of : core.
Lemma kind_val_any v : kind_val KAny v. Proof. now destruct v. Qed.
Lemma kind_val_join a b v : kind_val a v \/ kind_val b v -> kind_val (kind_join a b) v.
Proof.
  destruct v as [|n| | | | |].
  2: { intros H. apply kind_val_of, kind_join_ok. destruct H as [H|H]; apply kind_val_node in H; auto. }
  all: unfold kind_join; destruct (kind_eqb a b) eqn:E; [apply kind_eqb_eq in E; subst; tauto|];
    destruct (closed_kind a && closed_kind b); intros _; exact Logic.I.
Qed.
Lemma kind_val_le a b v : kind_le a b = true -> kind_val a v -> kind_val b v.
Proof.
  intros L. destruct v as [|n| | | | |].
  2: { intros H. apply kind_val_of. apply kind_val_node in H. eapply kind_le_ok; eauto. }
  all: destruct b; try (intros _; exact Logic.I); apply kind_eqb_eq in L; now subst.
Qed.
Lemma kind_val_change k v w : kind_val k v -> ~ scalar v -> (forall n, w <> VNode n) -> kind_val k w.
Proof.
  intros K S N. destruct k; try (destruct w; try exact Logic.I; now elim (N n)).
  cbn in K. subst. now elim (S (rho_scalar i)).
Qed.
Definition slot_ok (a : string * kind) (b : string * value) : Prop :=
  fst a = fst b /\ good_val (snd b) /\ kind_val (snd a) (snd b).
Local Ltac easy_split ::=
  unfold slot_ok; repeat match goal with |- _ /\ _ => split end; cbn [fst snd]; auto; try exact Logic.I; eauto.
Definition env_ok (a : astate) (e : env) : Prop := Forall2 slot_ok a e.
Definition gamma (a : astate) (e : env) (s : pstate) : Prop := env_ok a e /\ exists bs, view s bs.

Lemma lookup_ok a e x k : env_ok a e -> lookup x a = Some k ->
  exists v, env_get x e = Some v /\ good_val v /\ kind_val k v.
Proof.
  induction 1 as [|[y l] [z v] a e (E & G & K) F IH]; cbn [lookup env_get] in *; [discriminate|].
  cbn [fst snd] in *. subst z. destruct (String.eqb x y); [intros [= <-]; eauto|exact IH].
Qed.
Lemma env_ok_length a e : env_ok a e -> length a = length e.
Proof. induction 1; cbn [length]; congruence. Qed.
Lemma get_good a e x v : env_ok a e -> env_get x e = Some v -> good_val v.
Proof.
  induction 1 as [|[y l] [z w] a e (E & G & K) F IH]; cbn [env_get] in *; [discriminate|].
  destruct (String.eqb x z); [now intros [= <-]|exact IH].
Qed.
Lemma set_ok a e x v e' : env_ok a e -> env_set x v e = Some e' -> good_val v ->
  (forall k, lookup x a = Some k -> kind_val k v) -> env_ok a e'.
Proof.
  intros F. revert e'. induction F as [|[y l] [z w] a e (E & G & K) F IH]; intros e'; cbn [env_set lookup]; [discriminate|].
  cbn [fst snd] in *. subst z. destruct (String.eqb x y).
  - intros [= <-] Gv Hk. constructor; [|exact F]. easy_split.
  - destruct (env_set x v e) as [e1|]; [|discriminate]. intros [= <-] Gv Hk. constructor; [easy_split|]. now apply IH.
Qed.
Lemma update_ok a e x k a' v e' : env_ok a e -> update x k a = Some a' -> env_set x v e = Some e' ->
  good_val v -> kind_val k v -> env_ok a' e'.
Proof.
  intros F. revert a' e'. induction F as [|[y l] [z w] a e (E & G & K) F IH]; intros a' e'; cbn [env_set update]; [discriminate|].
  cbn [fst snd] in *. subst z. destruct (String.eqb x y).
  - intros [= <-] [= <-] Gv Hk. constructor; [|exact F]. easy_split.
  - destruct (env_set x v e) as [e1|]; [|discriminate]. destruct (update x k a) as [a1|]; [|discriminate].
    intros [= <-] [= <-] Gv Hk. constructor; [easy_split|]. now apply IH.
Qed.
Lemma update_size x k : forall a a', update x k a = Some a' -> length a' = length a.
Proof.
  induction a as [|[y l] a IH]; intros a'; cbn [update]; [discriminate|]. destruct (String.eqb x y); [now intros [= <-]|].
  destruct (update x k a) as [a1|]; [|discriminate]. intros [= <-]. cbn [length]. f_equal. now apply IH.
Qed.
Lemma same_weaker a e x old v e' : env_ok a e -> env_get x e = Some old -> ~ scalar old -> env_set x v e = Some e' ->
  good_val v -> (forall n, v <> VNode n) -> env_ok a e'.
Proof.
  intros F O So S G N. eapply set_ok; eauto. intros k L. destruct (lookup_ok _ _ _ _ F L) as (v0 & G0 & _ & K0).
  rewrite O in G0. injection G0 as <-. eapply kind_val_change; eauto.
Qed.

Lemma take_node_ok a e x s n e' s' : env_ok a e -> take_node x e s = Ok (n, e') s' ->
  s' = s /\ env_get x e = Some (VNode n) /\ env_ok a e' /\ good n.
Proof.
  intros F. unfold take_node. destruct (env_get x e) as [[]|] eqn:G; try discriminate. intro H.
  apply bind_Ok in H as (e1 & s1 & H & E). apply set_or_stuck_inv in H as [H ->]. injection E as <- <- <-.
  split; [reflexivity|]. split; [reflexivity|]. split; [|exact (get_good _ _ _ _ F G)].
  eapply same_weaker; [exact F|exact G|exact (fun x => x)|exact H|exact Logic.I|discriminate].
Qed.
Lemma take_vec_ok a e x s l e' s' : env_ok a e -> take_vec x e s = Ok (l, e') s' ->
  s' = s /\ env_ok a e' /\ Forall good l.
Proof.
  intros F. unfold take_vec. destruct (env_get x e) as [[]|] eqn:G; try discriminate. intro H.
  apply bind_Ok in H as (e1 & s1 & H & E). apply set_or_stuck_inv in H as [H ->]. injection E as <- <- <-.
  split; [reflexivity|]. split; [|exact (get_good _ _ _ _ F G)].
  eapply same_weaker; [exact F|exact G|exact (fun x => x)|exact H|exact Logic.I|discriminate].
Qed.
Lemma args_ok args : forall a e s bs vs e' s', view s bs -> env_ok a e -> eval_args U args e s = Ok (vs, e') s' ->
  s' = s /\ env_ok a e' /\ Forall good_val vs.
Proof.
  induction args as [|g args IH]; intros a e s bs vs e' s' V F Ev; cbn [eval_args] in Ev.
  - injection Ev as <- <- <-. auto.
  - apply bind_Ok in Ev as ([u e1] & s1 & E1 & Ev). apply bind_Ok in Ev as ([us1 e2] & s2 & E2 & Ev). injection Ev as <- <- <-.
    assert (K : s1 = s /\ env_ok a e1 /\ good_val u).
    { destruct g.
      - destruct (eval_bexp b e); [|discriminate]. injection E1 as <- <- <-. easy_split.
      - apply bind_Ok in E1 as (x & s3 & E3 & E1). injection E1 as <- <- <-.
        pose proof (eval_num_reads U n e s bs V) as R. rewrite E3 in R. cbn in R. subst. easy_split.
      - injection E1 as <- <- <-. easy_split.
      - apply bind_Ok in E1 as ([n e3] & s3 & E3 & E1). injection E1 as <- <- <-. cbn [fst snd].
        destruct (take_node_ok _ _ _ _ _ _ _ F E3) as (-> & _ & F' & G). easy_split. }
    destruct K as (-> & F1 & Gu). destruct (IH _ _ _ _ _ _ _ V F1 E2) as (-> & F2 & Gs). auto.
Qed.

(* what is assumed of the arguments of a call *)
Definition called (f : fn) (vs : list value) : Prop :=
  match f with
  | F_parse_binary_operator | F_parse_between_operator | F_parse_in_operator
  | F_parse_is_distinct_from_operator => False
  | F_parse_expr => exists p alias as_table after_dot order,
      vs = [VNum p; VBool alias; VBool as_table; VBool after_dot; VBool order]
  | _ => True
  end.
Lemma args_called f args e s vs e' s' : callable f args = true -> eval_args U args e s = Ok (vs, e') s' -> called f vs.
Proof.
  intros C Ev. unfold callable in C. destruct f; try discriminate; try exact Logic.I.
  assert (B : forall b r e s vs e' s', eval_args U (ABool b :: r) e s = Ok (vs, e') s' ->
    exists x vs1, vs = VBool x :: vs1 /\ eval_args U r e s = Ok (vs1, e') s').
  { clear. intros b r e s vs e' s' Ev. cbn [eval_args] in Ev. apply bind_Ok in Ev as ([u e1] & s1 & E1 & Ev).
    destruct (eval_bexp b e); [|discriminate]. injection E1 as <- <- <-.
    apply bind_Ok in Ev as ([us1 e2] & s2 & E2 & Ev). injection Ev as <- <- <-. eauto. }
  assert (B' : forall b r e s vs e' s', eval_args U (ANum b :: r) e s = Ok (vs, e') s' ->
    exists x s1 vs1, vs = VNum x :: vs1 /\ eval_args U r e s1 = Ok (vs1, e') s').
  { clear. intros b r e s vs e' s' Ev. cbn [eval_args] in Ev. apply bind_Ok in Ev as ([u e1] & s1 & E1 & Ev).
    apply bind_Ok in E1 as (x & s3 & E3 & E1). injection E1 as <- <- <-.
    apply bind_Ok in Ev as ([us1 e2] & s2 & E2 & Ev). injection Ev as <- <- <-. eauto. }
  do 6 (destruct args as [|[] args]; try discriminate).
  apply B' in Ev as (x & s1 & us1 & -> & E2).
  apply B in E2 as (c1 & v1 & -> & E2). apply B in E2 as (c2 & v2 & -> & E2). apply B in E2 as (c3 & v3 & -> & E2).
  apply B in E2 as (c4 & v4 & -> & E2). cbn [eval_args] in E2. injection E2 as <- <- <-. cbn. eauto 6.
Qed.

Definition result_ok (k : kind) (v : value) : Prop :=
  match k with KVal _ => False | _ => match v with VNode n => kind_ok k n | _ => True end end.
Lemma result_node k n : result_ok k (VNode n) <-> kind_ok k n. Proof. now destruct k. Qed.
Section Calls.
Context (call : fn -> list value -> M value) (lf : nat).
Hypothesis call_moves : forall f vs s bs, view s bs -> moves bs s (call f vs s).
Hypothesis call_good : forall f vs s bs v s', called f vs -> view s bs -> Forall good_val vs ->
  call f vs s = Ok v s' -> good_val v /\ result_ok (ret_kind f) v.

Lemma moved {A} bs s (r : res A) x s' : moves bs s r -> r = Ok x s' -> exists bs', view s' bs'.
Proof. intros M ->. destruct M as ((bs' & _ & V) & _). eauto. Qed.

Lemma nexp_ok x k a e s bs n e' s' : view s bs -> env_ok a e -> nexp_kind x a = Some k ->
  eval_nexp U call x e s = Ok (n, e') s' -> good n /\ kind_ok k n /\ env_ok a e' /\ exists bs', view s' bs'.
Proof.
  intros V F N Ev. assert (V' : exists bs', view s' bs') by exact (moved _ _ _ _ _ (eval_nexp_moves U call call_moves x e s bs V) Ev).
  destruct x; cbn [nexp_kind eval_nexp] in *.
  - apply bind_Ok in Ev as (m & s1 & E1 & Ev). injection Ev as <- <- <-.
    destruct (construct_ok _ _ _ _ _ V E1) as (_ & b & bs1 & _ & C). destruct (constructed_ok _ _ _ _ C) as (G & T & _).
    easy_split. rewrite N in T. destruct k; cbn; auto; try (exfalso; destruct ty; discriminate N).
    unfold plain_type. now rewrite T.
  - destruct (callable f args) eqn:Cf; [|discriminate]. injection N as <-. unfold call_node in Ev.
    apply bind_Ok in Ev as ([vs e1] & s1 & Ea & Ev). destruct (args_ok _ _ _ _ _ _ _ _ V F Ea) as (-> & F1 & Gs).
    apply bind_Ok in Ev as (v & s2 & Ec & Ev). destruct (call_good _ _ _ _ _ _ (args_called _ _ _ _ _ _ _ Cf Ea) V Gs Ec) as [Gv Kv].
    destruct v; try discriminate. injection Ev as <- <- <-. apply result_node in Kv. auto.
  - destruct (take_node_ok _ _ _ _ _ _ _ F Ev) as (-> & G & F' & Gn). easy_split.
    destruct (lookup_ok _ _ _ _ F N) as (v & Gv & _ & Kv). rewrite G in Gv. injection Gv as <-. now apply kind_val_node.
  - injection Ev as <- <- <-. easy_split; [apply bare_good|].
    destruct k; cbn; auto; try (exfalso; destruct ty; discriminate N). unfold plain_type. now rewrite N.
  - injection N as <-. destruct (env_get v e) as [[]|] eqn:G; try discriminate.
    destruct (rev ns) as [|m r] eqn:R; [discriminate|]. apply bind_Ok in Ev as (e1 & s1 & H & Ev). injection Ev as <- <- <-.
    apply set_or_stuck_inv in H as [H ->]. pose proof (get_good _ _ _ _ F G) as Gl. cbn in Gl. apply rev_last in R. subst ns.
    apply Forall_app in Gl as [Gl Gm]. inversion Gm; subst. easy_split.
    eapply same_weaker; [exact F|exact G|exact (fun x => x)|exact H|exact Gl|discriminate].
Qed.
Lemma nexps_ok_ok xs : forall a e s bs l e' s', view s bs -> env_ok a e -> nexps_ok xs a = true ->
  eval_nexps U call xs e s = Ok (l, e') s' -> Forall good l /\ env_ok a e' /\ exists bs', view s' bs'.
Proof.
  induction xs as [|x xs IH]; intros a e s bs l e' s' V F N Ev; cbn [eval_nexps nexps_ok] in *.
  - injection Ev as <- <- <-. easy_split.
  - destruct (nexp_kind x a) as [k|] eqn:K; [|discriminate].
    apply bind_Ok in Ev as ([m e1] & s1 & E1 & Ev). apply bind_Ok in Ev as ([ns e2] & s2 & E2 & Ev). injection Ev as <- <- <-.
    destruct (nexp_ok _ _ _ _ _ _ _ _ _ V F K E1) as (G & _ & F1 & bs1 & V1).
    destruct (IH _ _ _ _ _ _ _ V1 F1 N E2) as (Gl & F2 & V2). auto.
Qed.
Lemma vexp_ok_ok x a e s bs l e' s' : view s bs -> env_ok a e -> vexp_ok x a = true ->
  eval_vexp U call x e s = Ok (l, e') s' -> Forall good l /\ env_ok a e' /\ exists bs', view s' bs'.
Proof.
  intros V F N Ev. assert (V' : exists bs', view s' bs') by exact (moved _ _ _ _ _ (eval_vexp_moves U call call_moves x e s bs V) Ev).
  destruct x; cbn [vexp_ok eval_vexp] in *.
  - injection Ev as <- <- <-. auto.
  - destruct (take_vec_ok _ _ _ _ _ _ _ F Ev) as (-> & F' & G). auto.
  - apply bind_Ok in Ev as ([vs e1] & s1 & Ea & Ev). destruct (args_ok _ _ _ _ _ _ _ _ V F Ea) as (-> & F1 & Gs).
    apply bind_Ok in Ev as (w & s2 & Ec & Ev). destruct (call_good _ _ _ _ _ _ (args_called _ _ _ _ _ _ _ N Ea) V Gs Ec) as [Gv _].
    destruct w; try discriminate. injection Ev as <- <- <-. auto.
  - eapply nexps_ok_ok; eauto.
Qed.

Local Ltac gsplit := split; [reflexivity|split; [|assumption]].
Lemma basic_ok c a a' e s ct e' s' : basic c a = Some a' -> gamma a e s -> exec U call lf c e s = Ok (ct, e') s' ->
  ct = Norm /\ gamma a' e' s'.
Proof.
  intros B [F [bs V]] Ev.
  assert (V' : exists bs', view s' bs') by exact (moved _ _ _ _ _ (exec_moves U call lf call_moves c e s bs V) Ev).
  destruct c; cbn [basic exec] in *; try discriminate.
  - (* LetNode *) apply obind_inv in B as (k & K & [= <-]). apply bind_Ok in Ev as ([n e1] & s1 & E1 & Ev). injection Ev as <- <- <-.
    destruct (nexp_ok _ _ _ _ _ _ _ _ _ V F K E1) as (G & Kn & F1 & _). gsplit. constructor; [easy_split|exact F1].
  - (* SetNode *) apply obind_inv in B as (k & K & Up). apply bind_Ok in Ev as ([n e1] & s1 & E1 & Ev). cbn [fst snd] in Ev.
    unfold norm in Ev. apply bind_Ok in Ev as (e2 & s2 & E2 & Ev). injection Ev as <- <- <-. apply set_or_stuck_inv in E2 as [E2 ->].
    destruct (nexp_ok _ _ _ _ _ _ _ _ _ V F K E1) as (G & Kn & F1 & _). gsplit. eapply update_ok; eauto.
  - (* LetVec *) apply check_inv in B as [K [= <-]]. apply bind_Ok in Ev as ([n e1] & s1 & E1 & Ev). injection Ev as <- <- <-.
    destruct (vexp_ok_ok _ _ _ _ _ _ _ _ V F K E1) as (G & F1 & _). gsplit. constructor; [easy_split|exact F1].
  - (* SetVec *) apply check_inv in B as [K Up]. apply bind_Ok in Ev as ([n e1] & s1 & E1 & Ev). cbn [fst snd] in Ev.
    unfold norm in Ev. apply bind_Ok in Ev as (e2 & s2 & E2 & Ev). injection Ev as <- <- <-. apply set_or_stuck_inv in E2 as [E2 ->].
    destruct (vexp_ok_ok _ _ _ _ _ _ _ _ V F K E1) as (G & F1 & _). gsplit. eapply update_ok; eauto; apply kind_val_any.
  - (* LetBool *) injection B as <-. apply bind_Ok in Ev as (b & s1 & E1 & Ev). injection Ev as <- <- <-.
    gsplit. constructor; [easy_split|exact F].
  - (* SetBool *) apply bind_Ok in Ev as (b & s1 & E1 & Ev).
    unfold norm in Ev. apply bind_Ok in Ev as (e2 & s2 & E2 & Ev). injection Ev as <- <- <-. apply set_or_stuck_inv in E2 as [E2 ->].
    gsplit. eapply update_ok; eauto; [exact Logic.I|apply kind_val_any].
  - (* LetNum *) injection B as <-. apply bind_Ok in Ev as (b & s1 & E1 & Ev). injection Ev as <- <- <-.
    gsplit. constructor; [easy_split|exact F].
  - (* SetNum *) apply bind_Ok in Ev as (b & s1 & E1 & Ev).
    unfold norm in Ev. apply bind_Ok in Ev as (e2 & s2 & E2 & Ev). injection Ev as <- <- <-. apply set_or_stuck_inv in E2 as [E2 ->].
    gsplit. eapply update_ok; eauto; [exact Logic.I|apply kind_val_any].
  - injection B as <-. injection Ev as <- <- <-. gsplit. constructor; [easy_split|exact F].
  - injection B as <-. apply bind_Ok in Ev as (b & s1 & E1 & Ev). injection Ev as <- <- <-.
    gsplit. constructor; [easy_split|exact F].
  - injection B as <-. injection Ev as <- <- <-. gsplit. constructor; [easy_split|exact F].
  - injection B as <-. apply bind_Ok in Ev as (b & s1 & E1 & Ev). injection Ev as <- <- <-. gsplit. exact F.
  - (* Push *) apply obind_inv in B as (kc & K & B). apply obind_inv in B as (t & L & B). apply check_inv in B as [P [= <-]].
    apply bind_Ok in Ev as ([n e1] & s1 & E1 & Ev). cbn [fst snd] in Ev.
    unfold norm in Ev. apply bind_Ok in Ev as (e2 & s2 & E2 & Ev). injection Ev as <- <- <-. unfold with_node in E2.
    destruct (nexp_ok _ _ _ _ _ _ _ _ _ V F K E1) as (G & Kn & F1 & _).
    destruct (lookup_ok _ _ _ _ F1 L) as (v & Gv & Gd & Kv). rewrite Gv in E2. destruct v as [|m| | | | |]; try discriminate.
    apply set_or_stuck_inv in E2 as [E2 ->]. destruct (push_kind_ok _ _ _ _ _ P (kind_val_node _ _ Kv) Gd Kn G) as [K1 G1].
    gsplit. eapply set_ok; eauto. intros k0 L0. rewrite L in L0. injection L0 as <-. now apply kind_val_of.
  - (* PushVec *) apply check_inv in B as [K B]. apply obind_inv in B as (t & L & B). apply check_inv in B as [P [= <-]].
    apply bind_Ok in Ev as ([n e1] & s1 & E1 & Ev). cbn [fst snd] in Ev.
    unfold norm in Ev. apply bind_Ok in Ev as (e2 & s2 & E2 & Ev). injection Ev as <- <- <-. unfold with_node in E2.
    destruct (vexp_ok_ok _ _ _ _ _ _ _ _ V F K E1) as (G & F1 & _).
    destruct (lookup_ok _ _ _ _ F1 L) as (v0 & Gv & Gd & Kv). rewrite Gv in E2. destruct v0 as [|m| | | | |]; try discriminate.
    apply set_or_stuck_inv in E2 as [E2 ->]. destruct (push_vec_kind_ok _ _ _ _ P (kind_val_node _ _ Kv) Gd G) as [K1 G1].
    gsplit. eapply set_ok; eauto. intros k0 L0. rewrite L in L0. injection L0 as <-. now apply kind_val_of.
  - (* VecPush *) apply obind_inv in B as (kc & K & [= <-]). apply bind_Ok in Ev as ([n e1] & s1 & E1 & Ev). cbn [fst snd] in Ev.
    destruct (nexp_ok _ _ _ _ _ _ _ _ _ V F K E1) as (G & Kn & F1 & _).
    destruct (env_get v e1) as [[]|] eqn:Gv; try discriminate. unfold norm in Ev. apply bind_Ok in Ev as (e2 & s2 & E2 & Ev).
    injection Ev as <- <- <-. apply set_or_stuck_inv in E2 as [E2 ->]. gsplit.
    eapply same_weaker; eauto; [|discriminate]. apply Forall_app. split; [exact (get_good _ _ _ _ F1 Gv)|auto].
  - (* SetType *) apply check_inv in B as [P Up]. unfold norm in Ev. apply bind_Ok in Ev as (e2 & s2 & E2 & Ev).
    injection Ev as <- <- <-. unfold with_node in E2. destruct (env_get x e) as [[|m| | | | |]|] eqn:Gv; try discriminate.
    apply set_or_stuck_inv in E2 as [E2 ->]. pose proof (get_good _ _ _ _ F Gv) as G. gsplit.
    eapply update_ok; eauto; [now apply set_type_good|]. cbn. now destruct m.
Qed.

Lemma zip_ok a b c e : zip_kinds a b = Some c -> env_ok a e \/ env_ok b e -> env_ok c e.
Proof.
  revert b c e. induction a as [|[x k] a IH]; intros [|[y l] b] c e; cbn [zip_kinds]; try discriminate.
  - intros [= <-]. tauto.
  - destruct (String.eqb_spec x y) as [<-|]; [|discriminate]. destruct (zip_kinds a b) as [c'|] eqn:Z; [|discriminate].
    intros [= <-] H. assert (C : exists z v e', e = (z, v) :: e').
    { destruct H as [H|H]; inversion H as [|? [z v] ? e' ? ?]; eauto. }
    destruct C as (z & v & e' & ->).
    assert (S : slot_ok (x, k) (z, v) /\ env_ok a e' \/ slot_ok (x, l) (z, v) /\ env_ok b e').
    { destruct H as [H|H]; inversion H; auto. }
    constructor.
    + destruct S as [[(E & G & K) _]|[(E & G & K) _]]; easy_split; apply kind_val_join; auto.
    + apply (IH _ _ _ Z). tauto.
Qed.
Lemma le_ok a b e : states_le a b = true -> env_ok a e -> env_ok b e.
Proof.
  revert b e. induction a as [|[x k] a IH]; intros [|[y l] b] e; cbn [states_le]; try discriminate; [auto|].
  destruct (String.eqb_spec x y) as [<-|]; [|discriminate]. destruct (kind_le k l) eqn:L; [|discriminate].
  intros S H. inversion H as [|? [z v] ? e' (E & G & K) F]; subst. constructor; [|now apply IH].
  easy_split. eapply kind_val_le; eauto.
Qed.

Definition returned (r : kind) (v : value) (s : pstate) : Prop :=
  good_val v /\ result_ok r v /\ exists bs, view s bs.
Theorem grouping_sound r : sound U (grouping_domain r) call lf gamma (returned r).
Proof.
  constructor; cbn [grouping_domain d_basic d_test d_pop d_leave d_size d_join d_le d_ret d_retv d_try].
  - intros c a a' e s ct e' s' _. apply basic_ok.
  - intros q a e s b s' [F [bs V]] Ev. exists a. split; [reflexivity|].
    assert (s' = s) as ->; [|split; eauto].
    destruct q; cbn [eval_test] in Ev.
    + eapply cond_same; eauto.
    + apply bind_Ok in Ev as (t & s1 & Et & Ev). injection Ev as _ <-. now apply (get_token_ok _ _ _ _ _ V) in Et as [-> _].
    + apply bind_Ok in Ev as (t & s1 & Et & Ev). injection Ev as _ <-. now apply (get_token_ok _ _ _ _ _ V) in Et as [-> _].
    + destruct (env_get x e) as [[]|]; try discriminate. now injection Ev as _ <-.
  - now intros q b a a' [= <-].
  - intros x v a a1 a2 e s l [= <- <-] [F V] G. split; [intros _; now split|].
    intros n r0 e1 R S. split; [|exact V]. pose proof (get_good _ _ _ _ F G) as Gl. cbn in Gl. apply rev_last in R. subst l.
    apply Forall_app in Gl as [Gl Gm]. inversion Gm; subst. constructor; [easy_split|].
    eapply same_weaker; eauto. discriminate.
  - now intros x v a a1 a2 [= <- <-].
  - intros n a a' e s [= <-] [F V]. split; [|exact V]. unfold env_leave. rewrite (env_ok_length _ _ F).
    clear V. revert F. generalize (length e - n). intros m. revert a e. induction m as [|m IH]; intros a e F; [exact F|].
    inversion F; subst; cbn [skipn]; [constructor|]. now apply IH.
  - intros a e s [F _]. symmetry. exact (env_ok_length _ _ F).
  - intros a b c e s Z [H|H]; destruct H as [F V]; (split; [eapply zip_ok; eauto|exact V]).
  - intros a b e s L [F V]. split; [eapply le_ok; eauto|exact V].
  - intros x a e s n e' s' R [F [bs V]] Ev. destruct (nexp_kind x a) as [k|] eqn:K; [|discriminate].
    destruct (nexp_ok _ _ _ _ _ _ _ _ _ V F K Ev) as (G & Kn & F1 & V1). split; [exact G|]. split; [|exact V1].
    apply result_node. eapply kind_le_ok; eauto.
  - intros x a e s n e' s' R [F [bs V]] Ev. assert (R' : vexp_ok x a = true) by now destruct r.
    destruct (vexp_ok_ok _ _ _ _ _ _ _ _ V F R' Ev) as (G & F1 & V1).
    split; [exact G|]. split; [now destruct r|exact V1].
  - intros x f args a a1 a2 e s vs e1 s1 T [F [bs V]] Ea. apply check_inv in T as [Cf T]. apply obind_inv in T as (b & Up & [= <- <-]).
    destruct (args_ok _ _ _ _ _ _ _ _ V F Ea) as (-> & F1 & Gs). split; [split; eauto|].
    intros n s2 e2 Ec Se. destruct (call_good _ _ _ _ _ _ (args_called _ _ _ _ _ _ _ Cf Ea) V Gs Ec) as [Gv Kv].
    apply result_node in Kv. split; [eapply update_ok; eauto|]. exact (moved _ _ _ _ _ (call_moves f vs s bs V) Ec).
  - intros x f args a a1 a2 T. apply check_inv in T as [Cf T]. apply obind_inv in T as (b & Up & [= <- <-]).
    split; [eapply update_size; eauto|reflexivity].
Qed.

(* a command the domain accepts *)
Lemma accepted r c a o e s ct e' s' : acmd (grouping_domain r) c a = Some o -> gamma a e s ->
  exec U call lf c e s = Ok (ct, e') s' ->
  match ct with
  | Norm => exists a', fst o = Some a' /\ gamma a' e' s'
  | Brk => exists a', snd o = Some a' /\ gamma a' (env_leave (length a) e') s'
  | Ret v => returned r v s'
  end.
Proof.
  intros A G Ev. pose proof (acmd_sound _ _ _ _ _ _ (grouping_sound r) c a o e s G A) as K. rewrite Ev in K. exact K.
Qed.
End Calls.
End WithUnicode.
