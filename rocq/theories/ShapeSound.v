(* What the descriptions of Shape.v mean, and that the checks are sound. *)
From Verif Require Import Chars Token Cst Core MiniRust Bundles ParserView ParserGeneric TreeSpec AbsInt
  NodeIndex Shape.
From Verif Require LexClasses LexProps.
Local Open Scope list_scope.
Local Notation length := List.length.

(* ----- the list functions ----- *)
Lemma all_spec {A} (p : A -> bool) l : all p l = true <-> forall x, In x l -> p x = true.
Proof.
  induction l as [|a l IH]; cbn [all]; [split; [intros _ x []|auto]|].
  destruct (p a) eqn:E.
  - rewrite IH. split; [intros H x [->|I]; auto|intros H x I; apply H; now right].
  - split; [discriminate|]. intro H. rewrite (H a (or_introl eq_refl)) in E. discriminate.
Qed.
Lemma any_spec {A} (p : A -> bool) l : any p l = true <-> exists x, In x l /\ p x = true.
Proof.
  induction l as [|a l IH]; cbn [any]; [split; [discriminate|intros (x & [] & _)]|].
  destruct (p a) eqn:E.
  - split; [|auto]. intros _. exists a. split; [now left|exact E].
  - rewrite IH. split; [intros (x & I & H); exists x; split; [now right|exact H]|].
    intros (x & [->|I] & H); [congruence|]. eauto.
Qed.
Lemma all2_spec {A B} (p : A -> B -> bool) l m : all2 p l m = true -> Forall2 (fun x y => p x y = true) l m.
Proof.
  revert m. induction l as [|a l IH]; intros [|b m]; cbn [all2]; try discriminate; [constructor|].
  destruct (p a b) eqn:E; [|discriminate]. constructor; auto.
Qed.
Lemma each_In {A B} (f : A -> option B) l l' x : each f l = Some l' -> In x l -> exists y, f x = Some y /\ In y l'.
Proof.
  revert l'. induction l as [|a l IH]; intros l' H I; [destruct I|]. cbn [each] in H.
  apply obind_inv in H as (y & Hy & H). apply obind_inv in H as (ys & Hys & [= <-]).
  destruct I as [->|I]; [exists y; split; [exact Hy|now left]|].
  destruct (IH _ Hys I) as (z & Hz & Iz). exists z. split; [exact Hz|now right].
Qed.
Lemma mem_In x l : mem x l = true <-> In x l.
Proof.
  unfold mem. rewrite any_spec. split.
  - intros (y & I & H). apply String.eqb_eq in H. now subst.
  - intro I. exists x. split; [exact I|apply String.eqb_refl].
Qed.
Lemma subset_In a b x : subset a b = true -> In x a -> In x b.
Proof. unfold subset. rewrite all_spec. intros H I. apply mem_In. auto. Qed.
Lemma inter_In a b x : In x (inter a b) <-> In x a /\ In x b.
Proof. unfold inter. rewrite filter_In, mem_In. reflexivity. Qed.
Lemma minus_In a b x : In x (minus a b) <-> In x a /\ ~ In x b.
Proof.
  unfold minus. rewrite filter_In, <- (mem_In x b). destruct (mem x b); intuition congruence.
Qed.
Lemma union_In a b x : In x a \/ In x b -> In x (union a b).
Proof.
  induction a as [|y a IH]; cbn [union]; [intros [[]|I]; exact I|].
  intros [[->|I]|I].
  - destruct (mem x b) eqn:E; [|now left]. apply mem_In in E. auto.
  - destruct (mem y b); [auto|right; auto].
  - destruct (mem y b); [auto|right; auto].
Qed.
Lemma nt_same_eq a b : nt_same a b = true <-> a = b.
Proof. unfold nt_same. rewrite N.eqb_eq. split; [apply nt_idx_inj|now intros ->]. Qed.
Lemma types_le_has a b t : types_le a b = true -> has_type a t = true -> has_type b t = true.
Proof.
  unfold types_le, has_type. rewrite N.eqb_eq. intros H I. rewrite <- H, N.lor_spec, I. reflexivity.
Qed.
Lemma has_type_lor a b t : has_type (N.lor a b) t = has_type a t || has_type b t.
Proof. apply N.lor_spec. Qed.
Lemma has_type_mask t : has_type (type_mask t) t = true.
Proof. unfold has_type, type_mask. rewrite N.shiftl_spec_high'; [|lia]. rewrite N.sub_diag. reflexivity. Qed.

Lemma map_get_In {A} k (m : list (string * A)) v : map_get k m = Some v -> In (k, v) m.
Proof.
  induction m as [|[k' v'] m IH]; cbn [map_get]; [discriminate|].
  destruct (String.eqb_spec k k') as [->|N]; [intros [= ->]; now left|]. intro H. right. auto.
Qed.
Lemma In_map_get {A} k (m : list (string * A)) v : NoDup (map fst m) -> In (k, v) m -> map_get k m = Some v.
Proof.
  induction m as [|[k' v'] m IH]; [intros _ []|]. cbn [map fst map_get]. intros N [E|I].
  - injection E as -> ->. now rewrite String.eqb_refl.
  - inversion N as [|? ? N1 N2]; subst. destruct (String.eqb_spec k k') as [->|_]; [|auto].
    exfalso. apply N1. change k' with (fst (k', v)). now apply in_map.
Qed.
Lemma In_map_get_some {A} k (m : list (string * A)) v : In (k, v) m -> exists v', map_get k m = Some v'.
Proof.
  induction m as [|[k' v'] m IH]; [intros []|]. cbn [map_get]. intros I.
  destruct (String.eqb_spec k k') as [->|N]; [eauto|]. destruct I as [[= <- <-]|I]; [contradiction|auto].
Qed.
Lemma map_get_insert {A} k k' (v : A) m :
  map_get k (map_insert k' v m) = if String.eqb k k' then Some v else map_get k m.
Proof.
  induction m as [|[k1 v1] m IH]; cbn [map_insert map_get]; [reflexivity|].
  destruct (String.eqb_spec k' k1) as [->|N]; cbn [map_get].
  - destruct (String.eqb k k1); reflexivity.
  - rewrite IH. destruct (String.eqb_spec k k1) as [->|N1]; [|reflexivity].
    destruct (String.eqb_spec k1 k') as [->|_]; [contradiction|reflexivity].
Qed.
Lemma In_insert {A} k k' (v v' : A) m : In (k, v) (map_insert k' v' m) -> (k = k' /\ v = v') \/ In (k, v) m.
Proof.
  induction m as [|[k1 v1] m IH]; cbn [map_insert].
  - intros [[= <- <-]|[]]. now left.
  - destruct (String.eqb_spec k' k1) as [->|N]; intros [[= <- <-]|I].
    + now left.
    + right. now right.
    + right. now left.
    + destruct (IH I) as [H|H]; [now left|right; now right].
Qed.
Lemma In_insert_nodup {A} k k' (v v' : A) m : NoDup (map fst m) ->
  In (k, v) (map_insert k' v' m) -> (k = k' /\ v = v') \/ (k <> k' /\ In (k, v) m).
Proof.
  induction m as [|[k1 v1] m IH]; cbn [map_insert map fst].
  - intros _ [[= <- <-]|[]]. now left.
  - intro N. inversion N as [|? ? N1 N2]; subst.
    destruct (String.eqb_spec k' k1) as [->|Ne]; intros [[= <- <-]|I].
    + now left.
    + right. split; [|now right]. intros ->. apply N1. change k1 with (fst (k1, v)). now apply in_map.
    + right. split; [congruence|now left].
    + destruct (IH N2 I) as [H|[H1 H2]]; [now left|]. right. split; [exact H1|now right].
Qed.
Lemma insert_keys {A} k k' (v : A) m : In k (map fst (map_insert k' v m)) <-> k = k' \/ In k (map fst m).
Proof.
  induction m as [|[k1 v1] m IH]; cbn [map_insert map fst In]; [intuition congruence|].
  destruct (String.eqb_spec k' k1) as [->|N]; cbn [map fst In]; [intuition congruence|]. rewrite IH. intuition congruence.
Qed.
Lemma NoDup_insert {A} k (v : A) m : NoDup (map fst m) -> NoDup (map fst (map_insert k v m)).
Proof.
  induction m as [|[k1 v1] m IH]; cbn [map_insert map fst]; intro N; [constructor; [intros []|constructor]|].
  inversion N as [|? ? N1 N2]; subst. destruct (String.eqb_spec k k1) as [->|Ne]; cbn [map fst]; [now constructor|].
  constructor; [|auto]. rewrite insert_keys. intros [->|I]; [contradiction|auto].
Qed.

(* ----- words ----- *)
Section WithUnicode.
Context (U : unicode) (HU : ascii_faithful U).

Lemma upper_char_spec a : N.ltb (N_of_ascii a) 128 = true -> N_of_ascii (upper_char a) = upper_ascii (N_of_ascii a).
Proof. intros _. unfold upper_char. destruct a as [[] [] [] [] [] [] [] []]; vm_compute; reflexivity. Qed.
Lemma upper_string_spec s : plain s = true -> to_uppercase U (s_ s) = s_ (upper_string s).
Proof.
  induction s as [|a s IH]; [reflexivity|]. cbn [plain upper_string s_]. unfold to_uppercase in *. cbn [flat_map].
  destruct (N.ltb (N_of_ascii a) 128) eqn:E; [|discriminate]. intro P.
  rewrite (IH P). destruct HU as [_ Hu]. rewrite Hu by exact E. cbn [app]. now rewrite upper_char_spec.
Qed.

(* ----- meaning ----- *)
Definition in_words (l : list string) (t : token) : Prop := exists w, In w l /\ upper_literal U t = s_ w.
Definition word_ok (ws : words) (t : token) : Prop :=
  match ws with None => True | Some l => in_words l t \/ (mem no_paren l = true /\ upper_literal U t <> s_ "(") end.
Definition node_word (ws : words) (n : node) : Prop :=
  match ws with None => True | Some l => exists t, n_token n = Some t /\ in_words l t end.
Definition has_token (n : node) : bool := match n_token n with Some _ => true | None => false end.

Definition child_ok (d : cdesc) (c : content) : Prop :=
  match c with
  | CNode x => cd_node d = true /\ has_type (cd_types d) (n_type x) = true /\ node_word (cd_words d) x
  | CVec l => cd_vec d = true /\ forall x, In x l -> has_type (cd_types d) (n_type x) = true
  end.
Definition shape (e : entry) (n : node) : Prop :=
  n_type n = en_ty e /\
  (forall b, en_tok e = Some b -> has_token n = b) /\
  node_word (en_words e) n /\
  (forall k, In k (en_must e) -> child k n <> None) /\
  (forall k c, In (k, c) (n_children n) -> comment_key k = false ->
     exists d, map_get k (en_may e) = Some d /\ child_ok d c).

(* the comments of a node are those of its token *)
Definition comment_child (l : list token) : option content :=
  match l with [] => None | _ => Some (CVec (comment_children l)) end.
Definition deco (BS : list bundle) (n : node) : Prop :=
  match n_token n with
  | Some t => exists b, In b BS /\ b_tok b = t /\
      child "leading_comments" n = comment_child (b_lead b) /\ child "trailing_comments" n = comment_child (b_trail b)
  | None => child "leading_comments" n = None /\ child "trailing_comments" n = None
  end.

Definition rem (w : token -> nat) (used : bool) (bs : list bundle) : nat :=
  weight w (flats (if used then tl bs else bs)).
Definition head_weight (w : token -> nat) (bs : list bundle) : nat :=
  match bs with [] => 0 | b :: _ => weight w (flat b) end.
Lemma rem_free w bs : rem w false bs = head_weight w bs + rem w true bs.
Proof. unfold rem, head_weight. destruct bs as [|b bs]; [reflexivity|]. cbn [tl]. now rewrite flats_cons, weight_app. Qed.

Definition value_tokens (v : value) : list token :=
  match v with VNode n => tree_tokens n | VVec l => trees_tokens l | _ => [] end.
Definition value_weight (w : token -> nat) (v : value) : nat := weight w (value_tokens v).
Definition values_weight (w : token -> nat) (l : list value) : nat := list_sum (map (value_weight w) l).

Section Meaning.
Variable BS : list bundle.
Variable schema : node_type -> entry.
Variable rules : list rule.

(* a complete node, with its descendants *)
Inductive conf (n : node) : Prop :=
| conf_intro :
    deco BS n -> NoDup (map fst (n_children n)) -> shape (schema (n_type n)) n ->
    (forall k c, In (k, CNode c) (n_children n) -> comment_key k = false -> conf c) ->
    (forall k l c, In (k, CVec l) (n_children n) -> comment_key k = false -> In c l -> conf c) ->
    conf n.
(* a node under construction *)
Definition node_ok (d : desc) (n : node) : Prop :=
  deco BS n /\ NoDup (map fst (n_children n)) /\ (exists e, In e d /\ shape e n) /\
  (forall k c, In (k, CNode c) (n_children n) -> comment_key k = false -> conf c) /\
  (forall k l c, In (k, CVec l) (n_children n) -> comment_key k = false -> In c l -> conf c).

Definition val_ok (a : aval) (v : value) : Prop :=
  match a with
  | AUndef => v = VUndef
  | ANd d z => exists n, v = VNode n /\ node_ok d n /\ (z = true -> tree_tokens n = [])
  | AVc t k => exists l, v = VVec l /\ (forall x, In x l -> conf x /\ has_type t (n_type x) = true) /\
      match k with LEmpty => l = [] | LOne => length l = 1 | LAny => True end
  | ABo b => exists c, v = VBool c /\ (forall d, b = Some d -> c = d)
  | ASc => value_tokens v = []
  | ASs l => v = VStrs l
  | ATop z => z = true -> value_tokens v = []
  end.

(* a child that was overwritten, and by what *)
Record lost := Lost { lo_parent : node_type; lo_key : string; lo_node : node; lo_new : node }.
Definition rule_ok (r : rule) (n : node) : Prop :=
  conf n /\ has_type (ru_types r) (n_type n) = true /\ node_word (Some (ru_words r)) n.
(* [K]: the tokens both are made of *)
Definition lost_ok (K : (token -> nat) -> nat) (x : lost) : Prop :=
  (exists r, In r rules /\ has_type (ru_parent r) (lo_parent x) = true /\ lo_key x = ru_key r /\
    rule_ok r (lo_node x) /\ rule_ok r (lo_new x)) /\
  forall w, weight w (tree_tokens (lo_node x)) + weight w (tree_tokens (lo_new x)) <= K w.
Lemma lost_ok_mono (K K' : (token -> nat) -> nat) l : (forall w, K w <= K' w) -> Forall (lost_ok K) l -> Forall (lost_ok K') l.
Proof. intro H. apply Forall_impl. intros x [R L]. split; [exact R|]. intro w. specialize (H w). specialize (L w). lia. Qed.
Definition lost_weight (w : token -> nat) (l : list lost) : nat :=
  list_sum (map (fun x => weight w (tree_tokens (lo_node x))) l).
Lemma lost_weight_app w a b : lost_weight w (a ++ b) = lost_weight w a + lost_weight w b.
Proof. unfold lost_weight. now rewrite map_app, list_sum_app. Qed.

Definition slot_ok (bs : list bundle) (s : slot) (xv : string * value) : Prop :=
  fst xv = sl_name s /\ val_ok (sl_val s) (snd xv) /\
  (sl_flag s = Held -> forall w, value_weight w (snd xv) = head_weight w bs).
Definition slot_weight (w : token -> nat) (s : slot) (v : value) : nat :=
  if live (sl_flag s) then value_weight w v else 0.
Fixpoint slots_weight (w : token -> nat) (l : list slot) (e : env) : nat :=
  match l, e with
  | s :: l', (_, v) :: e' => slot_weight w s v + slots_weight w l' e'
  | _, _ => 0
  end.
Definition know_ok (a : astate) (bs : list bundle) : Prop :=
  (forall b, nth_error bs 0 = Some b -> word_ok (st_k0 a) (b_tok b)) /\
  (forall b, nth_error bs 1 = Some b -> word_ok (st_k1 a) (b_tok b)) /\
  (forall b, nth_error bs 2 = Some b -> word_ok (st_k2 a) (b_tok b)).
Definition ctx_words (c : ctx) (bs : list bundle) : Prop :=
  (forall b, nth_error bs 0 = Some b -> word_ok (cx_k0 c) (b_tok b)) /\
  (forall b, nth_error bs 1 = Some b -> word_ok (cx_k1 c) (b_tok b)) /\
  (forall b, nth_error bs 2 = Some b -> word_ok (cx_k2 c) (b_tok b)).

(* ----- the order is sound ----- *)
Lemma in_words_subset a b t : subset a b = true -> in_words a t -> in_words b t.
Proof. intros H (x & I & E). exists x. split; [eapply subset_In; eauto|exact E]. Qed.
Lemma words_le_tok a b t : words_le a b = true -> word_ok a t -> word_ok b t.
Proof.
  destruct b as [y|]; [|intros; exact I]. destruct a as [x|]; [|discriminate]. cbn [words_le word_ok]. intros H [W|[M N]]; [left; now apply (in_words_subset x)|].
  right. split; [|exact N]. apply mem_In in M. apply mem_In. unfold subset in H. rewrite all_spec in H. apply mem_In. now apply H.
Qed.
Lemma words_le_node a b n : words_le a b = true -> node_word a n -> node_word b n.
Proof.
  destruct b as [y|]; [|intros; exact I]. destruct a as [x|]; [|discriminate]. cbn.
  intros H (t & E & W). exists t. split; [exact E|]. eapply in_words_subset; eauto.
Qed.
Lemma le_bool_true a b : le_bool a b = true -> a = true -> b = true.
Proof. now intros H ->. Qed.
Lemma cdesc_le_ok a b c : cdesc_le a b = true -> child_ok a c -> child_ok b c.
Proof.
  unfold cdesc_le. destruct (le_bool (cd_node a) _) eqn:E1; [|discriminate].
  destruct (le_bool (cd_vec a) _) eqn:E2; [|discriminate]. destruct (types_le _ _) eqn:E3; [|discriminate].
  intros E4. destruct c as [x|l]; cbn.
  - intros (H1 & H2 & H3). split; [eapply le_bool_true; eauto|]. split; [eapply types_le_has; eauto|]. eapply words_le_node; eauto.
  - intros (H1 & H2). split; [eapply le_bool_true; eauto|]. intros x I. eapply types_le_has; eauto.
Qed.
Lemma entry_le_ok a b n : entry_le a b = true -> shape a n -> shape b n.
Proof.
  unfold entry_le. destruct (nt_same _ _) eqn:E1; [|discriminate]. destruct (tok_le _ _) eqn:E2; [|discriminate].
  destruct (words_le _ _) eqn:E3; [|discriminate]. destruct (subset _ _) eqn:E4; [|discriminate]. intro E5.
  apply nt_same_eq in E1. intros (H1 & H2 & H3 & H4 & H5).
  split; [congruence|]. split; [|split; [eapply words_le_node; eauto|split]].
  - intros x Hx. rewrite Hx in E2. cbn in E2. destruct (en_tok a) as [y|]; [|discriminate].
    apply eqb_prop in E2. subst. auto.
  - intros k I. apply H4. eapply subset_In; eauto.
  - intros k c I N. destruct (H5 k c I N) as (d & G & C). rewrite all_spec in E5.
    specialize (E5 _ (map_get_In _ _ _ G)). cbn [fst snd] in E5. destruct (map_get k (en_may b)) as [d'|]; [|discriminate].
    exists d'. split; [reflexivity|]. eapply cdesc_le_ok; eauto.
Qed.
Lemma desc_le_shape a b n : desc_le a b = true -> (exists e, In e a /\ shape e n) -> exists e, In e b /\ shape e n.
Proof.
  unfold desc_le. rewrite all_spec. intros H (e & I & S). specialize (H e I). apply any_spec in H as (e' & I' & L).
  exists e'. split; [exact I'|]. eapply entry_le_ok; eauto.
Qed.
Lemma node_ok_desc a b n : ((exists e, In e a /\ shape e n) -> exists e, In e b /\ shape e n) -> node_ok a n -> node_ok b n.
Proof. intros H (D & N & S & K). exact (conj D (conj N (conj (H S) K))). Qed.
Lemma desc_le_ok a b n : desc_le a b = true -> node_ok a n -> node_ok b n.
Proof. intro H. apply node_ok_desc. now apply desc_le_shape. Qed.
Lemma compact_ok d n : node_ok d n -> node_ok (compact d) n.
Proof. unfold compact. destruct (desc_le d _) eqn:E; [now apply desc_le_ok|auto]. Qed.

Lemma zero_ok a v : zero a = true -> val_ok a v -> value_tokens v = [].
Proof.
  destruct a as [|d z|t n|b| |l0|z]; cbn; intros Z H.
  - now subst.
  - destruct H as (n & -> & _ & H). cbn. auto.
  - destruct n; try discriminate. destruct H as (l & -> & _ & ->). reflexivity.
  - destruct H as (c & -> & _). reflexivity.
  - exact H.
  - now subst.
  - auto.
Qed.
Lemma tok_le_ok (a b : option bool) (c : bool) : tok_le a b = true -> (forall d, a = Some d -> c = d) -> forall d, b = Some d -> c = d.
Proof. intros L H d ->. cbn in L. destruct a as [x|]; [|discriminate]. apply eqb_prop in L. subst. auto. Qed.
Lemma val_le_ok a b v : val_le a b = true -> val_ok a v -> val_ok b v.
Proof.
  intros L H. destruct b as [|d' z'|t' n'|b'| |l'|z'].
  - destruct a; try discriminate. exact H.
  - destruct a as [|d z|t n|b| |l0|z]; try discriminate. cbn in L. destruct (le_bool z' z) eqn:E; [|discriminate].
    destruct H as (n & -> & N & Z). exists n. split; [reflexivity|]. split; [eapply desc_le_ok; eauto|].
    intro Hz. apply Z. eapply le_bool_true; eauto.
  - destruct a as [|d z|t n|b| |l0|z]; try discriminate. cbn in L. destruct (types_le t t') eqn:E; [|discriminate].
    destruct H as (l & -> & N & Z). exists l. split; [reflexivity|]. split.
    + intros x I. destruct (N x I) as [C T]. split; [exact C|]. eapply types_le_has; eauto.
    + destruct n, n'; try discriminate; auto.
  - destruct a as [|d z|t n|b| |l0|z]; try discriminate. cbn in L.
    destruct H as (c & -> & Hc). exists c. split; [reflexivity|]. eapply tok_le_ok; eauto.
  - destruct a; try discriminate; [exact H|]. cbn in H |- *. now rewrite H.
  - destruct a as [|d z|t n|b| |l0|z]; try discriminate. cbn in L, H |- *. apply all2_spec in L. subst v. f_equal.
    induction L as [|x y l m E L IH]; [reflexivity|]. apply String.eqb_eq in E. now f_equal.
  - cbn. intro Hz. subst z'. assert (Z : zero a = true) by (destruct a; exact L). eapply zero_ok; eauto.
Qed.
Lemma slot_le_ok bs a b xv : slot_le a b = true -> slot_ok bs a xv ->
  slot_ok bs b xv /\ forall w, slot_weight w a (snd xv) = slot_weight w b (snd xv).
Proof.
  unfold slot_le. destruct (String.eqb_spec (sl_name a) (sl_name b)) as [E1|]; [|discriminate].
  destruct (val_le _ _) eqn:E2; [|discriminate]. intros E3 (H1 & H2 & H3).
  split; [split; [congruence|split; [eapply val_le_ok; eauto|]]|].
  - intro Hb. rewrite Hb in E3. apply H3. destruct (sl_flag a); (reflexivity || discriminate).
  - intro w. unfold slot_weight. destruct (sl_flag a), (sl_flag b); cbn [live]; try discriminate; try reflexivity;
      unfold value_weight; rewrite (zero_ok _ _ E3 H2); reflexivity.
Qed.
Lemma slots_le_ok bs a b e : all2 slot_le a b = true -> Forall2 (slot_ok bs) a e ->
  Forall2 (slot_ok bs) b e /\ forall w, slots_weight w a e = slots_weight w b e.
Proof.
  intros L H. apply all2_spec in L. revert e H. induction L as [|x y a b L1 L IH]; intros e H.
  - inversion H; subst. split; [constructor|reflexivity].
  - inversion H as [|? [z v] ? e' H1 H2]; subst. destruct (slot_le_ok _ _ _ _ L1 H1) as [S W].
    destruct (IH _ H2) as [S' W']. split; [now constructor|]. intro w. cbn [slots_weight]. rewrite W', <- W. reflexivity.
Qed.

(* ----- states ----- *)
Section Run.
Context {fn : Type}.
Variable table : fn -> list ctx.
Variable K : (token -> nat) -> nat.     (* the tokens there are to account for *)

(* [x]: tokens owned by a value that is not in a variable *)
Definition holds (a : astate) (e : env) (s : pstate) (bs : list bundle) (x : (token -> nat) -> nat) : Prop :=
  view s bs /\ suffix bs BS /\ Forall2 (slot_ok bs) (st_slots a) e /\ know_ok a bs /\
  exists L, Forall (lost_ok K) L /\
    forall w, slots_weight w (st_slots a) e + rem w (st_used a) bs + lost_weight w L + x w = K w.
Definition gamma1 (a : astate) (e : env) (s : pstate) : Prop := exists bs, holds a e s bs (fun _ => 0).
Definition gamma (a : states) (e : env) (s : pstate) : Prop :=
  length e = fst a /\ exists x, In x (snd a) /\ gamma1 x e s.

Lemma holds_ext a e s bs x y : (forall w, x w = y w) -> holds a e s bs x -> holds a e s bs y.
Proof.
  intros E (V & S & F & Kn & L & HL & W). refine (conj V (conj S (conj F (conj Kn (ex_intro _ L (conj HL _)))))).
  intro w. rewrite <- E. apply W.
Qed.
Lemma state_le_ok a b e s bs x : state_le a b = true -> holds a e s bs x -> holds b e s bs x.
Proof.
  unfold state_le. destruct (Bool.eqb _ _) eqn:E1; [|discriminate]. destruct (words_le (st_k0 a) _) eqn:E2; [|discriminate].
  destruct (words_le (st_k1 a) _) eqn:E3; [|discriminate]. destruct (words_le (st_k2 a) _) eqn:E5; [|discriminate]. intro E4. apply eqb_prop in E1.
  intros (V & S & F & (K0 & K1 & K2) & L & HL & W). destruct (slots_le_ok _ _ _ _ E4 F) as [F' W'].
  split; [exact V|]. split; [exact S|]. split; [exact F'|]. split.
  - split; [|split]; intros b0 Hb; eapply words_le_tok; eauto.
  - exists L. split; [exact HL|]. intro w. rewrite <- W', <- E1. apply W.
Qed.
Lemma gamma1_le a b e s : state_le a b = true -> gamma1 a e s -> gamma1 b e s.
Proof. intros L (bs & H). exists bs. eapply state_le_ok; eauto. Qed.

Section Merge.
Variable P : astate -> Prop.
Hypothesis mono : forall a b, state_le a b = true -> P a -> P b.
Lemma state_join_l a b c : state_join a b = Some c -> P a -> P c.
Proof.
  unfold state_join. cbv zeta. match goal with |- context [state_le a ?c] => destruct (state_le a c) eqn:E1; [|discriminate]; destruct (state_le b c); [|discriminate] end.
  intros [= <-]. now apply mono.
Qed.
Lemma state_join_r a b c : state_join a b = Some c -> P b -> P c.
Proof.
  unfold state_join. cbv zeta. match goal with |- context [state_le b ?c] => destruct (state_le a c); [|discriminate]; destruct (state_le b c) eqn:E; [|discriminate] end.
  intros [= <-]. now apply mono.
Qed.
Lemma add_state_ok s l : P s \/ (exists a, In a l /\ P a) -> exists a, In a (add_state s l) /\ P a.
Proof.
  induction l as [|t r IH]; cbn [add_state].
  - intros [H|(a & [] & _)]. exists s. split; [now left|exact H].
  - intro H. assert (Hr : P t \/ (P s \/ exists a, In a r /\ P a)).
    { destruct H as [H|(a & [->|I] & H)]; eauto. }
    clear H. destruct (same_key s t).
    + destruct (state_le s t) eqn:L.
      * destruct Hr as [H|[H|(a & I & H)]].
        -- exists t. split; [now left|exact H].
        -- exists t. split; [now left|]. eauto.
        -- exists a. split; [now right|exact H].
      * destruct (state_join t s) as [j|] eqn:J.
        -- destruct Hr as [H|[H|(a & I & H)]].
           ++ exists j. split; [now left|]. eapply state_join_l; eauto.
           ++ exists j. split; [now left|]. eapply state_join_r; eauto.
           ++ exists a. split; [now right|exact H].
        -- destruct Hr as [H|H]; [exists t; split; [now left|exact H]|].
           destruct (IH H) as (a & I & Ha). exists a. split; [now right|exact Ha].
    + destruct Hr as [H|H]; [exists t; split; [now left|exact H]|].
      destruct (IH H) as (a & I & Ha). exists a. split; [now right|exact Ha].
Qed.
Lemma merge_ok l : (exists a, In a l /\ P a) -> exists a, In a (merge l) /\ P a.
Proof.
  unfold merge. intro H.
  assert (G : forall l m, (exists a, In a l /\ P a) \/ (exists a, In a m /\ P a) ->
    exists a, In a (fold_left (fun m s => add_state s m) l m) /\ P a).
  { induction l0 as [|x l0 IH]; intros m [(a & I & Ha)|Hm]; cbn [fold_left].
    - destruct I.
    - exact Hm.
    - destruct I as [->|I]; [|apply IH; left; eauto]. apply IH. right. apply add_state_ok. now left.
    - apply IH. right. apply add_state_ok. now right. }
  apply G. now left.
Qed.
End Merge.
Lemma merge_gamma l e s : (exists a, In a l /\ gamma1 a e s) -> exists a, In a (merge l) /\ gamma1 a e s.
Proof. apply (merge_ok (fun a => gamma1 a e s)). intros a b. apply gamma1_le. Qed.

(* ----- variables ----- *)
Lemma get_slot_ok bs sl e x s : Forall2 (slot_ok bs) sl e -> get_slot x sl = Some s ->
  exists v, env_get x e = Some v /\ val_ok (sl_val s) v /\ (sl_flag s = Held -> forall w, value_weight w v = head_weight w bs).
Proof.
  intro F. induction F as [|t [y v] sl e (H1 & H2 & H3) F IH]; cbn [get_slot env_get]; [discriminate|].
  cbn [fst] in H1. subst y. destruct (String.eqb x (sl_name t)); [|exact IH]. intros [= <-]. exists v. auto.
Qed.
Lemma set_slot_ok bs sl e x s v0 v av f sl' e' : Forall2 (slot_ok bs) sl e ->
  get_slot x sl = Some s -> env_get x e = Some v0 ->
  set_slot x av f sl = Some sl' -> env_set x v e = Some e' ->
  val_ok av v -> (f = Held -> forall w, value_weight w v = head_weight w bs) ->
  Forall2 (slot_ok bs) sl' e' /\
  forall w, slots_weight w sl' e' + slot_weight w s v0 = slots_weight w sl e + (if live f then value_weight w v else 0).
Proof.
  intro F. revert sl' e'. induction F as [|t [y u] sl e (H1 & H2 & H3) F IH]; intros sl' e'; cbn [get_slot env_get]; [discriminate|].
  cbn [fst] in H1. subst y. cbn [set_slot env_set]. destruct (String.eqb x (sl_name t)) eqn:E.
  - intros [= <-] [= <-] [= <-] [= <-] V Hf. split; [constructor; [exact (conj eq_refl (conj V Hf))|exact F]|].
    intro w. cbn [slots_weight snd]. unfold slot_weight. cbn [sl_flag]. lia.
  - intros G1 G2. destruct (set_slot x av f sl) as [sl1|]; [|discriminate]. destruct (env_set x v e) as [e1|]; [|discriminate].
    intros [= <-] [= <-] V Hf. destruct (IH _ _ G1 G2 eq_refl eq_refl V Hf) as [F' W].
    split; [constructor; [exact (conj eq_refl (conj H2 H3))|exact F']|]. intro w. cbn [slots_weight snd]. specialize (W w). lia.
Qed.
Lemma set_slot_env bs sl e x av f sl' v : Forall2 (slot_ok bs) sl e -> set_slot x av f sl = Some sl' ->
  exists e', env_set x v e = Some e'.
Proof.
  intro F. revert sl'. induction F as [|t [y u] sl e (H1 & H2 & H3) F IH]; intros sl'; cbn [set_slot env_set]; [discriminate|].
  cbn [fst] in H1. subst y. destruct (String.eqb x (sl_name t)); [eauto|].
  destruct (set_slot x av f sl) as [sl1|]; [|discriminate]. destruct (IH _ eq_refl) as (e' & ->). cbn. eauto.
Qed.

Lemma put_ok a e s bs x0 x sl v0 v av f a' e' : holds a e s bs x0 ->
  get_slot x (st_slots a) = Some sl -> env_get x e = Some v0 ->
  put x av f a = Some a' -> env_set x v e = Some e' ->
  val_ok av v -> (f = Held -> forall w, value_weight w v = head_weight w bs) ->
  forall x1, (forall w, x0 w + slot_weight w sl v0 = x1 w + (if live f then value_weight w v else 0)) ->
  holds a' e' s bs x1.
Proof.
  intros (V & S & F & Kn & L & HL & W) G E P Es Va Hf x1 Hx.
  unfold put in P. apply obind_inv in P as (l & Hl & [= <-]).
  destruct (set_slot_ok _ _ _ _ _ _ _ _ _ _ _ F G E Hl Es Va Hf) as [F' W'].
  split; [exact V|]. split; [exact S|]. split; [exact F'|]. split; [exact Kn|].
  exists L. split; [exact HL|]. intro w. cbn [with_slots st_slots st_used]. specialize (W w). specialize (W' w). specialize (Hx w). lia.
Qed.
Lemma bound_ok a e s bs x0 x v av f : holds a e s bs x0 -> val_ok av v ->
  (f = Held -> forall w, value_weight w v = head_weight w bs) ->
  forall x1, (forall w, x0 w = x1 w + (if live f then value_weight w v else 0)) ->
  holds (bound x av f a) ((x, v) :: e) s bs x1.
Proof.
  intros (V & S & F & Kn & L & HL & W) Va Hf x1 Hx.
  split; [exact V|]. split; [exact S|]. split; [constructor; [exact (conj eq_refl (conj Va Hf))|exact F]|]. split; [exact Kn|].
  exists L. split; [exact HL|]. intro w. cbn [bound with_slots st_slots st_used slots_weight slot_weight]. unfold slot_weight. cbn [sl_flag].
  specialize (W w). specialize (Hx w). lia.
Qed.

Lemma unhold_slots bs bs' sl e : Forall2 (slot_ok bs) sl e ->
  Forall2 (slot_ok bs') (map unhold_slot sl) e /\ forall w, slots_weight w (map unhold_slot sl) e = slots_weight w sl e.
Proof.
  induction 1 as [|t [y u] sl e (H1 & H2 & H3) F [IH1 IH2]]; [split; [constructor|reflexivity]|].
  cbn [map]. split.
  - constructor; [|exact IH1]. unfold unhold_slot. destruct (sl_flag t) eqn:E; (split; [exact H1|split; [exact H2|cbn; congruence]]).
  - intro w. cbn [slots_weight]. rewrite IH2. f_equal. unfold slot_weight, unhold_slot. destruct (sl_flag t) eqn:E; cbn; rewrite ?E; reflexivity.
Qed.
Lemma unhold_ok a e s bs x : holds a e s bs x -> holds (unhold a) e s bs x.
Proof.
  intros (V & S & F & Kn & L & HL & W). destruct (unhold_slots bs bs _ _ F) as [F' W'].
  split; [exact V|]. split; [exact S|]. split; [exact F'|]. split; [exact Kn|].
  exists L. split; [exact HL|]. intro w. cbn [unhold with_slots st_slots st_used]. rewrite W'. apply W.
Qed.
Lemma release_ok bs sl e sl' : Forall2 (slot_ok bs) sl e -> release sl = Some sl' ->
  Forall2 (slot_ok bs) sl' e /\ forall w, slots_weight w sl' e + head_weight w bs = slots_weight w sl e.
Proof.
  intro F. revert sl'. induction F as [|t [y u] sl e (H1 & H2 & H3) F IH]; intros sl'; cbn [release]; [discriminate|].
  assert (G : option_map (cons t) (release sl) = Some sl' ->
    Forall2 (slot_ok bs) sl' ((y, u) :: e) /\
    forall w, slots_weight w sl' ((y, u) :: e) + head_weight w bs = slots_weight w (t :: sl) ((y, u) :: e)).
  { destruct (release sl) as [sl1|]; [|discriminate]. intros [= <-]. destruct (IH _ eq_refl) as [F' W].
    split; [constructor; [exact (conj H1 (conj H2 H3))|exact F']|]. intro w. cbn [slots_weight]. specialize (W w). lia. }
  destruct (sl_flag t) eqn:E; try exact G. intros [= <-].
  destruct (unhold_slots bs bs _ _ F) as [F' W']. split.
  - constructor; [|exact F']. split; [exact H1|]. split; [exact H2|]. discriminate.
  - intro w. cbn [slots_weight]. rewrite W'. unfold slot_weight. rewrite E. cbn [live sl_flag]. rewrite <- (H3 eq_refl w). cbn [snd]. lia.
Qed.
Lemma free_ok a e s bs x a' : free a = Some a' -> holds a e s bs x ->
  holds a' e s bs x /\ st_used a' = false /\ st_k0 a' = st_k0 a /\ st_k1 a' = st_k1 a /\ st_k2 a' = st_k2 a.
Proof.
  unfold free. destruct (st_used a) eqn:Us.
  - intros Fr (V & S & F & Kn & L & HL & W). apply obind_inv in Fr as (l & Hl & [= <-]).
    destruct (release_ok _ _ _ _ F Hl) as [F' W'].
    split; [|cbn; auto]. split; [exact V|]. split; [exact S|]. split; [exact F'|]. split; [exact Kn|].
    exists L. split; [exact HL|]. intro w. cbn [st_slots st_used]. specialize (W w). specialize (W' w). rewrite Us in W.
    rewrite rem_free. lia.
  - intros [= <-] H. auto.
Qed.

(* ----- tests ----- *)
Lemma str_eqb_eq a b : str_eqb a b = true <-> a = b.
Proof.
  revert b. induction a as [|x a IH]; intros [|y b]; cbn; try (split; discriminate); [split; auto|].
  destruct (N.eqb_spec x y) as [->|N]; cbn.
  - rewrite IH. split; [now intros ->|now intros [= ->]].
  - split; [discriminate|]. now intros [= ].
Qed.
Lemma s_inj a b : s_ a = s_ b -> a = b.
Proof.
  revert b. induction a as [|x a IH]; intros [|y b]; cbn; try discriminate; [reflexivity|].
  intros [= E1 E2]. f_equal; [|auto]. rewrite <- (ascii_N_embedding x), E1. apply ascii_N_embedding.
Qed.
Lemma mem_pats_In u l : mem_pats u l = true <-> exists w, In w l /\ u = s_ w.
Proof.
  unfold mem_pats. rewrite existsb_exists. split; intros (w & I & H); exists w; (split; [exact I|]); now apply str_eqb_eq.
Qed.

Lemma with_known_ok k w a e s bs x : holds a e s bs x ->
  (forall b, nth_error bs k = Some b -> word_ok w (b_tok b)) -> holds (with_known k w a) e s bs x.
Proof.
  intros (V & S & F & (K0 & K1 & K2) & R) H. destruct k as [|[|[|k]]]; cbn [with_known]; (split; [exact V|split; [exact S|split; [exact F|split; [repeat split; assumption|exact R]]]]).
Qed.
Lemma known_ok k a e s bs x b : holds a e s bs x -> nth_error bs k = Some b -> word_ok (known k a) (b_tok b).
Proof. intros (V & S & F & (K0 & K1 & K2) & R) H. destruct k as [|[|[|k]]]; cbn [known]; auto. exact I. Qed.

Lemma word_in_ok k l a e s bs x b : holds a e s bs x -> nth_error bs k = Some b -> in_words l (b_tok b) ->
  exists a', In a' (word_in k l a) /\ holds a' e s bs x.
Proof.
  intros H E W. pose proof (known_ok _ _ _ _ _ _ _ H E) as Kn. unfold word_in.
  set (r := match known k a with None => l | Some x => if mem no_paren x then (if mem "(" x then l else minus l ["("%string]) else inter x l end).
  assert (G : in_words r (b_tok b)).
  { subst r. destruct (known k a) as [y|]; [|exact W]. destruct W as (w1 & I1 & E1). cbn [word_ok] in Kn. destruct (mem no_paren y) eqn:M.
    - destruct (mem "(" y) eqn:P; [exists w1; auto|]. exists w1. rewrite minus_In. split; [|exact E1]. split; [exact I1|].
      intros [<-|[]]. destruct Kn as [(w2 & I2 & E2)|[_ N]]; [|congruence].
      assert (w2 = "("%string) as -> by (apply s_inj; congruence). apply mem_In in I2. congruence.
    - destruct Kn as [(w2 & I2 & E2)|[M' _]]; [|congruence].
      assert (w1 = w2) as -> by (apply s_inj; congruence). exists w2. rewrite inter_In. auto. }
  clearbody r. destruct r as [|w ws].
  - destruct G as (w & [] & _).
  - eexists. split; [now left|]. apply with_known_ok; [exact H|]. intros b' Hb. rewrite E in Hb. injection Hb as <-. left. exact G.
Qed.
Lemma word_not_in_ok k l a e s bs x b : holds a e s bs x -> nth_error bs k = Some b -> ~ in_words l (b_tok b) ->
  exists a', In a' (word_not_in k l a) /\ holds a' e s bs x.
Proof.
  intros H E W. pose proof (known_ok _ _ _ _ _ _ _ H E) as Kn. unfold word_not_in.
  destruct (known k a) as [y|].
  2: { destruct k as [|k]; [|exists a; split; [now left|exact H]]. destruct l as [|p [|q r]]; [exists a; split; [now left|exact H]| |exists a; split; [now left|exact H]].
    destruct (String.eqb p "(") eqn:Ep; [|exists a; split; [now left|exact H]]. apply String.eqb_eq in Ep. subst p.
    eexists. split; [now left|]. apply with_known_ok; [exact H|]. intros b' Hb. rewrite E in Hb. injection Hb as <-. right. split; [reflexivity|].
    intro Eb. apply W. exists "("%string. split; [now left|exact Eb]. }
  set (r := filter (fun w => if String.eqb w no_paren then true else negb (mem w l)) y).
  assert (G : word_ok (Some r) (b_tok b)).
  { subst r. cbn [word_ok] in *. destruct Kn as [(w2 & I2 & E2)|[M N]].
    - left. exists w2. split; [|exact E2]. apply filter_In. split; [exact I2|]. destruct (String.eqb w2 no_paren); [reflexivity|].
      destruct (mem w2 l) eqn:Mw; [|reflexivity]. exfalso. apply W. exists w2. apply mem_In in Mw. auto.
    - right. split; [|exact N]. apply mem_In in M. apply mem_In. apply filter_In. split; [exact M|]. reflexivity. }
  clearbody r. destruct r as [|w ws].
  - destruct G as [(w & [] & _)|[M _]]. discriminate M.
  - eexists. split; [now left|]. apply with_known_ok; [exact H|]. intros b' Hb. rewrite E in Hb. injection Hb as <-. exact G.
Qed.
Lemma upper_words l t : all plain l = true -> in_words (map upper_string l) t <-> exists w, In w l /\ upper_literal U t = to_uppercase U (s_ w).
Proof.
  intro P. rewrite all_spec in P. split.
  - intros (w & I & E). apply in_map_iff in I as (v & <- & I). exists v. split; [exact I|]. now rewrite upper_string_spec by auto.
  - intros (w & I & E). exists (upper_string w). split; [now apply in_map|]. now rewrite <- upper_string_spec by auto.
Qed.
Lemma upper_test_ok k l v a e s bs x b : holds a e s bs x -> nth_error bs k = Some b ->
  (v = true <-> exists w, In w l /\ upper_literal U (b_tok b) = to_uppercase U (s_ w)) ->
  exists a', In a' (upper_test k l v a) /\ holds a' e s bs x.
Proof.
  intros H E W. unfold upper_test. destruct (all plain l) eqn:P; [|exists a; split; [now left|exact H]].
  rewrite <- (upper_words l (b_tok b) P) in W. destruct v.
  - eapply word_in_ok; eauto. now apply W.
  - eapply word_not_in_ok; eauto. intro G. apply W in G. discriminate.
Qed.
Lemma upper_test_pos k l a e s bs x b : holds a e s bs x -> nth_error bs k = Some b ->
  (exists w, In w l /\ upper_literal U (b_tok b) = to_uppercase U (s_ w)) ->
  exists a', In a' (upper_test k l true a) /\ holds a' e s bs x.
Proof. intros H E W. eapply upper_test_ok; eauto. split; auto. Qed.

Lemma get_token_ok k s bs t s' : view s bs -> get_token k s = Ok t s' -> s' = s /\ exists b, nth_error bs k = Some b /\ b_tok b = t.
Proof.
  intros V. rewrite (get_token_view _ _ _ V). destruct (nth_error bs k) as [b|]; [|discriminate]. intros [= <- <-]. eauto.
Qed.
Lemma in_spec l t : in_ U l t = true <-> exists w, In w l /\ upper_literal U t = to_uppercase U (s_ w).
Proof.
  unfold in_. rewrite existsb_exists. split; intros (w & I & H); exists w; (split; [exact I|]).
  - now apply str_eqb_eq.
  - unfold is_. now apply str_eqb_eq.
Qed.

Lemma tok_test_ok k p v a e s bs x t : holds a e s bs x -> (exists b, nth_error bs k = Some b /\ b_tok b = t) ->
  eval_tpred U p e t s = Ok v s -> exists a', In a' (tok_test k p v a) /\ holds a' e s bs x.
Proof.
  intros H (b & E & <-) Ev. assert (T : exists a', In a' [a] /\ holds a' e s bs x) by (exists a; split; [now left|exact H]).
  destruct p; cbn [tok_test eval_tpred] in *; try exact T.
  - injection Ev as Ev. eapply upper_test_ok; eauto. rewrite <- in_spec. cbn [in_ existsb]. rewrite orb_false_r, Ev. reflexivity.
  - injection Ev as Ev. eapply upper_test_ok; eauto. rewrite <- in_spec, Ev. reflexivity.
  - injection Ev as Ev. destruct v.
    + eapply word_in_ok; eauto. exists s0. split; [now left|]. now apply str_eqb_eq.
    + eapply word_not_in_ok; eauto. intros (w & [<-|[]] & Ew). apply str_eqb_eq in Ew. congruence.
  - injection Ev as Ev. destruct v; [|exact T]. eapply upper_test_pos; eauto. exists s0. split; [now left|].
    apply str_eqb_eq in Ev. unfold upper_literal. now rewrite Ev.
Qed.

(* a variable is described anew *)
Lemma retype_ok x v sl a e s bs x0 u : holds a e s bs x0 -> get_slot x (st_slots a) = Some sl ->
  env_get x e = Some u -> val_ok v u -> exists a', In a' (retype x v sl a) /\ holds a' e s bs x0.
Proof.
  intros H G E Va. unfold retype. destruct (put x v (sl_flag sl) a) as [a'|] eqn:P; [|exists a; split; [now left|exact H]].
  exists a'. split; [now left|]. pose proof H as (V & S & F & R).
  assert (Es : env_set x u e = Some e).
  { clear - E. induction e as [|[y w] e IH]; cbn [env_get env_set] in *; [discriminate|].
    revert E. destruct (String.eqb x y); [now intros [= ->]|]. intro E. now rewrite IH. }
  destruct (get_slot_ok _ _ _ _ _ F G) as (u' & E' & _ & Hh). rewrite E in E'. injection E' as <-.
  eapply put_ok; eauto.
Qed.
Lemma choose_ok f d n : (forall e, In e d -> shape e n -> exists e', f e = Some e' /\ shape e' n) ->
  (exists e, In e d /\ shape e n) -> exists e, In e (choose f d) /\ shape e n.
Proof.
  intros H (e & I & S). induction d as [|x d IH]; [destruct I|]. cbn [choose].
  assert (Hd : forall e, In e d -> shape e n -> exists e', f e = Some e' /\ shape e' n) by (intros y J; apply H; now right).
  destruct I as [->|I].
  - destruct (H e (or_introl eq_refl) S) as (e' & -> & S'). exists e'. split; [now left|exact S'].
  - destruct (IH Hd I) as (y & J & Sy). destruct (f x); exists y; (split; [try right; exact J|exact Sy]).
Qed.
Lemma node_test_ok x f a e s bs x0 : holds a e s bs x0 ->
  (forall n, env_get x e = Some (VNode n) -> NoDup (map fst (n_children n)) ->
     forall en, shape en n -> exists e', f en = Some e' /\ shape e' n) ->
  exists a', In a' (node_test x f a) /\ holds a' e s bs x0.
Proof.
  intros H Hf. assert (T : exists a', In a' [a] /\ holds a' e s bs x0) by (exists a; split; [now left|exact H]).
  unfold node_test. destruct (get_slot x (st_slots a)) as [sl|] eqn:G; [|exact T].
  destruct (sl_val sl) as [|d z|t n|b| |l0|z] eqn:Ev; try exact T.
  pose proof H as (V & S & F & R). destruct (get_slot_ok _ _ _ _ _ F G) as (u & E & Va & _). rewrite Ev in Va.
  destruct Va as (n & -> & (D & Nd & Sh & Kd) & Z).
  assert (C : exists e0, In e0 (choose f d) /\ shape e0 n).
  { apply choose_ok; [|exact Sh]. intros e0 _. now apply Hf. }
  destruct (choose f d) as [|e1 d1] eqn:Ec; [destruct C as (? & [] & _)|]. rewrite <- Ec in *.
  eapply retype_ok; eauto. exists n. split; [reflexivity|]. split; [|exact Z]. exact (conj D (conj Nd (conj C Kd))).
Qed.
Lemma child_In k n c : NoDup (map fst (n_children n)) -> (child k n = Some c <-> In (k, c) (n_children n)).
Proof. intro N. unfold child. split; [apply map_get_In|now apply In_map_get]. Qed.
Lemma map_get_filter {A} k k' (m : list (string * A)) : k <> k' ->
  map_get k (filter (fun kc => if String.eqb k' (fst kc) then false else true) m) = map_get k m.
Proof.
  intro N. induction m as [|[k1 v1] m IH]; [reflexivity|]. cbn [filter fst map_get].
  destruct (String.eqb_spec k' k1) as [->|N1].
  - rewrite IH. destruct (String.eqb_spec k k1); [contradiction|reflexivity].
  - cbn [map_get]. now rewrite IH.
Qed.
Lemma entry_has_ok k n e : comment_key k = false -> child k n <> None -> shape e n ->
  exists e', entry_has k e = Some e' /\ shape e' n.
Proof.
  intros Hk Hc Sh. unfold entry_has. pose proof Sh as (H1 & H2 & H3 & H4 & H5).
  destruct (child k n) as [c|] eqn:Ec; [|contradiction]. destruct (H5 k c (map_get_In _ _ _ Ec) Hk) as (d & -> & _).
  eexists. split; [reflexivity|]. destruct (mem k (en_must e)); [exact Sh|]. split; [exact H1|]. split; [exact H2|]. split; [exact H3|].
  split; [|exact H5]. intros k' [<-|I]; [congruence|auto].
Qed.
Lemma entry_lacks_ok k n e : child k n = None -> shape e n -> exists e', entry_lacks k e = Some e' /\ shape e' n.
Proof.
  intros Hc (H1 & H2 & H3 & H4 & H5). unfold entry_lacks. destruct (mem k (en_must e)) eqn:M.
  - apply mem_In in M. now apply H4 in M.
  - eexists. split; [reflexivity|]. split; [exact H1|]. split; [exact H2|]. split; [exact H3|]. split; [exact H4|].
    intros k' c I Hk. cbn [en_may]. destruct (H5 k' c I Hk) as (d & G & C). exists d. split; [|exact C].
    rewrite map_get_filter; [exact G|]. intros ->. destruct (In_map_get_some _ _ _ I) as (v' & Hv). unfold child in Hc. congruence.
Qed.

Lemma bind_Ok {A B} (m : M A) (f : A -> M B) s b s' : bind m f s = Ok b s' -> exists a s1, m s = Ok a s1 /\ f a s1 = Ok b s'.
Proof. unfold bind. destruct (m s) as [a s1|? ?|?| |]; try discriminate. eauto. Qed.
Lemma cond_same c e s bs v s' : view s bs -> eval_cond U c e s = Ok v s' -> s' = s.
Proof. intros V H. pose proof (eval_cond_reads U c e s bs V) as R. rewrite H in R. exact R. Qed.

Lemma test1_ok c : forall v a e s bs x, holds a e s bs x -> eval_cond U c e s = Ok v s ->
  exists a', In a' (test1 c v a) /\ holds a' e s bs x.
Proof.
  induction c; intros v0 a0 e0 st bs x0 H Ev;
    assert (T : exists a', In a' [a0] /\ holds a' e0 st bs x0) by (exists a0; split; [now left|exact H]);
    pose proof H as (V & Sx & F & R); cbn [test1 eval_cond] in *; try exact T.
  - injection Ev as <-. exact T.
  - apply bind_Ok in Ev as (t & s1 & Et & Ev). destruct (get_token_ok _ _ _ _ _ V Et) as [-> Hb].
    assert (G : (exists y, p = TInVar y) \/ match p with TInVar _ => False | _ => True end) by (destruct p; eauto).
    destruct G as [[y ->]|G].
    + destruct (get_slot y (st_slots a0)) as [sl|] eqn:Gy; [|exact T].
      destruct (get_slot_ok _ _ _ _ _ F Gy) as (u & Eu & Va & _). cbn [eval_tpred] in Ev. rewrite Eu in Ev.
      destruct (sl_val sl) as [|d z|t1 n|b1| |l0|z]; try exact T. cbn [val_ok] in Va. subst u. injection Ev as Ev.
      destruct Hb as (b & Eb & <-). eapply upper_test_ok; eauto. rewrite <- in_spec, Ev. reflexivity.
    + destruct p; try contradiction; eapply tok_test_ok; eauto.
  - destruct (get_slot x (st_slots a0)) as [sl|] eqn:G; [|exact T].
    destruct (get_slot_ok _ _ _ _ _ F G) as (u & Eu & Va & _). rewrite Eu in Ev.
    destruct u; try discriminate Ev. injection Ev as <-.
    destruct (sl_val sl) as [|d z|t n|[bv|]| |l0|z] eqn:Es; try exact T.
    + destruct Va as (c & [= <-] & Hc). rewrite (Hc bv eq_refl), eqb_reflx. exact T.
    + eapply retype_ok; eauto. exists b. split; [reflexivity|]. now intros d [= ->].
  - apply bind_Ok in Ev as (b & s1 & Eb & Ev). pose proof (cond_same _ _ _ _ _ _ V Eb). subst s1. injection Ev as <-.
    rewrite negb_involutive. eauto.
  - apply bind_Ok in Ev as (b & s1 & Eb & Ev). pose proof (cond_same _ _ _ _ _ _ V Eb). subst s1.
    destruct (IHc1 _ _ _ _ _ _ H Eb) as (a1 & I1 & H1). destruct b.
    + destruct (IHc2 _ _ _ _ _ _ H1 Ev) as (a2 & I2 & H2). exists a2. split; [|exact H2].
      destruct v0; [|rewrite in_app_iff; right]; apply in_flat_map; eauto.
    + injection Ev as <-. exists a1. split; [|exact H1]. rewrite in_app_iff. now left.
  - apply bind_Ok in Ev as (b & s1 & Eb & Ev). pose proof (cond_same _ _ _ _ _ _ V Eb). subst s1.
    destruct (IHc1 _ _ _ _ _ _ H Eb) as (a1 & I1 & H1). destruct b.
    + injection Ev as <-. exists a1. split; [|exact H1]. rewrite in_app_iff. now left.
    + destruct (IHc2 _ _ _ _ _ _ H1 Ev) as (a2 & I2 & H2). exists a2. split; [|exact H2].
      destruct v0; [rewrite in_app_iff; right|]; apply in_flat_map; eauto.
  - destruct (get_slot v (st_slots a0)) as [sl|] eqn:G; [|exact T].
    destruct (get_slot_ok _ _ _ _ _ F G) as (u & Eu & Va & _). rewrite Eu in Ev.
    destruct u; try discriminate Ev. injection Ev as <-.
    destruct (sl_val sl) as [|d z|t k|?| |l0|z] eqn:Es; try exact T.
    destruct Va as (l & [= <-] & Hl & Hk).
    destruct k; destruct (Nat.eqb_spec (length ns) 1) as [E|E]; try exact T; subst; try (cbn in E; lia); try lia.
    eapply retype_ok; eauto. exists ns. auto.
  - destruct (get_slot v (st_slots a0)) as [sl|] eqn:G; [|exact T].
    destruct (get_slot_ok _ _ _ _ _ F G) as (u & Eu & Va & _). rewrite Eu in Ev.
    destruct u; try discriminate Ev. injection Ev as <-.
    destruct (sl_val sl) as [|d z|t k|?| |l0|z] eqn:Es; try exact T.
    destruct Va as (l & [= <-] & Hl & Hk).
    destruct k; destruct (Nat.ltb_spec 0 (length ns)) as [E|E]; try exact T; subst; try (cbn in E; lia); try lia.
    eapply retype_ok; eauto. exists ns. split; [reflexivity|]. split; [exact Hl|]. destruct ns; [reflexivity|cbn in E; lia].
  - eapply node_test_ok; [exact H|]. intros n En Nd en Sh. rewrite En in Ev. injection Ev as <-.
    destruct Sh as (Ht & Sh). exists en.
    assert (E : nt_same (en_ty en) ty = nt_eqb (n_type n) ty).
    { rewrite Ht. destruct (nt_same (en_ty en) ty) eqn:E1, (nt_eqb (en_ty en) ty) eqn:E2; try reflexivity.
      - apply nt_same_eq in E1. apply nt_eqb_eq in E1. congruence.
      - apply nt_eqb_eq in E2. apply nt_same_eq in E2. congruence. }
    rewrite E, eqb_reflx. split; [reflexivity|]. exact (conj Ht Sh).
  - destruct (comment_key k) eqn:Ck; [exact T|]. eapply node_test_ok; [exact H|].
    intros n En Nd en Sh. rewrite En in Ev. injection Ev as Ev. destruct (child k n) as [c|] eqn:Ec; subst v0.
    + apply entry_has_ok; auto. congruence.
    + now apply entry_lacks_ok.
Qed.

Lemma test_states_ok q v a e s bs x s' : holds a e s bs x -> eval_test U q e s = Ok v s' ->
  s' = s /\ exists a', In a' (test_states q v a) /\ holds a' e s bs x.
Proof.
  intros H Ev. pose proof H as (V & _). destruct q; cbn [eval_test test_states] in *.
  - pose proof (cond_same _ _ _ _ _ _ V Ev). subst s'. split; [reflexivity|]. eapply test1_ok; eauto.
  - apply bind_Ok in Ev as (t & s1 & Et & Ev). destruct (get_token_ok _ _ _ _ _ V Et) as (-> & b & Eb & <-).
    injection Ev as Ev <-. split; [reflexivity|]. destruct v.
    + eapply word_in_ok; eauto. apply mem_pats_In in Ev. exact Ev.
    + eapply word_not_in_ok; eauto. intro W. assert (mem_pats (upper_literal U (b_tok b)) pats = true) by (apply mem_pats_In; exact W). congruence.
  - apply bind_Ok in Ev as (t & s1 & Et & Ev). destruct (get_token_ok _ _ _ _ _ V Et) as (-> & b & Eb & <-).
    injection Ev as Ev <-. split; [reflexivity|]. destruct v.
    + eapply upper_test_pos; eauto. apply mem_pats_In in Ev as (w & I & E). exists w. split; [exact I|].
      unfold upper_literal. now rewrite E.
    + exists a. split; [now left|exact H].
  - destruct (env_get x0 e) as [[]|]; try discriminate Ev. injection Ev as _ <-. split; [reflexivity|].
    exists a. split; [now left|exact H].
Qed.

Lemma bool_value_ok b a e s bs x v : holds a e s bs x -> eval_bexp b e = Some v -> forall d, bool_value b a = Some d -> v = d.
Proof.
  intros H. pose proof H as (V & Sx & F & R). revert v. induction b as [b|y|b IH|y z]; intros v Ev d Hd; cbn [eval_bexp bool_value] in *.
  - congruence.
  - destruct (get_slot y (st_slots a)) as [sl|] eqn:G; [|discriminate].
    destruct (get_slot_ok _ _ _ _ _ F G) as (u & Eu & Va & _). rewrite Eu in Ev.
    destruct (sl_val sl) as [|? ?|? ?|o| |?|?]; try discriminate. destruct Va as (c & -> & Hc). injection Ev as <-. auto.
  - destruct (eval_bexp b e) as [w|]; [|discriminate]. injection Ev as <-. destruct (bool_value b a) as [u|]; [|discriminate].
    injection Hd as <-. f_equal. now apply IH.
  - discriminate.
Qed.

(* ----- nodes made from the current token ----- *)
Lemma comment_children_tokens l : trees_tokens (comment_children l) = l.
Proof. unfold trees_tokens. induction l as [|c l IH]; [reflexivity|]. cbn. now f_equal. Qed.
Lemma decorate_new b t ty : decorate b (node_new t ty) =
  Node (Some t) ty
    (match comment_child (b_lead b) with Some c => [("leading_comments"%string, c)] | None => [] end ++
     match comment_child (b_trail b) with Some c => [("trailing_comments"%string, c)] | None => [] end).
Proof. unfold decorate, push_comments, comment_child. destruct (b_lead b), (b_trail b); reflexivity. Qed.
Lemma weight_comment_child w k l :
  weight w (children_tokens (match comment_child l with Some c => [(k, c)] | None => [] end)) = weight w l.
Proof.
  unfold comment_child. destruct l as [|c l]; [reflexivity|]. unfold children_tokens. cbn [flat_map snd content_tokens].
  now rewrite comment_children_tokens, app_nil_r.
Qed.
Lemma decorated_weight w b ty : weight w (tree_tokens (decorate b (node_new (b_tok b) ty))) = weight w (flat b).
Proof.
  rewrite decorate_new, tree_tokens_eq. unfold own_token. cbn [n_token n_children].
  unfold children_tokens. rewrite flat_map_app. fold (children_tokens (match comment_child (b_lead b) with Some c => [("leading_comments"%string, c)] | None => [] end)).
  fold (children_tokens (match comment_child (b_trail b) with Some c => [("trailing_comments"%string, c)] | None => [] end)).
  rewrite !weight_app, !weight_comment_child. unfold flat. rewrite weight_app, !weight_cons, weight_nil. lia.
Qed.
Lemma decorated_children b ty k c : In (k, c) (n_children (decorate b (node_new (b_tok b) ty))) -> comment_key k = true.
Proof.
  rewrite decorate_new. cbn [n_children]. rewrite in_app_iff. unfold comment_child.
  destruct (b_lead b), (b_trail b); cbn; intro H; intuition; match goal with H : (_, _) = (_, _) |- _ => injection H as <- <-; reflexivity end.
Qed.
Lemma decorated_ok b ty w : In b BS -> match w with Some l => in_words l (b_tok b) | None => True end ->
  node_ok [En ty (Some true) w [] []] (decorate b (node_new (b_tok b) ty)).
Proof.
  intros I W. pose proof (decorated_children b ty) as C. split; [|split; [|split; [|split]]].
  - rewrite decorate_new. unfold deco. cbn [n_token]. exists b. split; [exact I|]. split; [reflexivity|].
    unfold child. cbn [n_children]. unfold comment_child. destruct (b_lead b), (b_trail b); cbn; auto.
  - rewrite decorate_new. cbn [n_children]. unfold comment_child. destruct (b_lead b), (b_trail b); cbn;
      repeat constructor; cbn; intuition discriminate.
  - eexists. split; [now left|]. split; [now rewrite decorate_new|]. split; [rewrite decorate_new; cbn; congruence|].
    split; [|split].
    + cbn [en_words]. destruct w as [l|]; [|exact Logic.I]. cbn. exists (b_tok b). split; [now rewrite decorate_new|exact W].
    + intros k [].
    + intros k c Hk Hc. apply C in Hk. congruence.
  - intros k c Hk Hc. apply C in Hk. congruence.
  - intros k l c Hk Hc. apply C in Hk. congruence.
Qed.
Lemma classify_types t next ty : classify U t next = Some ty -> In ty literal_types.
Proof.
  unfold classify. repeat match goal with |- (if ?c then _ else _) = _ -> _ => destruct c; [intros [= <-]; cbn; tauto|] end.
  destruct next as [n|]; [|discriminate]. destruct (_ || _); intros [= <-]; cbn; tauto.
Qed.
(* a word that starts with a letter is no number and no string *)
Lemma name_like_head w t : name_like w = true -> upper_literal U t = s_ w ->
  exists c r, literal t = c :: r /\ (LexClasses.tag c = 2 \/ LexClasses.tag c = 8).
Proof.
  destruct w as [|a w]; [discriminate|]. cbn [name_like]. destruct (65 <=? N_of_ascii a)%N eqn:L; [|discriminate].
  destruct (N_of_ascii a <=? 90)%N eqn:R; [|discriminate]. intros _ E. apply N.leb_le in L, R.
  unfold upper_literal in E. destruct (literal t) as [|c r]; [discriminate E|]. exists c, r. split; [reflexivity|].
  cbn [s_] in E. refine (LexClasses.upper_hd U HU _ _ _ _ E _).
  unfold LexClasses.tag. destruct (N.eqb_spec (N_of_ascii a) 96); [lia|].
  unfold ident_start, is_letter_ascii, is_upper_ascii. replace (in_range 65 90 (N_of_ascii a)) with true; [now rewrite Bool.orb_true_r|].
  symmetry. unfold in_range. apply Bool.andb_true_iff. split; apply N.leb_le; assumption.
Qed.
Lemma name_like_word w t : name_like w = true -> upper_literal U t = s_ w -> is_boolean U t = false /\ upper_literal U t <> s_ "NULL".
Proof.
  intros N E. assert (M : mem w ["TRUE"; "FALSE"; "NULL"]%string = false).
  { destruct w as [|a w]; [discriminate|]. cbn [name_like] in N. destruct (65 <=? _)%N; [|discriminate]. destruct (_ <=? 90)%N; [|discriminate]. now apply Bool.negb_true_iff in N. }
  assert (D : forall v, In v ["TRUE"; "FALSE"; "NULL"]%string -> upper_literal U t <> s_ v).
  { intros v I Ev. rewrite E in Ev. apply s_inj in Ev. subst v. apply mem_In in I. congruence. }
  split; [|apply D; cbn; auto]. unfold is_boolean. apply Bool.orb_false_iff. split; (destruct (str_eqb _ _) eqn:X; [|reflexivity]; apply str_eqb_eq in X; exfalso; revert X; apply D; cbn; auto).
Qed.
Lemma classify_types_of t next ty w : classify U t next = Some ty -> match w with Some l => in_words l t | None => True end -> In ty (literal_types_of w).
Proof.
  intros C W. destruct w as [l|]; [|eapply classify_types; eauto]. unfold literal_types_of. destruct (all name_like l) eqn:A; [|eapply classify_types; eauto].
  destruct W as (w & I & E). rewrite all_spec in A. apply A in I.
  destruct (name_like_word w t I E) as (Nb & Nn). destruct (name_like_head w t I E) as (c & r & El & T).
  unfold classify in C. destruct (is_identifier U t); [injection C as <-; cbn; tauto|].
  replace (is_numeric t) with false in C.
  2: { symmetry. destruct (is_numeric t) eqn:X; [|reflexivity]. apply LexProps.is_numeric_spec in X. rewrite El in X. apply LexClasses.number_tag in X. destruct T; congruence. }
  replace (is_string t) with false in C.
  2: { symmetry. destruct (is_string t) eqn:X; [|reflexivity]. unfold is_string in X.
    destruct (quoted_by 34 t) eqn:Q; [apply (LexClasses.quoted_hd _ _ _ _ El) in Q; subst c; destruct T as [T|T]; vm_compute in T; discriminate T|].
    destruct (quoted_by 39 t) eqn:Q2; [apply (LexClasses.quoted_hd _ _ _ _ El) in Q2; subst c; destruct T as [T|T]; vm_compute in T; discriminate T|discriminate X]. }
  rewrite Nb in C. destruct (is_parameter t); [injection C as <-; cbn; tauto|]. destruct (is_template t); [injection C as <-; cbn; tauto|].
  destruct (str_eqb (upper_literal U t) (s_ "NULL")) eqn:X; [apply str_eqb_eq in X; contradiction|].
  destruct next as [n|]; [|discriminate]. destruct (_ || _); injection C as <-; cbn; tauto.
Qed.
Lemma constructed_ok ty b next n k d : constructed U ty b next = Some n -> constructed_desc ty k = Some d ->
  In b BS -> word_ok k (b_tok b) -> node_ok d n /\ forall f, weight f (tree_tokens n) = weight f (flat b).
Proof.
  intros C D I Wk. unfold constructed_desc in D. set (w := match k with Some l => if mem no_paren l then None else k | None => None end) in D.
  assert (W : match w with Some l => in_words l (b_tok b) | None => True end).
  { subst w. destruct k as [l|]; [|exact Logic.I]. destruct (mem no_paren l) eqn:M; [exact Logic.I|]. cbn [word_ok] in Wk. destruct Wk as [Wk|[M' _]]; [exact Wk|congruence]. }
  clearbody w. clear Wk.
  assert (G : forall t e, n = decorate b (node_new (b_tok b) t) -> In e d -> e = En t (Some true) w [] [] ->
    node_ok d n /\ forall f, weight f (tree_tokens n) = weight f (flat b)).
  { intros t e -> Ie ->. split; [|intro; apply decorated_weight].
    eapply node_ok_desc; [|apply decorated_ok; eauto]. intros (e & [<-|[]] & S). eauto. }
  destruct (nt_same ty N_Unknown) eqn:Eu.
  - apply nt_same_eq in Eu. subst ty. cbn in C. cbv beta iota in D. injection D as <-.
    destruct (classify U (b_tok b) next) as [t|] eqn:Ec; [|discriminate]. injection C as <-.
    eapply (G t _ eq_refl); [|reflexivity]. apply (classify_types_of _ _ _ w) in Ec; [|exact W].
    now apply in_map with (f := fun t => En t (Some true) w [] []).
  - assert (ty <> N_Unknown) by (intros ->; discriminate).
    destruct ty; try contradiction; try discriminate D; injection C as <-; injection D as <-;
      (eapply G; [reflexivity|now left|reflexivity]).
Qed.

(* ----- arguments and calls ----- *)
Lemma take_ok x a e s bs x0 v a' u e' : take x a = Some (v, a') -> holds a e s bs x0 ->
  env_get x e = Some u -> env_set x VUndef e = Some e' ->
  val_ok v u /\ holds a' e' s bs (fun w => x0 w + value_weight w u).
Proof.
  unfold take. intros T H G Es. apply obind_inv in T as (sl & Gs & T). apply check_inv in T as [Lv T].
  apply obind_inv in T as (a1 & P & [= <- <-]). pose proof H as (V & Sx & F & R).
  destruct (get_slot_ok _ _ _ _ _ F Gs) as (u' & G' & Va & _). rewrite G in G'. injection G' as <-.
  split; [exact Va|]. eapply put_ok; eauto; [reflexivity|discriminate|].
  intro w. unfold slot_weight. rewrite Lv. cbn [live]. change (value_weight w VUndef) with 0. lia.
Qed.

Lemma values_weight_cons w v l : values_weight w (v :: l) = value_weight w v + values_weight w l.
Proof. reflexivity. Qed.

Lemma args1_ok args : forall a e s bs x0 vs a' us e' s', args1 args a = Some (vs, a') -> holds a e s bs x0 ->
  eval_args U args e s = Ok (us, e') s' ->
  s' = s /\ Forall2 val_ok vs us /\ holds a' e' s bs (fun w => x0 w + values_weight w us).
Proof.
  induction args as [|g args IH]; intros a e s bs x0 vs a' us e' s' A H Ev; cbn [args1 eval_args] in *.
  - injection A as <- <-. injection Ev as <- <- <-. split; [reflexivity|]. split; [constructor|].
    eapply holds_ext; [|exact H]. intro w. cbn. lia.
  - apply obind_inv in A as ([v a1] & A1 & A). apply obind_inv in A as ([vs1 a2] & A2 & [= <- <-]).
    apply bind_Ok in Ev as ([u e1] & s1 & E1 & Ev). apply bind_Ok in Ev as ([us1 e2] & s2 & E2 & Ev). injection Ev as <- <- <-.
    assert (G : s1 = s /\ val_ok v u /\ holds a1 e1 s bs (fun w => x0 w + value_weight w u)).
    { destruct g.
      - injection A1 as <- <-. destruct (eval_bexp b e) as [c|] eqn:Eb; [|discriminate]. injection E1 as <- <- <-.
        split; [reflexivity|]. split; [exists c; split; [reflexivity|eapply bool_value_ok; eauto]|].
        eapply holds_ext; [|exact H]. intro w. cbn. lia.
      - injection A1 as <- <-. apply bind_Ok in E1 as (k & s3 & E3 & E1). injection E1 as <- <- <-.
        pose proof H as (V & _). pose proof (eval_num_reads U n e s bs V) as R. rewrite E3 in R. cbn in R. subst s3.
        split; [reflexivity|]. split; [reflexivity|]. eapply holds_ext; [|exact H]. intro w. cbn. lia.
      - injection A1 as <- <-. injection E1 as <- <- <-. split; [reflexivity|]. split; [reflexivity|].
        eapply holds_ext; [|exact H]. intro w. cbn. lia.
      - apply bind_Ok in E1 as ([n e3] & s3 & E3 & E1). injection E1 as <- <- <-. unfold take_node in E3.
        destruct (env_get x e) as [[]|] eqn:Gx; try discriminate. apply bind_Ok in E3 as (e4 & s4 & E4 & E3).
        injection E3 as <- <- <-. unfold set_or_stuck in E4. destruct (env_set x VUndef e) as [e5|] eqn:Es; [|discriminate].
        injection E4 as <- <-. split; [reflexivity|]. cbn [fst snd]. eapply take_ok; eauto. }
    destruct G as (-> & Va & H1). destruct (IH _ _ _ _ _ _ _ _ _ _ A2 H1 E2) as (-> & Vs & H2).
    split; [reflexivity|]. split; [now constructor|]. eapply holds_ext; [|exact H2]. intro w. cbn beta. rewrite values_weight_cons. lia.
Qed.

Variable call : fn -> list value -> M value.
Definition call_ok (f : fn) (c : ctx) : Prop := forall us s bs u s',
  view s bs -> suffix bs BS -> Forall2 val_ok (cx_args c) us ->
  ctx_words c bs ->
  call f us s = Ok u s' ->
  exists bs', view s' bs' /\ suffix bs' BS /\ val_ok (cx_ret c) u /\
  (forall b, nth_error bs' 1 = Some b -> word_ok (cx_next c) (b_tok b)) /\
  exists L, Forall (lost_ok (fun w => values_weight w us + rem w (cx_used c) bs)) L /\
    forall w, value_weight w u + rem w (cx_exit c) bs' + lost_weight w L = values_weight w us + rem w (cx_used c) bs.
Hypothesis calls : forall f c, In c (table f) -> call_ok f c.

Lemma find_ctx_ok l vs a c a' : find_ctx l vs a = Some (c, a') ->
  In c l /\ know_le a c = true /\ all2 val_le vs (cx_args c) = true /\
  (cx_used c = true /\ st_used a = true /\ a' = a \/ cx_used c = false /\ free a = Some a').
Proof.
  induction l as [|d l IH]; cbn [find_ctx]; [discriminate|].
  assert (G : find_ctx l vs a = Some (c, a') -> In c (d :: l) /\ know_le a c = true /\ all2 val_le vs (cx_args c) = true /\
    (cx_used c = true /\ st_used a = true /\ a' = a \/ cx_used c = false /\ free a = Some a')).
  { intro Hf. destruct (IH Hf) as (I & R). split; [now right|exact R]. }
  destruct (know_le a d) eqn:E1; [|exact G]. destruct (all2 val_le vs (cx_args d)) eqn:E2; [|exact G].
  destruct (cx_used d) eqn:E3.
  - destruct (st_used a) eqn:E4; [|exact G]. intros [= <- <-]. split; [now left|]. split; [exact E1|]. split; [exact E2|]. left. auto.
  - destruct (free a) as [a1|] eqn:E4; [|exact G]. intros [= <- <-]. split; [now left|]. split; [exact E1|]. split; [exact E2|]. right. auto.
Qed.
Lemma call1_ok f args a e s bs x0 v a' us e' s1 u s' : call1 table f args a = Some (v, a') -> holds a e s bs x0 ->
  eval_args U args e s = Ok (us, e') s1 -> call f us s1 = Ok u s' ->
  val_ok v u /\ exists bs', holds a' e' s' bs' (fun w => x0 w + value_weight w u).
Proof.
  unfold call1. intros C H Ea Ec. apply obind_inv in C as ([vs a1] & A & C). apply obind_inv in C as ([c a2] & Fc & [= <- <-]).
  destruct (args1_ok _ _ _ _ _ _ _ _ _ _ _ A H Ea) as (-> & Vs & H1).
  destruct (find_ctx_ok _ _ _ _ _ Fc) as (I & Wl & Vl & Fr).
  assert (G : holds a2 e' s bs (fun w => x0 w + values_weight w us) /\ st_used a2 = cx_used c).
  { destruct Fr as [(E1 & E2 & ->)|(E1 & E2)]; [split; [exact H1|congruence]|].
    destruct (free_ok _ _ _ _ _ _ E2 H1) as (H2 & E3 & _). split; [exact H2|congruence]. }
  destruct G as [(V & Sx & F & Kn & L & HL & W) Us].
  destruct H1 as (_ & _ & _ & (K0 & K1 & K2) & _).
  destruct (calls f c I us s bs u s' V Sx) as (bs' & V' & S' & Vr & Nx & L' & HL' & W'); [| |exact Ec|].
  - apply all2_spec in Vl. clear - Vl Vs. revert us Vs. induction Vl as [|x y l m E Vl IH]; intros us Vs; inversion Vs; subst; constructor; [|auto].
    exact (val_le_ok _ _ _ E H1).
  - unfold know_le in Wl. destruct (words_le (st_k0 a1) (cx_k0 c)) eqn:Wl0; [|discriminate].
    destruct (words_le (st_k1 a1) (cx_k1 c)) eqn:Wl1; [|discriminate].
    split; [|split]; intros b Hb; eapply words_le_tok; eauto.
  - split; [exact Vr|]. exists bs'. destruct (unhold_slots bs bs' _ _ F) as [F' W2].
    split; [exact V'|]. split; [exact S'|]. split; [exact F'|]. split; [split; [intros; exact Logic.I|split; [exact Nx|intros; exact Logic.I]]|].
    exists (L ++ L'). split.
    { apply Forall_app. split; [exact HL|]. eapply lost_ok_mono; [|exact HL']. intro w. specialize (W w). rewrite Us in W. cbn beta in *. lia. }
    intro w. cbn [called st_slots st_used]. rewrite W2, lost_weight_app.
    specialize (W w). specialize (W' w). rewrite Us in W. lia.
Qed.

(* ----- expressions ----- *)
Lemma complete_ok d n : complete schema d = true -> node_ok d n -> conf n /\ has_type (types_of d) (n_type n) = true /\ node_word (words_of d) n.
Proof.
  unfold complete. rewrite all_spec. intros C (D & N & (e & I & S) & K1 & K2). pose proof S as (Ht & _ & Hw & _).
  split; [|split].
  - constructor; auto. rewrite Ht. eapply entry_le_ok; eauto.
  - unfold types_of. rewrite Ht.
    assert (G : forall l m, has_type m (en_ty e) = true \/ In e l ->
      has_type (fold_left (fun m e => N.lor m (type_mask (en_ty e))) l m) (en_ty e) = true).
    { clear. induction l as [|x l IH]; intros m; cbn [fold_left]; [intros [H|[]]; exact H|].
      intros [H|[->|H]]; apply IH; [left|left|right; exact H]; rewrite has_type_lor; [rewrite H; reflexivity|].
      rewrite has_type_mask. apply orb_true_r. }
    apply G. now right.
  - clear - I Hw. induction d as [|x d IH]; [destruct I|]. cbn [words_of]. destruct (en_words x) as [l|] eqn:Ex; [|exact Logic.I].
    destruct (words_of d) as [m|]; [|exact Logic.I]. destruct I as [->|I].
    + rewrite Ex in Hw. destruct Hw as (t & E & u & Iu & Eu). exists t. split; [exact E|]. exists u. split; [|exact Eu]. apply union_In. now left.
    + destruct (IH I) as (t & E & u & Iu & Eu). exists t. split; [exact E|]. exists u. split; [|exact Eu]. apply union_In. now right.
Qed.
Lemma expand_ok m n : conf n -> has_type m (n_type n) = true -> node_ok (expand schema m) n.
Proof.
  intros [D N S K1 K2] H. refine (conj D (conj N (conj _ (conj K1 K2)))). exists (schema (n_type n)). split; [|exact S].
  unfold expand. apply in_map. rewrite filter_In. split; [apply all_node_types_complete|exact H].
Qed.
Lemma trees_tokens_app a b : trees_tokens (a ++ b) = trees_tokens a ++ trees_tokens b.
Proof. apply flat_map_app. Qed.
Lemma rev_last {A} (l : list A) n r : rev l = n :: r -> l = rev r ++ [n].
Proof. intro H. rewrite <- (rev_involutive l), H. reflexivity. Qed.

Lemma nexp1_ok x a e s bs x0 d z a' n e' s' : nexp1 schema table x a = Some (d, z, a') -> holds a e s bs x0 ->
  eval_nexp U call x e s = Ok (n, e') s' ->
  node_ok d n /\ (z = true -> tree_tokens n = []) /\
  exists bs', holds a' e' s' bs' (fun w => x0 w + weight w (tree_tokens n)) /\
    (fresh x = true -> forall w, weight w (tree_tokens n) = head_weight w bs').
Proof.
  intros Nx H Ev. destruct x; cbn [nexp1 eval_nexp fresh] in *.
  - apply obind_inv in Nx as (a1 & Fr & Nx). apply obind_inv in Nx as (d1 & Cd & [= <- <- <-]).
    apply bind_Ok in Ev as (m & s1 & Ec & Ev). injection Ev as <- <- <-.
    destruct (free_ok _ _ _ _ _ _ Fr H) as (H1 & Us & K0 & K1 & K2). pose proof H1 as (V & Sx & F & Kn & L & HL & W).
    destruct (view_cons _ _ V) as (b & bs1 & ->). rewrite (construct_node_view U _ _ _ ty V) in Ec.
    destruct (constructed U ty b (tok_at bs1 0)) as [k|] eqn:Ek; [|discriminate]. injection Ec as <- <-.
    assert (Ib : In b BS) by (destruct Sx as [pre ->]; rewrite in_app_iff; right; now left).
    destruct (constructed_ok _ _ _ _ _ _ Ek Cd Ib (proj1 Kn b eq_refl)) as [No Wt].
    split; [exact No|]. split; [discriminate|]. exists (b :: bs1). split; [|intros _ w; apply Wt].
    split; [exact V|]. split; [exact Sx|]. split; [exact F|]. split; [exact Kn|]. exists L. split; [exact HL|].
    intro w. cbn [st_slots st_used]. specialize (W w). rewrite Us, rem_free in W. rewrite Wt. cbn [head_weight] in W. lia.
  - apply obind_inv in Nx as ([v a1] & C & Nx). unfold call_node in Ev. apply bind_Ok in Ev as ([us e1] & s1 & Ea & Ev).
    apply bind_Ok in Ev as (u & s2 & Ec & Ev). destruct (call1_ok _ _ _ _ _ _ _ _ _ _ _ _ _ _ C H Ea Ec) as (Vr & bs' & H').
    destruct v as [|dd zz|? ?|?| |?|?]; try discriminate. injection Nx as <- <- <-. destruct Vr as (m & -> & No & Z). injection Ev as <- <- <-.
    split; [exact No|]. split; [exact Z|]. exists bs'. split; [exact H'|discriminate].
  - apply obind_inv in Nx as ([v a1] & T & Nx). unfold take_node in Ev. destruct (env_get x e) as [[]|] eqn:Gx; try discriminate.
    apply bind_Ok in Ev as (e1 & s1 & Es & Ev). injection Ev as <- <- <-. unfold set_or_stuck in Es.
    destruct (env_set x VUndef e) as [e2|] eqn:Ee; [|discriminate]. injection Es as <- <-.
    destruct (take_ok _ _ _ _ _ _ _ _ _ _ T H Gx Ee) as (Va & H').
    destruct v as [|dd zz|? ?|?| |?|?]; try discriminate. injection Nx as <- <- <-. destruct Va as (m & [= <-] & No & Z).
    split; [exact No|]. split; [exact Z|]. exists bs. split; [exact H'|discriminate].
  - injection Nx as <- <- <-. injection Ev as <- <- <-. split; [|split; [reflexivity|]].
    + split; [cbn; auto|]. split; [constructor|]. split; [|split; [intros ? ? []|intros ? ? ? []]].
      eexists. split; [now left|]. split; [reflexivity|]. split; [cbn; congruence|]. split; [exact Logic.I|]. split; [intros k []|intros k c []].
    + exists bs. split; [|discriminate]. eapply holds_ext; [|exact H]. intro w. cbn. lia.
  - apply obind_inv in Nx as (sl & G & Nx). destruct (sl_val sl) as [|? ?|t k|?| |?|?] eqn:Ev1; try discriminate.
    apply check_inv in Nx as [Lv Nx]. apply obind_inv in Nx as (a1 & P & [= <- <- <-]).
    pose proof H as (V & Sx & F & R). destruct (get_slot_ok _ _ _ _ _ F G) as (u & Gu & Va & _). rewrite Ev1 in Va.
    destruct Va as (l & -> & Hl & Hk). rewrite Gu in Ev. destruct (rev l) as [|m r] eqn:Er; [discriminate|].
    apply bind_Ok in Ev as (e1 & s1 & Es & Ev). injection Ev as <- <- <-. unfold set_or_stuck in Es.
    destruct (env_set v (VVec (rev r)) e) as [e2|] eqn:Ee; [|discriminate]. injection Es as <- <-.
    apply rev_last in Er. subst l. destruct (Hl m) as [Cm Tm]; [rewrite in_app_iff; right; now left|].
    split; [now apply expand_ok|]. split; [discriminate|]. exists bs. split; [|discriminate].
    eapply put_ok; [exact H|exact G|exact Gu|exact P|exact Ee| |discriminate|].
    + exists (rev r). split; [reflexivity|]. split; [intros y Iy; apply Hl; rewrite in_app_iff; now left|].
      destruct k; try exact Logic.I. rewrite app_length in Hk. apply length_zero_iff_nil. cbn in Hk. lia.
    + intro w. unfold slot_weight. rewrite Lv. cbn [live]. unfold value_weight. cbn [value_tokens].
      rewrite trees_tokens_app, weight_app. cbn [trees_tokens flat_map]. rewrite app_nil_r. lia.
Qed.

Lemma nexps1_ok xs : forall a e s bs x0 t a' l e' s', nexps1 schema table xs a = Some (t, a') -> holds a e s bs x0 ->
  eval_nexps U call xs e s = Ok (l, e') s' ->
  (forall x, In x l -> conf x /\ has_type t (n_type x) = true) /\
  exists bs', holds a' e' s' bs' (fun w => x0 w + weight w (trees_tokens l)).
Proof.
  induction xs as [|x xs IH]; intros a e s bs x0 t a' l e' s' Nx H Ev; cbn [nexps1 eval_nexps] in *.
  - injection Nx as <- <-. injection Ev as <- <- <-. split; [intros x []|]. exists bs. eapply holds_ext; [|exact H]. intro w. cbn. lia.
  - apply obind_inv in Nx as ([[d z] a1] & N1 & Nx). apply check_inv in Nx as [C Nx]. apply obind_inv in Nx as ([t2 a2] & N2 & [= <- <-]).
    apply bind_Ok in Ev as ([n e1] & s1 & E1 & Ev). apply bind_Ok in Ev as ([ns e2] & s2 & E2 & Ev). injection Ev as <- <- <-.
    destruct (nexp1_ok _ _ _ _ _ _ _ _ _ _ _ _ N1 H E1) as (No & _ & bs1 & H1 & _).
    destruct (complete_ok _ _ C No) as (Cn & Tn & _).
    destruct (IH _ _ _ _ _ _ _ _ _ _ N2 H1 E2) as (Hl & bs2 & H2). split.
    + intros y [<-|I]; rewrite has_type_lor; [now rewrite Tn|]. destruct (Hl y I) as [? ->]. now rewrite orb_true_r.
    + exists bs2. eapply holds_ext; [|exact H2]. intro w. cbn [trees_tokens flat_map]. rewrite weight_app. unfold trees_tokens. lia.
Qed.
Lemma vexp1_ok x a e s bs x0 t k a' l e' s' : vexp1 schema table x a = Some (t, k, a') -> holds a e s bs x0 ->
  eval_vexp U call x e s = Ok (l, e') s' ->
  val_ok (AVc t k) (VVec l) /\ exists bs', holds a' e' s' bs' (fun w => x0 w + weight w (trees_tokens l)).
Proof.
  intros Nx H Ev. destruct x; cbn [vexp1 eval_vexp] in *.
  - injection Nx as <- <- <-. injection Ev as <- <- <-. split; [exists []; split; [reflexivity|]; split; [intros x []|reflexivity]|].
    exists bs. eapply holds_ext; [|exact H]. intro w. cbn. lia.
  - apply obind_inv in Nx as ([u a1] & T & Nx). unfold take_vec in Ev. destruct (env_get v e) as [[]|] eqn:Gx; try discriminate.
    apply bind_Ok in Ev as (e1 & s1 & Es & Ev). injection Ev as <- <- <-. unfold set_or_stuck in Es.
    destruct (env_set v VUndef e) as [e2|] eqn:Ee; [|discriminate]. injection Es as <- <-.
    destruct (take_ok _ _ _ _ _ _ _ _ _ _ T H Gx Ee) as (Va & H').
    destruct u as [|? ?|dd zz|?| |?|?]; try discriminate. injection Nx as <- <- <-. split; [exact Va|]. exists bs. exact H'.
  - apply obind_inv in Nx as ([v a1] & C & Nx). apply bind_Ok in Ev as ([us e1] & s1 & Ea & Ev).
    apply bind_Ok in Ev as (u & s2 & Ec & Ev). destruct (call1_ok _ _ _ _ _ _ _ _ _ _ _ _ _ _ C H Ea Ec) as (Vr & bs' & H').
    destruct v as [|? ?|dd zz|?| |?|?]; try discriminate. injection Nx as <- <- <-. pose proof Vr as (m & -> & _). injection Ev as <- <- <-.
    split; [exact Vr|]. exists bs'. exact H'.
  - apply obind_inv in Nx as ([t1 a1] & N1 & [= <- <- <-]). destruct (nexps1_ok _ _ _ _ _ _ _ _ _ _ _ N1 H Ev) as (Hl & bs' & H').
    split; [exists l; auto|]. exists bs'. exact H'.
Qed.

(* ----- sizes ----- *)
Lemma env_set_length x v e e' : env_set x v e = Some e' -> length e' = length e.
Proof.
  revert e'. induction e as [|[y u] e IH]; intros e'; cbn [env_set]; [discriminate|].
  destruct (String.eqb x y); [now intros [= <-]|]. destruct (env_set x v e) as [e1|]; [|discriminate].
  intros [= <-]. cbn [length]. f_equal. now apply IH.
Qed.
Lemma set_or_stuck_inv x v e s e' s' : set_or_stuck x v e s = Ok e' s' -> env_set x v e = Some e' /\ s' = s.
Proof. unfold set_or_stuck. destruct (env_set x v e); [|discriminate]. now intros [= <- <-]. Qed.
Lemma take_node_length x e s n e' s' : take_node x e s = Ok (n, e') s' -> length e' = length e.
Proof.
  unfold take_node. destruct (env_get x e) as [[]|]; try discriminate. intro H. apply bind_Ok in H as (e1 & s1 & H & E).
  injection E as _ <- _. apply set_or_stuck_inv in H as [H _]. eapply env_set_length; eauto.
Qed.
Lemma args_length args : forall e s vs e' s', eval_args U args e s = Ok (vs, e') s' -> length e' = length e.
Proof.
  induction args as [|g args IH]; intros e s vs e' s' Ev; cbn [eval_args] in Ev; [now injection Ev as _ <- _|].
  apply bind_Ok in Ev as ([u e1] & s1 & E1 & Ev). apply bind_Ok in Ev as ([us1 e2] & s2 & E2 & Ev). injection Ev as _ <- _.
  rewrite (IH _ _ _ _ _ E2). destruct g.
  - destruct (eval_bexp b e); [|discriminate]. now injection E1 as _ <- _.
  - apply bind_Ok in E1 as (? & ? & _ & E1). now injection E1 as _ <- _.
  - now injection E1 as _ <- _.
  - apply bind_Ok in E1 as ([n e3] & s3 & E3 & E1). injection E1 as _ <- _. eapply take_node_length; eauto.
Qed.
Lemma nexp_length x e s n e' s' : eval_nexp U call x e s = Ok (n, e') s' -> length e' = length e.
Proof.
  intro Ev. destruct x; cbn [eval_nexp] in Ev.
  - apply bind_Ok in Ev as (? & ? & _ & Ev). now injection Ev as _ <- _.
  - unfold call_node in Ev. apply bind_Ok in Ev as ([us e1] & s1 & Ea & Ev). apply bind_Ok in Ev as (u & s2 & _ & Ev).
    destruct u; try discriminate. injection Ev as _ <- _. eapply args_length; eauto.
  - eapply take_node_length; eauto.
  - now injection Ev as _ <- _.
  - destruct (env_get v e) as [[]|]; try discriminate. destruct (rev ns) as [|m r]; [discriminate|].
    apply bind_Ok in Ev as (e1 & s1 & H & Ev). injection Ev as _ <- _. apply set_or_stuck_inv in H as [H _]. eapply env_set_length; eauto.
Qed.
Lemma nexps_length xs : forall e s n e' s', eval_nexps U call xs e s = Ok (n, e') s' -> length e' = length e.
Proof.
  induction xs as [|x xs IH]; intros e s n e' s' Ev; cbn [eval_nexps] in Ev; [now injection Ev as _ <- _|].
  apply bind_Ok in Ev as ([m e1] & s1 & E1 & Ev). apply bind_Ok in Ev as ([ns e2] & s2 & E2 & Ev). injection Ev as _ <- _.
  rewrite (IH _ _ _ _ _ E2). eapply nexp_length; eauto.
Qed.
Lemma vexp_length x e s n e' s' : eval_vexp U call x e s = Ok (n, e') s' -> length e' = length e.
Proof.
  intro Ev. destruct x; cbn [eval_vexp] in Ev.
  - now injection Ev as _ <- _.
  - unfold take_vec in Ev. destruct (env_get v e) as [[]|]; try discriminate. apply bind_Ok in Ev as (e1 & s1 & H & E).
    injection E as _ <- _. apply set_or_stuck_inv in H as [H _]. eapply env_set_length; eauto.
  - apply bind_Ok in Ev as ([us e1] & s1 & Ea & Ev). apply bind_Ok in Ev as (u & s2 & _ & Ev).
    destruct u; try discriminate. injection Ev as _ <- _. eapply args_length; eauto.
  - eapply nexps_length; eauto.
Qed.

(* ----- pushing a child ----- *)
Definition insert (k : string) (c : content) (n : node) : node :=
  match n with Node t ty m => Node t ty (map_insert k c m) end.
Definition content_conf (c : content) : Prop :=
  match c with CNode x => conf x | CVec l => forall x, In x l -> conf x end.

Lemma entry_push_ok k c e e' n ct : entry_push rules k c e = Some e' -> comment_key k = false ->
  NoDup (map fst (n_children n)) -> shape e n -> child_ok c ct -> shape e' (insert k ct n).
Proof.
  unfold entry_push. intros P Ck N (Ht & Hk & Hw & Hm & Hc) Co. apply check_inv in P as [_ [= <-]].
  destruct n as [t ty m]. cbn [insert n_children n_type n_token] in *.
  split; [exact Ht|]. split; [exact Hk|]. split; [exact Hw|]. unfold child in *. cbn [n_children en_must en_may] in *. split.
  - intros k' I. rewrite map_get_insert. destruct (String.eqb k' k) eqn:E; [congruence|].
    apply Hm. destruct (mem k (en_must e)); [exact I|]. destruct I as [->|I]; [|exact I]. now rewrite String.eqb_refl in E.
  - intros k' c' I Nc. apply In_insert_nodup in I as [[-> ->]|[Ne I]]; [| |exact N].
    + exists c. rewrite map_get_insert, String.eqb_refl. auto.
    + destruct (Hc _ _ I Nc) as (d & G & O). exists d. rewrite map_get_insert.
      destruct (String.eqb_spec k' k); [contradiction|]. auto.
Qed.
Lemma rule_allows_inv p k c r : rule_allows p k c r = true ->
  k = ru_key r /\ has_type (ru_parent r) p = true /\ cd_vec c = false /\
  types_le (cd_types c) (ru_types r) = true /\ words_le (cd_words c) (Some (ru_words r)) = true.
Proof.
  unfold rule_allows. destruct (String.eqb_spec k (ru_key r)) as [Ek|]; [|discriminate].
  destruct (has_type (ru_parent r) p) eqn:Ep; [|discriminate]. destruct (cd_vec c) eqn:Ev; [discriminate|].
  destruct (types_le (cd_types c) (ru_types r)) eqn:Et; [|discriminate]. auto.
Qed.
Lemma rule_child_ok r c ct : types_le (cd_types c) (ru_types r) = true -> words_le (cd_words c) (Some (ru_words r)) = true ->
  cd_vec c = false -> child_ok c ct -> content_conf ct -> exists x, ct = CNode x /\ rule_ok r x.
Proof.
  intros T W Ev O C. destruct ct as [x|l]; cbn [child_ok content_conf] in *; [|destruct O; congruence]. destruct O as (_ & O1 & O2).
  exists x. split; [reflexivity|]. split; [exact C|]. split; [eapply types_le_has; eauto|]. eapply words_le_node; eauto.
Qed.
Lemma overwritten_ok k c e e' n o ct : entry_push rules k c e = Some e' -> comment_key k = false -> shape e n ->
  (forall k c, In (k, CNode c) (n_children n) -> comment_key k = false -> conf c) ->
  (forall k l c, In (k, CVec l) (n_children n) -> comment_key k = false -> In c l -> conf c) ->
  child_ok c ct -> content_conf ct ->
  child k n = Some o -> exists x y r, o = CNode x /\ ct = CNode y /\ In r rules /\ has_type (ru_parent r) (n_type n) = true /\ k = ru_key r /\
    rule_ok r x /\ rule_ok r y.
Proof.
  unfold entry_push. intros P Ck (Ht & Hk & Hw & Hm & Hc) Kc Kl Co Cc Eo. apply check_inv in P as [R _].
  apply map_get_In in Eo. destruct (Hc _ _ Eo Ck) as (d & G & O). rewrite G in R. apply any_spec in R as (r & Ir & R).
  destruct (rule_allows (en_ty e) k d r) eqn:R1; [|discriminate].
  apply rule_allows_inv in R1 as (Ek & Ep & Ev & Et & Ew). apply rule_allows_inv in R as (_ & _ & Ev' & Et' & Ew').
  assert (Co' : content_conf o) by (destruct o; [cbn; eauto|intros x I; eauto]).
  destruct (rule_child_ok _ _ _ Et Ew Ev O Co') as (x & -> & Rx). destruct (rule_child_ok _ _ _ Et' Ew' Ev' Co Cc) as (y & -> & Ry).
  exists x, y, r. rewrite Ht. auto 10.
Qed.
Lemma insert_child k k' c n : child k' (insert k c n) = if String.eqb k' k then Some c else child k' n.
Proof. destruct n. unfold child. cbn [insert n_children]. apply map_get_insert. Qed.
Lemma insert_token k c n : n_token (insert k c n) = n_token n.
Proof. now destruct n. Qed.
Lemma insert_ok k c d d' n ct : each (entry_push rules k c) d = Some d' -> comment_key k = false ->
  node_ok d n -> child_ok c ct -> content_conf ct ->
  node_ok d' (insert k ct n) /\
  exists L, Forall (lost_ok (fun w => weight w (tree_tokens n) + weight w (content_tokens ct))) L /\
    forall w, weight w (tree_tokens (insert k ct n)) + lost_weight w L = weight w (tree_tokens n) + weight w (content_tokens ct).
Proof.
  intros E Ck (D & N & (e & I & S) & K1 & K2) Co Cc. destruct (each_In _ _ _ _ E I) as (e' & Pe & I').
  assert (Kl : String.eqb "leading_comments" k = false /\ String.eqb "trailing_comments" k = false).
  { unfold comment_key in Ck. rewrite !(String.eqb_sym _ k). destruct (String.eqb k "leading_comments"); [discriminate|]. auto. }
  destruct Kl as [Kl Kt]. split.
  - split; [|split; [|split; [|split]]].
    + unfold deco in *. rewrite insert_token, !insert_child, Kl, Kt. exact D.
    + destruct n. now apply NoDup_insert.
    + exists e'. split; [exact I'|]. eapply entry_push_ok; eauto.
    + intros k' c' Ic Nc. destruct n as [t ty m]. cbn [insert n_children] in *. apply In_insert_nodup in Ic as [[-> Ec]|[Ne Ic]]; [| |exact N]; [|eauto].
      subst ct. exact Cc.
    + intros k' l c' Ic Nc Il. destruct n as [t ty m]. cbn [insert n_children] in *. apply In_insert_nodup in Ic as [[-> Ec]|[Ne Ic]]; [| |exact N]; [|eauto].
      subst ct. now apply Cc.
  - pose proof (fun w => weight_children_insert w k ct (n_children n)) as W.
    assert (Wt : forall w m, weight w (tree_tokens m) = weight w (own_token m) + weight w (children_tokens (n_children m))).
    { intros w m. rewrite tree_tokens_eq, weight_app. reflexivity. }
    assert (Wi : forall w, weight w (tree_tokens (insert k ct n)) = weight w (own_token n) + weight w (children_tokens (map_insert k ct (n_children n)))).
    { intro w. rewrite Wt. destruct n. reflexivity. }
    destruct (child k n) as [o|] eqn:Eo.
    + destruct (overwritten_ok _ _ _ _ _ _ _ Pe Ck S K1 K2 Co Cc Eo) as (x & y & r & -> & -> & Ir & Hp & Hk & Rx & Ry).
      assert (We : forall w, weight w (tree_tokens (insert k (CNode y) n)) + weight w (tree_tokens x) = weight w (tree_tokens n) + weight w (tree_tokens y)).
      { intro w. rewrite Wi, (Wt w n). specialize (W w). unfold child in Eo. rewrite Eo in W. cbn [content_tokens] in W. lia. }
      exists [Lost (n_type n) k x y]. split.
      * constructor; [|constructor]. split; [exists r; auto|]. intro w. cbv beta. cbn [lo_node lo_new content_tokens].
        rewrite (Wt w n). enough (weight w (tree_tokens x) <= weight w (children_tokens (n_children n))) by lia.
        specialize (W w). unfold child in Eo. rewrite Eo in W. cbn [content_tokens] in W.
        clear - Eo. unfold children_tokens. apply map_get_In in Eo. apply in_split in Eo as (a & b & ->).
        rewrite flat_map_app. cbn [flat_map snd content_tokens]. rewrite !weight_app. lia.
      * intro w. specialize (We w). unfold lost_weight. cbn [map lo_node list_sum fold_right content_tokens]. lia.
    + exists []. split; [constructor|]. intro w. rewrite Wi, Wt. specialize (W w). unfold child in Eo. rewrite Eo in W.
      unfold lost_weight. cbn [map list_sum fold_right]. lia.
Qed.
Lemma weightless l : (forall w, weight w l = 0) -> l = [].
Proof. intro H. destruct l as [|t l]; [reflexivity|]. specialize (H (fun _ => 1)). rewrite weight_cons in H. discriminate. Qed.
Lemma holds_lost a e s bs x L x1 : Forall (lost_ok K) L -> (forall w, x w = x1 w + lost_weight w L) -> holds a e s bs x -> holds a e s bs x1.
Proof.
  intros HL Hx (V & S & F & Kn & L' & HL' & W). refine (conj V (conj S (conj F (conj Kn (ex_intro _ (L ++ L') (conj _ _)))))).
  - now apply Forall_app.
  - intro w. rewrite lost_weight_app. specialize (W w). specialize (Hx w). lia.
Qed.
Lemma slot_bound w x sl e s v : get_slot x sl = Some s -> env_get x e = Some v ->
  forall bs, Forall2 (slot_ok bs) sl e -> slot_weight w s v <= slots_weight w sl e.
Proof.
  intros G E bs F. induction F as [|t [y u] sl e (H1 & _) F IH]; cbn [get_slot env_get slots_weight] in *; [discriminate|].
  cbn [fst] in H1. subst y. destruct (String.eqb x (sl_name t)).
  - injection G as <-. injection E as <-. lia.
  - specialize (IH G E). lia.
Qed.
Lemma dead_ok s v : dead s = true -> val_ok (sl_val s) v -> forall w, slot_weight w s v = 0.
Proof.
  unfold dead, slot_weight. intros D Va w. destruct (sl_flag s); cbn [live]; try reflexivity;
    unfold value_weight; now rewrite (zero_ok _ _ D Va).
Qed.

Lemma push1_ok x k c z a a' e e' s bs x0 n ct : push1 rules x k c z a = Some a' ->
  holds a e s bs (fun w => x0 w + weight w (content_tokens ct)) ->
  child_ok c ct -> content_conf ct -> (z = true -> content_tokens ct = []) ->
  env_get x e = Some (VNode n) -> env_set x (VNode (insert k ct n)) e = Some e' ->
  holds a' e' s bs x0.
Proof.
  unfold push1. intros P H Co Cc Z G Es. apply check_inv in P as [Ck P]. apply negb_true_iff in Ck.
  apply obind_inv in P as (sl & Gs & P). apply check_inv in P as [Lv P].
  destruct (sl_val sl) as [|d z'|? ?|?| |?|?] eqn:Ev; try discriminate. apply obind_inv in P as (d' & Ed & P).
  pose proof H as (V & Sx & F & R). destruct (get_slot_ok _ _ _ _ _ F Gs) as (u & Gu & Va & _). rewrite G in Gu. injection Gu as <-.
  rewrite Ev in Va. destruct Va as (m & [= <-] & No & Zn).
  destruct (insert_ok _ _ _ _ _ _ Ed Ck No Co Cc) as (No' & L & HL & W).
  apply (holds_lost _ _ _ _ (fun w => x0 w + lost_weight w L) L); [|reflexivity|].
  { eapply lost_ok_mono; [|exact HL]. intro w. destruct R as (_ & L0 & _ & W0). specialize (W0 w). cbn beta in W0.
    pose proof (slot_bound w _ _ _ _ _ Gs G _ F) as Sb. unfold slot_weight in Sb. rewrite Lv in Sb. unfold value_weight in Sb.
    cbn [value_tokens] in Sb. lia. }
  eapply put_ok; [exact H|exact Gs|exact G|exact P|exact Es| |discriminate|].
  - exists (insert k ct n). split; [reflexivity|]. split; [exact No'|]. intro Ez. apply andb_true_iff in Ez as [Z1 Z2].
    apply weightless. intro w. specialize (W w). rewrite (Zn Z1), (Z Z2), !weight_nil in W. lia.
  - intro w. unfold slot_weight. rewrite Lv. cbn [live]. unfold value_weight. cbn [value_tokens]. specialize (W w). lia.
Qed.
Lemma assign_ok x v f a a' e e' s bs x0 x1 u : assign x v f a = Some a' -> env_set x u e = Some e' -> holds a e s bs x1 ->
  (forall w, x1 w = x0 w + (if live f then value_weight w u else 0)) ->
  val_ok v u -> (f = Held -> forall w, value_weight w u = head_weight w bs) ->
  holds a' e' s bs x0.
Proof.
  unfold assign. intros A Es H Hx Va Hf. apply obind_inv in A as (sl & Gs & A). apply check_inv in A as [D P].
  pose proof H as (V & Sx & F & R). destruct (get_slot_ok _ _ _ _ _ F Gs) as (u0 & Gu & Va0 & _).
  eapply put_ok; eauto. intro w. rewrite (dead_ok _ _ D Va0). specialize (Hx w). lia.
Qed.

(* ----- commands ----- *)
Variable lf : nat.
Lemma eval_bool_ok c v a e s bs x s' : holds a e s bs x -> eval_cond U c e s = Ok v s' ->
  s' = s /\ val_ok (ABo (match test1 c true a, test1 c false a with [], _ => Some false | _, [] => Some true | _, _ => None end)) (VBool v).
Proof.
  intros H Ev. pose proof H as (V & _). pose proof (cond_same _ _ _ _ _ _ V Ev). subst s'. split; [reflexivity|].
  destruct (test1_ok _ _ _ _ _ _ _ H Ev) as (a1 & I1 & _). exists v. split; [reflexivity|]. intros d.
  destruct (test1 c true a) eqn:E1.
  - intros [= <-]. destruct v; [|reflexivity]. rewrite E1 in I1. destruct I1.
  - destruct (test1 c false a) eqn:E2; [|discriminate]. intros [= <-]. destruct v; [reflexivity|]. rewrite E2 in I1. destruct I1.
Qed.
Definition size_after (c : cmd fn) (e : env) : nat := if binds c then S (length e) else length e.
Lemma basic1_ok c a a' e s ct e' s' : control c = false -> basic1 schema rules table c a = Some a' -> gamma1 a e s ->
  exec U call lf c e s = Ok (ct, e') s' -> ct = Norm /\ gamma1 a' e' s' /\ length e' = size_after c e.
Proof.
  intros Nc B (bs & H) Ev. unfold size_after. pose proof H as (V & Sx & F & Kn & R).
  destruct c; try discriminate Nc; cbn [basic1 exec binds] in *; unfold norm in *.
  - (* LetNode *) apply obind_inv in B as ([[d z] a1] & N & B). apply bind_Ok in Ev as ([n e1] & s1 & E1 & Ev). injection Ev as <- <- <-.
    destruct (nexp1_ok _ _ _ _ _ _ _ _ _ _ _ _ N H E1) as (No & Z & bs' & H' & Fr). cbn [fst snd].
    split; [reflexivity|]. split; [|cbn [length]; f_equal; eapply nexp_length; eauto].
    exists bs'. destruct (fresh e0) eqn:Ef.
    + injection B as <-. eapply bound_ok; [eapply unhold_ok; exact H'|exists n; auto|intros _ w; exact (Fr eq_refl w)|]. intro w. reflexivity.
    + injection B as <-. eapply bound_ok; [exact H'|exists n; auto|discriminate|]. intro w. reflexivity.
  - (* SetNode *) apply obind_inv in B as ([[d z] a1] & N & B). apply bind_Ok in Ev as ([n e1] & s1 & E1 & Ev).
    apply bind_Ok in Ev as (e2 & s2 & E2 & Ev). injection Ev as <- <- <-. apply set_or_stuck_inv in E2 as [E2 ->]. cbn [fst snd] in *.
    destruct (nexp1_ok _ _ _ _ _ _ _ _ _ _ _ _ N H E1) as (No & Z & bs' & H' & Fr).
    split; [reflexivity|]. split; [|rewrite (env_set_length _ _ _ _ E2); eapply nexp_length; eauto].
    exists bs'. destruct (fresh e0) eqn:Ef.
    + eapply assign_ok; [exact B|exact E2|eapply unhold_ok; exact H'|intro w; reflexivity|exists n; auto|intros _ w; exact (Fr eq_refl w)].
    + eapply assign_ok; [exact B|exact E2|exact H'|intro w; reflexivity|exists n; auto|discriminate].
  - (* LetVec *) apply obind_inv in B as ([[t k] a1] & N & B). injection B as <-. apply bind_Ok in Ev as ([l e1] & s1 & E1 & Ev). injection Ev as <- <- <-.
    destruct (vexp1_ok _ _ _ _ _ _ _ _ _ _ _ _ N H E1) as (Vl & bs' & H'). cbn [fst snd].
    split; [reflexivity|]. split; [|cbn [length]; f_equal; eapply vexp_length; eauto].
    exists bs'. eapply bound_ok; [exact H'|exact Vl|discriminate|]. intro w. reflexivity.
  - (* SetVec *) apply obind_inv in B as ([[t k] a1] & N & B). apply bind_Ok in Ev as ([l e1] & s1 & E1 & Ev).
    apply bind_Ok in Ev as (e2 & s2 & E2 & Ev). injection Ev as <- <- <-. apply set_or_stuck_inv in E2 as [E2 ->]. cbn [fst snd] in *.
    destruct (vexp1_ok _ _ _ _ _ _ _ _ _ _ _ _ N H E1) as (Vl & bs' & H').
    split; [reflexivity|]. split; [|rewrite (env_set_length _ _ _ _ E2); eapply vexp_length; eauto].
    exists bs'. eapply assign_ok; [exact B|exact E2|exact H'|intro w; reflexivity|exact Vl|discriminate].
  - (* LetBool *) injection B as <-. apply bind_Ok in Ev as (v & s1 & E1 & Ev). injection Ev as <- <- <-.
    destruct (eval_bool_ok _ _ _ _ _ _ _ _ H E1) as [-> Vb]. split; [reflexivity|]. split; [|reflexivity].
    exists bs. eapply bound_ok; [exact H|exact Vb|discriminate|]. intro w. reflexivity.
  - (* SetBool *) apply bind_Ok in Ev as (v & s1 & E1 & Ev). apply bind_Ok in Ev as (e2 & s2 & E2 & Ev). injection Ev as <- <- <-.
    apply set_or_stuck_inv in E2 as [E2 ->]. destruct (eval_bool_ok _ _ _ _ _ _ _ _ H E1) as [-> Vb].
    split; [reflexivity|]. split; [|eapply env_set_length; eauto].
    exists bs. eapply assign_ok; [exact B|exact E2|exact H|intro w; reflexivity|exact Vb|discriminate].
  - (* LetNum *) injection B as <-. apply bind_Ok in Ev as (v & s1 & E1 & Ev). injection Ev as <- <- <-.
    pose proof (eval_num_reads U n e s bs V) as Rn. rewrite E1 in Rn. cbn in Rn. subst s1.
    split; [reflexivity|]. split; [|reflexivity]. exists bs. eapply bound_ok; [exact H|reflexivity|discriminate|]. intro w. reflexivity.
  - (* SetNum *) apply bind_Ok in Ev as (v & s1 & E1 & Ev). apply bind_Ok in Ev as (e2 & s2 & E2 & Ev). injection Ev as <- <- <-.
    pose proof (eval_num_reads U n e s bs V) as Rn. rewrite E1 in Rn. cbn in Rn. subst s1.
    apply set_or_stuck_inv in E2 as [E2 ->]. split; [reflexivity|]. split; [|eapply env_set_length; eauto].
    exists bs. eapply assign_ok; [exact B|exact E2|exact H|intro w; reflexivity|reflexivity|discriminate].
  - (* LetStrs *) injection B as <-. injection Ev as <- <- <-. split; [reflexivity|]. split; [|reflexivity].
    exists bs. eapply bound_ok; [exact H|reflexivity|discriminate|]. intro w. reflexivity.
  - (* LetUpper *) injection B as <-. apply bind_Ok in Ev as (v & s1 & E1 & Ev). injection Ev as <- <- <-.
    destruct (get_token_ok _ _ _ _ _ V E1) as (-> & _). split; [reflexivity|]. split; [|reflexivity].
    exists bs. eapply bound_ok; [exact H|reflexivity|discriminate|]. intro w. reflexivity.
  - (* Declare *) injection B as <-. injection Ev as <- <- <-. split; [reflexivity|]. split; [|reflexivity].
    exists bs. eapply bound_ok; [exact H|reflexivity|discriminate|]. intro w. reflexivity.
  - (* Next *) destruct (st_used a) eqn:Us; [|discriminate]. injection B as <-. apply bind_Ok in Ev as (v & s1 & E1 & Ev). injection Ev as <- <- <-.
    split; [reflexivity|]. split; [|reflexivity]. destruct (view_cons _ _ V) as (b & bs1 & ->). destruct bs1 as [|b1 bs1].
    { rewrite (next_token_end _ _ V) in E1. discriminate. }
    destruct (next_token_view _ _ _ _ V) as (s2 & E2 & V2 & _). rewrite E1 in E2. injection E2 as _ <-.
    exists (b1 :: bs1). destruct (unhold_slots (b :: b1 :: bs1) (b1 :: bs1) _ _ F) as [F' W']. destruct R as (L & HL & W).
    split; [exact V2|]. split; [destruct Sx as [pre ->]; exists (pre ++ [b]); now rewrite <- app_assoc|]. split; [exact F'|].
    split; [split; [|split]; cbn [st_k0 st_k1 st_k2]; [exact (proj1 (proj2 Kn))|exact (proj2 (proj2 Kn))|intros; exact Logic.I]|].
    exists L. split; [exact HL|]. intro w. cbn [st_slots st_used]. rewrite W'. exact (W w).
  - (* Push *) apply obind_inv in B as ([[d z] a1] & N & B). apply check_inv in B as [C B]. apply bind_Ok in Ev as ([n e1] & s1 & E1 & Ev).
    apply bind_Ok in Ev as (e2 & s2 & E2 & Ev). injection Ev as <- <- <-. cbn [fst snd] in *. unfold with_node in E2.
    destruct (env_get x e1) as [[|m| | | | |]|] eqn:G; try discriminate. apply set_or_stuck_inv in E2 as [E2 ->].
    destruct (nexp1_ok _ _ _ _ _ _ _ _ _ _ _ _ N H E1) as (No & Z & bs' & H' & Fr). destruct (complete_ok _ _ C No) as (Cn & Tn & Wn).
    split; [reflexivity|]. split; [|rewrite (env_set_length _ _ _ _ E2); eapply nexp_length; eauto].
    exists bs'. eapply (push1_ok _ _ _ _ _ _ _ _ _ _ _ m (CNode n) B H'); [cbn; auto|exact Cn|exact Z|exact G|].
    destruct m. exact E2.
  - (* PushVec *) apply obind_inv in B as ([[t k] a1] & N & B). apply bind_Ok in Ev as ([l e1] & s1 & E1 & Ev).
    apply bind_Ok in Ev as (e2 & s2 & E2 & Ev). injection Ev as <- <- <-. cbn [fst snd] in *. unfold with_node in E2.
    destruct (env_get x e1) as [[|m| | | | |]|] eqn:G; try discriminate. apply set_or_stuck_inv in E2 as [E2 ->].
    destruct (vexp1_ok _ _ _ _ _ _ _ _ _ _ _ _ N H E1) as ((l' & [= <-] & Hl & Hk) & bs' & H').
    split; [reflexivity|]. split; [|rewrite (env_set_length _ _ _ _ E2); eapply vexp_length; eauto].
    exists bs'. eapply (push1_ok _ _ _ _ _ _ _ _ _ _ _ m (CVec l) B H'); [split; [reflexivity|apply Hl]|intros y Iy; now apply Hl| |exact G|].
    + destruct k; try discriminate. now subst.
    + destruct m. exact E2.
  - (* VecPush *) apply obind_inv in B as ([[d z] a1] & N & B). apply check_inv in B as [C B]. apply obind_inv in B as (sl & Gs & B). apply check_inv in B as [Lv B].
    apply bind_Ok in Ev as ([n e1] & s1 & E1 & Ev). cbn [fst snd] in *.
    destruct (nexp1_ok _ _ _ _ _ _ _ _ _ _ _ _ N H E1) as (No & Z & bs' & H' & Fr). destruct (complete_ok _ _ C No) as (Cn & Tn & Wn).
    pose proof H' as (V1 & Sx1 & F1 & R1). destruct (get_slot_ok _ _ _ _ _ F1 Gs) as (u & Gu & Va & _). rewrite Gu in Ev.
    destruct (sl_val sl) as [|? ?|t k|?| |?|?] eqn:Es; try discriminate. destruct Va as (l & -> & Hl & Hk).
    apply bind_Ok in Ev as (e2 & s2 & E2 & Ev). injection Ev as <- <- <-. apply set_or_stuck_inv in E2 as [E2 ->].
    split; [reflexivity|]. split; [|rewrite (env_set_length _ _ _ _ E2); eapply nexp_length; eauto].
    exists bs'. eapply put_ok; [exact H'|exact Gs|exact Gu|exact B|exact E2| |discriminate|].
    + exists (l ++ [n]). split; [reflexivity|]. split; [|exact Logic.I]. intros y Iy. rewrite has_type_lor. apply in_app_iff in Iy as [Iy|[<-|[]]].
      * destruct (Hl y Iy) as [? ->]. auto.
      * rewrite Tn. split; [exact Cn|apply orb_true_r].
    + intro w. unfold slot_weight. rewrite Lv. cbn [live]. unfold value_weight. cbn [value_tokens].
      rewrite trees_tokens_app, weight_app. cbn [trees_tokens flat_map]. rewrite app_nil_r. lia.
  - (* SetType *) apply obind_inv in B as (sl & Gs & B). apply bind_Ok in Ev as (e2 & s2 & E2 & Ev). injection Ev as <- <- <-.
    unfold with_node in E2. destruct (get_slot_ok _ _ _ _ _ F Gs) as (u & Gu & Va & Hd). rewrite Gu in E2.
    destruct (sl_val sl) as [|d z|? ?|?| |?|?] eqn:Es; try discriminate. destruct Va as (n & -> & No & Z).
    apply set_or_stuck_inv in E2 as [E2 ->]. split; [reflexivity|]. split; [|eapply env_set_length; eauto].
    assert (Tt : tree_tokens (set_type ty n) = tree_tokens n) by (destruct n; reflexivity).
    exists bs. eapply put_ok; [exact H|exact Gs|exact Gu|exact B|exact E2| | |].
    + exists (set_type ty n). split; [reflexivity|]. rewrite Tt. split; [|exact Z]. apply compact_ok.
      destruct No as (D & Nd & (en & Ie & Sh) & K1 & K2). destruct n as [t ty0 m]. split; [exact D|]. split; [exact Nd|]. split; [|split; [exact K1|exact K2]].
      eexists. split; [apply in_map; exact Ie|]. destruct Sh as (S1 & S2 & S3 & S4 & S5). cbn. split; [reflexivity|].
      split; [exact S2|]. split; [exact S3|]. split; [exact S4|exact S5].
    + intros Eh w. unfold value_weight. cbn [value_tokens]. rewrite Tt. now apply Hd.
    + intro w. unfold slot_weight, value_weight. cbn [value_tokens]. rewrite Tt. destruct (live (sl_flag sl)); lia.
Qed.

Lemma leave1_ok k a a' e s : leave1 k a = Some a' -> gamma1 a e s -> gamma1 a' (skipn k e) s.
Proof.
  unfold leave1. intros B (bs & V & Sx & F & Kn & L & HL & W). apply check_inv in B as [D [= <-]]. exists bs.
  assert (G : Forall2 (slot_ok bs) (skipn k (st_slots a)) (skipn k e) /\
    forall w, slots_weight w (skipn k (st_slots a)) (skipn k e) = slots_weight w (st_slots a) e).
  { clear - D F. revert k D. induction F as [|t [y u] sl e (H1 & H2 & H3) F IH]; intros k D; [rewrite !skipn_nil; split; [constructor|reflexivity]|].
    destruct k as [|k]; [split; [constructor; [exact (conj H1 (conj H2 H3))|exact F]|reflexivity]|].
    cbn [firstn all] in D. destruct (dead t) eqn:Dt; [|discriminate]. destruct (IH k D) as [G1 G2]. cbn [skipn].
    split; [exact G1|]. intro w. rewrite G2. cbn [slots_weight]. rewrite (dead_ok _ _ Dt H2). reflexivity. }
  destruct G as [G1 G2]. split; [exact V|]. split; [exact Sx|]. split; [exact G1|]. split; [exact Kn|]. exists L. split; [exact HL|].
  intro w. cbn [with_slots st_slots st_used]. rewrite G2. apply W.
Qed.

Variable here : ctx.
Definition outcome_ok (v : value) (s : pstate) : Prop :=
  exists bs, view s bs /\ suffix bs BS /\ val_ok (cx_ret here) v /\
  (forall b, nth_error bs 1 = Some b -> word_ok (cx_next here) (b_tok b)) /\
  exists L, Forall (lost_ok K) L /\ forall w, value_weight w v + rem w (cx_exit here) bs + lost_weight w L = K w.
Lemma returned_ok v a e s bs u : returned here v a = true -> holds a e s bs (fun w => 0 + value_weight w u) -> val_ok v u ->
  outcome_ok u s.
Proof.
  unfold returned. destruct (val_le v (cx_ret here)) eqn:E1; [|discriminate]. destruct (words_le _ _) eqn:E3; [|discriminate].
  destruct (Bool.eqb _ _) eqn:E2; [|discriminate].
  apply eqb_prop in E2. intros D (V & Sx & F & Kn & L & HL & W) Va. exists bs. split; [exact V|]. split; [exact Sx|].
  split; [eapply val_le_ok; eauto|]. split; [intros b Hb; eapply words_le_tok; [exact E3|]; now apply (proj1 (proj2 Kn))|].
  exists L. split; [exact HL|]. intro w. specialize (W w).
  assert (Z : slots_weight w (st_slots a) e = 0).
  { clear - D F. induction F as [|t [y x] sl e (H1 & H2 & H3) F IH]; [reflexivity|]. cbn [all] in D.
    destruct (dead t) eqn:Dt; [|discriminate]. cbn [slots_weight]. rewrite (dead_ok _ _ Dt H2). now rewrite IH. }
  rewrite <- E2. lia.
Qed.
Lemma args_same args : forall e s vs e' s', all (fun a => match a with ANode _ => false | _ => true end) args = true ->
  eval_args U args e s = Ok (vs, e') s' -> e' = e.
Proof.
  induction args as [|g args IH]; intros e s vs e' s' N Ev; cbn [eval_args all] in *; [now injection Ev as _ <- _|].
  apply bind_Ok in Ev as ([u e1] & s1 & E1 & Ev). apply bind_Ok in Ev as ([us1 e2] & s2 & E2 & Ev). injection Ev as _ <- _.
  destruct g; try discriminate N; rewrite (IH _ _ _ _ _ N E2).
  - destruct (eval_bexp b e); [|discriminate]. now injection E1 as _ <- _.
  - apply bind_Ok in E1 as (? & ? & _ & E1). now injection E1 as _ <- _.
  - now injection E1 as _ <- _.
Qed.

Theorem shape_sound : sound U (shape_domain schema rules table here) call lf gamma outcome_ok.
Proof.
  constructor; cbn [shape_domain d_basic d_test d_pop d_leave d_size d_join d_le d_ret d_retv d_try].
  - intros c a a' e s ct e' s' Nc B (Z & x & I & G) Ev. unfold lift in B. apply obind_inv in B as (l & El & [= <-]).
    destruct (each_In _ _ _ _ El I) as (y & Ey & Iy). destruct (basic1_ok _ _ _ _ _ _ _ _ Nc Ey G Ev) as (-> & G' & Z').
    split; [reflexivity|]. split; cbn [fst snd].
    + rewrite Z'. unfold size_after. now rewrite Z.
    + apply merge_gamma. eauto.
  - intros q a e s b s' (Z & x & I & bs & H) Ev. destruct (test_states_ok _ _ _ _ _ _ _ _ H Ev) as (-> & y & Iy & Hy).
    destruct (merge_gamma (flat_map (test_states q b) (snd a)) e s) as (z & Iz & Gz).
    { exists y. split; [apply in_flat_map; eauto|exists bs; exact Hy]. }
    destruct (merge _) as [|m l]; [destruct Iz|]. eexists. split; [reflexivity|]. split; [exact Z|]. exists z. auto.
  - intros q b a a' D. destruct (merge _); [discriminate|]. now injection D as <-.
  - intros x v a a1 a2 e s l P (Z & y & I & bs & H) G. apply obind_inv in P as (ls & El & [= <- <-]).
    destruct (each_In _ _ _ _ El I) as ([y1 y2] & Ey & Iy). unfold pop_slot in Ey. apply obind_inv in Ey as (sl & Gs & Ey).
    pose proof H as (V & Sx & F & R). destruct (get_slot_ok _ _ _ _ _ F Gs) as (u & Gu & Va & _). rewrite G in Gu. injection Gu as <-.
    destruct (sl_val sl) as [|? ?|t k|?| |?|?] eqn:Es; try discriminate. apply check_inv in Ey as [Lv Ey].
    apply obind_inv in Ey as (b1 & P1 & Ey). apply obind_inv in Ey as (b2 & P2 & [= <- <-]). destruct Va as (l' & [= <-] & Hl & Hk). split.
    + intros ->. split; [exact Z|]. apply merge_gamma. exists b2. split; [apply in_map_iff; eexists; split; [|exact Iy]; reflexivity|].
      exists bs. assert (Same : env_set v (VVec []) e = Some e).
      { clear - G. induction e as [|[z u] e IH]; cbn [env_get env_set] in *; [discriminate|]. destruct (String.eqb v z); [now injection G as ->|]. now rewrite (IH G). }
      eapply put_ok; [exact H|exact Gs|exact G|exact P2|exact Same| |discriminate|].
      * exists []. split; [reflexivity|]. split; [intros ? []|reflexivity].
      * intro w. unfold slot_weight. rewrite Lv. reflexivity.
    + intros n r e1 Er Ee. split; [cbn [length fst]; now rewrite (env_set_length _ _ _ _ Ee), Z|]. apply merge_gamma.
      eexists. split; [apply in_map_iff; eexists; split; [|exact Iy]; reflexivity|]. cbn [fst].
      apply rev_last in Er. subst l. destruct (Hl n) as [Cn Tn]; [rewrite in_app_iff; right; now left|].
      exists bs. eapply bound_ok with (x0 := fun w => 0 + weight w (tree_tokens n)).
      * eapply put_ok; [exact H|exact Gs|exact G|exact P1|exact Ee| |discriminate|].
        -- exists (rev r). split; [reflexivity|]. split; [intros z Iz; apply Hl; rewrite in_app_iff; now left|exact Logic.I].
        -- intro w. unfold slot_weight. rewrite Lv. cbn [live]. unfold value_weight. cbn [value_tokens].
           rewrite trees_tokens_app, weight_app. cbn [trees_tokens flat_map]. rewrite app_nil_r. lia.
      * exists n. split; [reflexivity|]. split; [now apply expand_ok|discriminate].
      * discriminate.
      * intro w. reflexivity.
  - intros x v a a1 a2 P. apply obind_inv in P as (ls & El & [= <- <-]). reflexivity.
  - intros n a a' e s P (Z & y & I & G). unfold lift in P. apply obind_inv in P as (l & El & [= <-]).
    destruct (each_In _ _ _ _ El I) as (z & Ez & Iz). unfold env_leave. rewrite Z. split.
    + cbn [fst]. rewrite skipn_length, Z. reflexivity.
    + apply merge_gamma. exists z. split; [exact Iz|]. eapply leave1_ok; eauto.
  - intros a e s (Z & _). exact Z.
  - intros a b c e s J. destruct (Nat.eqb_spec (fst a) (fst b)) as [E|]; [|discriminate]. injection J as <-.
    intros [(Z & y & I & G)|(Z & y & I & G)]; (split; [cbn [fst]; congruence|]); apply merge_gamma; exists y; rewrite in_app_iff; auto.
  - intros a b e s L (Z & y & I & G). destruct (Nat.eqb_spec (fst a) (fst b)) as [E|]; [|discriminate]. split; [congruence|].
    rewrite all_spec in L. specialize (L y I). apply any_spec in L as (z & Iz & Lz). exists z. split; [exact Iz|]. eapply gamma1_le; eauto.
  - intros x a e s n e' s' R (Z & y & I & bs & H) Ev. rewrite all_spec in R. specialize (R y I). cbn beta in R.
    destruct (nexp1 schema table x y) as [[[d z] y']|] eqn:N; [|discriminate].
    destruct (nexp1_ok _ _ _ _ _ _ _ _ _ _ _ _ N H Ev) as (No & Zn & bs' & H' & _).
    eapply (returned_ok _ _ _ _ _ (VNode n) R H'). exists n. auto.
  - intros x a e s n e' s' R (Z & y & I & bs & H) Ev. rewrite all_spec in R. specialize (R y I). cbn beta in R.
    destruct (vexp1 schema table x y) as [[[d z] y']|] eqn:N; [|discriminate].
    destruct (vexp1_ok _ _ _ _ _ _ _ _ _ _ _ _ N H Ev) as (No & bs' & H').
    eapply (returned_ok _ _ _ _ _ (VVec n) R H'). exact No.
  - intros x f args a a1 a2 e s vs e1 s1 T (Z & y & I & bs & H) Ea. apply check_inv in T as [Na T].
    apply obind_inv in T as (l & El & [= <- <-]). pose proof (args_same _ _ _ _ _ _ Na Ea). subst e1.
    destruct (each_In _ _ _ _ El I) as (z & Ez & Iz). apply obind_inv in Ez as ([v y1] & C & Ez). split.
    + pose proof C as C'. unfold call1 in C'. apply obind_inv in C' as ([vs1 y2] & A & _).
      destruct (args1_ok _ _ _ _ _ _ _ _ _ _ _ A H Ea) as (-> & _). split; [exact Z|]. exists y. split; [exact I|]. exists bs. exact H.
    + intros n s2 e2 Ec Es. destruct (call1_ok _ _ _ _ _ _ _ _ _ _ _ _ _ _ C H Ea Ec) as (Vr & bs' & H').
      destruct v as [|d zz|? ?|?| |?|?]; try discriminate. split; [cbn [fst]; now rewrite (env_set_length _ _ _ _ Es)|].
      apply merge_gamma. exists z. split; [exact Iz|]. exists bs'.
      eapply assign_ok; [exact Ez|exact Es|exact H'|intro w; reflexivity|exact Vr|discriminate].
  - intros x f args a a1 a2 T. apply check_inv in T as [Na T]. apply obind_inv in T as (l & El & [= <- <-]). auto.
Qed.
End Run.

Lemma entry_holds (K : (token -> nat) -> nat) c params us s bs : view s bs -> suffix bs BS -> Forall2 val_ok (cx_args c) us ->
  ctx_words c bs ->
  length params = length us ->
  (forall w, K w = values_weight w us + rem w (cx_used c) bs) ->
  gamma1 K (entry_state c params) (combine params us) s.
Proof.
  intros V Sx Va Hw Ln Hk. exists bs. split; [exact V|]. split; [exact Sx|].
  assert (G : Forall2 (slot_ok bs) (map (fun pv => Sl (fst pv) (snd pv) Live) (combine params (cx_args c))) (combine params us) /\
    forall w, slots_weight w (map (fun pv => Sl (fst pv) (snd pv) Live) (combine params (cx_args c))) (combine params us) = values_weight w us).
  { clear - Va Ln. revert params Ln. induction Va as [|a u la us Va1 Va IH]; intros [|p params] Ln; try discriminate; [split; [constructor|reflexivity]|].
    cbn [combine map fst snd]. destruct (IH params) as [G1 G2]; [cbn in Ln; lia|]. split.
    - constructor; [|exact G1]. split; [reflexivity|]. split; [exact Va1|discriminate].
    - intro w. cbn [slots_weight]. rewrite G2. reflexivity. }
  destruct G as [G1 G2]. split; [exact G1|]. split; [exact Hw|]. exists []. split; [constructor|].
  intro w. cbn [entry_state st_slots st_used]. rewrite G2, Hk. cbn. lia.
Qed.
Theorem run_shape {fn} (table : fn -> list ctx) (prog : fn -> fundef fn) :
  (forall f c, In c (table f) -> check_body schema rules table c (prog f) = true) ->
  forall fuel f c, In c (table f) -> call_ok (run U prog fuel) f c.
Proof.
  intro Ck. induction fuel as [|fuel IH]; intros f c I us s bs u s' V Sx Va Hw Ev; [discriminate|].
  cbn [run] in Ev. unfold call_body in Ev. specialize (Ck f c I). unfold check_body in Ck.
  destruct (Nat.eqb_spec (length (f_params (prog f))) (length us)) as [Ln|]; [|discriminate].
  destruct (Nat.eqb_spec (length (f_params (prog f))) (length (cx_args c))) as [La|]; [|discriminate].
  destruct (acmd _ _ _) as [o|] eqn:Ac; [|discriminate].
  apply bind_Ok in Ev as ([ct e'] & s1 & Ex & Ev). cbn [fst] in Ev. destruct ct; try discriminate. injection Ev as <- <-.
  set (K := fun w => values_weight w us + rem w (cx_used c) bs).
  pose proof (shape_sound table K (run U prog fuel) IH fuel c) as Sd.
  pose proof (acmd_sound _ _ _ _ _ _ Sd (f_body (prog f)) (length (f_params (prog f)), [entry_state c (f_params (prog f))]) o
    (combine (f_params (prog f)) us) s) as A.
  rewrite Ex in A. cbn in A. apply A; [|exact Ac]. split.
  - rewrite combine_length. cbn [fst]. lia.
  - eexists. split; [now left|]. eapply entry_holds; eauto.
Qed.
End Meaning.
End WithUnicode.
