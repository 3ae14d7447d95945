(* Rendering: independent of the order of children, and faithful. *)
From Verif Require Import Chars Token Cst TreeSpec RenderSpec.
From Coq Require Import Permutation Lia Sorted.
Local Open Scope string_scope.
Local Open Scope list_scope.
Local Notation length := List.length.

(* ----- the order of keys ----- *)
Definition key_lt (a b : string) : Prop := String.compare a b = Lt.
Lemma key_lt_irrefl a : ~ key_lt a a.
Proof. unfold key_lt. pose proof (String.compare_antisym a a). destruct (String.compare a a); cbn in *; congruence. Qed.
Lemma key_lt_trans a : forall b c, key_lt a b -> key_lt b c -> key_lt a c.
Proof.
  unfold key_lt. induction a as [|x a IH]; intros [|y b] [|z c]; cbn [String.compare]; try congruence; try reflexivity.
  unfold Ascii.compare. intros H1 H2.
  destruct (N.compare_spec (N_of_ascii x) (N_of_ascii y)) as [E1|E1|E1]; try discriminate;
  destruct (N.compare_spec (N_of_ascii y) (N_of_ascii z)) as [E2|E2|E2]; try discriminate;
  destruct (N.compare_spec (N_of_ascii x) (N_of_ascii z)) as [E3|E3|E3]; try reflexivity; try lia.
  eauto.
Qed.
Lemma key_leb_cases a b : key_leb a b = true -> a = b \/ key_lt a b.
Proof.
  unfold key_leb, key_lt. destruct (String.compare a b) eqn:E; try discriminate; auto.
  intros _. left. now apply String.compare_eq_iff.
Qed.
Lemma key_leb_false a b : key_leb a b = false -> key_lt b a.
Proof.
  unfold key_leb, key_lt. rewrite (String.compare_antisym b a). destruct (String.compare a b); try discriminate. reflexivity.
Qed.

Section Sorting.
Context {A : Type}.
Implicit Types m : list (string * A).
Definition ordered m : Prop := StronglySorted (fun x y => key_lt (fst x) (fst y)) m.
Lemma sort_insert_permutation (kv : string * A) m : Permutation (sort_insert kv m) (kv :: m).
Proof.
  induction m as [|kv' m IH]; cbn [sort_insert]; [reflexivity|]. destruct (key_leb (fst kv) (fst kv')); [reflexivity|].
  rewrite IH. apply perm_swap.
Qed.
Lemma sort_permutation m : Permutation (sort_keys m) m.
Proof.
  unfold sort_keys. induction m as [|kv m IH]; cbn [fold_right]; [reflexivity|].
  rewrite sort_insert_permutation. now constructor.
Qed.
Lemma sort_insert_ordered (kv : string * A) m : ordered m -> ~ In (fst kv) (map fst m) -> ordered (sort_insert kv m).
Proof.
  unfold ordered. induction m as [|kv' m IH]; cbn [sort_insert map In]; intros S N.
  - repeat constructor.
  - inversion S as [|? ? S1 S2]; subst. destruct (key_leb (fst kv) (fst kv')) eqn:E.
    + apply key_leb_cases in E as [E|E]; [exfalso; apply N; left; congruence|].
      constructor; [exact S|]. constructor; [exact E|]. eapply Forall_impl; [|exact S2]. cbn beta. intros a. now apply key_lt_trans.
    + apply key_leb_false in E. constructor; [apply IH; [exact S1|tauto]|].
      apply (Permutation_Forall (Permutation_sym (sort_insert_permutation kv m))). now constructor.
Qed.
Lemma sort_ordered m : NoDup (map fst m) -> ordered (sort_keys m).
Proof.
  unfold sort_keys. induction m as [|kv m IH]; cbn [fold_right map]; intro N; [constructor|].
  inversion N as [|? ? N1 N2]; subst. apply sort_insert_ordered; [auto|].
  intro I. apply N1. eapply Permutation_in; [|exact I]. apply Permutation_map. exact (sort_permutation m).
Qed.
Lemma get_some_In k m v : map_get k m = Some v -> In (k, v) m.
Proof.
  induction m as [|[k' v'] m IH]; cbn [map_get]; [discriminate|].
  destruct (String.eqb_spec k k') as [->|N]; [intros [= ->]; now left|]. intro H. right. auto.
Qed.
Lemma In_get_some k m v : NoDup (map fst m) -> In (k, v) m -> map_get k m = Some v.
Proof.
  induction m as [|[k' v'] m IH]; [intros _ []|]. cbn [map fst map_get]. intros N [E|I].
  - injection E as -> ->. now rewrite String.eqb_refl.
  - inversion N as [|? ? N1 N2]; subst. destruct (String.eqb_spec k k') as [->|_]; [|auto].
    exfalso. apply N1. change k' with (fst (k', v)). now apply in_map.
Qed.
Lemma get_none k m : ~ In k (map fst m) -> map_get k m = None.
Proof.
  intro N. destruct (map_get k m) as [v|] eqn:E; [|reflexivity]. exfalso. apply N. apply get_some_In in E.
  change k with (fst (k, v)). now apply in_map.
Qed.
Lemma get_permutation k m m' : NoDup (map fst m) -> Permutation m m' -> map_get k m = map_get k m'.
Proof.
  intros N P. assert (N' : NoDup (map fst m')) by (eapply Permutation_NoDup; [apply Permutation_map; exact P|exact N]).
  destruct (map_get k m) as [v|] eqn:E.
  - symmetry. apply In_get_some; [exact N'|]. apply (Permutation_in _ P). now apply get_some_In.
  - destruct (map_get k m') as [v|] eqn:E'; [|reflexivity]. apply get_some_In in E'.
    apply (Permutation_in _ (Permutation_sym P)) in E'. apply (In_get_some _ _ _ N) in E'. congruence.
Qed.
Lemma get_sort k m : NoDup (map fst m) -> map_get k (sort_keys m) = map_get k m.
Proof. intro N. symmetry. apply get_permutation; [exact N|]. symmetry. apply sort_permutation. Qed.

(* related maps, read in order *)
Lemma ordered_later k v m k' : ordered ((k, v) :: m) -> In k' (map fst m) -> key_lt k k'.
Proof.
  intros S I. inversion S as [|? ? S1 S2]; subst. apply in_map_iff in I as (x & <- & I).
  rewrite Forall_forall in S2. exact (S2 x I).
Qed.
Lemma ordered_absent k v m : ordered ((k, v) :: m) -> map_get k m = None.
Proof. intro S. apply get_none. intro I. apply (key_lt_irrefl k). eapply ordered_later; eauto. Qed.
Lemma ordered_absent_lt k k' v m : ordered ((k', v) :: m) -> key_lt k k' -> map_get k ((k', v) :: m) = None.
Proof.
  intros S L. apply get_none. cbn [map fst In]. intros [<-|I]; [exact (key_lt_irrefl _ L)|].
  apply (key_lt_irrefl k). eapply key_lt_trans; [exact L|]. eapply ordered_later; eauto.
Qed.
Definition pairs (Q : A -> A -> Prop) : list (string * A) -> list (string * A) -> Prop :=
  Forall2 (fun x y => fst x = fst y /\ Q (snd x) (snd y)).
Lemma ordered_pairs (Q : option A -> option A -> Prop) :
  (forall v, ~ Q (Some v) None) -> (forall v, ~ Q None (Some v)) -> Q None None ->
  forall m m', ordered m -> ordered m' -> (forall k, Q (map_get k m) (map_get k m')) ->
  pairs (fun v v' => Q (Some v) (Some v')) m m'.
Proof.
  intros Q1 Q2 Q0. induction m as [|[k v] m IH]; intros [|[k' v'] m'] S S' H.
  - constructor.
  - exfalso. specialize (H k'). cbn [map_get] in H. rewrite String.eqb_refl in H. exact (Q2 _ H).
  - exfalso. specialize (H k). cbn [map_get] in H. rewrite String.eqb_refl in H. exact (Q1 _ H).
  - assert (k = k').
    { destruct (String.compare k k') eqn:E; [now apply String.compare_eq_iff| |].
      - exfalso. specialize (H k). rewrite (ordered_absent_lt _ _ _ _ S' E) in H. cbn [map_get] in H. rewrite String.eqb_refl in H. exact (Q1 _ H).
      - exfalso. specialize (H k'). assert (L : key_lt k' k) by (unfold key_lt; rewrite String.compare_antisym, E; reflexivity).
        rewrite (ordered_absent_lt _ _ _ _ S L) in H. cbn [map_get] in H. rewrite String.eqb_refl in H. exact (Q2 _ H). }
    subst k'. constructor.
    + split; [reflexivity|]. specialize (H k). cbn [map_get] in H. now rewrite String.eqb_refl in H.
    + apply IH; [now inversion S|now inversion S'|]. intro k0. specialize (H k0). cbn [map_get] in H.
      destruct (String.eqb_spec k0 k) as [E|E]; [|exact H]. rewrite E.
      now rewrite (ordered_absent _ _ _ S), (ordered_absent _ _ _ S').
Qed.
Lemma pairs_get (Q : option A -> option A -> Prop) m m' : Q None None ->
  pairs (fun v v' => Q (Some v) (Some v')) m m' -> forall k, Q (map_get k m) (map_get k m').
Proof.
  intros Q0 P k. induction P as [|[k1 v1] [k2 v2] m m' [E H] P IH]; [exact Q0|].
  cbn [fst snd map_get] in *. subst k2. destruct (String.eqb k k1); auto.
Qed.
End Sorting.

Lemma sort_insert_map {A B} (f : string * A -> B) (kv : string * A) m :
  sort_insert (fst kv, f kv) (map (fun x => (fst x, f x)) m) = map (fun x => (fst x, f x)) (sort_insert kv m).
Proof.
  induction m as [|kv' m IH]; cbn [map sort_insert fst]; [reflexivity|]. destruct (key_leb (fst kv) (fst kv')); [reflexivity|].
  cbn [map]. now rewrite IH.
Qed.
Lemma sort_map {A B} (f : string * A -> B) (m : list (string * A)) :
  sort_keys (map (fun x => (fst x, f x)) m) = map (fun x => (fst x, f x)) (sort_keys m).
Proof.
  unfold sort_keys. induction m as [|kv m IH]; [reflexivity|]. cbn [map fold_right]. now rewrite IH, sort_insert_map.
Qed.

(* ----- the lines of a rendering ----- *)
Definition head_line (i : nat) (a : bool) (n : node) : str :=
  ((if a then spaces ((i - 1) * 2) ++ s_ "- self: " ++ shown (n_token n)
    else spaces (i * 2) ++ s_ "self: " ++ shown (n_token n)) ++ s_ " (" ++ s_ (nt_name (n_type n)) ++ s_ ")").
Definition key_line (i : nat) (k : string) (c : content) : str :=
  spaces (i * 2) ++ s_ k ++ s_ ":" ++ match c with CVec [] => s_ " []" | _ => [] end.
Definition body (i : nat) (c : content) : list str :=
  match c with CNode n => format (i + 1) false n | CVec l => flat_map (format (i + 1) true) l end.
Definition block (i : nat) (kc : string * content) : list str := key_line i (fst kc) (snd kc) :: body i (snd kc).
Lemma format_eq i a n : format i a n = head_line i a n :: flat_map (block i) (sort_keys (n_children n)).
Proof.
  destruct n as [t ty m]. unfold head_line. cbn [n_token n_type n_children].
  cbn [format]. f_equal.
  match goal with |- List.concat (map snd (sort_keys ?b)) = _ => assert (E : b = map (fun x => (fst x, block i x)) m) end.
  { induction m as [|[k c] m IH]; [reflexivity|]. destruct c as [c|l]; cbn [map fst snd].
    - rewrite IH. unfold block, key_line, body. cbn [fst snd]. now rewrite app_nil_r.
    - rewrite IH. unfold block, key_line, body. cbn [fst snd]. reflexivity. }
  rewrite E, sort_map, map_map, flat_map_concat_map. reflexivity.
Qed.

(* ----- agreeing trees render alike ----- *)
Section Agreement.
Variable R : option token -> option token -> Prop.
Hypothesis R_shown : forall t t', R t t' -> shown t = shown t'.

Lemma agree_nodes_Forall2 l l' : agree_nodes R l l' <-> Forall2 (agree R) l l'.
Proof. split; induction 1; constructor; auto. Qed.

Lemma agree_format : forall n, distinct_keys n -> forall n', distinct_keys n' -> agree R n n' ->
  forall i a, format i a n = format i a n'.
Proof.
  apply (node_induction (fun n => distinct_keys n -> forall n', distinct_keys n' -> agree R n n' -> forall i a, format i a n = format i a n')).
  intros n IHn IHl D n' D' Ag i a. rewrite !format_eq. inversion Ag as [? ? E1 E2 E3]; subst.
  assert (Hd : head_line i a n = head_line i a n').
  { unfold head_line. now rewrite (R_shown _ _ E1), E2. }
  rewrite Hd. f_equal.
  assert (N : NoDup (map fst (n_children n))) by (apply D; constructor).
  assert (N' : NoDup (map fst (n_children n'))) by (apply D'; constructor).
  assert (P : pairs (fun v v' => agree_child R (Some v) (Some v')) (sort_keys (n_children n)) (sort_keys (n_children n'))).
  { apply ordered_pairs; try (intros v H; inversion H); try constructor; try (now apply sort_ordered).
    intro k. rewrite !get_sort by assumption. apply E3. }
  assert (S1 : forall x, In x (sort_keys (n_children n)) -> In x (n_children n)) by (intro x; apply Permutation_in, sort_permutation).
  assert (S2 : forall x, In x (sort_keys (n_children n')) -> In x (n_children n')) by (intro x; apply Permutation_in, sort_permutation).
  revert S1 S2. generalize (sort_keys (n_children n)) (sort_keys (n_children n')) P. clear P.
  induction 1 as [|[k c] [k' c'] m m' [E H] P IH]; intros S1 S2; [reflexivity|]. cbn [flat_map]. f_equal; [|apply IH; intros; [apply S1|apply S2]; now right].
  cbn [fst snd] in *. subst k'. unfold block. cbn [fst snd].
  assert (I1 : In (k, c) (n_children n)) by (apply S1; now left). assert (I2 : In (k, c') (n_children n')) by (apply S2; now left).
  inversion H as [|x x' G|l l' G]; subst.
  - cbn [body]. f_equal; try reflexivity. eapply IHn; eauto.
    + intros y W. apply D. eapply within_node; eauto.
    + intros y W. apply D'. eapply within_node; eauto.
  - cbn [body]. f_equal.
    + unfold key_line. destruct G; reflexivity.
    + assert (L1 : forall x, In x l -> distinct_keys x) by (intros x I y W; apply D; eapply within_list; eauto).
      assert (L2 : forall x, In x l' -> distinct_keys x) by (intros x I y W; apply D'; eapply within_list; eauto).
      assert (L0 : forall x, In x l -> distinct_keys x -> forall n', distinct_keys n' -> agree R x n' -> forall i a, format i a x = format i a n')
        by (intros x I; eapply IHl; eauto).
      clear - G L0 L1 L2. induction G as [|x x' l l' G1 G IH]; [reflexivity|]. cbn [flat_map]. f_equal.
      * apply L0; auto; [now left|apply L1; now left|apply L2; now left].
      * apply IH; intros; [apply L1|apply L2|apply L0]; auto; now right.
Qed.
End Agreement.

Theorem same_contents_render n n' : distinct_keys n -> distinct_keys n' -> same_contents n n' -> to_string n = to_string n'.
Proof.
  intros D D' S. unfold to_string. rewrite (agree_format eq) with (n' := n'); auto. intros; now subst.
Qed.
Theorem alike_render n n' : distinct_keys n -> distinct_keys n' -> reads_alike n n' -> to_string n = to_string n'.
Proof.
  intros D D' S. unfold to_string. rewrite (agree_format (fun t t' => shown t = shown t')) with (n' := n'); auto.
Qed.

(* ----- reading a rendering back ----- *)
Definition plain_key_char (c : char) : bool := is_lower_ascii c || is_digit_char c || N.eqb c 95.
Definition plain_key (k : string) : Prop := s_ k <> [] /\ Forall (fun c => plain_key_char c = true) (s_ k).
Definition plain_keys (n : node) : Prop := forall x, within x n -> Forall plain_key (map fst (n_children x)).

Lemma split_at {A} (p : A -> bool) a : forall a' r r', Forall (fun x => p x = true) a -> Forall (fun x => p x = true) a' ->
  (forall x r1, r = x :: r1 -> p x = false) -> (forall x r1, r' = x :: r1 -> p x = false) ->
  a ++ r = a' ++ r' -> a = a' /\ r = r'.
Proof.
  induction a as [|x a IH]; intros [|x' a'] r r' H H' N N' E; cbn [app] in E.
  - auto.
  - exfalso. subst r. specialize (N _ _ eq_refl). inversion H'; congruence.
  - exfalso. subst r'. specialize (N' _ _ eq_refl). inversion H; congruence.
  - injection E as -> E. inversion H; inversion H'; subst. destruct (IH a' r r') as [-> ->]; auto.
Qed.
Lemma split_last {A} (x : A) a : forall a' b b', ~ In x b -> ~ In x b' -> a ++ x :: b = a' ++ x :: b' -> a = a' /\ b = b'.
Proof.
  induction a as [|y a IH]; intros [|y' a'] b b' N N' E; cbn [app] in E.
  - injection E as ->. auto.
  - exfalso. injection E as -> ->. apply N. rewrite in_app_iff. right. now left.
  - exfalso. injection E as -> <-. apply N'. rewrite in_app_iff. right. now left.
  - injection E as -> E. destruct (IH _ _ _ N N' E) as [-> ->]. auto.
Qed.

(* does a line start with d spaces *)
Fixpoint deep (d : nat) (l : str) : bool :=
  match d with
  | 0 => true
  | S d' => match l with c :: l' => N.eqb c 32 && deep d' l' | [] => false end
  end.
Lemma deep_spaces d e l : d <= e -> deep d (spaces e ++ l) = true.
Proof.
  revert e. induction d as [|d IH]; intros [|e] L; cbn [deep]; try reflexivity; try lia.
  cbn [spaces repeat app]. change (N.eqb 32 32) with true. apply IH. lia.
Qed.
Lemma deep_not d e c l : e < d -> c <> 32%N -> deep d (spaces e ++ c :: l) = false.
Proof.
  revert e. induction d as [|d IH]; intros [|e] L N; cbn [deep spaces repeat app]; try lia.
  - apply N.eqb_neq in N. now rewrite N.
  - change (N.eqb 32 32) with true. cbn [andb]. apply IH; [lia|exact N].
Qed.
(* is the line a key at depth d: d spaces, then a character of a key *)
Fixpoint key_at (d : nat) (l : str) : bool :=
  match l, d with
  | [], _ => false
  | c :: _, 0 => plain_key_char c
  | c :: l', S d' => N.eqb c 32 && key_at d' l'
  end.
Lemma key_at_spaces d c l : key_at d (spaces d ++ c :: l) = plain_key_char c.
Proof. induction d as [|d IH]; cbn [spaces repeat app key_at]; [reflexivity|]. change (N.eqb 32 32) with true. exact IH. Qed.
Lemma key_at_deep d l : deep (S d) l = true -> key_at d l = false.
Proof.
  revert l. induction d as [|d IH]; intros [|c l]; cbn [deep key_at]; try discriminate.
  - rewrite andb_true_r. intro E. apply N.eqb_eq in E. subst c. reflexivity.
  - destruct (N.eqb c 32); [|discriminate]. cbn [andb]. intro H. apply IH. cbn [deep]. exact H.
Qed.
Lemma spaces_inj d a b : spaces d ++ a = spaces d ++ b -> a = b.
Proof. apply app_inv_head. Qed.

Lemma nt_name_no t : ~ In 40%N (s_ (nt_name t) ++ s_ ")").
Proof.
  assert (H : existsb (N.eqb 40) (s_ (nt_name t) ++ s_ ")") = false) by (destruct t; vm_compute; reflexivity).
  intro I. assert (existsb (N.eqb 40) (s_ (nt_name t) ++ s_ ")") = true) by (apply existsb_exists; exists 40%N; auto). congruence.
Qed.
Lemma nt_name_no_break t : ~ In 10%N (s_ (nt_name t)).
Proof.
  assert (H : existsb (N.eqb 10) (s_ (nt_name t)) = false) by (destruct t; vm_compute; reflexivity).
  intro I. assert (existsb (N.eqb 10) (s_ (nt_name t)) = true) by (apply existsb_exists; exists 10%N; auto). congruence.
Qed.
Lemma s_inj a : forall b, s_ a = s_ b -> a = b.
Proof.
  induction a as [|x a IH]; intros [|y b]; cbn [s_]; try discriminate; [reflexivity|]. intro E.
  assert (E1 : N_of_ascii x = N_of_ascii y) by congruence. assert (E2 : s_ a = s_ b) by congruence.
  apply (f_equal ascii_of_N) in E1. rewrite !ascii_N_embedding in E1. subst. f_equal. auto.
Qed.
Lemma head_line_inj i a n n' : head_line i a n = head_line i a n' -> shown (n_token n) = shown (n_token n') /\ n_type n = n_type n'.
Proof.
  assert (K : forall p : str, (p ++ shown (n_token n)) ++ s_ " (" ++ s_ (nt_name (n_type n)) ++ s_ ")" =
                        (p ++ shown (n_token n')) ++ s_ " (" ++ s_ (nt_name (n_type n')) ++ s_ ")" ->
                        shown (n_token n) = shown (n_token n') /\ n_type n = n_type n').
  { intros p E.
    assert (E' : (p ++ shown (n_token n) ++ [32%N]) ++ 40%N :: (s_ (nt_name (n_type n)) ++ s_ ")") =
            (p ++ shown (n_token n') ++ [32%N]) ++ 40%N :: (s_ (nt_name (n_type n')) ++ s_ ")")).
    { rewrite <- !app_assoc in *. exact E. }
    apply split_last in E'; try apply nt_name_no. destruct E' as [E1 E2].
    apply app_inv_head in E1. apply app_inv_tail in E1. split; [exact E1|]. apply app_inv_tail in E2. apply s_inj in E2.
    apply nt_eqb_eq. unfold nt_eqb. rewrite E2. apply String.eqb_refl. }
  unfold head_line. destruct a; intro E.
  - apply (K (spaces ((i - 1) * 2) ++ s_ "- self: ")). rewrite <- !app_assoc in *. exact E.
  - apply (K (spaces (i * 2) ++ s_ "self: ")). rewrite <- !app_assoc in *. exact E.
Qed.
Lemma key_line_inj i k c k' c' : plain_key k -> plain_key k' -> key_line i k c = key_line i k' c' ->
  k = k' /\ (c = CVec [] <-> c' = CVec []).
Proof.
  unfold key_line. intros [_ P] [_ P'] E. apply app_inv_head in E.
  apply (split_at plain_key_char) in E as [E1 E2]; auto.
  - apply s_inj in E1. split; [exact E1|]. destruct c as [c|[|? ?]], c' as [c'|[|? ?]]; cbn in E2; split; intro; congruence.
  - intros x r H. injection H as <- _. reflexivity.
  - intros x r H. injection H as <- _. reflexivity.
Qed.
Lemma key_line_key i k c : plain_key k -> key_at (i * 2) (key_line i k c) = true.
Proof.
  unfold key_line. intros [N P]. destruct (s_ k) as [|x r]; [congruence|]. cbn [app]. rewrite key_at_spaces. now inversion P.
Qed.

(* all lines after the first are at least as deep as the keys *)
Lemma format_deep : forall n, plain_keys n -> forall i a, Forall (fun l => deep (i * 2) l = true) (tl (format i a n)) /\
  (a = false -> Forall (fun l => deep (i * 2) l = true) (format i a n)) /\
  (a = true -> Forall (fun l => deep ((i - 1) * 2) l = true) (format i a n)).
Proof.
  apply (node_induction (fun n => plain_keys n -> forall i a, Forall (fun l => deep (i * 2) l = true) (tl (format i a n)) /\
    (a = false -> Forall (fun l => deep (i * 2) l = true) (format i a n)) /\
    (a = true -> Forall (fun l => deep ((i - 1) * 2) l = true) (format i a n)))).
  intros n IHn IHl Pk i a. rewrite format_eq. cbn [tl].
  assert (T : Forall (fun l => deep (i * 2) l = true) (flat_map (block i) (sort_keys (n_children n)))).
  { apply Forall_flat_map. apply Forall_forall. intros [k c] I.
    apply (Permutation_in _ (sort_permutation _)) in I. unfold block. cbn [fst snd]. constructor; [unfold key_line; now apply deep_spaces|].
    destruct c as [c|l]; cbn [body].
    - destruct (IHn k c I) with (i := i + 1) (a := false) as (_ & H & _).
      { intros y W. apply Pk. eapply within_node; eauto. }
      specialize (H eq_refl). eapply Forall_impl; [|exact H]. cbn beta. intros x Hx. clear - Hx.
      revert x Hx. replace ((i + 1) * 2) with (S (S (i * 2))) by lia. generalize (i * 2). intro d.
      assert (K : forall d x, deep (S d) x = true -> deep d x = true).
      { clear. induction d as [|d IH]; intros [|c x]; cbn [deep]; try reflexivity; try discriminate.
        destruct (N.eqb c 32); [|discriminate]. cbn [andb]. intro H. now apply IH. }
      intros x Hx. now apply K, K.
    - apply Forall_flat_map. apply Forall_forall. intros c Ic.
      destruct (IHl k l c I Ic) with (i := i + 1) (a := true) as (_ & _ & H).
      { intros y W. apply Pk. eapply within_list; eauto. }
      specialize (H eq_refl). replace ((i + 1 - 1) * 2) with (i * 2) in H by lia. exact H. }
  split; [exact T|]. split; intros ->.
  - constructor; [|exact T]. unfold head_line. rewrite <- app_assoc. now apply deep_spaces.
  - constructor.
    + unfold head_line. rewrite <- app_assoc. now apply deep_spaces.
    + eapply Forall_impl; [|exact T]. cbn beta. intros x Hx. clear - Hx.
      assert (K : forall d e x, e <= d -> deep d x = true -> deep e x = true).
      { clear. induction d as [|d IH]; intros [|e] [|c x]; cbn [deep]; intros L; try reflexivity; try discriminate; try lia.
        destruct (N.eqb c 32); [|discriminate]. cbn [andb]. apply IH. lia. }
      eapply K; [|exact Hx]. lia.
Qed.
Lemma deep_le d e x : e <= d -> deep d x = true -> deep e x = true.
Proof.
  revert e x. induction d as [|d IH]; intros [|e] [|c x]; cbn [deep]; intros L; try reflexivity; try discriminate; try lia.
  destruct (N.eqb c 32); [|discriminate]. cbn [andb]. apply IH. lia.
Qed.

(* no line of the body of a child is a key of its parent *)
Lemma body_no_key i c : (forall x, In x (match c with CNode n => [n] | CVec l => l end) -> plain_keys x) ->
  Forall (fun l => negb (key_at (i * 2) l) = true) (body i c).
Proof.
  intro P. destruct c as [c|l]; cbn [body].
  - destruct (format_deep c (P c (or_introl eq_refl)) (i + 1) false) as (_ & H & _). specialize (H eq_refl).
    eapply Forall_impl; [|exact H]. cbn beta. intros x Hx. rewrite key_at_deep; [reflexivity|]. eapply deep_le; [|exact Hx]. lia.
  - apply Forall_flat_map. apply Forall_forall. intros c Ic.
    destruct (format_deep c (P c Ic) (i + 1) true) as (H & _ & _). rewrite format_eq in *. cbn [tl] in H. constructor.
    + unfold head_line. replace ((i + 1 - 1) * 2) with (i * 2) by lia. rewrite <- !app_assoc. cbn [s_ app].
      rewrite key_at_spaces. reflexivity.
    + eapply Forall_impl; [|exact H]. cbn beta. intros x Hx. rewrite key_at_deep; [reflexivity|]. eapply deep_le; [|exact Hx]. lia.
Qed.

Definition low (d : nat) (r : list str) : Prop := forall x r1, r = x :: r1 -> deep d x = false.

Lemma decode : forall n, distinct_keys n -> plain_keys n -> forall n', distinct_keys n' -> plain_keys n' ->
  forall i a r r', low (i * 2) r -> low (i * 2) r' -> format i a n ++ r = format i a n' ++ r' -> reads_alike n n' /\ r = r'.
Proof.
  apply (node_induction (fun n => distinct_keys n -> plain_keys n -> forall n', distinct_keys n' -> plain_keys n' ->
    forall i a r r', low (i * 2) r -> low (i * 2) r' -> format i a n ++ r = format i a n' ++ r' -> reads_alike n n' /\ r = r')).
  intros n IHn IHl D P n' D' P' i a r r' L L' E.
  pose proof (format_deep n P i a) as (F & _). pose proof (format_deep n' P' i a) as (F' & _).
  rewrite format_eq in E, F. rewrite format_eq in E, F'. cbn [tl app] in *. injection E as E1 E2.
  apply head_line_inj in E1. destruct E1 as (Es & Et).
  apply (split_at (deep (i * 2))) in E2; auto. destruct E2 as (E2 & ->). split; [|reflexivity].
  assert (N : NoDup (map fst (n_children n))) by (apply D; constructor).
  assert (N' : NoDup (map fst (n_children n'))) by (apply D'; constructor).
  constructor; [exact Es|exact Et|]. intro k. unfold child. rewrite <- (get_sort k (n_children n)), <- (get_sort k (n_children n')) by assumption.
  apply pairs_get; [constructor|].
  assert (S1 : forall x, In x (sort_keys (n_children n)) -> In x (n_children n)) by (intro x; apply Permutation_in, sort_permutation).
  assert (S2 : forall x, In x (sort_keys (n_children n')) -> In x (n_children n')) by (intro x; apply Permutation_in, sort_permutation).
  revert E2 S1 S2. generalize (sort_keys (n_children n)) (sort_keys (n_children n')). clear F F' Es Et N N' L L' k.
  assert (Pk : forall k c, In (k, c) (n_children n) -> plain_key k).
  { intros k c I. specialize (P n (within_here _)). rewrite Forall_forall in P. apply P. change k with (fst (k, c)). now apply in_map. }
  assert (Pk' : forall k c, In (k, c) (n_children n') -> plain_key k).
  { intros k c I. specialize (P' n' (within_here _)). rewrite Forall_forall in P'. apply P'. change k with (fst (k, c)). now apply in_map. }
  assert (Kp : forall k c x, In (k, c) (n_children n) -> In x (match c with CNode n => [n] | CVec l => l end) -> distinct_keys x /\ plain_keys x).
  { intros k c x I J. destruct c as [c|l]; [destruct J as [->|[]]|];
      (split; intros y W; [apply D|apply P]); solve [eapply within_node; eauto | eapply within_list; eauto]. }
  assert (Kp' : forall k c x, In (k, c) (n_children n') -> In x (match c with CNode n => [n] | CVec l => l end) -> distinct_keys x /\ plain_keys x).
  { intros k c x I J. destruct c as [c|l]; [destruct J as [->|[]]|];
      (split; intros y W; [apply D'|apply P']); solve [eapply within_node; eauto | eapply within_list; eauto]. }
  clear D P D' P' a r'.
  induction l as [|[k c] m IH]; intros [|[k' c'] m'] E S1 S2; [constructor|discriminate|discriminate|].
  assert (I1 : In (k, c) (n_children n)) by (apply S1; now left). assert (I2 : In (k', c') (n_children n')) by (apply S2; now left).
  cbn [flat_map] in E. unfold block at 1 3 in E. cbn [fst snd app] in E. injection E as E1 E2.
  apply key_line_inj in E1; eauto. destruct E1 as (<- & Ee).
  assert (Nx : forall m0 nn, (forall x, In x m0 -> In x (n_children nn)) -> (forall k c, In (k, c) (n_children nn) -> plain_key k) ->
     forall x r1, flat_map (block i) m0 = x :: r1 -> negb (key_at (i * 2) x) = false).
  { intros [|[k0 c0] m0] nn Sx Px x r1 Ex; [discriminate|]. cbn [flat_map] in Ex. unfold block at 1 in Ex. cbn [fst snd app] in Ex. injection Ex as <- _.
    rewrite key_line_key; [reflexivity|]. apply (Px _ c0). apply Sx. now left. }
  apply (split_at (fun l => negb (key_at (i * 2) l))) in E2.
  2:{ apply body_no_key. intros x J. apply (Kp k c x I1 J). }
  2:{ apply body_no_key. intros x J. apply (Kp' k c' x I2 J). }
  2:{ apply (Nx m n); [|exact Pk]. intros; apply S1; now right. }
  2:{ apply (Nx m' n'); [|exact Pk']. intros; apply S2; now right. }
  destruct E2 as (Eb & Em). constructor; [|apply IH; [exact Em| |]; intros; [apply S1|apply S2]; now right].
  cbn [fst snd]. split; [reflexivity|]. clear IH Em Nx S1 S2.
  destruct c as [c|l], c' as [c'|l']; cbn [body] in Eb.
  - constructor. destruct (Kp k _ c I1 (or_introl eq_refl)). destruct (Kp' k _ c' I2 (or_introl eq_refl)).
    refine (proj1 (IHn k c I1 _ _ c' _ _ (i + 1) false [] [] _ _ _)); auto; try (intros ? ? [=]). now rewrite Eb.
  - exfalso. rewrite format_eq in Eb. destruct l' as [|x l']; [discriminate|]. cbn [flat_map] in Eb. rewrite format_eq in Eb. cbn [app] in Eb.
    injection Eb as Eh _. unfold head_line in Eh. replace ((i + 1 - 1) * 2) with (i * 2) in Eh by lia.
    replace ((i + 1) * 2) with (i * 2 + 2) in Eh by lia. unfold spaces in Eh. rewrite repeat_app, <- !app_assoc in Eh. apply app_inv_head in Eh. discriminate.
  - exfalso. rewrite format_eq in Eb. destruct l as [|x l]; [discriminate|]. cbn [flat_map] in Eb. rewrite format_eq in Eb. cbn [app] in Eb.
    injection Eb as Eh _. unfold head_line in Eh. replace ((i + 1 - 1) * 2) with (i * 2) in Eh by lia.
    replace ((i + 1) * 2) with (i * 2 + 2) in Eh by lia. unfold spaces in Eh. rewrite repeat_app, <- !app_assoc in Eh. apply app_inv_head in Eh. discriminate.
  - constructor.
    assert (L0 : forall x, In x l -> forall n', distinct_keys n' -> plain_keys n' ->
      forall i a r r', low (i * 2) r -> low (i * 2) r' -> format i a x ++ r = format i a n' ++ r' -> reads_alike x n' /\ r = r').
    { intros x Ix. apply (IHl k l x I1 Ix); apply (Kp k _ x I1 Ix). }
    assert (L1 : forall x, In x l' -> distinct_keys x /\ plain_keys x) by (intros x Ix; apply (Kp' k _ x I2 Ix)).
    assert (Low : forall l, low ((i + 1) * 2) (flat_map (format (i + 1) true) l)).
    { intros [|x l0] y r1 Ey; [discriminate|]. cbn [flat_map] in Ey. rewrite format_eq in Ey. cbn [app] in Ey. injection Ey as <- _.
      unfold head_line. rewrite <- !app_assoc. cbn [s_ app]. apply deep_not; [lia|discriminate]. }
    clear - Eb L0 L1 Low. revert l' Eb L1. induction l as [|x l IH]; intros [|x' l'] E L1; [constructor| | |].
    + exfalso. cbn [flat_map] in E. rewrite format_eq in E. discriminate.
    + exfalso. cbn [flat_map] in E. rewrite format_eq in E. discriminate.
    + cbn [flat_map] in E. destruct (L0 x (or_introl eq_refl) x') with (i := i + 1) (a := true) (r := flat_map (format (i + 1) true) l)
        (r' := flat_map (format (i + 1) true) l') as (A & B); auto; try (apply L1; now left).
      constructor; [exact A|]. apply IH; [intros y Iy; apply L0; now right|exact B|intros; apply L1; now right].
Qed.

(* ----- lines that hold no line break ----- *)
Lemma join_lines_inj a : forall b, a <> [] -> b <> [] -> Forall (fun l => ~ In 10%N l) a -> Forall (fun l => ~ In 10%N l) b ->
  join_lines a = join_lines b -> a = b.
Proof.
  assert (K : forall x (r : str) y r', ~ In 10%N x -> ~ In 10%N y -> x ++ 10%N :: r = y ++ 10%N :: r' -> x = y /\ r = r').
  { intros x r y r' Hx Hy E. apply (split_at (fun c => negb (N.eqb c 10))) in E.
    - destruct E as [-> E]. injection E as ->. auto.
    - apply Forall_forall. intros c I. destruct (N.eqb_spec c 10); [subst; contradiction|reflexivity].
    - apply Forall_forall. intros c I. destruct (N.eqb_spec c 10); [subst; contradiction|reflexivity].
    - intros c r1 [= <- _]. reflexivity.
    - intros c r1 [= <- _]. reflexivity. }
  induction a as [|x a IH]; intros [|y b] A B Fa Fb E; try congruence.
  inversion Fa as [|? ? X Fa']; subst. inversion Fb as [|? ? Y Fb']; subst.
  destruct a as [|x2 a], b as [|y2 b].
  - cbn in E. congruence.
  - exfalso. cbn [join_lines] in E. subst x. apply X. rewrite in_app_iff. right. now left.
  - exfalso. cbn [join_lines] in E. subst y. apply Y. rewrite in_app_iff. right. now left.
  - change (x ++ 10%N :: join_lines (x2 :: a) = y ++ 10%N :: join_lines (y2 :: b)) in E.
    apply K in E; auto. destruct E as [-> E]. f_equal. apply IH; auto; discriminate.
Qed.
Lemma spaces_no d : ~ In 10%N (spaces d).
Proof. unfold spaces. intro I. apply repeat_spec in I. discriminate. Qed.
Lemma format_single : forall n, plain_keys n -> (forall x, within x n -> ~ In 10%N (shown (n_token x))) ->
  forall i a, Forall (fun l => ~ In 10%N l) (format i a n).
Proof.
  apply (node_induction (fun n => plain_keys n -> (forall x, within x n -> ~ In 10%N (shown (n_token x))) ->
  forall i a, Forall (fun l => ~ In 10%N l) (format i a n))).
  intros n IHn IHl P Sh i a. rewrite format_eq. constructor.
  - unfold head_line. pose proof (Sh n (within_here _)). pose proof (nt_name_no_break (n_type n)). pose proof (spaces_no ((i - 1) * 2)). pose proof (spaces_no (i * 2)).
    destruct a; rewrite !in_app_iff; cbn; intuition discriminate.
  - apply Forall_flat_map. apply Forall_forall. intros [k c] I. apply (Permutation_in _ (sort_permutation _)) in I.
    unfold block. cbn [fst snd]. constructor.
    + assert (Pk : plain_key k).
      { specialize (P n (within_here _)). rewrite Forall_forall in P. apply P. change k with (fst (k, c)). now apply in_map. }
      destruct Pk as [_ Pk]. unfold key_line. pose proof (spaces_no (i * 2)).
      assert (~ In 10%N (s_ k)). { rewrite Forall_forall in Pk. intro J. specialize (Pk _ J). discriminate. }
      rewrite !in_app_iff. destruct c as [c|[|? ?]]; cbn; intuition discriminate.
    + destruct c as [c|l]; cbn [body].
      * eapply IHn; eauto; intros y W; [apply P|apply Sh]; eapply within_node; eauto.
      * apply Forall_flat_map. apply Forall_forall. intros c Ic. eapply IHl; eauto; intros y W; [apply P|apply Sh]; eapply within_list; eauto.
Qed.
Lemma within_token x n t : within x n -> n_token x = Some t -> In t (tree_tokens n).
Proof.
  induction 1 as [|n k c I W IH|n k l c I J W IH]; intro E; rewrite tree_tokens_eq, in_app_iff.
  - left. unfold own_token. rewrite E. now left.
  - right. apply in_flat_map. exists (k, CNode c). split; [exact I|]. exact (IH E).
  - right. apply in_flat_map. exists (k, CVec l). split; [exact I|]. cbn [snd content_tokens]. apply in_flat_map. exists c. auto.
Qed.

Theorem render_alike n n' : distinct_keys n -> plain_keys n -> single_lines n -> distinct_keys n' -> plain_keys n' -> single_lines n' ->
  to_string n = to_string n' -> reads_alike n n'.
Proof.
  intros D P S D' P' S' E. unfold to_string in E. apply app_inv_tail in E.
  assert (Sh : forall n, single_lines n -> forall x, within x n -> ~ In 10%N (shown (n_token x))).
  { clear. intros n S x W. destruct (n_token x) as [t|] eqn:Et; [|cbn; intuition discriminate].
    cbn [shown]. apply S. eapply within_token; eauto. }
  apply join_lines_inj in E.
  - refine (proj1 (decode n D P n' D' P' 0 false [] [] _ _ _)); [intros ? ? H; discriminate H|intros ? ? H; discriminate H|now rewrite E].
  - rewrite format_eq. discriminate.
  - rewrite format_eq. discriminate.
  - apply format_single; [exact P|exact (Sh n S)].
  - apply format_single; [exact P'|exact (Sh n' S')].
Qed.
