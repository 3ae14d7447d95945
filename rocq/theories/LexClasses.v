(* C17: the token classes of token.rs exclude each other. *)
From Verif Require Import Chars Regex Token LexSpec LexProofs LexProps LexInvariance.
Local Open Scope string_scope.
Local Open Scope list_scope.

Definition classes (U : unicode) : list (token -> bool) :=
  [is_identifier U; is_numeric; is_string; is_boolean U; is_parameter; is_template; is_comment].

(* a class of first characters for each class of tokens *)
Definition tag (c : char) : nat :=
  if N.eqb c 96 then 1 else if ident_start c then 2
  else if is_digit_char c || N.eqb c 46 then 3 else if N.eqb c 34 || N.eqb c 39 then 4
  else if N.eqb c 63 || N.eqb c 64 then 5 else if N.eqb c 123 then 6
  else if N.eqb c 35 || N.eqb c 45 || N.eqb c 47 then 7 else if N.ltb c 128 then 0 else 8.

Lemma number_tag c l : number (c :: l) -> tag c = 3.
Proof.
  intros (i & f & e & [Hif He] & E).
  assert (Hc : is_digit_char c = true \/ c = 46%N).
  { destruct Hif as [[[Hn Hi] _]|[Hi (d & _ & ->)]].
    - destruct Hi as [|x i Hx Hi]; [congruence|]. injection E as -> _. auto.
    - destruct Hi as [|x i Hx Hi]; cbn in E; injection E as -> _; auto. }
  destruct Hc as [Hc| ->]; [|reflexivity].
  unfold tag. rewrite Hc. apply in_range_true in Hc.
  destruct (N.eqb_spec c 96) as [->|_]; [lia|].
  assert (ident_start c = false) as ->; [|reflexivity].
  unfold ident_start, is_letter_ascii, is_lower_ascii, is_upper_ascii.
  rewrite (proj2 (in_range_false _ _ _)) by lia. rewrite (proj2 (in_range_false _ _ _)) by lia.
  destruct (N.eqb_spec c 95); [lia|reflexivity].
Qed.

Lemma quoted_hd q t c l : literal t = c :: l -> quoted_by q t = true -> c = q.
Proof.
  intros El H. unfold quoted_by in H. destruct (Nat.ltb _ 2); [discriminate|]. apply andb_true_iff in H as [H _].
  rewrite El in H. cbn in H. now apply N.eqb_eq in H.
Qed.

Section WithUnicode.
Context (U : unicode) (HU : ascii_faithful U).

Lemma upper_hd c l k s : to_uppercase U (c :: l) = k :: s -> tag k = 2 -> tag c = 2 \/ tag c = 8.
Proof.
  intros H Hk. destruct (N.ltb_spec c 128) as [A|A].
  - cbn in H. rewrite (proj2 HU) in H by now apply N.ltb_lt. cbn in H. injection H as <- _.
    left. destruct (up_cases c) as [[E _]|[R E]]; [congruence|].
    unfold tag. destruct (N.eqb_spec c 96); [lia|].
    unfold ident_start, is_letter_ascii, is_lower_ascii. now rewrite (proj2 (in_range_true _ _ _)) by lia.
  - right. unfold tag, ident_start, is_letter_ascii, is_lower_ascii, is_upper_ascii, is_digit_char.
    rewrite !(proj2 (in_range_false _ _ _)) by lia.
    repeat match goal with |- context [N.eqb c ?k] => destruct (N.eqb_spec c k); [lia|] end. cbn.
    destruct (N.ltb_spec c 128); [lia|reflexivity].
Qed.

Lemma keyword_tags : forallb (fun kw => match s_ kw with k :: _ => Nat.eqb (tag k) 2 | [] => false end) KEYWORDS = true.
Proof. reflexivity. Qed.

Lemma reserved_tag t c l : literal t = c :: l -> is_reserved_keyword U t = true -> tag c = 2 \/ tag c = 8.
Proof.
  intros El H. apply existsb_exists in H as (kw & Hk & E). apply str_eqb_eq in E. unfold upper_literal in E. rewrite El in E.
  pose proof (proj1 (forallb_forall _ _) keyword_tags kw Hk) as T. cbv beta in T. destruct (s_ kw) as [|k s]; [discriminate|].
  apply Nat.eqb_eq in T. eapply upper_hd; eauto.
Qed.

Theorem reserved_not_identifier t : is_reserved_keyword U t = true -> is_identifier U t = false.
Proof.
  intros H. unfold is_identifier. rewrite H. destruct (quoted_by 96 t) eqn:Q; [|reflexivity].
  destruct (literal t) as [|c l] eqn:El.
  - unfold quoted_by in Q. rewrite El in Q. discriminate.
  - rewrite (quoted_hd _ _ _ _ El Q) in El. destruct (reserved_tag _ _ _ El H) as [E|E]; vm_compute in E; discriminate E.
Qed.

Lemma boolean_reserved t : is_boolean U t = true -> is_reserved_keyword U t = true.
Proof.
  intros H. unfold is_boolean in H. apply existsb_exists.
  apply orb_true_iff in H as [H|H]; [exists "TRUE"|exists "FALSE"]; (split; [|exact H]); vm_compute; intuition.
Qed.

Theorem classes_exclusive t : List.length (filter (fun p => p t) (classes U)) <= 1.
Proof.
  destruct (literal t) as [|c l] eqn:El.
  - unfold classes. cbn [filter]. 
    assert (is_identifier U t = false) as -> by (unfold is_identifier, quoted_by; rewrite El; cbn [byte_len fold_right Nat.ltb Nat.leb]; now destruct (is_reserved_keyword U t)).
    assert (is_numeric t = false) as -> by (unfold is_numeric; rewrite El; reflexivity).
    assert (is_string t = false) as -> by (unfold is_string, quoted_by; rewrite El; reflexivity).
    assert (is_boolean U t = false) as -> by (unfold is_boolean, upper_literal; rewrite El; reflexivity).
    assert (is_parameter t = false) as -> by (unfold is_parameter; rewrite El; reflexivity).
    assert (is_template t = false) as -> by (unfold is_template; rewrite El; reflexivity).
    assert (is_comment t = false) as -> by (unfold is_comment; rewrite El; reflexivity).
    cbn. lia.
  - assert (H1 : is_identifier U t = true -> tag c = 1 \/ tag c = 2).
    { unfold is_identifier. rewrite El. destruct (quoted_by 96 t) eqn:Q.
      - intros _. left. now rewrite (quoted_hd _ _ _ _ El Q).
      - destruct (is_reserved_keyword U t); [discriminate|]. intros H. apply andb_true_iff in H as [H _].
        unfold tag. rewrite H. destruct (N.eqb c 96); auto. }
    assert (H2 : is_numeric t = true -> tag c = 3).
    { intros H. apply is_numeric_spec in H. rewrite El in H. eapply number_tag, H. }
    assert (H3 : is_string t = true -> tag c = 4).
    { unfold is_string. destruct (quoted_by 34 t) eqn:Q; [intros _; now rewrite (quoted_hd _ _ _ _ El Q)|].
      destruct (quoted_by 39 t) eqn:Q2; [intros _; now rewrite (quoted_hd _ _ _ _ El Q2)|discriminate]. }
    assert (H4 : is_boolean U t = true -> (tag c = 2 \/ tag c = 8) /\ is_identifier U t = false).
    { intros H. apply boolean_reserved in H. split; [eapply reserved_tag; eauto|now apply reserved_not_identifier]. }
    assert (H5 : is_parameter t = true -> tag c = 5).
    { unfold is_parameter. rewrite El. intros H. apply orb_true_iff in H as [H|H]; apply N.eqb_eq in H as ->; reflexivity. }
    assert (H6 : is_template t = true -> tag c = 6).
    { unfold is_template. rewrite El. intros H. apply N.eqb_eq in H as ->; reflexivity. }
    assert (H7 : is_comment t = true -> tag c = 7).
    { unfold is_comment. rewrite El. cbn. destruct (N.eqb_spec c 35) as [->|_]; [reflexivity|].
      destruct l as [|c2 l]; [discriminate|]. intros H. apply orb_true_iff in H as [H|H]; apply andb_true_iff in H as [H _];
      apply N.eqb_eq in H as ->; reflexivity. }
    unfold classes. cbn [filter]. generalize dependent (tag c). intros n H1 H2 H3 H4 H5 H6 H7.
    destruct (is_identifier U t), (is_numeric t), (is_string t), (is_boolean U t), (is_parameter t), (is_template t), (is_comment t);
      cbn; try lia; exfalso;
      repeat match goal with H : true = true -> _ |- _ => specialize (H eq_refl) end; intuition (try discriminate; try lia).
Qed.
End WithUnicode.
