(* Characters and strings.
   Rust `char` is modelled as its code point (N), Rust `String` / `Vec<char>` as `list N`.
   The two Unicode tables the code consults through std (`char::is_alphabetic`,
   `char::to_uppercase`) are a record of functions that every model function takes
   as an argument, so each theorem quantifies over all tables and states what it
   needs of them. *)
From Coq Require Export List NArith Bool Arith Lia String Ascii.
Export ListNotations.
Open Scope list_scope.
Open Scope nat_scope.

Notation char := N (only parsing).
Notation str := (list N) (only parsing).

(* Coq string literal (ASCII source text) -> model string *)
Fixpoint s_ (s : string) : str :=
  match s with
  | EmptyString => []
  | String a s' => N_of_ascii a :: s_ s'
  end.

Definition ch (a : ascii) : char := N_of_ascii a.

Fixpoint str_eqb (a b : str) : bool :=
  match a, b with
  | [], [] => true
  | x :: a', y :: b' => N.eqb x y && str_eqb a' b'
  | _, _ => false
  end.

Lemma str_eqb_eq a b : str_eqb a b = true <-> a = b.
Proof.
  revert b; induction a as [|x a IH]; intros [|y b]; cbn; split; intro H; try easy.
  - apply andb_true_iff in H as [H1 H2]. apply N.eqb_eq in H1. apply IH in H2. congruence.
  - injection H as -> ->. rewrite N.eqb_refl. now apply IH.
Qed.

Lemma str_eqb_refl a : str_eqb a a = true.
Proof. now apply str_eqb_eq. Qed.

Lemma str_eqb_neq a b : str_eqb a b = false <-> a <> b.
Proof.
  split; intro H.
  - intros ->. rewrite str_eqb_refl in H. discriminate.
  - destruct (str_eqb a b) eqn:E; [apply str_eqb_eq in E; contradiction|reflexivity].
Qed.

(* The Unicode tables of the Rust standard library. *)
Record unicode := {
  u_alphabetic : char -> bool;          (* char::is_alphabetic *)
  u_upper : char -> list char           (* char::to_uppercase *)
}.

Definition in_range (lo hi c : N) : bool := N.leb lo c && N.leb c hi.
Definition is_lower_ascii (c : char) : bool := in_range 97 122 c.
Definition is_upper_ascii (c : char) : bool := in_range 65 90 c.
Definition is_letter_ascii (c : char) : bool := is_lower_ascii c || is_upper_ascii c.
Definition is_ascii (c : char) : bool := N.ltb c 128.
Definition upper_ascii (c : char) : char := if is_lower_ascii c then (c - 32)%N else c.
Definition lower_ascii (c : char) : char := if is_upper_ascii c then (c + 32)%N else c.

(* char::is_digit(10) *)
Definition is_digit_char (c : char) : bool := in_range 48 57 c.

(* char::is_whitespace: the Unicode White_Space property, which is the finite
   set below in every Unicode version since 6.3. *)
Definition is_whitespace_char (c : char) : bool :=
  in_range 9 13 c || N.eqb c 32 || N.eqb c 133 || N.eqb c 160 || N.eqb c 5760
  || in_range 8192 8202 c || N.eqb c 8232 || N.eqb c 8233 || N.eqb c 8239
  || N.eqb c 8287 || N.eqb c 12288.

(* What some theorems assume of the Unicode tables: they agree with ASCII on
   ASCII, and no white space character is alphabetic. *)
Definition ascii_faithful (U : unicode) : Prop :=
  (forall c, is_ascii c = true -> u_alphabetic U c = is_letter_ascii c) /\
  (forall c, is_ascii c = true -> u_upper U c = [upper_ascii c]).
Definition ws_not_alphabetic (U : unicode) : Prop :=
  forall c, is_whitespace_char c = true -> u_alphabetic U c = false.

(* A concrete table: ASCII only. Shows that the assumptions are satisfiable and
   makes the model executable. *)
Definition ascii_tables : unicode :=
  {| u_alphabetic := is_letter_ascii; u_upper := fun c => [upper_ascii c] |}.

(* str::to_uppercase: each char is replaced by its uppercase expansion. *)
Definition to_uppercase (U : unicode) (s : str) : str := flat_map (u_upper U) s.

(* usize::MAX on wasm32, the platform the package is published for. *)
Definition usize_max : N := 4294967295.
