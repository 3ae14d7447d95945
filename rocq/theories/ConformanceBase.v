(* Running the project's recorded test cases on the model (tests, not proofs). *)
From Verif Require Import Chars Token Cst Core MiniRust Lexer Program Api.
Local Open Scope string_scope.

(* A Unicode table for running: letters are the ASCII letters and all non-ASCII
   characters that are not white space. *)
Definition test_tables : unicode :=
  {| u_alphabetic := fun c => is_letter_ascii c || (negb (is_ascii c) && negb (is_whitespace_char c));
     u_upper := fun c => [upper_ascii c] |}.

Definition check_success (x : str * str * nat) : bool :=
  let '(code, expected, idx) := x in
  match parse test_tables 200 code with
  | Success ns =>
      match nth_error ns idx with
      | Some n => str_eqb (to_string n) expected
      | None => false
      end
  | _ => false
  end.

Definition check_failure (x : str * N * N) : bool :=
  let '(code, ln, cl) := x in
  match parse test_tables 200 code with
  | Failure e => N.eqb (e_line e) ln && N.eqb (e_column e) cl
  | _ => false
  end.

Definition tk (ln cl : N) (lit : str) : token := {| line := ln; column := cl; literal := lit |}.

Fixpoint tokens_eqb (a b : list token) : bool :=
  match a, b with
  | [], [] => true
  | x :: a', y :: b' =>
      N.eqb (line x) (line y) && N.eqb (column x) (column y) && str_eqb (literal x) (literal y)
      && tokens_eqb a' b'
  | _, _ => false
  end.

Definition check_tokens (x : str * list token) : bool :=
  let '(code, expected) := x in
  match tokenize test_tables code with
  | Success ts => tokens_eqb ts (expected ++ [eof_token])%list
  | _ => false
  end.

Definition check_lex_failure (x : str * N * N) : bool :=
  let '(code, ln, cl) := x in
  match tokenize test_tables code with
  | Failure e => N.eqb (e_line e) ln && N.eqb (e_column e) cl
  | _ => false
  end.
