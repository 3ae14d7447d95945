(* Generated by tools/conformance.py from /repo/src/parser/tests/tests_debug.rs: the project's own test cases,
   run on the model. These are tests, not proofs. *)
From Verif Require Import Chars Token Cst Core MiniRust Lexer Program Api ConformanceBase.
Local Open Scope string_scope.

Definition successes : list (str * str * nat) := [
  ((s_ "ASSERT 1 + 1 = 3
"),
   (s_ "self: ASSERT (AssertStatement)
expr:
  self: = (BinaryOperator)
  left:
    self: + (BinaryOperator)
    left:
      self: 1 (NumericLiteral)
    right:
      self: 1 (NumericLiteral)
  right:
    self: 3 (NumericLiteral)
"), 0);
  ((s_ "ASSERT FALSE AS 'description'
"),
   (s_ "self: ASSERT (AssertStatement)
as:
  self: AS (Keyword)
description:
  self: 'description' (StringLiteral)
expr:
  self: FALSE (BooleanLiteral)
"), 0)].

Definition failures : list (str * N * N) := [
].

Example successes_pass : forallb check_success successes = true.
Proof. vm_compute. reflexivity. Qed.
Example failures_pass : forallb check_failure failures = true.
Proof. vm_compute. reflexivity. Qed.
