(* Generated by tools/conformance.py from /repo/src/parser/tests/tests_dcl.rs: the project's own test cases,
   run on the model. These are tests, not proofs. *)
From Verif Require Import Chars Token Cst Core MiniRust Lexer Program Api ConformanceBase.
Local Open Scope string_scope.

Definition successes : list (str * str * nat) := [
  ((s_ "GRANT `roles/bigquery.dataViewer`, `roles/bigquery.admin`
ON SCHEMA project_name.dataset_name
TO 'user:foo@example.com', 'user:bar@example.com'
"),
   (s_ "self: GRANT (GrantStatement)
ident:
  self: . (DotOperator)
  left:
    self: project_name (Identifier)
  right:
    self: dataset_name (Identifier)
on:
  self: ON (Keyword)
resource_type:
  self: SCHEMA (Keyword)
roles:
- self: `roles/bigquery.dataViewer` (Identifier)
  comma:
    self: , (Symbol)
- self: `roles/bigquery.admin` (Identifier)
to:
  self: TO (KeywordWithExprs)
  exprs:
  - self: 'user:foo@example.com' (StringLiteral)
    comma:
      self: , (Symbol)
  - self: 'user:bar@example.com' (StringLiteral)
"), 0);
  ((s_ "REVOKE `roles/bigquery.admin`
ON SCHEMA dataset_name
FROM 'user:foo@example.com', 'user:bar@example.com'
;
"),
   (s_ "self: REVOKE (RevokeStatement)
from:
  self: FROM (KeywordWithExprs)
  exprs:
  - self: 'user:foo@example.com' (StringLiteral)
    comma:
      self: , (Symbol)
  - self: 'user:bar@example.com' (StringLiteral)
ident:
  self: dataset_name (Identifier)
on:
  self: ON (Keyword)
resource_type:
  self: SCHEMA (Keyword)
roles:
- self: `roles/bigquery.admin` (Identifier)
semicolon:
  self: ; (Symbol)
"), 0)].

Definition failures : list (str * N * N) := [
].

Example successes_pass : forallb check_success successes = true.
Proof. vm_compute. reflexivity. Qed.
Example failures_pass : forallb check_failure failures = true.
Proof. vm_compute. reflexivity. Qed.
