(* Generated by tools/conformance.py from /repo/src/parser/tests/tests_script.rs: the project's own test cases,
   run on the model. These are tests, not proofs. *)
From Verif Require Import Chars Token Cst Core MiniRust Lexer Program Api ConformanceBase.
Local Open Scope string_scope.

Definition successes : list (str * str * nat) := [
  ((s_ "DECLARE x INT64;
"),
   (s_ "self: DECLARE (DeclareStatement)
idents:
- self: x (Identifier)
semicolon:
  self: ; (Symbol)
variable_type:
  self: INT64 (Type)
"), 0);
  ((s_ "DECLARE x,y DEFAULT 1;
"),
   (s_ "self: DECLARE (DeclareStatement)
default:
  self: DEFAULT (KeywordWithExpr)
  expr:
    self: 1 (NumericLiteral)
idents:
- self: x (Identifier)
  comma:
    self: , (Symbol)
- self: y (Identifier)
semicolon:
  self: ; (Symbol)
"), 0);
  ((s_ "DECLARE x NUMERIC(10) DEFAULT 12345
"),
   (s_ "self: DECLARE (DeclareStatement)
default:
  self: DEFAULT (KeywordWithExpr)
  expr:
    self: 12345 (NumericLiteral)
idents:
- self: x (Identifier)
variable_type:
  self: NUMERIC (Type)
  parameter:
    self: ( (GroupedExprs)
    exprs:
    - self: 10 (NumericLiteral)
    rparen:
      self: ) (Symbol)
"), 0);
  ((s_ "DECLARE x BIGNUMERIC(5, 2)
"),
   (s_ "self: DECLARE (DeclareStatement)
idents:
- self: x (Identifier)
variable_type:
  self: BIGNUMERIC (Type)
  parameter:
    self: ( (GroupedExprs)
    exprs:
    - self: 5 (NumericLiteral)
      comma:
        self: , (Symbol)
    - self: 2 (NumericLiteral)
    rparen:
      self: ) (Symbol)
"), 0);
  ((s_ "SET x = 5
"),
   (s_ "self: SET (SetStatement)
expr:
  self: = (BinaryOperator)
  left:
    self: x (Identifier)
  right:
    self: 5 (NumericLiteral)
"), 0);
  ((s_ "SET (x,y) = (1,2)
"),
   (s_ "self: SET (SetStatement)
expr:
  self: = (BinaryOperator)
  left:
    self: ( (StructLiteral)
    exprs:
    - self: x (Identifier)
      comma:
        self: , (Symbol)
    - self: y (Identifier)
    rparen:
      self: ) (Symbol)
  right:
    self: ( (StructLiteral)
    exprs:
    - self: 1 (NumericLiteral)
      comma:
        self: , (Symbol)
    - self: 2 (NumericLiteral)
    rparen:
      self: ) (Symbol)
"), 0);
  ((s_ "SET (x, y) = (SELECT AS STRUCT 1,2)
"),
   (s_ "self: SET (SetStatement)
expr:
  self: = (BinaryOperator)
  left:
    self: ( (StructLiteral)
    exprs:
    - self: x (Identifier)
      comma:
        self: , (Symbol)
    - self: y (Identifier)
    rparen:
      self: ) (Symbol)
  right:
    self: ( (GroupedStatement)
    rparen:
      self: ) (Symbol)
    stmt:
      self: SELECT (SelectStatement)
      as_struct_or_value:
      - self: AS (Keyword)
      - self: STRUCT (Keyword)
      exprs:
      - self: 1 (NumericLiteral)
        comma:
          self: , (Symbol)
      - self: 2 (NumericLiteral)
"), 0);
  ((s_ "EXECUTE IMMEDIATE 'SELECT 1'
"),
   (s_ "self: EXECUTE (ExecuteStatement)
immediate:
  self: IMMEDIATE (Keyword)
sql_expr:
  self: 'SELECT 1' (StringLiteral)
"), 0);
  ((s_ "EXECUTE IMMEDIATE 'SELECT ?' USING 1;
"),
   (s_ "self: EXECUTE (ExecuteStatement)
immediate:
  self: IMMEDIATE (Keyword)
semicolon:
  self: ; (Symbol)
sql_expr:
  self: 'SELECT ?' (StringLiteral)
using:
  self: USING (KeywordWithExprs)
  exprs:
  - self: 1 (NumericLiteral)
"), 0);
  ((s_ "EXECUTE IMMEDIATE 'SELECT ?,?' INTO x, y USING 1, 2;
"),
   (s_ "self: EXECUTE (ExecuteStatement)
immediate:
  self: IMMEDIATE (Keyword)
into:
  self: INTO (KeywordWithExprs)
  exprs:
  - self: x (Identifier)
    comma:
      self: , (Symbol)
  - self: y (Identifier)
semicolon:
  self: ; (Symbol)
sql_expr:
  self: 'SELECT ?,?' (StringLiteral)
using:
  self: USING (KeywordWithExprs)
  exprs:
  - self: 1 (NumericLiteral)
    comma:
      self: , (Symbol)
  - self: 2 (NumericLiteral)
"), 0);
  ((s_ "EXECUTE IMMEDIATE 'SELECT @x' INTO x USING 1 AS x;
"),
   (s_ "self: EXECUTE (ExecuteStatement)
immediate:
  self: IMMEDIATE (Keyword)
into:
  self: INTO (KeywordWithExprs)
  exprs:
  - self: x (Identifier)
semicolon:
  self: ; (Symbol)
sql_expr:
  self: 'SELECT @x' (StringLiteral)
using:
  self: USING (KeywordWithExprs)
  exprs:
  - self: 1 (NumericLiteral)
    alias:
      self: x (Identifier)
    as:
      self: AS (Keyword)
"), 0);
  ((s_ "BEGIN
  SELECT 1;
  SELECT 2;
END;
"),
   (s_ "self: BEGIN (BeginStatement)
end:
  self: END (Keyword)
semicolon:
  self: ; (Symbol)
stmts:
- self: SELECT (SelectStatement)
  exprs:
  - self: 1 (NumericLiteral)
  semicolon:
    self: ; (Symbol)
- self: SELECT (SelectStatement)
  exprs:
  - self: 2 (NumericLiteral)
  semicolon:
    self: ; (Symbol)
"), 0);
  ((s_ "BEGIN
  SELECT 1;
EXCEPTION WHEN ERROR THEN
  SELECT 2;
END;
"),
   (s_ "self: BEGIN (BeginStatement)
end:
  self: END (Keyword)
exception_when_error:
- self: EXCEPTION (Keyword)
- self: WHEN (Keyword)
- self: ERROR (Keyword)
semicolon:
  self: ; (Symbol)
stmts:
- self: SELECT (SelectStatement)
  exprs:
  - self: 1 (NumericLiteral)
  semicolon:
    self: ; (Symbol)
then:
  self: THEN (KeywordWithStatements)
  stmts:
  - self: SELECT (SelectStatement)
    exprs:
    - self: 2 (NumericLiteral)
    semicolon:
      self: ; (Symbol)
"), 0);
  ((s_ "BEGIN EXCEPTiON WHEN ERROR THEN END;
"),
   (s_ "self: BEGIN (BeginStatement)
end:
  self: END (Keyword)
exception_when_error:
- self: EXCEPTiON (Keyword)
- self: WHEN (Keyword)
- self: ERROR (Keyword)
semicolon:
  self: ; (Symbol)
then:
  self: THEN (KeywordWithStatements)
  stmts: []
"), 0);
  ((s_ "label: BEGIN
  SELECT 1;
END;
"),
   (s_ "self: BEGIN (BeginStatement)
colon:
  self: : (Symbol)
end:
  self: END (Keyword)
leading_label:
  self: label (Identifier)
semicolon:
  self: ; (Symbol)
stmts:
- self: SELECT (SelectStatement)
  exprs:
  - self: 1 (NumericLiteral)
  semicolon:
    self: ; (Symbol)
"), 0);
  ((s_ "CASE WHEN true THEN SELECT 1; END CASE;
"),
   (s_ "self: CASE (CaseStatement)
arms:
- self: WHEN (CaseStatementArm)
  expr:
    self: true (BooleanLiteral)
  stmts:
  - self: SELECT (SelectStatement)
    exprs:
    - self: 1 (NumericLiteral)
    semicolon:
      self: ; (Symbol)
  then:
    self: THEN (Keyword)
end_case:
- self: END (Keyword)
- self: CASE (Keyword)
semicolon:
  self: ; (Symbol)
"), 0);
  ((s_ "CASE
  WHEN true THEN
    SELECT 1;
    SELECT 2;
  WHEN true THEN SELECT 3;
END CASE;
"),
   (s_ "self: CASE (CaseStatement)
arms:
- self: WHEN (CaseStatementArm)
  expr:
    self: true (BooleanLiteral)
  stmts:
  - self: SELECT (SelectStatement)
    exprs:
    - self: 1 (NumericLiteral)
    semicolon:
      self: ; (Symbol)
  - self: SELECT (SelectStatement)
    exprs:
    - self: 2 (NumericLiteral)
    semicolon:
      self: ; (Symbol)
  then:
    self: THEN (Keyword)
- self: WHEN (CaseStatementArm)
  expr:
    self: true (BooleanLiteral)
  stmts:
  - self: SELECT (SelectStatement)
    exprs:
    - self: 3 (NumericLiteral)
    semicolon:
      self: ; (Symbol)
  then:
    self: THEN (Keyword)
end_case:
- self: END (Keyword)
- self: CASE (Keyword)
semicolon:
  self: ; (Symbol)
"), 0);
  ((s_ "CASE expr
  WHEN 'x' THEN SELECT 1;
  ELSE SELECT 2;
END CASE;
"),
   (s_ "self: CASE (CaseStatement)
arms:
- self: WHEN (CaseStatementArm)
  expr:
    self: 'x' (StringLiteral)
  stmts:
  - self: SELECT (SelectStatement)
    exprs:
    - self: 1 (NumericLiteral)
    semicolon:
      self: ; (Symbol)
  then:
    self: THEN (Keyword)
- self: ELSE (CaseStatementArm)
  stmts:
  - self: SELECT (SelectStatement)
    exprs:
    - self: 2 (NumericLiteral)
    semicolon:
      self: ; (Symbol)
end_case:
- self: END (Keyword)
- self: CASE (Keyword)
expr:
  self: expr (Identifier)
semicolon:
  self: ; (Symbol)
"), 0);
  ((s_ "CASE WHEN true THEN ELSE END CASE
"),
   (s_ "self: CASE (CaseStatement)
arms:
- self: WHEN (CaseStatementArm)
  expr:
    self: true (BooleanLiteral)
  stmts: []
  then:
    self: THEN (Keyword)
- self: ELSE (CaseStatementArm)
  stmts: []
end_case:
- self: END (Keyword)
- self: CASE (Keyword)
"), 0);
  ((s_ "IF TRUE THEN END IF;
"),
   (s_ "self: IF (IfStatement)
condition:
  self: TRUE (BooleanLiteral)
end_if:
- self: END (Keyword)
- self: IF (Keyword)
semicolon:
  self: ; (Symbol)
then:
  self: THEN (KeywordWithStatements)
  stmts: []
"), 0);
  ((s_ "IF TRUE THEN
  SELECT 1;
  SELECT 2;
END IF;
"),
   (s_ "self: IF (IfStatement)
condition:
  self: TRUE (BooleanLiteral)
end_if:
- self: END (Keyword)
- self: IF (Keyword)
semicolon:
  self: ; (Symbol)
then:
  self: THEN (KeywordWithStatements)
  stmts:
  - self: SELECT (SelectStatement)
    exprs:
    - self: 1 (NumericLiteral)
    semicolon:
      self: ; (Symbol)
  - self: SELECT (SelectStatement)
    exprs:
    - self: 2 (NumericLiteral)
    semicolon:
      self: ; (Symbol)
"), 0);
  ((s_ "IF TRUE THEN
  SELECT 1;
ELSEIF TRUE THEN
END IF;
"),
   (s_ "self: IF (IfStatement)
condition:
  self: TRUE (BooleanLiteral)
elseifs:
- self: ELSEIF (ElseIfClause)
  condition:
    self: TRUE (BooleanLiteral)
  then:
    self: THEN (KeywordWithStatements)
    stmts: []
end_if:
- self: END (Keyword)
- self: IF (Keyword)
semicolon:
  self: ; (Symbol)
then:
  self: THEN (KeywordWithStatements)
  stmts:
  - self: SELECT (SelectStatement)
    exprs:
    - self: 1 (NumericLiteral)
    semicolon:
      self: ; (Symbol)
"), 0);
  ((s_ "IF TRUE THEN
ELSEIF TRUE THEN
  SELECT 1;
ELSEIF TRUE THEN
  SELECT 2;
  SELECT 3;
ELSE
END IF;
"),
   (s_ "self: IF (IfStatement)
condition:
  self: TRUE (BooleanLiteral)
else:
  self: ELSE (KeywordWithStatements)
  stmts: []
elseifs:
- self: ELSEIF (ElseIfClause)
  condition:
    self: TRUE (BooleanLiteral)
  then:
    self: THEN (KeywordWithStatements)
    stmts:
    - self: SELECT (SelectStatement)
      exprs:
      - self: 1 (NumericLiteral)
      semicolon:
        self: ; (Symbol)
- self: ELSEIF (ElseIfClause)
  condition:
    self: TRUE (BooleanLiteral)
  then:
    self: THEN (KeywordWithStatements)
    stmts:
    - self: SELECT (SelectStatement)
      exprs:
      - self: 2 (NumericLiteral)
      semicolon:
        self: ; (Symbol)
    - self: SELECT (SelectStatement)
      exprs:
      - self: 3 (NumericLiteral)
      semicolon:
        self: ; (Symbol)
end_if:
- self: END (Keyword)
- self: IF (Keyword)
semicolon:
  self: ; (Symbol)
then:
  self: THEN (KeywordWithStatements)
  stmts: []
"), 0);
  ((s_ "IF TRUE THEN
ELSE SELECT 1;
END IF;
"),
   (s_ "self: IF (IfStatement)
condition:
  self: TRUE (BooleanLiteral)
else:
  self: ELSE (KeywordWithStatements)
  stmts:
  - self: SELECT (SelectStatement)
    exprs:
    - self: 1 (NumericLiteral)
    semicolon:
      self: ; (Symbol)
end_if:
- self: END (Keyword)
- self: IF (Keyword)
semicolon:
  self: ; (Symbol)
then:
  self: THEN (KeywordWithStatements)
  stmts: []
"), 0);
  ((s_ "IF TRUE THEN
ELSE
  SELECT 1;
  SELECT 2;
END IF;
"),
   (s_ "self: IF (IfStatement)
condition:
  self: TRUE (BooleanLiteral)
else:
  self: ELSE (KeywordWithStatements)
  stmts:
  - self: SELECT (SelectStatement)
    exprs:
    - self: 1 (NumericLiteral)
    semicolon:
      self: ; (Symbol)
  - self: SELECT (SelectStatement)
    exprs:
    - self: 2 (NumericLiteral)
    semicolon:
      self: ; (Symbol)
end_if:
- self: END (Keyword)
- self: IF (Keyword)
semicolon:
  self: ; (Symbol)
then:
  self: THEN (KeywordWithStatements)
  stmts: []
"), 0);
  ((s_ "LOOP
  SELECT 1;
END LOOP;
"),
   (s_ "self: LOOP (LoopStatement)
end_loop:
- self: END (Keyword)
- self: LOOP (Keyword)
semicolon:
  self: ; (Symbol)
stmts:
- self: SELECT (SelectStatement)
  exprs:
  - self: 1 (NumericLiteral)
  semicolon:
    self: ; (Symbol)
"), 0);
  ((s_ "LOOP SELECT 1; BREAK; END LOOP;
"),
   (s_ "self: LOOP (LoopStatement)
end_loop:
- self: END (Keyword)
- self: LOOP (Keyword)
semicolon:
  self: ; (Symbol)
stmts:
- self: SELECT (SelectStatement)
  exprs:
  - self: 1 (NumericLiteral)
  semicolon:
    self: ; (Symbol)
- self: BREAK (BreakContinueStatement)
  semicolon:
    self: ; (Symbol)
"), 0);
  ((s_ "label: loop
  SELECT 1;
  BREAK label;
END loop;
"),
   (s_ "self: loop (LoopStatement)
colon:
  self: : (Symbol)
end_loop:
- self: END (Keyword)
- self: loop (Keyword)
leading_label:
  self: label (Identifier)
semicolon:
  self: ; (Symbol)
stmts:
- self: SELECT (SelectStatement)
  exprs:
  - self: 1 (NumericLiteral)
  semicolon:
    self: ; (Symbol)
- self: BREAK (BreakContinueStatement)
  label:
    self: label (Identifier)
  semicolon:
    self: ; (Symbol)
"), 0);
  ((s_ "REPEAT
  SELECT 1;
UNTIL true
END REPEAT;
"),
   (s_ "self: REPEAT (RepeatStatement)
end_repeat:
- self: END (Keyword)
- self: REPEAT (Keyword)
semicolon:
  self: ; (Symbol)
stmts:
- self: SELECT (SelectStatement)
  exprs:
  - self: 1 (NumericLiteral)
  semicolon:
    self: ; (Symbol)
until:
  self: UNTIL (KeywordWithExpr)
  expr:
    self: true (BooleanLiteral)
"), 0);
  ((s_ "label: REPEAT
  SELECT 1;
  SELECT 2;
UNTIL true
END REPEAT label;
"),
   (s_ "self: REPEAT (RepeatStatement)
colon:
  self: : (Symbol)
end_repeat:
- self: END (Keyword)
- self: REPEAT (Keyword)
leading_label:
  self: label (Identifier)
semicolon:
  self: ; (Symbol)
stmts:
- self: SELECT (SelectStatement)
  exprs:
  - self: 1 (NumericLiteral)
  semicolon:
    self: ; (Symbol)
- self: SELECT (SelectStatement)
  exprs:
  - self: 2 (NumericLiteral)
  semicolon:
    self: ; (Symbol)
trailing_label:
  self: label (Identifier)
until:
  self: UNTIL (KeywordWithExpr)
  expr:
    self: true (BooleanLiteral)
"), 0);
  ((s_ "WHILE TRUE DO
  SELECT 1;
END WHILE;
"),
   (s_ "self: WHILE (WhileStatement)
condition:
  self: TRUE (BooleanLiteral)
do:
  self: DO (KeywordWithStatements)
  stmts:
  - self: SELECT (SelectStatement)
    exprs:
    - self: 1 (NumericLiteral)
    semicolon:
      self: ; (Symbol)
end_while:
- self: END (Keyword)
- self: WHILE (Keyword)
semicolon:
  self: ; (Symbol)
"), 0);
  ((s_ "WHILE TRUE DO
  ITERATE;
  LEAVE;
  CONTINUE;
END WHILE;
"),
   (s_ "self: WHILE (WhileStatement)
condition:
  self: TRUE (BooleanLiteral)
do:
  self: DO (KeywordWithStatements)
  stmts:
  - self: ITERATE (BreakContinueStatement)
    semicolon:
      self: ; (Symbol)
  - self: LEAVE (BreakContinueStatement)
    semicolon:
      self: ; (Symbol)
  - self: CONTINUE (BreakContinueStatement)
    semicolon:
      self: ; (Symbol)
end_while:
- self: END (Keyword)
- self: WHILE (Keyword)
semicolon:
  self: ; (Symbol)
"), 0);
  ((s_ "FOR record IN (SELECT 1) DO
  SELECT record;
END FOR
"),
   (s_ "self: FOR (ForStatement)
do:
  self: DO (KeywordWithStatements)
  stmts:
  - self: SELECT (SelectStatement)
    exprs:
    - self: record (Identifier)
    semicolon:
      self: ; (Symbol)
end_for:
- self: END (Keyword)
- self: FOR (Keyword)
ident:
  self: record (Identifier)
in:
  self: IN (KeywordWithGroupedXXX)
  group:
    self: ( (GroupedStatement)
    rparen:
      self: ) (Symbol)
    stmt:
      self: SELECT (SelectStatement)
      exprs:
      - self: 1 (NumericLiteral)
"), 0);
  ((s_ "label: FOR record IN (SELECT 1) DO
  BREAK label;
END FOR label
"),
   (s_ "self: FOR (ForStatement)
colon:
  self: : (Symbol)
do:
  self: DO (KeywordWithStatements)
  stmts:
  - self: BREAK (BreakContinueStatement)
    label:
      self: label (Identifier)
    semicolon:
      self: ; (Symbol)
end_for:
- self: END (Keyword)
- self: FOR (Keyword)
ident:
  self: record (Identifier)
in:
  self: IN (KeywordWithGroupedXXX)
  group:
    self: ( (GroupedStatement)
    rparen:
      self: ) (Symbol)
    stmt:
      self: SELECT (SelectStatement)
      exprs:
      - self: 1 (NumericLiteral)
leading_label:
  self: label (Identifier)
trailing_label:
  self: label (Identifier)
"), 0);
  ((s_ "BEGIN
  BEGIN;
  ROLLBACK TRANSACTION;
END
"),
   (s_ "self: BEGIN (BeginStatement)
end:
  self: END (Keyword)
stmts:
- self: BEGIN (TransactionStatement)
  semicolon:
    self: ; (Symbol)
- self: ROLLBACK (TransactionStatement)
  semicolon:
    self: ; (Symbol)
  transaction:
    self: TRANSACTION (Keyword)
"), 0);
  ((s_ "BEGIN
"),
   (s_ "self: BEGIN (TransactionStatement)
"), 0);
  ((s_ "RAISE;
"),
   (s_ "self: RAISE (RaiseStatement)
semicolon:
  self: ; (Symbol)
"), 0);
  ((s_ "RAISE USING MESSAGE = 'error';
"),
   (s_ "self: RAISE (RaiseStatement)
semicolon:
  self: ; (Symbol)
using:
  self: USING (KeywordWithExpr)
  expr:
    self: = (BinaryOperator)
    left:
      self: MESSAGE (Identifier)
    right:
      self: 'error' (StringLiteral)
"), 0);
  ((s_ "CALL mydataset.myprocedure(1);
"),
   (s_ "self: CALL (CallStatement)
procedure:
  self: ( (CallingFunction)
  args:
  - self: 1 (NumericLiteral)
  func:
    self: . (DotOperator)
    left:
      self: mydataset (Identifier)
    right:
      self: myprocedure (Identifier)
  rparen:
    self: ) (Symbol)
semicolon:
  self: ; (Symbol)
"), 0);
  ((s_ "BEGIN
  BEGIN
    SELECT 1;
  EXCEPTION WHEN ERROR THEN
    RAISE USING MESSAGE = 'error';
  END;
EXCEPTION WHEN ERROR THEN
  SELECT @@error.message;
END;
"),
   (s_ "self: BEGIN (BeginStatement)
end:
  self: END (Keyword)
exception_when_error:
- self: EXCEPTION (Keyword)
- self: WHEN (Keyword)
- self: ERROR (Keyword)
semicolon:
  self: ; (Symbol)
stmts:
- self: BEGIN (BeginStatement)
  end:
    self: END (Keyword)
  exception_when_error:
  - self: EXCEPTION (Keyword)
  - self: WHEN (Keyword)
  - self: ERROR (Keyword)
  semicolon:
    self: ; (Symbol)
  stmts:
  - self: SELECT (SelectStatement)
    exprs:
    - self: 1 (NumericLiteral)
    semicolon:
      self: ; (Symbol)
  then:
    self: THEN (KeywordWithStatements)
    stmts:
    - self: RAISE (RaiseStatement)
      semicolon:
        self: ; (Symbol)
      using:
        self: USING (KeywordWithExpr)
        expr:
          self: = (BinaryOperator)
          left:
            self: MESSAGE (Identifier)
          right:
            self: 'error' (StringLiteral)
then:
  self: THEN (KeywordWithStatements)
  stmts:
  - self: SELECT (SelectStatement)
    exprs:
    - self: . (DotOperator)
      left:
        self: @@error (Parameter)
      right:
        self: message (Identifier)
    semicolon:
      self: ; (Symbol)
"), 0)].

Definition failures : list (str * N * N) := [
].

Example successes_pass : forallb check_success successes = true.
Proof. vm_compute. reflexivity. Qed.
Example failures_pass : forallb check_failure failures = true.
Proof. vm_compute. reflexivity. Qed.
