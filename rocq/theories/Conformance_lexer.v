(* Generated by tools/conformance.py from /repo/src/lexer/tests.rs: the project's own test cases,
   run on the model. These are tests, not proofs. *)
From Verif Require Import Chars Token Cst Core MiniRust Lexer Program Api ConformanceBase.
Local Open Scope string_scope.

Definition lexer_successes : list (str * list token) := [
  ((s_ "SELECT c1 FROM t WHERE true GROUP BY 1 ORDER BY 1;"), [
    tk 1%N 1%N (s_ "SELECT");
    tk 1%N 8%N (s_ "c1");
    tk 1%N 11%N (s_ "FROM");
    tk 1%N 16%N (s_ "t");
    tk 1%N 18%N (s_ "WHERE");
    tk 1%N 24%N (s_ "true");
    tk 1%N 29%N (s_ "GROUP");
    tk 1%N 35%N (s_ "BY");
    tk 1%N 38%N (s_ "1");
    tk 1%N 40%N (s_ "ORDER");
    tk 1%N 46%N (s_ "BY");
    tk 1%N 49%N (s_ "1");
    tk 1%N 50%N (s_ ";")]);
  ((s_ "#standardSQL
SELECT 1 /*
  comment
*/
; -- comment "), [
    tk 1%N 1%N (s_ "#standardSQL");
    tk 2%N 1%N (s_ "SELECT");
    tk 2%N 8%N (s_ "1");
    tk 2%N 10%N (s_ "/*
  comment
*/");
    tk 5%N 1%N (s_ ";");
    tk 5%N 3%N (s_ "-- comment")]);
  ((s_ "SELECT
  'xxx',
  '''xxx''',
  '''
xxx
  ''',
  '\\',
  '''\\''',"), [
    tk 1%N 1%N (s_ "SELECT");
    tk 2%N 3%N (s_ "'xxx'");
    tk 2%N 8%N (s_ ",");
    tk 3%N 3%N (s_ "'''xxx'''");
    tk 3%N 12%N (s_ ",");
    tk 4%N 3%N (s_ "'''
xxx
  '''");
    tk 6%N 6%N (s_ ",");
    tk 7%N 3%N (s_ "'\\'");
    tk 7%N 7%N (s_ ",");
    tk 8%N 3%N (s_ "'''\\'''");
    tk 8%N 11%N (s_ ",")]);
  ((s_ "SELECT
  r'xxx',
  r'\1'
  r'''\1''',
  r'\\',
  r'''\\''',
  rb'xxx',"), [
    tk 1%N 1%N (s_ "SELECT");
    tk 2%N 3%N (s_ "r");
    tk 2%N 4%N (s_ "'xxx'");
    tk 2%N 9%N (s_ ",");
    tk 3%N 3%N (s_ "r");
    tk 3%N 4%N (s_ "'\1'");
    tk 4%N 3%N (s_ "r");
    tk 4%N 4%N (s_ "'''\1'''");
    tk 4%N 12%N (s_ ",");
    tk 5%N 3%N (s_ "r");
    tk 5%N 4%N (s_ "'\\'");
    tk 5%N 8%N (s_ ",");
    tk 6%N 3%N (s_ "r");
    tk 6%N 4%N (s_ "'''\\'''");
    tk 6%N 12%N (s_ ",");
    tk 7%N 3%N (s_ "rb");
    tk 7%N 5%N (s_ "'xxx'");
    tk 7%N 10%N (s_ ",")]);
  ((s_ "SELECT 1, 01, 1.1, .1, 1.1e+1, 1.1E-1, .1e10"), [
    tk 1%N 1%N (s_ "SELECT");
    tk 1%N 8%N (s_ "1");
    tk 1%N 9%N (s_ ",");
    tk 1%N 11%N (s_ "01");
    tk 1%N 13%N (s_ ",");
    tk 1%N 15%N (s_ "1.1");
    tk 1%N 18%N (s_ ",");
    tk 1%N 20%N (s_ ".1");
    tk 1%N 22%N (s_ ",");
    tk 1%N 24%N (s_ "1.1e+1");
    tk 1%N 30%N (s_ ",");
    tk 1%N 32%N (s_ "1.1E-1");
    tk 1%N 38%N (s_ ",");
    tk 1%N 40%N (s_ ".1e10")]);
  ((s_ "SELECT date '2000-01-01', timestamp '2000-01-01'"), [
    tk 1%N 1%N (s_ "SELECT");
    tk 1%N 8%N (s_ "date");
    tk 1%N 13%N (s_ "'2000-01-01'");
    tk 1%N 25%N (s_ ",");
    tk 1%N 27%N (s_ "timestamp");
    tk 1%N 37%N (s_ "'2000-01-01'")]);
  ((s_ "SELECT
  ARRAY<INT64>[1],
  ARRAY<STRUCT<INT64,INT64>>[(0,0)]"), [
    tk 1%N 1%N (s_ "SELECT");
    tk 2%N 3%N (s_ "ARRAY");
    tk 2%N 8%N (s_ "<");
    tk 2%N 9%N (s_ "INT64");
    tk 2%N 14%N (s_ ">");
    tk 2%N 15%N (s_ "[");
    tk 2%N 16%N (s_ "1");
    tk 2%N 17%N (s_ "]");
    tk 2%N 18%N (s_ ",");
    tk 3%N 3%N (s_ "ARRAY");
    tk 3%N 8%N (s_ "<");
    tk 3%N 9%N (s_ "STRUCT");
    tk 3%N 15%N (s_ "<");
    tk 3%N 16%N (s_ "INT64");
    tk 3%N 21%N (s_ ",");
    tk 3%N 22%N (s_ "INT64");
    tk 3%N 27%N (s_ ">");
    tk 3%N 28%N (s_ ">");
    tk 3%N 29%N (s_ "[");
    tk 3%N 30%N (s_ "(");
    tk 3%N 31%N (s_ "0");
    tk 3%N 32%N (s_ ",");
    tk 3%N 33%N (s_ "0");
    tk 3%N 34%N (s_ ")");
    tk 3%N 35%N (s_ "]")]);
  ((s_ "SELECT _c1, `c-1`
FROM t"), [
    tk 1%N 1%N (s_ "SELECT");
    tk 1%N 8%N (s_ "_c1");
    tk 1%N 11%N (s_ ",");
    tk 1%N 13%N (s_ "`c-1`");
    tk 2%N 1%N (s_ "FROM");
    tk 2%N 6%N (s_ "t")]);
  ((s_ "SELECT *
FROM `t_*`"), [
    tk 1%N 1%N (s_ "SELECT");
    tk 1%N 8%N (s_ "*");
    tk 2%N 1%N (s_ "FROM");
    tk 2%N 6%N (s_ "`t_*`")]);
  ((s_ "SELECT ?;
SELECT @param1, @`param2`;"), [
    tk 1%N 1%N (s_ "SELECT");
    tk 1%N 8%N (s_ "?");
    tk 1%N 9%N (s_ ";");
    tk 2%N 1%N (s_ "SELECT");
    tk 2%N 8%N (s_ "@param1");
    tk 2%N 15%N (s_ ",");
    tk 2%N 17%N (s_ "@`param2`");
    tk 2%N 26%N (s_ ";")]);
  ((s_ "SELECT {{variable}};"), [
    tk 1%N 1%N (s_ "SELECT");
    tk 1%N 8%N (s_ "{{variable}}");
    tk 1%N 20%N (s_ ";")]);
  ((s_ "SELECT
  1-1+2/2*3,
  'a'||'b',
  2>>1"), [
    tk 1%N 1%N (s_ "SELECT");
    tk 2%N 3%N (s_ "1");
    tk 2%N 4%N (s_ "-");
    tk 2%N 5%N (s_ "1");
    tk 2%N 6%N (s_ "+");
    tk 2%N 7%N (s_ "2");
    tk 2%N 8%N (s_ "/");
    tk 2%N 9%N (s_ "2");
    tk 2%N 10%N (s_ "*");
    tk 2%N 11%N (s_ "3");
    tk 2%N 12%N (s_ ",");
    tk 3%N 3%N (s_ "'a'");
    tk 3%N 6%N (s_ "||");
    tk 3%N 8%N (s_ "'b'");
    tk 3%N 11%N (s_ ",");
    tk 4%N 3%N (s_ "2");
    tk 4%N 4%N (s_ ">>");
    tk 4%N 6%N (s_ "1")]);
  ((s_ "SELECT f(a1, a2)"), [
    tk 1%N 1%N (s_ "SELECT");
    tk 1%N 8%N (s_ "f");
    tk 1%N 9%N (s_ "(");
    tk 1%N 10%N (s_ "a1");
    tk 1%N 12%N (s_ ",");
    tk 1%N 14%N (s_ "a2");
    tk 1%N 16%N (s_ ")")]);
  ((s_ "FROM table
|> SELECT column1"), [
    tk 1%N 1%N (s_ "FROM");
    tk 1%N 6%N (s_ "table");
    tk 2%N 1%N (s_ "|>");
    tk 2%N 4%N (s_ "SELECT");
    tk 2%N 11%N (s_ "column1")]);
  ((s_ "FROM table
MATCH_RECOGNIZE (
  PATTERN ($ a? b?? c*? d+? e{10,@f}^)
)"), [
    tk 1%N 1%N (s_ "FROM");
    tk 1%N 6%N (s_ "table");
    tk 2%N 1%N (s_ "MATCH_RECOGNIZE");
    tk 2%N 17%N (s_ "(");
    tk 3%N 3%N (s_ "PATTERN");
    tk 3%N 11%N (s_ "(");
    tk 3%N 12%N (s_ "$");
    tk 3%N 14%N (s_ "a");
    tk 3%N 15%N (s_ "?");
    tk 3%N 17%N (s_ "b");
    tk 3%N 18%N (s_ "?");
    tk 3%N 19%N (s_ "?");
    tk 3%N 21%N (s_ "c");
    tk 3%N 22%N (s_ "*");
    tk 3%N 23%N (s_ "?");
    tk 3%N 25%N (s_ "d");
    tk 3%N 26%N (s_ "+");
    tk 3%N 27%N (s_ "?");
    tk 3%N 29%N (s_ "e");
    tk 3%N 30%N (s_ "{");
    tk 3%N 31%N (s_ "10");
    tk 3%N 33%N (s_ ",");
    tk 3%N 34%N (s_ "@f");
    tk 3%N 36%N (s_ "}");
    tk 3%N 37%N (s_ "^");
    tk 3%N 38%N (s_ ")");
    tk 4%N 1%N (s_ ")")]);
  ((s_ ""), [
    ])].

Definition lexer_failures : list (str * N * N) := [
  ((s_ "SELECT 'foo"), 1%N, 12%N);
  ((s_ "SELECT 'foo
"), 2%N, 1%N);
  ((s_ "SELECT '\'"), 1%N, 11%N);
  ((s_ "SELECT ''''xxx''''"), 1%N, 19%N);
  ((s_ "SELECT r'\'"), 1%N, 12%N);
  ((s_ "SELECT r'''\'''"), 1%N, 16%N);
  ((s_ "SELECT @+param;"), 1%N, 9%N)].

Example lexer_successes_pass : forallb check_tokens lexer_successes = true.
Proof. vm_compute. reflexivity. Qed.
Example lexer_failures_pass : forallb check_lex_failure lexer_failures = true.
Proof. vm_compute. reflexivity. Qed.
