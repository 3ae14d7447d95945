(* Generated by tools/types_deviations.py: the deviations from types.rs that occur, and texts
   in which they occur. *)
From Verif Require Import Chars Token Cst TypesSchema TypesSpec.
Local Open Scope string_scope.
Local Open Scope list_scope.

(* node types that are not declared *)
Definition undeclared_types : list node_type := [N_Unknown].

(* node types that are declared with a token but may have none *)
Definition tokenless_types : list node_type := [N_TypeDeclaration].

(* children that are not declared *)
Definition extra_children : list (node_type * list string) :=
  [(N_AccessOperator, ["for_system_time_as_of"; "match_recognize"; "pivot"; "row_value_alias"; "tablesample"; "unpivot"; "with_offset"]);
   (N_AlterBICapacityStatement, ["colon"; "leading_label"; "trailing_label"]);
   (N_AlterColumnStatement, ["colon"; "leading_label"; "semicolon"; "trailing_label"]);
   (N_AlterModelStatement, ["colon"; "leading_label"; "trailing_label"]);
   (N_AlterOrganizationStatement, ["colon"; "leading_label"; "trailing_label"]);
   (N_AlterProjectStatement, ["colon"; "leading_label"; "trailing_label"]);
   (N_AlterReservationStatement, ["colon"; "leading_label"; "trailing_label"]);
   (N_AlterSchemaStatement, ["colon"; "leading_label"; "trailing_label"]);
   (N_AlterTableStatement, ["colon"; "leading_label"; "trailing_label"]);
   (N_AlterVectorIndexStatement, ["colon"; "leading_label"; "trailing_label"]);
   (N_AlterViewStatement, ["colon"; "leading_label"; "trailing_label"]);
   (N_ArrayLiteral, ["row_value_alias"]);
   (N_AssertStatement, ["colon"; "leading_label"; "trailing_label"]);
   (N_Asterisk, ["null_order"; "order"; "row_value_alias"]);
   (N_BetweenOperator, ["for_system_time_as_of"; "match_recognize"; "pivot"; "row_value_alias"; "tablesample"; "unpivot"; "with_offset"]);
   (N_BinaryOperator, ["for_system_time_as_of"; "match_recognize"; "pivot"; "row_value_alias"; "tablesample"; "unpivot"; "with_offset"]);
   (N_BooleanLiteral, ["row_value_alias"]);
   (N_BreakContinueStatement, ["colon"; "leading_label"; "trailing_label"]);
   (N_CallStatement, ["colon"; "leading_label"; "trailing_label"]);
   (N_CallingFunction, ["row_value_alias"]);
   (N_CallingTableFunction, ["distinct"; "for_system_time_as_of"; "having"; "ignore_nulls"; "limit"; "null_order"; "order"; "orderby"; "over"; "tablesample"]);
   (N_CallingUnnest, ["and"; "distinct"; "for_system_time_as_of"; "from"; "having"; "ignore_nulls"; "left"; "limit"; "not"; "null_order"; "order"; "orderby"; "over"; "quantifier"; "right"; "right_max"; "right_min"; "tablesample"]);
   (N_CaseExpr, ["row_value_alias"]);
   (N_CaseStatement, ["colon"; "leading_label"; "trailing_label"]);
   (N_CreateFunctionStatement, ["colon"; "leading_label"; "trailing_label"]);
   (N_CreateIndexStatement, ["colon"; "leading_label"; "trailing_label"]);
   (N_CreateModelStatement, ["colon"; "leading_label"; "trailing_label"]);
   (N_CreateProcedureStatement, ["colon"; "leading_label"; "trailing_label"]);
   (N_CreateReservationStatement, ["colon"; "leading_label"; "trailing_label"]);
   (N_CreateRowAccessPolicyStatement, ["colon"; "leading_label"; "trailing_label"]);
   (N_CreateSchemaStatement, ["colon"; "leading_label"; "trailing_label"]);
   (N_CreateTableStatement, ["colon"; "leading_label"; "trailing_label"]);
   (N_CreateViewStatement, ["colon"; "leading_label"; "trailing_label"]);
   (N_DeclareStatement, ["colon"; "leading_label"; "trailing_label"]);
   (N_DeleteStatement, ["colon"; "leading_label"; "trailing_label"]);
   (N_DotOperator, ["row_value_alias"]);
   (N_DropRowAccessPolicyStatement, ["colon"; "leading_label"; "trailing_label"]);
   (N_DropStatement, ["colon"; "leading_label"; "trailing_label"]);
   (N_ExecuteStatement, ["colon"; "leading_label"; "trailing_label"]);
   (N_ExportDataStatement, ["colon"; "leading_label"; "trailing_label"]);
   (N_ExportModelStatement, ["colon"; "leading_label"; "trailing_label"]);
   (N_FromStatement, ["alias"; "as"; "colon"; "comma"; "leading_label"; "null_order"; "order"; "row_value_alias"; "trailing_label"]);
   (N_FunctionChain, ["for_system_time_as_of"; "row_value_alias"; "tablesample"]);
   (N_GrantStatement, ["colon"; "leading_label"; "trailing_label"]);
   (N_GroupedExpr, ["for_system_time_as_of"; "tablesample"]);
   (N_GroupedStatement, ["colon"; "for_system_time_as_of"; "leading_label"; "row_value_alias"; "tablesample"; "trailing_label"]);
   (N_IdentWithOptions, ["left"; "right"; "trailing_idents"]);
   (N_Identifier, ["row_value_alias"]);
   (N_IfStatement, ["colon"; "leading_label"; "trailing_label"]);
   (N_InOperator, ["for_system_time_as_of"; "match_recognize"; "pivot"; "row_value_alias"; "tablesample"; "unpivot"; "with_offset"]);
   (N_InsertStatement, ["colon"; "leading_label"; "trailing_label"]);
   (N_IntervalLiteral, ["null_order"; "order"; "row_value_alias"]);
   (N_IsDistinctFromOperator, ["for_system_time_as_of"; "match_recognize"; "pivot"; "row_value_alias"; "tablesample"; "unpivot"; "with_offset"]);
   (N_LoadStatement, ["colon"; "leading_label"; "trailing_label"]);
   (N_MergeStatement, ["colon"; "leading_label"; "trailing_label"]);
   (N_NullLiteral, ["row_value_alias"]);
   (N_NumericLiteral, ["row_value_alias"]);
   (N_Parameter, ["row_value_alias"]);
   (N_PipeStatement, ["alias"; "as"; "colon"; "comma"; "for_system_time_as_of"; "leading_label"; "match_recognize"; "null_order"; "order"; "pivot"; "row_value_alias"; "tablesample"; "trailing_label"; "unpivot"; "with"; "with_offset"]);
   (N_RaiseStatement, ["colon"; "leading_label"; "trailing_label"]);
   (N_RangeLiteral, ["row_value_alias"]);
   (N_RevokeStatement, ["colon"; "leading_label"; "trailing_label"]);
   (N_SelectStatement, ["alias"; "as"; "colon"; "comma"; "leading_label"; "null_order"; "order"; "row_value_alias"; "trailing_label"]);
   (N_SetOperator, ["alias"; "as"; "colon"; "comma"; "leading_label"; "limit"; "null_order"; "order"; "orderby"; "row_value_alias"; "trailing_label"]);
   (N_SetStatement, ["colon"; "leading_label"; "trailing_label"]);
   (N_SingleTokenStatement, ["colon"; "leading_label"; "trailing_label"]);
   (N_StringLiteral, ["row_value_alias"]);
   (N_StructLiteral, ["row_value_alias"]);
   (N_Template, ["row_value_alias"]);
   (N_TransactionStatement, ["colon"; "leading_label"; "trailing_label"]);
   (N_TruncateStatement, ["colon"; "leading_label"; "trailing_label"]);
   (N_UnaryOperator, ["row_value_alias"]);
   (N_UndropStatement, ["colon"; "leading_label"; "trailing_label"]);
   (N_UpdateStatement, ["colon"; "leading_label"; "trailing_label"])].

(* children that are declared as required but may be absent *)
Definition missing_children : list (node_type * list string) :=
  [(N_AlterColumnStatement, ["set"]);
   (N_AssertStatement, ["as"; "description"]);
   (N_CallingTableFunction, ["with_offset"]);
   (N_CallingUnnest, ["func"; "rparen"; "with_offset"]);
   (N_CreateSchemaStatement, ["default_collate"]);
   (N_CreateTableStatement, ["like_or_copy"; "source_table"]);
   (N_CreateViewStatement, ["as"]);
   (N_DeleteStatement, ["from"]);
   (N_DotOperator, ["with_offset"]);
   (N_ExecuteStatement, ["into"]);
   (N_ExtractArgument, ["at_time_zone"; "time_zone"]);
   (N_FromStatement, ["with"]);
   (N_FunctionChain, ["with_offset"]);
   (N_GroupedExpr, ["with_offset"]);
   (N_GroupedStatement, ["limit"; "orderby"; "with_offset"]);
   (N_GroupedTypeDeclarationOrConstraints, ["declarations"]);
   (N_Identifier, ["with_offset"]);
   (N_IfStatement, ["else"; "elseifs"]);
   (N_JoinOperator, ["join_type"; "on"; "outer"; "using"; "with_offset"]);
   (N_KeywordSequence, ["next_keyword"]);
   (N_MatchRecognizeConfig, ["pattern"]);
   (N_MultiTokenIdentifier, ["with_offset"]);
   (N_Parameter, ["with_offset"]);
   (N_Template, ["with_offset"]);
   (N_TypeDeclaration, ["in_out"]);
   (N_UnpivotOperator, ["include_or_exclude_nulls"]);
   (N_UpdateStatement, ["where"]);
   (N_WhenClause, ["and"; "by_target_or_source"]);
   (N_WindowFrameClause, ["start"]);
   (N_WindowSpecification, ["frame"; "orderby"; "partitionby"]);
   (N_WithPartitionColumnsClause, ["column_schema_group"]);
   (N_WithQuery, ["comma"])].

(* children of types that are not declared *)
Definition odd_children : list (list (node_type * string) * list node_type) :=
  [([(N_AccessOperator, "alias"); (N_ArrayLiteral, "alias"); (N_Asterisk, "alias"); (N_BetweenOperator, "alias"); (N_BinaryOperator, "alias"); (N_BooleanLiteral, "alias"); (N_CallingFunction, "alias"); (N_CaseExpr, "alias"); (N_DotOperator, "alias"); (N_EmptyStruct, "alias"); (N_FunctionChain, "alias"); (N_GroupedExpr, "alias"); (N_GroupedStatement, "alias"); (N_Identifier, "alias"); (N_InOperator, "alias"); (N_IntervalLiteral, "alias"); (N_IsDistinctFromOperator, "alias"); (N_NullLiteral, "alias"); (N_NumericLiteral, "alias"); (N_Parameter, "alias"); (N_RangeLiteral, "alias"); (N_StringLiteral, "alias"); (N_StructLiteral, "alias"); (N_Template, "alias"); (N_UnaryOperator, "alias")],
    [N_AccessOperator; N_ArrayLiteral; N_Asterisk; N_BetweenOperator; N_BinaryOperator; N_BooleanLiteral; N_CallingFunction; N_CaseExpr; N_DotOperator; N_EmptyStruct; N_FromStatement; N_FunctionChain; N_GroupedExpr; N_GroupedStatement; N_InOperator; N_IntervalLiteral; N_IsDistinctFromOperator; N_NullLiteral; N_NumericLiteral; N_Parameter; N_PipeStatement; N_RangeLiteral; N_SelectStatement; N_SetOperator; N_StringLiteral; N_StructLiteral; N_Template; N_UnaryOperator; N_Unknown]);
   ([(N_BinaryOperator, "left"); (N_BinaryOperator, "right"); (N_GroupByExprs, "exprs"); (N_XXXByExprs, "exprs")],
    [N_FromStatement; N_PipeStatement; N_SelectStatement; N_SetOperator; N_Unknown]);
   ([(N_CallingFunction, "args"); (N_CallingTableFunction, "args"); (N_CallingUnnest, "args")],
    [N_CastArgument; N_ExtractArgument; N_FromStatement; N_PipeStatement; N_SetOperator; N_Unknown]);
   ([(N_CallingFunction, "func"); (N_DotOperator, "left")],
    [N_AccessOperator; N_ArrayLiteral; N_Asterisk; N_BetweenOperator; N_BinaryOperator; N_BooleanLiteral; N_CallingFunction; N_CaseExpr; N_EmptyStruct; N_FromStatement; N_FunctionChain; N_GroupedExpr; N_GroupedStatement; N_InOperator; N_IntervalLiteral; N_IsDistinctFromOperator; N_NullLiteral; N_NumericLiteral; N_PipeStatement; N_RangeLiteral; N_SelectStatement; N_SetOperator; N_StringLiteral; N_StructLiteral; N_UnaryOperator]);
   ([(N_CallingTableFunction, "func"); (N_CallingUnnest, "func")],
    [N_AccessOperator; N_BetweenOperator; N_BinaryOperator; N_CallingFunction; N_FunctionChain; N_InOperator; N_IsDistinctFromOperator]);
   ([(N_DotOperator, "right")],
    [N_AccessOperator; N_Asterisk; N_BetweenOperator; N_BinaryOperator; N_CallingFunction; N_FunctionChain; N_InOperator; N_IsDistinctFromOperator]);
   ([(N_SetOperator, "right")],
    [N_FromStatement; N_PipeStatement])].

(* these take a character, not ASCII, whose upper case is a bracket or a dot *)
Definition disguised_odd_children : list (list (node_type * string) * list node_type) :=
  [([(N_CallingFunction, "func"); (N_CallingUnnest, "func"); (N_DotOperator, "left")],
    [N_Unknown])].

(* an expression of each type *)
Definition sample_exprs : list string :=
  ["a[0]";
   "[]";
   "*";
   "a between 1 and 2";
   "a+b";
   "true";
   "f()";
   "case when a then b end";
   "a.b";
   "()";
   "with a as (select 1) from t";
   "(a).f()";
   "(a)";
   "(select 1)";
   "a in (1)";
   "interval 1 day";
   "a is distinct from b";
   "null";
   "1";
   "@p";
   "select 1 |> where a";
   "range<date> 'a'";
   "select 1";
   "select 1 union all select 2";
   "'a'";
   "(1,2)";
   "{{a}}";
   "-a";
   ";";
   "a"].

Definition sample_texts : list string :=
  ["(select 1) union all (select 2) order by 1 limit 1";
   "1 ; BREAK ) )";
   "= ; ROLLBACK 1";
   "ALTER COLUMN c DROP - a ;";
   "CREATE EXTERNAL TABLE dataset . new_table WITH PARTITION COLUMNS OPTIONS ( uris = [ 'dummy' ] , format = csv ) ;";
   "CREATE TABLE a CLONE a [ 0 ] FOR f ( x )";
   "CREATE TABLE snap CLONE dataset ( a ) . f ( ) FOR AS 1 ( )";
   "CREATE VIEW viewname ( . b )";
   "CREATE VIEW viewname ( a . b )";
   "FROM * * ) DESC ( ( 1 ADD ( )";
   "FROM 1 [ 1 ] WITH ;";
   "FROM CAST ( '1' AS , t";
   "FROM EXTRACT ( a b 0 ]";
   "FROM SELECT * t TABLESAMPLE SYSTEM ( 20 x )";
   "FROM UNNEST ( ) ASC";
   "FROM UNNEST ( where CAST ( AS 1 ) ;";
   "FROM UNNEST + ; between 1 and 1";
   "FROM UNNEST FOR y ) ] )";
   "FROM UNNEST IS NOT all ,";
   "FROM UNNEST [ 1 , ( )";
   "FROM UNNEST [ 1 ] is distinct 1 b";
   "FROM a + ) UNPIVOT ( v 1 , AS 2 ) )";
   "FROM a [ 0 ] UNPIVOT ( ; 1 , AS 1 ) AS";
   "FROM a between * 2 ; WITH 1";
   "FROM a between 1 1 a asc ( 1 f";
   "FROM a between 1 and 2 UNPIVOT ( ; FOR v1 1 1 ) AS";
   "FROM a in ( ) UNPIVOT ( v 1 , AS 2 ) (";
   "FROM a is distinct ""s"" ) WITH - a";
   "FROM a is distinct ( ) MATCH_RECOGNIZE ( )";
   "FROM a is distinct ( ) UNPIVOT ( 1 , v2 AS 2 ) )";
   "FROM f ( select 1 union ) a . b ( x ) ;";
   "FROM t ( ) ASC";
   "FROM t ( ) NULLS LAST";
   "FROM t ( ) OVER ;";
   "FROM t ( DISTINCT )";
   "FROM t ( SELECT |> EXCEPT 1 ( 2 ) ) DESC ;";
   "FROM t = . FOR ( 1 ) ;";
   "FROM t UNPIVOT ( 1 , AS 2 AS . * ) 1 ) AS";
   "FROM t UNPIVOT ( c1 v IN ( 1 , v2 ( ) . f ( ) 2 ) AS";
   "FROM t UNPIVOT ( v1 1 , AS 2 struct 1 ) 1 ) AS";
   "FROM t UNPIVOT ( v1 1 , t2 , a is distinct from b 2 ) AS";
   "FROM t [ 1 ] ( )";
   "FROM t [ 1 ] MATCH_RECOGNIZE ( )";
   "FROM t between 1 t |> MATCH_RECOGNIZE ( )";
   "FROM unnest NULLS LAST";
   "FROM x * 1 WITH ;";
   "SELECT ( ( ) AS interval 1 day ) INNER u AS WITH FROM )";
   "SELECT ( 1 ) . ( ) DESC ( ; )";
   "SELECT * FROM APPENDS ( select c2 PROCEDURE dataset . procede ( ( ) AS ASC ( )";
   "SELECT * FROM a [ 0 ] t1 PIVOT ( ( a ) . f ( ) x s AS [ x ) ;";
   "SELECT * FROM a between 1 and 2 PIVOT ( ( * ) . * ( ) AS range < date > ""a"" FOR IN 1 one * AS ) ) t2";
   "SELECT * FROM a in ( ) MATCH_RECOGNIZE ( )";
   "SELECT * FROM a in ( 1 ) WITH true";
   "SELECT * FROM t is distinct AS t1 PIVOT ( SUM x s , COUNT ) ) t2";
   "SELECT . = a asc . ;";
   "SELECT 1 + a asc ( )";
   "SELECT 1 . * between and 2 ,";
   "SELECT 1 . * in ( 1 )";
   "SELECT 1 UNION ALL ( 1 key ) |> SELECT 2";
   "SELECT CAST ( '1' AS INT64 ) ,";
   "SELECT EXTRACT ( DAY FROM ts )";
   "SELECT MODEL ; ( )";
   "SELECT NOT true ( SELECT 1 FROM ( s * a is distinct from b DESC ( AS x m . x ) ;";
   "SELECT SELECT ""s"" |> where , a . -";
   "SELECT SELECT . a a nulls last";
   "SELECT SELECT . |> LIMIT AS AS ;";
   "SELECT SELECT . |> LIMIT AS a asc";
   "SELECT SELECT 1 t + ;";
   "SELECT SELECT 1 |> where x f + )";
   "SELECT SELECT 2 UNION ALL SELECT , DESC t NULLS LAST";
   "SELECT SELECT a |> LIMIT . b ,";
   "SELECT SELECT f b a asc";
   "SELECT SELECT from |> where x AS STRUCT 2 ) a nulls last";
   "SELECT SELECT t |> where ) f ( )";
   "SELECT SELECT { } AS { { + . [ } AS ""s"" , ;";
   "SELECT STRUCT < INT64 > ( 1 )";
   "SELECT SUM ( ) OVER ( ROWS )";
   "SELECT SUM ( x ) OVER ( )";
   "SELECT a between 1 and a desc nulls last . * as tmp";
   "SELECT a between a from b asc ( )";
   "SELECT a is distinct ""s"" a asc ( )";
   "SELECT a is distinct ( a asc . )";
   "SELECT select 1 union + + 2 a . ;";
   "SELECT select 1 union IN , 2 a as )";
   "SELECT select 1 union all + 2 c2 * x";
   "SELECT select 1 union all + 2 c2 a ,";
   "SELECT select ; f ( )";
   "SELECT sub . * . ( )";
   "SELECT t . * ( )";
   "SELECT t . * * t";
   "SELECT t . * [ 1 ]";
   "SELECT t . * is distinct * ]";
   "SET SELECT 1 a . b";
   "UPDATE SET ;";
   "WITH FROM t |> AS NULL";
   "from t * a in ( 1 t PIVOT ( * ) x , 'v2' ) )";
   "from t * t MATCH_RECOGNIZE ( ;";
   "from t * t PIVOT ( * ) x , 'v2' ) )";
   "from unnest ( a ) ( ) OVER ;";
   "l : ( 5 2 ) x";
   "l : ALTER BI_CAPACITY `project.region-us.default` SET OPTIONS ( preferred_tables = [ 'table1' , 'table2' ] ) l";
   "l : ALTER COLUMN c DROP ) - a";
   "l : ALTER MATERIALIZED VIEW example SET OPTIONS ( dummy = 'dummy' ) l";
   "l : ALTER MODEL ident SET OPTIONS ( ) l";
   "l : ALTER ORGANIZATION SET OPTIONS ( `region-us.default_time_zone` = 'Asia/Tokyo' ) l";
   "l : ALTER PROJECT `project-id` SET OPTIONS ( `region-us.default_time_zone` = 'Asia/Tokyo' ) l";
   "l : ALTER RESERVATION ident SET OPTIONS ( plan = 'FLEX' ) l";
   "l : ALTER SCHEMA dataset_name SET OPTIONS ( ) l";
   "l : ALTER TABLE t RENAME COLUMN u TO v l";
   "l : ALTER VECTOR INDEX index_name ON table_name REBUILD l";
   "l : ASSERT 1 + 1 = 3 l";
   "l : CALL mydataset . myprocedure ( 1 ) l";
   "l : CREATE CAPACITY ident OPTIONS ( plan = 'FLEX' ) l";
   "l : CREATE MATERIALIZED VIEW ident1 AS REPLICA OF ident2 l";
   "l : CREATE MODEL ident AS ( SELECT 1 ) l";
   "l : CREATE OR REPLACE FUNCTION abc ( ) AS ( 1 ) l";
   "l : CREATE PROCEDURE dataset . procede ( ) BEGIN SELECT 1 ; END l";
   "l : CREATE ROW ACCESS POLICY new_filter ON tablename FILTER USING ( TRUE ) l";
   "l : CREATE SCHEMA dataset_name l";
   "l : CREATE SEARCH INDEX new_index ON tablename ( ALL COLUMNS ) l";
   "l : CREATE TABLE example ( x int64 ) l";
   "l : DECLARE x INT64 l";
   "l : DELETE table_name WHERE TRUE l";
   "l : DROP MODEL ident l";
   "l : DROP ROW ACCESS POLICY ident ON tablename l";
   "l : EXECUTE IMMEDIATE 'SELECT 1' l";
   "l : EXPORT DATA ) ( ) AS SELECT 1 1";
   "l : EXPORT MODEL ident l";
   "l : FROM t MATCH_RECOGNIZE ( AFTER a SKIP a [ ] END CASE";
   "l : FROM t |> AS ) 2";
   "l : GRANT l : f ( x ) )";
   "l : IF TRUE THEN END IF l";
   "l : INSERT INTO table_name VALUES ( 1 , 2 ) l";
   "l : LOAD DATA OVERWRITE ident FROM FILES ( dummy = 'dummy' ) WITH PARTITION COLUMNS ( x STRING ) l";
   "l : MERGE t USING s ON t . id = s . id WHEN MATCHED THEN DELETE l";
   "l : RAISE l";
   "l : REVOKE `roles/bigquery.admin` ON SCHEMA dataset_name FROM 'user:foo@example.com' , 'user:bar@example.com' l";
   "l : SELECT 1 UNION ; . 2 ALL";
   "l : SET x = 5 l";
   "l : TRUNCATE TABLE t l";
   "l : UNDROP SCHEMA datasetname l";
   "l : UPDATE TABLE t SET col1 = 1 , col2 = 2 WHERE TRUE l";
   "l a case b ; 1 -";
   "l: return l";
   "select ('a' ())";
   "select ('a' . b)";
   "select (() ())";
   "select (() . b)";
   "select ((1,2) ())";
   "select ((1,2) . b)";
   "select ((a) ())";
   "select ((a) . b)";
   "select ((a).f() . b)";
   "select ((select 1) ())";
   "select ((select 1) . b)";
   "select (* . b)";
   "select (* as b asc nulls last, 1)";
   "select (-a . b)";
   "select (1 ())";
   "select ([] ())";
   "select ([] . b)";
   "select (a in (1) ())";
   "select (a in (1) . b)";
   "select (a[0] ())";
   "select (a[0] . b)";
   "select (case when a then b end ())";
   "select (case when a then b end . b)";
   "select (f() ())";
   "select (f() . b)";
   "select (interval 1 day ())";
   "select (interval 1 day . b)";
   "select (interval 1 day as b asc nulls last, 1)";
   "select (null ())";
   "select (null . b)";
   "select (range<date> 'a' ())";
   "select (range<date> 'a' . b)";
   "select (true . b)";
   "select * from (1,2) for system_time as of 1";
   "select * from (a) tablesample system (1 percent)";
   "select * from (from t) tablesample system (1 percent)";
   "select * from (select 1) for system_time as of 1";
   "select * from (select 1) |> where true for system_time as of 1";
   "select * from (select 1) |> where true tablesample system (1 percent)";
   "select * from (select 1) |> where true with offset";
   "select * from (select 1) |> where true z match_recognize(order by a measures a as b pattern (x) define x as true)";
   "select * from (select 1) |> where true z pivot(sum(a) for b in (1))";
   "select * from (select 1) |> where true z unpivot(a for b in (c))";
   "select * from [] ()";
   "select * from a [0] tablesample system (1 percent)";
   "select * from a between 1 and 2 for system_time as of 1";
   "select * from a between 1 and 2 tablesample system (1 percent)";
   "select * from a in (1) ()";
   "select * from a in (1) for system_time as of 1";
   "select * from a in (1) tablesample system (1 percent)";
   "select * from a is distinct from b for system_time as of 1";
   "select * from a is distinct from b tablesample system (1 percent)";
   "select * from a().b() tablesample system (1 percent)";
   "select * from f() ()";
   "select * from f() for system_time as of 1";
   "select * from f() tablesample system (1 percent)";
   "select * from f(a ignore nulls order by b limit 1 having max b)";
   "select * from f(select 1 |> where a)";
   "select * from f(with a as (select 1) from t)";
   "select * from t unpivot(a for b in ('a' ""x""))";
   "select * from t unpivot(a for b in (* ""x""))";
   "select * from t unpivot(a for b in (-a ""x""))";
   "select * from t unpivot(a for b in (1 ""x""))";
   "select * from t unpivot(a for b in (@p ""x""))";
   "select * from t unpivot(a for b in ([] ""x""))";
   "select * from t unpivot(a for b in (a ""x""))";
   "select * from t unpivot(a for b in (a between 1 and 2 ""x""))";
   "select * from t unpivot(a for b in (a in (1) ""x""))";
   "select * from t unpivot(a for b in (a.b ""x""))";
   "select * from t unpivot(a for b in (a[0] ""x""))";
   "select * from t unpivot(a for b in (case when a then b end ""x""))";
   "select * from t unpivot(a for b in (f() ""x""))";
   "select * from t unpivot(a for b in (interval 1 day ""x""))";
   "select * from t unpivot(a for b in (null ""x""))";
   "select * from t unpivot(a for b in (range<date> 'a' ""x""))";
   "select * from t unpivot(a for b in (select 1 ""x""))";
   "select * from t unpivot(a for b in (select 1 union all select 2 ""x""))";
   "select * from t unpivot(a for b in (select 1 |> where a ""x""))";
   "select * from t unpivot(a for b in (true ""x""))";
   "select * from t unpivot(a for b in (with a as (select 1) (select 2) 'x'))";
   "select * from t unpivot(a for b in (with a as (select 1) from t ""x""))";
   "select * from t unpivot(a for b in ({{a}} ""x""))";
   "select * from unnest . extract (a from b)";
   "select * from unnest(1) tablesample system (1 percent)";
   "select * from unnest(;)";
   "select * from unnest(a ignore nulls order by b limit 1 having max b)";
   "select * from unnest(select 1 union all select 2)";
   "select * from unnest(select 1 |> where a)";
   "select * from unnest(with a as (select 1) from t)";
   "select * from with a as (select 1) from t ()";
   "select 1 from unnest in (1) (b)";
   "select a from t group by ;";
   "select a from t group by select 1";
   "select a from t group by select 1 union all select 2";
   "select a from t group by select 1 |> where a";
   "select a from t group by with a as (select 1) from t";
   "select a from t order by ;";
   "select a from t order by select 1";
   "select a from t order by select 1 union all select 2";
   "select a from t order by select 1 |> where a";
   "select a from t order by with a as (select 1) from t";
   "select f(select 1 + select 1)";
   "select f(select 1 union all select 2 + select 1 union all select 2)";
   "select f(select 1 |> where a + select 1 |> where a)";
   "select f(with a as (select 1) from t + with a as (select 1) from t)";
   "select f(with a as (select 1) from t; asc nulls last, 1)";
   "select struct(with a as (select 1) from t; as b, 2)";
   "SELECT 1 FROM UNNEST between 1 and 2 DESC (1)";
   "SELECT 1 FROM UNNEST + b DESC (1)";
   "SELECT 1 FROM UNNEST(1).f(2) DESC (1)";
   "SELECT 1 FROM UNNEST is distinct from 2 DESC (1)"].
