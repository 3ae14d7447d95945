{
 "exprs": [
  "a[0]",
  "[]",
  "*",
  "a between 1 and 2",
  "a+b",
  "true",
  "f()",
  "case when a then b end",
  "a.b",
  "()",
  "with a as (select 1) from t",
  "(a).f()",
  "(a)",
  "(select 1)",
  "a in (1)",
  "interval 1 day",
  "a is distinct from b",
  "null",
  "1",
  "@p",
  "select 1 |> where a",
  "range<date> 'a'",
  "select 1",
  "select 1 union all select 2",
  "'a'",
  "(1,2)",
  "{{a}}",
  "-a",
  ";",
  "a"
 ],
 "programs": [
  "(select 1) union all (select 2) order by 1 limit 1",
  "1 ; BREAK ) )",
  "= ; ROLLBACK 1",
  "ALTER COLUMN c DROP - a ;",
  "CREATE EXTERNAL TABLE dataset . new_table WITH PARTITION COLUMNS OPTIONS ( uris = [ 'dummy' ] , format = csv ) ;",
  "CREATE TABLE a CLONE a [ 0 ] FOR f ( x )",
  "CREATE TABLE snap CLONE dataset ( a ) . f ( ) FOR AS 1 ( )",
  "CREATE VIEW viewname ( . b )",
  "CREATE VIEW viewname ( a . b )",
  "FROM * * ) DESC ( ( 1 ADD ( )",
  "FROM 1 [ 1 ] WITH ;",
  "FROM CAST ( '1' AS , t",
  "FROM EXTRACT ( a b 0 ]",
  "FROM SELECT * t TABLESAMPLE SYSTEM ( 20 x )",
  "FROM UNNEST ( ) ASC",
  "FROM UNNEST ( where CAST ( AS 1 ) ;",
  "FROM UNNEST + ; between 1 and 1",
  "FROM UNNEST FOR y ) ] )",
  "FROM UNNEST IS NOT all ,",
  "FROM UNNEST [ 1 , ( )",
  "FROM UNNEST [ 1 ] is distinct 1 b",
  "FROM a + ) UNPIVOT ( v 1 , AS 2 ) )",
  "FROM a [ 0 ] UNPIVOT ( ; 1 , AS 1 ) AS",
  "FROM a between * 2 ; WITH 1",
  "FROM a between 1 1 a asc ( 1 f",
  "FROM a between 1 and 2 UNPIVOT ( ; FOR v1 1 1 ) AS",
  "FROM a in ( ) UNPIVOT ( v 1 , AS 2 ) (",
  "FROM a is distinct \"s\" ) WITH - a",
  "FROM a is distinct ( ) MATCH_RECOGNIZE ( )",
  "FROM a is distinct ( ) UNPIVOT ( 1 , v2 AS 2 ) )",
  "FROM f ( select 1 union ) a . b ( x ) ;",
  "FROM t ( ) ASC",
  "FROM t ( ) NULLS LAST",
  "FROM t ( ) OVER ;",
  "FROM t ( DISTINCT )",
  "FROM t ( SELECT |> EXCEPT 1 ( 2 ) ) DESC ;",
  "FROM t = . FOR ( 1 ) ;",
  "FROM t UNPIVOT ( 1 , AS 2 AS . * ) 1 ) AS",
  "FROM t UNPIVOT ( c1 v IN ( 1 , v2 ( ) . f ( ) 2 ) AS",
  "FROM t UNPIVOT ( v1 1 , AS 2 struct 1 ) 1 ) AS",
  "FROM t UNPIVOT ( v1 1 , t2 , a is distinct from b 2 ) AS",
  "FROM t [ 1 ] ( )",
  "FROM t [ 1 ] MATCH_RECOGNIZE ( )",
  "FROM t between 1 t |> MATCH_RECOGNIZE ( )",
  "FROM unnest NULLS LAST",
  "FROM x * 1 WITH ;",
  "SELECT ( ( ) AS interval 1 day ) INNER u AS WITH FROM )",
  "SELECT ( 1 ) . ( ) DESC ( ; )",
  "SELECT * FROM APPENDS ( select c2 PROCEDURE dataset . procede ( ( ) AS ASC ( )",
  "SELECT * FROM a [ 0 ] t1 PIVOT ( ( a ) . f ( ) x s AS [ x ) ;",
  "SELECT * FROM a between 1 and 2 PIVOT ( ( * ) . * ( ) AS range < date > \"a\" FOR IN 1 one * AS ) ) t2",
  "SELECT * FROM a in ( ) MATCH_RECOGNIZE ( )",
  "SELECT * FROM a in ( 1 ) WITH true",
  "SELECT * FROM t is distinct AS t1 PIVOT ( SUM x s , COUNT ) ) t2",
  "SELECT . = a asc . ;",
  "SELECT 1 + a asc ( )",
  "SELECT 1 . * between and 2 ,",
  "SELECT 1 . * in ( 1 )",
  "SELECT 1 UNION ALL ( 1 key ) |> SELECT 2",
  "SELECT CAST ( '1' AS INT64 ) ,",
  "SELECT EXTRACT ( DAY FROM ts )",
  "SELECT MODEL ; ( )",
  "SELECT NOT true ( SELECT 1 FROM ( s * a is distinct from b DESC ( AS x m . x ) ;",
  "SELECT SELECT \"s\" |> where , a . -",
  "SELECT SELECT . a a nulls last",
  "SELECT SELECT . |> LIMIT AS AS ;",
  "SELECT SELECT . |> LIMIT AS a asc",
  "SELECT SELECT 1 t + ;",
  "SELECT SELECT 1 |> where x f + )",
  "SELECT SELECT 2 UNION ALL SELECT , DESC t NULLS LAST",
  "SELECT SELECT a |> LIMIT . b ,",
  "SELECT SELECT f b a asc",
  "SELECT SELECT from |> where x AS STRUCT 2 ) a nulls last",
  "SELECT SELECT t |> where ) f ( )",
  "SELECT SELECT { } AS { { + . [ } AS \"s\" , ;",
  "SELECT STRUCT < INT64 > ( 1 )",
  "SELECT SUM ( ) OVER ( ROWS )",
  "SELECT SUM ( x ) OVER ( )",
  "SELECT a between 1 and a desc nulls last . * as tmp",
  "SELECT a between a from b asc ( )",
  "SELECT a is distinct \"s\" a asc ( )",
  "SELECT a is distinct ( a asc . )",
  "SELECT select 1 union + + 2 a . ;",
  "SELECT select 1 union IN , 2 a as )",
  "SELECT select 1 union all + 2 c2 * x",
  "SELECT select 1 union all + 2 c2 a ,",
  "SELECT select ; f ( )",
  "SELECT sub . * . ( )",
  "SELECT t . * ( )",
  "SELECT t . * * t",
  "SELECT t . * [ 1 ]",
  "SELECT t . * is distinct * ]",
  "SET SELECT 1 a . b",
  "UPDATE SET ;",
  "WITH FROM t |> AS NULL",
  "from t * a in ( 1 t PIVOT ( * ) x , 'v2' ) )",
  "from t * t MATCH_RECOGNIZE ( ;",
  "from t * t PIVOT ( * ) x , 'v2' ) )",
  "from unnest ( a ) ( ) OVER ;",
  "l : ( 5 2 ) x",
  "l : ALTER BI_CAPACITY `project.region-us.default` SET OPTIONS ( preferred_tables = [ 'table1' , 'table2' ] ) l",
  "l : ALTER COLUMN c DROP ) - a",
  "l : ALTER MATERIALIZED VIEW example SET OPTIONS ( dummy = 'dummy' ) l",
  "l : ALTER MODEL ident SET OPTIONS ( ) l",
  "l : ALTER ORGANIZATION SET OPTIONS ( `region-us.default_time_zone` = 'Asia/Tokyo' ) l",
  "l : ALTER PROJECT `project-id` SET OPTIONS ( `region-us.default_time_zone` = 'Asia/Tokyo' ) l",
  "l : ALTER RESERVATION ident SET OPTIONS ( plan = 'FLEX' ) l",
  "l : ALTER SCHEMA dataset_name SET OPTIONS ( ) l",
  "l : ALTER TABLE t RENAME COLUMN u TO v l",
  "l : ALTER VECTOR INDEX index_name ON table_name REBUILD l",
  "l : ASSERT 1 + 1 = 3 l",
  "l : CALL mydataset . myprocedure ( 1 ) l",
  "l : CREATE CAPACITY ident OPTIONS ( plan = 'FLEX' ) l",
  "l : CREATE MATERIALIZED VIEW ident1 AS REPLICA OF ident2 l",
  "l : CREATE MODEL ident AS ( SELECT 1 ) l",
  "l : CREATE OR REPLACE FUNCTION abc ( ) AS ( 1 ) l",
  "l : CREATE PROCEDURE dataset . procede ( ) BEGIN SELECT 1 ; END l",
  "l : CREATE ROW ACCESS POLICY new_filter ON tablename FILTER USING ( TRUE ) l",
  "l : CREATE SCHEMA dataset_name l",
  "l : CREATE SEARCH INDEX new_index ON tablename ( ALL COLUMNS ) l",
  "l : CREATE TABLE example ( x int64 ) l",
  "l : DECLARE x INT64 l",
  "l : DELETE table_name WHERE TRUE l",
  "l : DROP MODEL ident l",
  "l : DROP ROW ACCESS POLICY ident ON tablename l",
  "l : EXECUTE IMMEDIATE 'SELECT 1' l",
  "l : EXPORT DATA ) ( ) AS SELECT 1 1",
  "l : EXPORT MODEL ident l",
  "l : FROM t MATCH_RECOGNIZE ( AFTER a SKIP a [ ] END CASE",
  "l : FROM t |> AS ) 2",
  "l : GRANT l : f ( x ) )",
  "l : IF TRUE THEN END IF l",
  "l : INSERT INTO table_name VALUES ( 1 , 2 ) l",
  "l : LOAD DATA OVERWRITE ident FROM FILES ( dummy = 'dummy' ) WITH PARTITION COLUMNS ( x STRING ) l",
  "l : MERGE t USING s ON t . id = s . id WHEN MATCHED THEN DELETE l",
  "l : RAISE l",
  "l : REVOKE `roles/bigquery.admin` ON SCHEMA dataset_name FROM 'user:foo@example.com' , 'user:bar@example.com' l",
  "l : SELECT 1 UNION ; . 2 ALL",
  "l : SET x = 5 l",
  "l : TRUNCATE TABLE t l",
  "l : UNDROP SCHEMA datasetname l",
  "l : UPDATE TABLE t SET col1 = 1 , col2 = 2 WHERE TRUE l",
  "l a case b ; 1 -",
  "l: return l",
  "select ('a' ())",
  "select ('a' . b)",
  "select (() ())",
  "select (() . b)",
  "select ((1,2) ())",
  "select ((1,2) . b)",
  "select ((a) ())",
  "select ((a) . b)",
  "select ((a).f() . b)",
  "select ((select 1) ())",
  "select ((select 1) . b)",
  "select (* . b)",
  "select (* as b asc nulls last, 1)",
  "select (-a . b)",
  "select (1 ())",
  "select ([] ())",
  "select ([] . b)",
  "select (a in (1) ())",
  "select (a in (1) . b)",
  "select (a[0] ())",
  "select (a[0] . b)",
  "select (case when a then b end ())",
  "select (case when a then b end . b)",
  "select (f() ())",
  "select (f() . b)",
  "select (interval 1 day ())",
  "select (interval 1 day . b)",
  "select (interval 1 day as b asc nulls last, 1)",
  "select (null ())",
  "select (null . b)",
  "select (range<date> 'a' ())",
  "select (range<date> 'a' . b)",
  "select (true . b)",
  "select * from (1,2) for system_time as of 1",
  "select * from (a) tablesample system (1 percent)",
  "select * from (from t) tablesample system (1 percent)",
  "select * from (select 1) for system_time as of 1",
  "select * from (select 1) |> where true for system_time as of 1",
  "select * from (select 1) |> where true tablesample system (1 percent)",
  "select * from (select 1) |> where true with offset",
  "select * from (select 1) |> where true z match_recognize(order by a measures a as b pattern (x) define x as true)",
  "select * from (select 1) |> where true z pivot(sum(a) for b in (1))",
  "select * from (select 1) |> where true z unpivot(a for b in (c))",
  "select * from [] ()",
  "select * from a [0] tablesample system (1 percent)",
  "select * from a between 1 and 2 for system_time as of 1",
  "select * from a between 1 and 2 tablesample system (1 percent)",
  "select * from a in (1) ()",
  "select * from a in (1) for system_time as of 1",
  "select * from a in (1) tablesample system (1 percent)",
  "select * from a is distinct from b for system_time as of 1",
  "select * from a is distinct from b tablesample system (1 percent)",
  "select * from a().b() tablesample system (1 percent)",
  "select * from f() ()",
  "select * from f() for system_time as of 1",
  "select * from f() tablesample system (1 percent)",
  "select * from f(a ignore nulls order by b limit 1 having max b)",
  "select * from f(select 1 |> where a)",
  "select * from f(with a as (select 1) from t)",
  "select * from t unpivot(a for b in ('a' \"x\"))",
  "select * from t unpivot(a for b in (* \"x\"))",
  "select * from t unpivot(a for b in (-a \"x\"))",
  "select * from t unpivot(a for b in (1 \"x\"))",
  "select * from t unpivot(a for b in (@p \"x\"))",
  "select * from t unpivot(a for b in ([] \"x\"))",
  "select * from t unpivot(a for b in (a \"x\"))",
  "select * from t unpivot(a for b in (a between 1 and 2 \"x\"))",
  "select * from t unpivot(a for b in (a in (1) \"x\"))",
  "select * from t unpivot(a for b in (a.b \"x\"))",
  "select * from t unpivot(a for b in (a[0] \"x\"))",
  "select * from t unpivot(a for b in (case when a then b end \"x\"))",
  "select * from t unpivot(a for b in (f() \"x\"))",
  "select * from t unpivot(a for b in (interval 1 day \"x\"))",
  "select * from t unpivot(a for b in (null \"x\"))",
  "select * from t unpivot(a for b in (range<date> 'a' \"x\"))",
  "select * from t unpivot(a for b in (select 1 \"x\"))",
  "select * from t unpivot(a for b in (select 1 union all select 2 \"x\"))",
  "select * from t unpivot(a for b in (select 1 |> where a \"x\"))",
  "select * from t unpivot(a for b in (true \"x\"))",
  "select * from t unpivot(a for b in (with a as (select 1) (select 2) 'x'))",
  "select * from t unpivot(a for b in (with a as (select 1) from t \"x\"))",
  "select * from t unpivot(a for b in ({{a}} \"x\"))",
  "select * from unnest . extract (a from b)",
  "select * from unnest(1) tablesample system (1 percent)",
  "select * from unnest(;)",
  "select * from unnest(a ignore nulls order by b limit 1 having max b)",
  "select * from unnest(select 1 union all select 2)",
  "select * from unnest(select 1 |> where a)",
  "select * from unnest(with a as (select 1) from t)",
  "select * from with a as (select 1) from t ()",
  "select 1 from unnest in (1) (b)",
  "select a from t group by ;",
  "select a from t group by select 1",
  "select a from t group by select 1 union all select 2",
  "select a from t group by select 1 |> where a",
  "select a from t group by with a as (select 1) from t",
  "select a from t order by ;",
  "select a from t order by select 1",
  "select a from t order by select 1 union all select 2",
  "select a from t order by select 1 |> where a",
  "select a from t order by with a as (select 1) from t",
  "select f(select 1 + select 1)",
  "select f(select 1 union all select 2 + select 1 union all select 2)",
  "select f(select 1 |> where a + select 1 |> where a)",
  "select f(with a as (select 1) from t + with a as (select 1) from t)",
  "select f(with a as (select 1) from t; asc nulls last, 1)",
  "select struct(with a as (select 1) from t; as b, 2)",
  "SELECT 1 FROM UNNEST between 1 and 2 DESC (1)",
  "SELECT 1 FROM UNNEST + b DESC (1)",
  "SELECT 1 FROM UNNEST(1).f(2) DESC (1)",
  "SELECT 1 FROM UNNEST is distinct from 2 DESC (1)"
 ]
}