(* Generated by tools/roles.py: texts that are accepted although some word is not the one its role
   stands for. *)
From Verif Require Import Chars.
Local Open Scope string_scope.
Local Open Scope list_scope.
Definition loose_texts : list string :=
  ["ALTER x VIEW example SET OPTIONS ( dummy = 'dummy' ) ;";
   "SELECT ARRAY < > [ 1 ]";
   "FROM t |> UNPIVOT sales FOR quarter IN ( q1 , q2 ) ) AS q";
   "SELECT x EXCEPT ( col1 )";
   "CREATE REPLACE FUNCTION abc ( ) AS ( 1 ) ;";
   "FROM UNNEST BETWEEN 1 x 2";
   "FROM t |> MATCH_RECOGNIZE x )";
   "SET ( = 5";
   "ALTER x ORGANIZATION OPTIONS ( )";
   "REVOKE a x b ON SCHEMA t FROM 'u'";
   "ALTER x BI_CAPACITY y OPTIONS ( )";
   "ALTER TABLE example ADD x INT64 ;";
   "x y RAISE ;";
   "x y BEGIN ;";
   "x y RETURN ;";
   "TRUNCATE t ;";
   "CREATE x SEARCH INDEX new_index ON tablename ( ALL COLUMNS ) ;";
   "FROM t ( AS u";
   "CREATE x MODEL ident AS ( SELECT 1 ) ;";
   "x ( SELECT 1 )";
   "EXPORT x ident";
   "x y SET x = 5 ;";
   "FROM t |> TABLESAMPLE SYSTEM x 1 PERCENT )";
   "CREATE x SCHEMA";
   "CREATE OR REPLACE FUNCTION abc ( ) ( 1 ) ;";
   "x ( FROM table )";
   "SELECT 1 ( t1 AS t";
   "SELECT * FROM t WINDOW a AS ( BY col1 ) , b AS a";
   "IF TRUE x END IF ;";
   "SELECT ( SELECT 1 1";
   "UNDROP datasetname ;";
   "EXECUTE x 'SELECT 1'";
   "x y DECLARE x INT64 ;";
   "x y TRUNCATE TABLE t ;";
   "x y DROP MODEL ident ;";
   "x y ASSERT 1 + 1 = 3 ;";
   "SELECT json [ 'path' x";
   "MERGE t x s ON t . id = s . id WHEN MATCHED THEN DELETE ;";
   "SELECT * FROM t PIVOT ( ( ( * ) FOR x IN ( 'v1' , 'v2' ) )";
   "x y FROM t |> DISTINCT z";
   "x y EXPORT MODEL ident ;";
   "SELECT 1 IS DISTINCT x 2";
   "SELECT 1 IN x SELECT 1 )";
   "FROM t |> CROSS x JOIN u";
   "x y IF TRUE THEN END IF ;";
   "SET ( x , y x = ( 1 , 2 )";
   "SELECT 1 FROM t GROUP ( )";
   "CREATE x VIEW AS SELECT 1";
   "FROM t |> JOIN s USING + x";
   "FROM t MATCH_RECOGNIZE ( x";
   "DELETE table_name x TRUE ;";
   "SELECT EXTRACT ( DAY x ts )";
   "LOOP 1 ; BREAK ; END LOOP ;";
   "ALTER MODEL ident SET x ( )";
   "FROM t |> PIVOT SUM ( sales ) FOR quarter IN ( 'Q1' , 'Q2' ) ) AS q";
   "WITH t x ( SELECT 1 ) FROM t";
   "SELECT WITH OPTIONS ( ) col1";
   "SELECT ARRAY < INT64 > [ 1 x";
   "CASE WHEN THEN ELSE END CASE";
   "SELECT STRUCT < INT64 > x 1 )";
   "SELECT CAST ( '1' x INT64 ) ,";
   "ALTER x VECTOR y ON t REBUILD";
   "ALTER x TABLE SET OPTIONS ( )";
   "ALTER x MODEL SET OPTIONS ( )";
   "ALTER TABLE t RENAME x u TO v";
   "x y LOOP SELECT 1 ; END LOOP ;";
   "label x BEGIN SELECT 1 ; END ;";
   "FROM t |> LEFT OUTER x u as u2";
   "ALTER x SCHEMA SET OPTIONS ( )";
   "x y UNDROP SCHEMA datasetname ;";
   "FROM UNNEST IS NOT DISTINCT x 2";
   "ALTER MODEL ident x OPTIONS ( )";
   "x y CREATE SCHEMA dataset_name ;";
   "SELECT 1 IN UNNEST ( [ 1 , 2 ] x";
   "SELECT * FROM t , t . arr WITH x";
   "x y SELECT 1 UNION ALL SELECT 2 ;";
   "ALTER TABLE t RENAME COLUMN u x v";
   "x y EXECUTE IMMEDIATE 'SELECT 1' ;";
   "x y DELETE table_name WHERE TRUE ;";
   "SELECT c1 FROM t ORDER c1 ASC , c2";
   "BEGIN EXCEPTiON WHEN ERROR x END ;";
   "WHILE TRUE x SELECT 1 ; END WHILE ;";
   "ALTER x RESERVATION SET OPTIONS ( )";
   "SELECT 1 LEFT x ALL BY NAME SELECT 2";
   "FROM t |> TABLESAMPLE SYSTEM ( 1 x )";
   "ALTER TABLE t ALTER x c DROP DEFAULT";
   "SELECT * FROM t1 INNER x t2 ON TRUE ;";
   "SELECT * FROM t u MATCH_RECOGNIZE x )";
   "x y CREATE TABLE example ( x int64 ) ;";
   "TABLE t ALTER COLUMN c DROP NOT NULL ;";
   "SELECT 1 IN UNNEST ( a ) BETWEEN 1 x 2";
   "x y CASE WHEN true THEN ELSE END CASE ;";
   "x y ALTER MODEL ident SET OPTIONS ( ) ;";
   "CREATE x TABLE clone CLONE source_table";
   "x y WHILE TRUE DO SELECT 1 ; END WHILE ;";
   "x y CREATE MODEL ident AS ( SELECT 1 ) ;";
   "x y CALL mydataset . myprocedure ( 1 ) ;";
   "x y ALTER TABLE t RENAME COLUMN u TO v ;";
   "LOAD DATA OVERWRITE ident OVERWRITE x ( _PARTITIONTIME = ts ) FROM FILES ( dummy = 'dummy' )";
   "DROP ROW ACCESS POLICY ident tablename ;";
   "FROM t |> TABLESAMPLE SYSTEM ( 1 PERCENT x";
   "ALTER VECTOR INDEX ON table_name REBUILD ;";
   "CREATE x PROCEDURE procedure_ident ( ) WITH CONNECTION connection_ident LANGUAGE python AS r 'code'";
   "SELECT * FROM t TABLESAMPLE x ( 20 PERCENT )";
   "x y REPEAT SELECT 1 ; UNTIL true END REPEAT ;";
   "x y INSERT INTO table_name VALUES ( 1 , 2 ) ;";
   "SELECT * FROM t MATCH_RECOGNIZE ( PATTERN x )";
   "CREATE OR REPLACE FUNCTION abc ( ) AS x 1 ) ;";
   "CREATE OR REPLACE ROW ACCESS POLICY IF NOT EXISTS new_filter ON tablename GRANT ( 'a.example.com' , 'b.example.com' ) FILTER USING ( email = SESSION_USER ( ) ) ;";
   "SELECT CASE WHEN c1 = 1 x 'one' ELSE f ( ) END";
   "IF TRUE THEN SELECT 1 ; ELSEIF TRUE x END IF ;";
   "x y DROP ROW ACCESS POLICY ident ON tablename ;";
   "x y ALTER SCHEMA dataset_name SET OPTIONS ( ) ;";
   "UPDATE ( t SET col1 = 1 , col2 = 2 WHERE TRUE ;";
   "SELECT CASE WHEN c1 = 1 THEN 'one' ELSE f ( ) x";
   "ALTER RESERVATION ident SET x ( plan = 'FLEX' )";
   "FROM t |> MATCH_RECOGNIZE ( PATTERN ( a {1;} ) )";
   "x y CREATE OR REPLACE FUNCTION abc ( ) AS ( 1 ) ;";
   "SELECT * FROM t TABLESAMPLE SYSTEM x 20 PERCENT )";
   "ALTER TABLE t ALTER COLUMN int SET TYPE NUMERIC ;";
   "ALTER RESERVATION ident x OPTIONS ( plan = 'FLEX' )";
   "FOR record x ( SELECT 1 ) DO SELECT record ; END FOR";
   "FOR record IN ( SELECT 1 ) x SELECT record ; END FOR";
   "x y CREATE CAPACITY ident OPTIONS ( plan = 'FLEX' ) ;";
   "x y UPDATE TABLE t SET col1 = 1 , col2 = 2 WHERE TRUE ;";
   "MERGE t USING s ON t . id = s . id WHEN x THEN DELETE ;";
   "x y ALTER VECTOR INDEX index_name ON table_name REBUILD ;";
   "FROM t |> UNPIVOT ( sales FOR quarter IN ( q1 , q2 ) AS q";
   "x y CREATE MATERIALIZED VIEW ident1 AS REPLICA OF ident2 ;";
   "MERGE t USING s ON t . id = s . id WHEN MATCHED x DELETE ;";
   "x y FOR record IN ( SELECT 1 ) DO SELECT record ; END FOR ;";
   "x y ALTER RESERVATION ident SET OPTIONS ( plan = 'FLEX' ) ;";
   "SELECT * FROM t PIVOT ( COUNT ( * ) FOR x IN ( 'v1' , 'v2' ) x";
   "x y CREATE SEARCH INDEX new_index ON tablename ( ALL COLUMNS ) ;";
   "x y MERGE t USING s ON t . id = s . id WHEN MATCHED THEN DELETE ;";
   "x y CREATE PROCEDURE dataset . procede ( ) BEGIN SELECT 1 ; END ;";
   "EXPORT DATA WITH CONNECTION conn x ( format = 'CSV' ) AS SELECT 1";
   "x y ALTER MATERIALIZED VIEW example SET OPTIONS ( dummy = 'dummy' ) ;";
   "CREATE ROW ACCESS POLICY new_filter x tablename FILTER USING ( TRUE )";
   "EXPORT DATA WITH CONNECTION conn OPTIONS ( format = 'CSV' ) x SELECT 1";
   "ALTER ORGANIZATION SET x ( `region-us.default_time_zone` = 'Asia/Tokyo' )";
   "CREATE MODEL ident AS ( training_data AS ( SELECT 1 ) , x AS ( SELECT 1 ) )";
   "x y CREATE ROW ACCESS POLICY new_filter ON tablename FILTER USING ( TRUE ) ;";
   "SELECT last_value ( col3 ) OVER ( c ROWS BETWEEN 2 PRECEDING x 2 FOLLOWING )";
   "x y EXPORT DATA WITH CONNECTION conn OPTIONS ( format = 'CSV' ) AS SELECT 1 ;";
   "ALTER PROJECT `project-id` SET x ( `region-us.default_time_zone` = 'Asia/Tokyo' )";
   "LOAD DATA x ident FROM FILES ( dummy = 'dummy' ) WITH PARTITION COLUMNS ( x STRING )";
   "x y ALTER ORGANIZATION SET OPTIONS ( `region-us.default_time_zone` = 'Asia/Tokyo' ) ;";
   "ALTER PROJECT `project-id` x OPTIONS ( `region-us.default_time_zone` = 'Asia/Tokyo' )";
   "SELECT * FROM data1 AS one LEFT JOIN data2 two USING ( col ) + OUTER JOIN data3 ON TRUE";
   "LOAD DATA OVERWRITE ident FROM x ( dummy = 'dummy' ) WITH PARTITION COLUMNS ( x STRING )";
   "CREATE MODEL ident AS x training_data AS ( SELECT 1 ) , custom_holiday AS ( SELECT 1 ) )";
   "CREATE MODEL ident AS ( training_data AS ( SELECT 1 ) , custom_holiday AS ( SELECT 1 ) x";
   "LOAD x OVERWRITE ident FROM FILES ( dummy = 'dummy' ) WITH PARTITION COLUMNS ( x STRING )";
   "LOAD DATA OVERWRITE ident x FILES ( dummy = 'dummy' ) WITH PARTITION COLUMNS ( x STRING )";
   "LOAD DATA OVERWRITE ident FROM FILES x dummy = 'dummy' ) WITH PARTITION COLUMNS ( x STRING )";
   "x y ALTER PROJECT `project-id` SET OPTIONS ( `region-us.default_time_zone` = 'Asia/Tokyo' ) ;";
   "SELECT * FROM t AS t1 PIVOT SUM ( x ) s , COUNT ( * ) AS c FOR y IN ( 1 one , 2 AS two ) ) t2";
   "x y LOAD DATA OVERWRITE ident FROM FILES ( dummy = 'dummy' ) WITH PARTITION COLUMNS ( x STRING ) ;";
   "ALTER BI_CAPACITY `project.region-us.default` SET x ( preferred_tables = [ 'table1' , 'table2' ] )";
   "CREATE CAPACITY project . region . commitment_id AS x '''
  'slot_count': 100,
  'plan': 'FLEX'
'''";
   "x y ALTER BI_CAPACITY `project.region-us.default` SET OPTIONS ( preferred_tables = [ 'table1' , 'table2' ] ) ;";
   "x y REVOKE `roles/bigquery.admin` ON SCHEMA dataset_name FROM 'user:foo@example.com' , 'user:bar@example.com' ;";
   "SELECT * FROM t UNPIVOT INCLUDE NULLS x ( c1 , c2 ) FOR v IN ( ( v1 , v2 ) AS 'A' , ( v3 , v4 ) 'B' ) ) AS unpivot";
   "GRANT ( , `roles/bigquery.admin` ON SCHEMA project_name . dataset_name TO 'user:foo@example.com' , 'user:bar@example.com'";
   "ALTER TABLE example ADD COLUMN IF NOT EXISTS x INT64 OPTIONS ( description = 'dummy' ) , ADD x y STRUCT < z INT64 NOT NULL > ;";
   "ALTER x PROJECT SET OPTIONS ( `region-us.default_time_zone` = 'Asia/Tokyo' , `region-us.default_job_query_timeout_ms` = 1800000 ) ;";
   "GRANT `roles/bigquery.dataViewer` , `roles/bigquery.admin` ON SCHEMA project_name . dataset_name x 'user:foo@example.com' , 'user:bar@example.com'";
   "x y GRANT `roles/bigquery.dataViewer` , `roles/bigquery.admin` ON SCHEMA project_name . dataset_name TO 'user:foo@example.com' , 'user:bar@example.com' ;";
   "CREATE FUNCTION dataset . abc ( ) RETURNS INT64 REMOTE x CONNECTION `project.us.connection` OPTIONS ( endpoint = 'https://region-project.cloudfunctions.net/function' )"].
