{"by_role":{"add":["ADD"],"alter_column_stmt":["ALTER"],"and":["AND"],"as":["AS"],"between":["BETWEEN"],"by":["BY"],"cascade_or_restrict":["CASCADE","RESTRICT"],"clone":["CLONE"],"clusterby":["CLUSTER"],"collate":["COLLATE"],"colon":[":"],"column":["COLUMN"],"column_group":["("],"column_name_list":["("],"column_schema_group":["("],"columns":["("],"comma":[","],"config":["("],"constraint":["CONSTRAINT"],"corresponding":["CORRESPONDING","STRICT"],"custom_holiday":["CUSTOM_HOLIDAY"],"data":["DATA"],"default":["DEFAULT"],"default_collate":["DEFAULT"],"define":["DEFINE"],"distinct":["DISTINCT"],"distinct_or_all":["ALL","DISTINCT"],"do":["DO"],"drop":["DROP"],"else":["ELSE"],"end":["END"],"enforced":["ENFORCED","NOT"],"except":["EXCEPT"],"external":["EXTERNAL"],"files":["FILES"],"filter":["FILTER"],"for":["FOR"],"for_system_time_as_of":["FOR"],"format":["FORMAT"],"frame":["RANGE","ROWS"],"from":["FROM"],"from_files":["("],"grant":["GRANT"],"group":["("],"groupby":["GROUP"],"having":["HAVING"],"if_exists":["IF"],"immediate":["IMMEDIATE"],"in":["IN"],"in_out":["IN","INOUT","OUT"],"into":["INTO"],"join_type":["CROSS","FULL","INNER","LEFT","RIGHT"],"json":["JSON"],"key":["KEY"],"language":["LANGUAGE"],"like_or_copy":["COPY","LIKE"],"limit":["LIMIT"],"match_recognize":["MATCH_RECOGNIZE"],"matched":["MATCHED"],"materialized":["MATERIALIZED"],"measures":["MEASURES"],"method":["CROSS","FULL","INNER","LEFT","OUTER","RIGHT"],"not":["NOT"],"offset":["OFFSET"],"on":["ON"],"options":["OPTIONS"],"order":["ASC","DESC"],"orderby":["ORDER"],"outer":["OUTER"],"output":["OUTPUT"],"over":["OVER"],"overwrite":["OVERWRITE","PARTITIONS"],"overwrite_partitions":["PARTITIONS"],"partitionby":["PARTITION"],"percent":["PERCENT","ROWS"],"pivot":["PIVOT"],"primarykey":["PRIMARY"],"qualify":["QUALIFY"],"quantifier":["ALL","ANY","SOME"],"query":["AS"],"rbrace":["}"],"recursive":["RECURSIVE"],"references":["REFERENCES"],"remote":["REMOTE"],"rename":["RENAME"],"replace":["REPLACE"],"returns":["RETURNS"],"rparen":[")"],"semicolon":[";"],"set":["SET"],"skip_rule":["AFTER"],"snapshot":["SNAPSHOT"],"storing":["STORING"],"system":["SYSTEM"],"table":["TABLE"],"tablesample":["TABLESAMPLE"],"temp":["TEMP","TEMPORARY"],"then":["THEN"],"to":["TO"],"training_data":["TRAINING_DATA"],"training_data_custom_holiday":["AS"],"transaction":["TRANSACTION"],"transform":["TRANSFORM"],"unpivot":["UNPIVOT"],"until":["UNTIL"],"using":["USING"],"where":["WHERE"],"with":["WITH"],"with_connection":["WITH"],"with_offset":["WITH"],"with_partition_columns":["WITH"]},"exceptions":[["AccessOperator","rparen",["]"]],["AddColumnClause","what",["COLUMN"]],["AlterBICapacityStatement","what",["BI_CAPACITY"]],["AlterColumnStatement","what",["COLUMN"]],["AlterModelStatement","what",["MODEL"]],["AlterOrganizationStatement","what",["ORGANIZATION"]],["AlterProjectStatement","what",["PROJECT"]],["AlterReservationStatement","what",["CAPACITY","RESERVATION"]],["AlterSchemaStatement","what",["SCHEMA"]],["AlterTableStatement","what",["TABLE"]],["AlterVectorIndexStatement","what",["VECTOR"]],["AlterViewStatement","what",["VIEW"]],["ArrayLiteral","rparen",["]"]],["Constraint","columns",["("]],["CreateFunctionStatement","aggregate",["AGGREGATE"]],["CreateFunctionStatement","connection",["WITH"]],["CreateFunctionStatement","what",["FUNCTION"]],["CreateIndexStatement","what",["SEARCH","VECTOR"]],["CreateModelStatement","input",["INPUT"]],["CreateModelStatement","what",["MODEL"]],["CreateProcedureStatement","what",["PROCEDURE"]],["CreateSchemaStatement","what",["SCHEMA"]],["CreateTableStatement","what",["TABLE"]],["CreateViewStatement","what",["VIEW"]],["DifferentialPrivacyClause","differential_privacy",["DIFFERENTIAL_PRIVACY"]],["ExportModelStatement","what",["MODEL"]],["GroupedType","rparen",[">"]],["GroupedTypeDeclarationOrConstraints","rparen",[")",">"]],["JoinOperator","using",["("]],["JoinPipeOperator","using",["("]],["LoadStatement","connection",["CONNECTION"]],["LoadStatement","into",["INTO","OVERWRITE"]],["MatchRecognizeConfig","pattern",["PATTERN"]],["PatternClause","pattern",["("]],["SelectPipeOperator","window",["WINDOW"]],["SelectStatement","differential_privacy",["WITH"]],["SelectStatement","window",["WINDOW"]],["Type","type_declaration",["<"]],["UndropStatement","what",["SCHEMA"]]],"unchecked":[["AccessOperator","rparen"],["AddColumnClause","what"],["AlterBICapacityStatement","colon"],["AlterBICapacityStatement","options"],["AlterBICapacityStatement","set"],["AlterBICapacityStatement","what"],["AlterColumnStatement","colon"],["AlterColumnStatement","default"],["AlterColumnStatement","what"],["AlterModelStatement","colon"],["AlterModelStatement","options"],["AlterModelStatement","set"],["AlterModelStatement","what"],["AlterOrganizationStatement","colon"],["AlterOrganizationStatement","options"],["AlterOrganizationStatement","set"],["AlterOrganizationStatement","what"],["AlterProjectStatement","colon"],["AlterProjectStatement","options"],["AlterProjectStatement","set"],["AlterProjectStatement","what"],["AlterReservationStatement","colon"],["AlterReservationStatement","options"],["AlterReservationStatement","set"],["AlterReservationStatement","what"],["AlterSchemaStatement","colon"],["AlterSchemaStatement","what"],["AlterTableStatement","colon"],["AlterTableStatement","what"],["AlterVectorIndexStatement","colon"],["AlterVectorIndexStatement","on"],["AlterVectorIndexStatement","what"],["AlterViewStatement","colon"],["AlterViewStatement","options"],["AlterViewStatement","set"],["AlterViewStatement","what"],["ArrayLiteral","rparen"],["AssertStatement","colon"],["BeginStatement","colon"],["BeginStatement","then"],["BetweenOperator","and"],["BreakContinueStatement","colon"],["CallStatement","colon"],["CallingFunction","rparen"],["CallingTableFunction","rparen"],["CallingUnnest","and"],["CallingUnnest","from"],["CallingUnnest","rparen"],["CaseExpr","end"],["CaseExprArm","then"],["CaseStatement","colon"],["CaseStatementArm","then"],["Constraint","key"],["CreateFunctionStatement","as"],["CreateFunctionStatement","colon"],["CreateFunctionStatement","connection"],["CreateFunctionStatement","group"],["CreateFunctionStatement","language"],["CreateFunctionStatement","what"],["CreateIndexStatement","colon"],["CreateIndexStatement","column_group"],["CreateIndexStatement","on"],["CreateIndexStatement","what"],["CreateModelStatement","colon"],["CreateModelStatement","what"],["CreateProcedureStatement","colon"],["CreateProcedureStatement","group"],["CreateProcedureStatement","what"],["CreateReservationStatement","colon"],["CreateReservationStatement","json"],["CreateRowAccessPolicyStatement","colon"],["CreateRowAccessPolicyStatement","filter"],["CreateRowAccessPolicyStatement","on"],["CreateRowAccessPolicyStatement","to"],["CreateRowAccessPolicyStatement","using"],["CreateSchemaStatement","colon"],["CreateSchemaStatement","what"],["CreateTableStatement","colon"],["CreateTableStatement","what"],["CreateViewStatement","colon"],["CreateViewStatement","what"],["DeclareStatement","colon"],["DeleteStatement","colon"],["DeleteStatement","where"],["DifferentialPrivacyClause","differential_privacy"],["DropRowAccessPolicyStatement","colon"],["DropRowAccessPolicyStatement","on"],["DropStatement","colon"],["ElseIfClause","then"],["ExecuteStatement","colon"],["ExecuteStatement","immediate"],["ExportDataStatement","as"],["ExportDataStatement","colon"],["ExportDataStatement","options"],["ExportModelStatement","colon"],["ExportModelStatement","what"],["ForStatement","colon"],["ForStatement","do"],["ForStatement","in"],["FromStatement","colon"],["GrantStatement","colon"],["GrantStatement","on"],["GrantStatement","to"],["GroupByExprs","by"],["GroupedExpr","rparen"],["GroupedExprs","rparen"],["GroupedStatement","colon"],["GroupedStatement","rparen"],["GroupedType","rparen"],["IfStatement","colon"],["IfStatement","then"],["InsertStatement","colon"],["IsDistinctFromOperator","from"],["JoinOperator","using"],["JoinPipeOperator","using"],["KeywordWithGroupedXXX","group"],["LoadStatement","colon"],["LoadStatement","data"],["LoadStatement","files"],["LoadStatement","from"],["LoadStatement","from_files"],["LoadStatement","into"],["LoadStatement","overwrite_partitions"],["LoopStatement","colon"],["MatchRecognizeClause","config"],["MatchRecognizeConfig","rparen"],["MatchRecognizePipeOperator","config"],["MergeStatement","colon"],["MergeStatement","on"],["MergeStatement","using"],["PatternClause","pattern"],["PatternQuantifier","rbrace"],["PipeStatement","colon"],["PivotConfig","for"],["PivotConfig","in"],["PivotConfig","rparen"],["PivotOperator","config"],["PivotPipeOperator","config"],["RaiseStatement","colon"],["RenameColumnClause","column"],["RenameColumnClause","to"],["RepeatStatement","colon"],["RevokeStatement","colon"],["RevokeStatement","from"],["RevokeStatement","on"],["SelectStatement","colon"],["SetOperator","colon"],["SetOperator","distinct_or_all"],["SetStatement","colon"],["SingleTokenStatement","colon"],["StructLiteral","rparen"],["TableSampleClause","group"],["TableSampleClause","system"],["TableSamplePipeOperator","group"],["TableSampleRatio","percent"],["TableSampleRatio","rparen"],["TrainingDataCustomHolidayClause","custom_holiday"],["TrainingDataCustomHolidayClause","rparen"],["TransactionStatement","colon"],["TruncateStatement","colon"],["TruncateStatement","table"],["UndropStatement","colon"],["UndropStatement","what"],["UnpivotConfig","for"],["UnpivotConfig","in"],["UnpivotConfig","rparen"],["UnpivotOperator","config"],["UnpivotPipeOperator","config"],["UpdateStatement","colon"],["UpdateStatement","set"],["WhenClause","matched"],["WhenClause","then"],["WhileStatement","colon"],["WhileStatement","do"],["WindowExpr","as"],["WindowFrameClause","and"],["WindowSpecification","rparen"],["WithOffsetClause","offset"],["WithQuery","as"],["XXXByExprs","by"]],"own":{"DifferentialPrivacyClause":["WITH"],"BeginStatement":["BEGIN"],"BreakContinueStatement":["BREAK","CONTINUE","ITERATE","LEAVE"],"InsertStatement":["INSERT"],"RaiseStatement":["RAISE"],"SingleTokenStatement":["DELETE","RETURN"],"TransactionStatement":["BEGIN","COMMIT","ROLLBACK"],"CallingFunction":["("],"CaseStatementArm":["ELSE","WHEN"],"CaseExprArm":["ELSE","WHEN"],"XXXByExprs":["CLUSTER","ORDER","PARTITION"],"AccessOperator":["["],"FunctionChain":["."],"WindowFrameClause":["RANGE","ROWS"],"WindowSpecification":["("],"OverClause":["OVER"],"DotOperator":["."],"AlterColumnStatement":["ALTER"],"AssertStatement":["ASSERT"],"CallStatement":["CALL"],"CaseStatement":["CASE"],"ExecuteStatement":["EXECUTE"],"LoopStatement":["LOOP"],"RepeatStatement":["REPEAT"],"SetStatement":["SET"],"WhileStatement":["WHILE"],"BetweenOperator":["BETWEEN"],"BinaryOperator":["!=","&","*","+","-","/","<","<<","<=","<>","=","=>",">",">=",">>","AND","IS","LIKE","OR","^","|","||"],"InOperator":["IN"],"IsDistinctFromOperator":["IS"],"LimitClause":["LIMIT"],"GroupedIdentWithOptions":["("],"RenameColumnClause":["RENAME"],"AlterTableDropClause":["DROP"],"UpdateStatement":["UPDATE"],"WithClause":["WITH"],"ElseIfClause":["ELSEIF"],"GroupedType":["<"],"AlterBICapacityStatement":["ALTER"],"AlterModelStatement":["ALTER"],"AlterOrganizationStatement":["ALTER"],"AlterProjectStatement":["ALTER"],"AlterReservationStatement":["ALTER"],"AlterSchemaStatement":["ALTER"],"AlterTableStatement":["ALTER"],"AlterVectorIndexStatement":["ALTER"],"AlterViewStatement":["ALTER"],"CreateIndexStatement":["CREATE"],"CreateModelStatement":["CREATE"],"CreateReservationStatement":["CREATE"],"CreateRowAccessPolicyStatement":["CREATE"],"CreateSchemaStatement":["CREATE"],"CreateTableStatement":["CREATE"],"CreateViewStatement":["CREATE"],"DeclareStatement":["DECLARE"],"DeleteStatement":["DELETE"],"DropRowAccessPolicyStatement":["DROP"],"DropStatement":["DROP"],"ExportDataStatement":["EXPORT"],"ExportModelStatement":["EXPORT"],"GrantStatement":["GRANT"],"LoadStatement":["LOAD"],"RevokeStatement":["REVOKE"],"TruncateStatement":["TRUNCATE"],"UndropStatement":["UNDROP"],"PipeStatement":["|>"],"GroupByExprs":["GROUP"],"WindowClause":["WINDOW"],"KeywordWithType":["RETURNS"],"WithPartitionColumnsClause":["WITH"],"AddColumnClause":["ADD"],"AddConstraintClause":["ADD"],"IfStatement":["IF"],"CreateFunctionStatement":["CREATE"],"CreateProcedureStatement":["CREATE"],"AggregatePipeOperator":["AGGREGATE"],"BasePipeOperator":["AS","CALL","DROP","EXTEND","ORDER","RENAME","SET","WHERE"],"LimitPipeOperator":["LIMIT"],"SelectPipeOperator":["SELECT"],"WithPipeOperator":["WITH"],"ForStatement":["FOR"],"PivotOperator":["PIVOT"],"UnpivotOperator":["UNPIVOT"],"TableSampleClause":["TABLESAMPLE"],"CallingTableFunction":["("],"WhenClause":["WHEN"],"TableSamplePipeOperator":["TABLESAMPLE"],"MatchRecognizeClause":["MATCH_RECOGNIZE"],"PatternClause":["PATTERN"],"OrPattern":["|"],"FromStatement":["FROM"],"MergeStatement":["MERGE"],"PatternQuantifier":["{"],"GroupedPattern":["("],"PivotPipeOperator":["PIVOT"],"UnpivotPipeOperator":["UNPIVOT"],"MatchRecognizePipeOperator":["MATCH_RECOGNIZE"],"ForSystemTimeAsOfClause":["FOR"],"WithOffsetClause":["WITH"]},"free":{"CallingUnnest":["("],"ArrayLiteral":["["],"GroupedExprs":["("],"GroupedTypeDeclarationOrConstraints":["(","<"],"GroupedExpr":["("],"StructLiteral":["("],"SelectStatement":["SELECT"],"GroupedStatement":["("],"OverwritePartitionsClause":["PARTITIONS"],"TrainingDataCustomHolidayClause":["("],"Constraint":["FOREIGN","PRIMARY"],"MatchRecognizeConfig":["("],"UnionPipeOperator":["EXCEPT","INTERSECT","UNION"],"PivotConfig":["("],"UnpivotConfig":["("],"SetOperator":["EXCEPT","INTERSECT","UNION"],"TableSampleRatio":["("],"JoinOperator":[",","JOIN"],"JoinPipeOperator":["JOIN"],"CastArgument":["AS"],"ExtractArgument":["FROM"]},"texts":["ALTER x VIEW example SET OPTIONS ( dummy = 'dummy' ) ;","SELECT ARRAY < > [ 1 ]","FROM t |> UNPIVOT sales FOR quarter IN ( q1 , q2 ) ) AS q","SELECT x EXCEPT ( col1 )","CREATE REPLACE FUNCTION abc ( ) AS ( 1 ) ;","FROM UNNEST BETWEEN 1 x 2","FROM t |> MATCH_RECOGNIZE x )","SET ( = 5","ALTER x ORGANIZATION OPTIONS ( )","REVOKE a x b ON SCHEMA t FROM 'u'","ALTER x BI_CAPACITY y OPTIONS ( )","ALTER TABLE example ADD x INT64 ;","x y RAISE ;","x y BEGIN ;","x y RETURN ;","TRUNCATE t ;","CREATE x SEARCH INDEX new_index ON tablename ( ALL COLUMNS ) ;","FROM t ( AS u","CREATE x MODEL ident AS ( SELECT 1 ) ;","x ( SELECT 1 )","EXPORT x ident","x y SET x = 5 ;","FROM t |> TABLESAMPLE SYSTEM x 1 PERCENT )","CREATE x SCHEMA","CREATE OR REPLACE FUNCTION abc ( ) ( 1 ) ;","x ( FROM table )","SELECT 1 ( t1 AS t","SELECT * FROM t WINDOW a AS ( BY col1 ) , b AS a","IF TRUE x END IF ;","SELECT ( SELECT 1 1","UNDROP datasetname ;","EXECUTE x 'SELECT 1'","x y DECLARE x INT64 ;","x y TRUNCATE TABLE t ;","x y DROP MODEL ident ;","x y ASSERT 1 + 1 = 3 ;","SELECT json [ 'path' x","MERGE t x s ON t . id = s . id WHEN MATCHED THEN DELETE ;","SELECT * FROM t PIVOT ( ( ( * ) FOR x IN ( 'v1' , 'v2' ) )","x y FROM t |> DISTINCT z","x y EXPORT MODEL ident ;","SELECT 1 IS DISTINCT x 2","SELECT 1 IN x SELECT 1 )","FROM t |> CROSS x JOIN u","x y IF TRUE THEN END IF ;","SET ( x , y x = ( 1 , 2 )","SELECT 1 FROM t GROUP ( )","CREATE x VIEW AS SELECT 1","FROM t |> JOIN s USING + x","FROM t MATCH_RECOGNIZE ( x","DELETE table_name x TRUE ;","SELECT EXTRACT ( DAY x ts )","LOOP 1 ; BREAK ; END LOOP ;","ALTER MODEL ident SET x ( )","FROM t |> PIVOT SUM ( sales ) FOR quarter IN ( 'Q1' , 'Q2' ) ) AS q","WITH t x ( SELECT 1 ) FROM t","SELECT WITH OPTIONS ( ) col1","SELECT ARRAY < INT64 > [ 1 x","CASE WHEN THEN ELSE END CASE","SELECT STRUCT < INT64 > x 1 )","SELECT CAST ( '1' x INT64 ) ,","ALTER x VECTOR y ON t REBUILD","ALTER x TABLE SET OPTIONS ( )","ALTER x MODEL SET OPTIONS ( )","ALTER TABLE t RENAME x u TO v","x y LOOP SELECT 1 ; END LOOP ;","label x BEGIN SELECT 1 ; END ;","FROM t |> LEFT OUTER x u as u2","ALTER x SCHEMA SET OPTIONS ( )","x y UNDROP SCHEMA datasetname ;","FROM UNNEST IS NOT DISTINCT x 2","ALTER MODEL ident x OPTIONS ( )","x y CREATE SCHEMA dataset_name ;","SELECT 1 IN UNNEST ( [ 1 , 2 ] x","SELECT * FROM t , t . arr WITH x","x y SELECT 1 UNION ALL SELECT 2 ;","ALTER TABLE t RENAME COLUMN u x v","x y EXECUTE IMMEDIATE 'SELECT 1' ;","x y DELETE table_name WHERE TRUE ;","SELECT c1 FROM t ORDER c1 ASC , c2","BEGIN EXCEPTiON WHEN ERROR x END ;","WHILE TRUE x SELECT 1 ; END WHILE ;","ALTER x RESERVATION SET OPTIONS ( )","SELECT 1 LEFT x ALL BY NAME SELECT 2","FROM t |> TABLESAMPLE SYSTEM ( 1 x )","ALTER TABLE t ALTER x c DROP DEFAULT","SELECT * FROM t1 INNER x t2 ON TRUE ;","SELECT * FROM t u MATCH_RECOGNIZE x )","x y CREATE TABLE example ( x int64 ) ;","TABLE t ALTER COLUMN c DROP NOT NULL ;","SELECT 1 IN UNNEST ( a ) BETWEEN 1 x 2","x y CASE WHEN true THEN ELSE END CASE ;","x y ALTER MODEL ident SET OPTIONS ( ) ;","CREATE x TABLE clone CLONE source_table","x y WHILE TRUE DO SELECT 1 ; END WHILE ;","x y CREATE MODEL ident AS ( SELECT 1 ) ;","x y CALL mydataset . myprocedure ( 1 ) ;","x y ALTER TABLE t RENAME COLUMN u TO v ;","LOAD DATA OVERWRITE ident OVERWRITE x ( _PARTITIONTIME = ts ) FROM FILES ( dummy = 'dummy' )","DROP ROW ACCESS POLICY ident tablename ;","FROM t |> TABLESAMPLE SYSTEM ( 1 PERCENT x","ALTER VECTOR INDEX ON table_name REBUILD ;","CREATE x PROCEDURE procedure_ident ( ) WITH CONNECTION connection_ident LANGUAGE python AS r 'code'","SELECT * FROM t TABLESAMPLE x ( 20 PERCENT )","x y REPEAT SELECT 1 ; UNTIL true END REPEAT ;","x y INSERT INTO table_name VALUES ( 1 , 2 ) ;","SELECT * FROM t MATCH_RECOGNIZE ( PATTERN x )","CREATE OR REPLACE FUNCTION abc ( ) AS x 1 ) ;","CREATE OR REPLACE ROW ACCESS POLICY IF NOT EXISTS new_filter ON tablename GRANT ( 'a.example.com' , 'b.example.com' ) FILTER USING ( email = SESSION_USER ( ) ) ;","SELECT CASE WHEN c1 = 1 x 'one' ELSE f ( ) END","IF TRUE THEN SELECT 1 ; ELSEIF TRUE x END IF ;","x y DROP ROW ACCESS POLICY ident ON tablename ;","x y ALTER SCHEMA dataset_name SET OPTIONS ( ) ;","UPDATE ( t SET col1 = 1 , col2 = 2 WHERE TRUE ;","SELECT CASE WHEN c1 = 1 THEN 'one' ELSE f ( ) x","ALTER RESERVATION ident SET x ( plan = 'FLEX' )","FROM t |> MATCH_RECOGNIZE ( PATTERN ( a {1;} ) )","x y CREATE OR REPLACE FUNCTION abc ( ) AS ( 1 ) ;","SELECT * FROM t TABLESAMPLE SYSTEM x 20 PERCENT )","ALTER TABLE t ALTER COLUMN int SET TYPE NUMERIC ;","ALTER RESERVATION ident x OPTIONS ( plan = 'FLEX' )","FOR record x ( SELECT 1 ) DO SELECT record ; END FOR","FOR record IN ( SELECT 1 ) x SELECT record ; END FOR","x y CREATE CAPACITY ident OPTIONS ( plan = 'FLEX' ) ;","x y UPDATE TABLE t SET col1 = 1 , col2 = 2 WHERE TRUE ;","MERGE t USING s ON t . id = s . id WHEN x THEN DELETE ;","x y ALTER VECTOR INDEX index_name ON table_name REBUILD ;","FROM t |> UNPIVOT ( sales FOR quarter IN ( q1 , q2 ) AS q","x y CREATE MATERIALIZED VIEW ident1 AS REPLICA OF ident2 ;","MERGE t USING s ON t . id = s . id WHEN MATCHED x DELETE ;","x y FOR record IN ( SELECT 1 ) DO SELECT record ; END FOR ;","x y ALTER RESERVATION ident SET OPTIONS ( plan = 'FLEX' ) ;","SELECT * FROM t PIVOT ( COUNT ( * ) FOR x IN ( 'v1' , 'v2' ) x","x y CREATE SEARCH INDEX new_index ON tablename ( ALL COLUMNS ) ;","x y MERGE t USING s ON t . id = s . id WHEN MATCHED THEN DELETE ;","x y CREATE PROCEDURE dataset . procede ( ) BEGIN SELECT 1 ; END ;","EXPORT DATA WITH CONNECTION conn x ( format = 'CSV' ) AS SELECT 1","x y ALTER MATERIALIZED VIEW example SET OPTIONS ( dummy = 'dummy' ) ;","CREATE ROW ACCESS POLICY new_filter x tablename FILTER USING ( TRUE )","EXPORT DATA WITH CONNECTION conn OPTIONS ( format = 'CSV' ) x SELECT 1","ALTER ORGANIZATION SET x ( `region-us.default_time_zone` = 'Asia/Tokyo' )","CREATE MODEL ident AS ( training_data AS ( SELECT 1 ) , x AS ( SELECT 1 ) )","x y CREATE ROW ACCESS POLICY new_filter ON tablename FILTER USING ( TRUE ) ;","SELECT last_value ( col3 ) OVER ( c ROWS BETWEEN 2 PRECEDING x 2 FOLLOWING )","x y EXPORT DATA WITH CONNECTION conn OPTIONS ( format = 'CSV' ) AS SELECT 1 ;","ALTER PROJECT `project-id` SET x ( `region-us.default_time_zone` = 'Asia/Tokyo' )","LOAD DATA x ident FROM FILES ( dummy = 'dummy' ) WITH PARTITION COLUMNS ( x STRING )","x y ALTER ORGANIZATION SET OPTIONS ( `region-us.default_time_zone` = 'Asia/Tokyo' ) ;","ALTER PROJECT `project-id` x OPTIONS ( `region-us.default_time_zone` = 'Asia/Tokyo' )","SELECT * FROM data1 AS one LEFT JOIN data2 two USING ( col ) + OUTER JOIN data3 ON TRUE","LOAD DATA OVERWRITE ident FROM x ( dummy = 'dummy' ) WITH PARTITION COLUMNS ( x STRING )","CREATE MODEL ident AS x training_data AS ( SELECT 1 ) , custom_holiday AS ( SELECT 1 ) )","CREATE MODEL ident AS ( training_data AS ( SELECT 1 ) , custom_holiday AS ( SELECT 1 ) x","LOAD x OVERWRITE ident FROM FILES ( dummy = 'dummy' ) WITH PARTITION COLUMNS ( x STRING )","LOAD DATA OVERWRITE ident x FILES ( dummy = 'dummy' ) WITH PARTITION COLUMNS ( x STRING )","LOAD DATA OVERWRITE ident FROM FILES x dummy = 'dummy' ) WITH PARTITION COLUMNS ( x STRING )","x y ALTER PROJECT `project-id` SET OPTIONS ( `region-us.default_time_zone` = 'Asia/Tokyo' ) ;","SELECT * FROM t AS t1 PIVOT SUM ( x ) s , COUNT ( * ) AS c FOR y IN ( 1 one , 2 AS two ) ) t2","x y LOAD DATA OVERWRITE ident FROM FILES ( dummy = 'dummy' ) WITH PARTITION COLUMNS ( x STRING ) ;","ALTER BI_CAPACITY `project.region-us.default` SET x ( preferred_tables = [ 'table1' , 'table2' ] )","CREATE CAPACITY project . region . commitment_id AS x '''\n  'slot_count': 100,\n  'plan': 'FLEX'\n'''","x y ALTER BI_CAPACITY `project.region-us.default` SET OPTIONS ( preferred_tables = [ 'table1' , 'table2' ] ) ;","x y REVOKE `roles/bigquery.admin` ON SCHEMA dataset_name FROM 'user:foo@example.com' , 'user:bar@example.com' ;","SELECT * FROM t UNPIVOT INCLUDE NULLS x ( c1 , c2 ) FOR v IN ( ( v1 , v2 ) AS 'A' , ( v3 , v4 ) 'B' ) ) AS unpivot","GRANT ( , `roles/bigquery.admin` ON SCHEMA project_name . dataset_name TO 'user:foo@example.com' , 'user:bar@example.com'","ALTER TABLE example ADD COLUMN IF NOT EXISTS x INT64 OPTIONS ( description = 'dummy' ) , ADD x y STRUCT < z INT64 NOT NULL > ;","ALTER x PROJECT SET OPTIONS ( `region-us.default_time_zone` = 'Asia/Tokyo' , `region-us.default_job_query_timeout_ms` = 1800000 ) ;","GRANT `roles/bigquery.dataViewer` , `roles/bigquery.admin` ON SCHEMA project_name . dataset_name x 'user:foo@example.com' , 'user:bar@example.com'","x y GRANT `roles/bigquery.dataViewer` , `roles/bigquery.admin` ON SCHEMA project_name . dataset_name TO 'user:foo@example.com' , 'user:bar@example.com' ;","CREATE FUNCTION dataset . abc ( ) RETURNS INT64 REMOTE x CONNECTION `project.us.connection` OPTIONS ( endpoint = 'https://region-project.cloudfunctions.net/function' )"]}