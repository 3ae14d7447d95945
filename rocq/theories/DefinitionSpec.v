(* Specification vocabulary for the statements that define, change, remove, share or move things
   (CREATE, ALTER, DROP, UNDROP, GRANT, REVOKE, EXPORT, LOAD): the phrases they are made of, the order
   of the phrases in each statement, the token sequence and the tree. Nothing here refers to the parser. *)
From Verif Require Import Chars Token Cst Bundles GroupingSpec GrammarSpec.
Local Open Scope string_scope.
Local Open Scope list_scope.

(* (), (a, b), (x = 1) *)
Inductive group := Group (lp : bundle) (es : option items) (rp : bundle).
(* ENFORCED, NOT ENFORCED *)
Inductive enforcement := Enforcement (n : option bundle) (e : bundle).
(* what can be written after the type of a column or of an argument *)
Inductive attributes := Attributes
  (collate : option (bundle * bundle))                             (* COLLATE 'und:ci' *)
  (key : option (bundle * bundle * option enforcement))            (* PRIMARY KEY NOT ENFORCED *)
  (default : clause)                                               (* DEFAULT e *)
  (not_null : option (bundle * bundle))                            (* NOT NULL *)
  (options : option (bundle * group))                              (* OPTIONS (x = 1) *)
  (scalar : option (bundle * bundle)).                             (* NOT AGGREGATE *)
Inductive coltype :=
| OfName (b : bundle) (a : attributes)                             (* INT64 *)
| OfParam (b lp : bundle) (es : items) (rp : bundle) (a : attributes)   (* STRING(10) *)
| OfAny (b t : bundle) (a : attributes)                            (* ANY TYPE *)
| OfArray (b lt : bundle) (t : coltype) (gt : bundle) (a : attributes)     (* ARRAY<t>, RANGE<t> *)
| OfStruct (b lt : bundle) (fs : colfields) (gt : bundle) (a : attributes) (* STRUCT<x t, y u>, TABLE<x t> *)
with colfields :=
| LastCol (b : bundle) (t : coltype)
| MoreCols (b : bundle) (t : coltype) (comma : bundle) (r : colfields).
Inductive declaration :=
| Column (m : option bundle) (b : bundle) (t : coltype)            (* a INT64, INOUT a INT64 *)
| PrimaryKey (c : option (bundle * bundle)) (p k : bundle) (g : group) (e : option enforcement).
                                                                   (* CONSTRAINT c PRIMARY KEY (a, b) NOT ENFORCED *)
Inductive declarations :=
| OneDeclaration (d : declaration)
| MoreDeclarations (d : declaration) (comma : bundle) (r : declarations).
(* (a INT64, b STRING) *)
Inductive declared := Declared (lp : bundle) (ds : option declarations) (rp : bundle).
(* what ALTER TABLE does to the columns and the keys of a table *)
Inductive change :=
| AddColumn (k c : bundle) (e : option (bundle * bundle * bundle)) (x : bundle) (t : coltype)
                                                                   (* ADD COLUMN IF NOT EXISTS a INT64 *)
| AddKey (k : bundle) (d : declaration)                            (* ADD CONSTRAINT c PRIMARY KEY (a) NOT ENFORCED *)
| DropIt (k c : bundle) (e : option (bundle * bundle)) (p : expr)  (* DROP COLUMN IF EXISTS a, DROP CONSTRAINT c *)
| DropKey (k p y : bundle) (e : option (bundle * bundle))          (* DROP PRIMARY KEY IF EXISTS *)
| RenameIt (k c : bundle) (e : option (bundle * bundle)) (p : expr) (t : bundle) (q : expr).
                                                                   (* RENAME COLUMN IF EXISTS a TO b *)
Inductive changes :=
| OneChange (c : change)
| MoreChanges (c : change) (comma : bundle) (r : changes).
(* what ALTER COLUMN does *)
Inductive alteration :=
| NewOptions (s k : bundle) (g : group)                            (* SET OPTIONS (x = 1) *)
| NewType (s d y : bundle) (t : coltype)                           (* SET DATA TYPE INT64 *)
| NewDefault (s k : bundle) (e : expr)                             (* SET DEFAULT 1 *)
| NoDefault (d f : bundle)                                         (* DROP DEFAULT *)
| NoNotNull (d n l : bundle).                                      (* DROP NOT NULL *)
(* the columns of a view *)
Inductive viewcols :=
| LastViewCol (b : bundle) (o : option (bundle * group))                               (* a OPTIONS (x = 1) *)
| MoreViewCols (b : bundle) (o : option (bundle * group)) (comma : bundle) (r : viewcols).
(* what a connection is called *)
Inductive connection := DefaultConnection (b : bundle) | ConnectionName (p : expr).

(* the phrases of a statement *)
Inductive part :=
| PWord (b : bundle)                                               (* TABLE *)
| PWords (b : bundle) (bs : list bundle)                           (* OR REPLACE *)
| PChain (b : bundle) (bs : list bundle)                           (* SEARCH INDEX *)
| PName (p : expr)                                                 (* a.b *)
| PWordName (k : bundle) (p : expr)                                (* ON a.b *)
| PWordExpr (k : bundle) (e : expr)                                (* USING e *)
| PWordIdent (k b : bundle)                                        (* LANGUAGE js *)
| PGroup (g : group)                                               (* (a, b) *)
| POptions (k : bundle) (g : group)                                (* OPTIONS (x = 1) *)
| PBy (k b : bundle) (es : items)                                  (* PARTITION BY a *)
| PCollate (d c s : bundle)                                        (* DEFAULT COLLATE 'und:ci' *)
| PConnection (r : option bundle) (w c : bundle) (x : connection)  (* REMOTE WITH CONNECTION x *)
| PQuery (k : bundle) (q : query)                                  (* AS SELECT 1 *)
| PExpr (e : expr)
| PExprs (es : items)                                              (* a, b *)
| PWordExprs (k : bundle) (es : items)                             (* TO a, b *)
| PDeclared (g : declared)                                         (* (a INT64) *)
| PWordDeclared (k : bundle) (g : declared)                        (* INPUT (a INT64) *)
| PPartitionColumns (w p c : bundle) (g : option declared)         (* WITH PARTITION COLUMNS (a INT64) *)
| PReturns (k : bundle) (t : coltype)                              (* RETURNS INT64 *)
| PBody (k lp : bundle) (e : expr) (rp : bundle)                   (* AS (e) *)
| PAllColumns (lp a c rp : bundle)                                 (* (ALL COLUMNS) *)
| PLike (k : bundle) (p : expr)                                    (* LIKE a.b *)
| PGrantTo (g t : bundle) (r : group)                              (* GRANT TO ('a', 'b') *)
| PReplicaOf (a r o : bundle) (p : expr)                           (* AS REPLICA OF a.b *)
| PReplica (k r : bundle) (p : expr)                               (* ADD REPLICA a *)
| PChanges (cs : changes)                                          (* ADD COLUMN a INT64, ADD COLUMN b STRING *)
| PAlterColumn (k c : bundle) (e : option (bundle * bundle)) (x : bundle) (a : alteration)
                                                                   (* ALTER COLUMN IF EXISTS a DROP NOT NULL *)
| PViewColumns (lp : bundle) (cs : viewcols) (rp : bundle)         (* (a, b OPTIONS (x = 1)) *)
| PClone (k : bundle) (s : source).                                (* CLONE a.b *)

(* ----- the tokens ----- *)
Definition yield_group (g : group) : list bundle :=
  match g with Group lp es rp => lp :: match es with Some es => yields es | None => [] end ++ [rp] end.
Definition yield_enforcement (e : option enforcement) : list bundle :=
  match e with Some (Enforcement n e) => opt n ++ [e] | None => [] end.
Definition yield_options (o : option (bundle * group)) : list bundle := match o with Some (k, g) => k :: yield_group g | None => [] end.
Definition yield_key (o : option (bundle * bundle * option enforcement)) : list bundle :=
  match o with Some (p, k, e) => p :: k :: yield_enforcement e | None => [] end.
Definition yield_attributes (a : attributes) : list bundle :=
  match a with Attributes c k d n o s => opt2 c ++ yield_key k ++ yield_clause d ++ opt2 n ++ yield_options o ++ opt2 s end.
Fixpoint yield_coltype (t : coltype) : list bundle :=
  match t with
  | OfName b a => b :: yield_attributes a
  | OfParam b lp es rp a => b :: lp :: yields es ++ rp :: yield_attributes a
  | OfAny b t a => b :: t :: yield_attributes a
  | OfArray b lt t gt a => b :: lt :: yield_coltype t ++ gt :: yield_attributes a
  | OfStruct b lt fs gt a => b :: lt :: yield_colfields fs ++ gt :: yield_attributes a
  end
with yield_colfields (fs : colfields) : list bundle :=
  match fs with
  | LastCol b t => b :: yield_coltype t
  | MoreCols b t c r => b :: yield_coltype t ++ c :: yield_colfields r
  end.
Definition yield_declaration (d : declaration) : list bundle :=
  match d with
  | Column m b t => opt m ++ b :: yield_coltype t
  | PrimaryKey c p k g e => opt2 c ++ p :: k :: yield_group g ++ yield_enforcement e
  end.
Fixpoint yield_declarations (ds : declarations) : list bundle :=
  match ds with
  | OneDeclaration d => yield_declaration d
  | MoreDeclarations d c r => yield_declaration d ++ c :: yield_declarations r
  end.
Definition yield_declared (g : declared) : list bundle :=
  match g with Declared lp ds rp => lp :: match ds with Some ds => yield_declarations ds | None => [] end ++ [rp] end.
Definition yield_change (c : change) : list bundle :=
  match c with
  | AddColumn k c e x t => k :: c :: match e with Some (i, n, e) => [i; n; e] | None => [] end ++ x :: yield_coltype t
  | AddKey k d => k :: yield_declaration d
  | DropIt k c e p => k :: c :: opt2 e ++ yield p
  | DropKey k p y e => k :: p :: y :: opt2 e
  | RenameIt k c e p t q => k :: c :: opt2 e ++ yield p ++ t :: yield q
  end.
Fixpoint yield_changes (cs : changes) : list bundle :=
  match cs with
  | OneChange c => yield_change c
  | MoreChanges c m r => yield_change c ++ m :: yield_changes r
  end.
Definition yield_alteration (a : alteration) : list bundle :=
  match a with
  | NewOptions s k g => s :: k :: yield_group g
  | NewType s d y t => s :: d :: y :: yield_coltype t
  | NewDefault s k e => s :: k :: yield e
  | NoDefault d f => [d; f]
  | NoNotNull d n l => [d; n; l]
  end.
Definition yield_viewoptions (o : option (bundle * group)) : list bundle := match o with Some (k, g) => k :: yield_group g | None => [] end.
Fixpoint yield_viewcols (cs : viewcols) : list bundle :=
  match cs with
  | LastViewCol b o => b :: yield_viewoptions o
  | MoreViewCols b o m r => b :: yield_viewoptions o ++ m :: yield_viewcols r
  end.
Definition yield_part (p : part) : list bundle :=
  match p with
  | PWord b => [b]
  | PWords b bs | PChain b bs => b :: bs
  | PName p | PExpr p => yield p
  | PWordName k p | PWordExpr k p | PLike k p => k :: yield p
  | PWordIdent k b => [k; b]
  | PGroup g => yield_group g
  | POptions k g => k :: yield_group g
  | PBy k b es => k :: b :: yields es
  | PCollate d c s => [d; c; s]
  | PConnection r w c x => opt r ++ w :: c :: match x with DefaultConnection b => [b] | ConnectionName p => yield p end
  | PQuery k q => k :: yield_query q
  | PExprs es => yields es
  | PWordExprs k es => k :: yields es
  | PDeclared g => yield_declared g
  | PWordDeclared k g => k :: yield_declared g
  | PPartitionColumns w p c g => w :: p :: c :: match g with Some g => yield_declared g | None => [] end
  | PReturns k t => k :: yield_coltype t
  | PBody k lp e rp => k :: lp :: yield e ++ [rp]
  | PAllColumns lp a c rp => [lp; a; c; rp]
  | PGrantTo g t r => g :: t :: yield_group r
  | PReplicaOf a r o p => a :: r :: o :: yield p
  | PReplica k r p => k :: r :: yield p
  | PChanges cs => yield_changes cs
  | PAlterColumn k c e x a => k :: c :: opt2 e ++ x :: yield_alteration a
  | PViewColumns lp cs rp => lp :: yield_viewcols cs ++ [rp]
  | PClone k s => k :: yield_source s
  end.
Fixpoint yield_parts (ps : list (option part)) : list bundle :=
  match ps with
  | [] => []
  | Some p :: ps => yield_part p ++ yield_parts ps
  | None :: ps => yield_parts ps
  end.

(* ----- the order of the phrases ----- *)
Inductive kind := AddingColumns | AddingConstraints | Dropping | Renaming.
Inductive shape :=
| AWord (ws : list string)                 (* one of these words *)
| TheWords (wss : list (list string))      (* these words one after the other, or these *)
| TheChain (wss : list (list string))      (* one of these, one of these, ... *)
| AName (ws : list string)                 (* a name that does not begin with one of these words *)
| WordName (w : string) | WordExpr (w : string) | WordIdent (w : string)
| AGroup | ColumnsOrAll
| Options (w : string) (named : bool)      (* named: whether its elements can be given names *)
| ListBy (w : string)
| DefaultCollate
| Connection (remote can_be_default : bool)
| AsQuery (ws : list string)               (* whose second token is not one of these words *)
| AnExpr | Exprs | WordExprs (w : string)
| ADeclared (schema function : bool)       (* of a table or procedure, of a function *)
| WordDeclared (w : string) | PartitionColumns | Returns | Body | LikeOrCopy | GrantTo | ReplicaOf | Replica (w : string)
| Changes (d : kind) | AlterColumn | ViewColumns | CloneOf.
(* a phrase that must be there, or that may be there, and the key it is kept under *)
Inductive slot :=
| Need (key : string) (s : shape)
| May (key : string) (s : shape).

Inductive definition :=
| UndropSchema | GrantRoles | RevokeRoles | ExportData | ExportModel | LoadData | LoadThrough
| AlterOrganization | AlterProject | AlterBiCapacity | AlterReservation | AlterModel | AlterView | AlterVectorIndex
| AlterSchemaCollate | AlterSchemaOptions | AlterSchemaAdd | AlterSchemaDrop
| AlterTableOptions | AlterTableCollate | AlterTableRename
| AlterTableAdd | AlterTableConstrain | AlterTableDrop | AlterTableRenameColumn | AlterTableColumn
| DropPolicy | DropPolicies | DropIndex
| CreateSchema | CreateIndex | CreateTable | CreateTableLike | CreateClone | CreateSnapshot | CreateExternalTable
| CreateView | CreateMaterializedView | CreateReplicaView
| CreateSqlFunction | CreateTableFunction | CreateForeignFunction | CreateRemoteFunction | CreateForeignProcedure
| CreatePolicy | CreateModel | CreateReservationJson | CreateReservation.

Definition or_replace : slot := May "or_replace" (TheWords [["OR"; "REPLACE"]]).
Definition if_not_exists : slot := May "if_not_exists" (TheWords [["IF"; "NOT"; "EXISTS"]]).
Definition if_exists : slot := May "if_exists" (TheWords [["IF"; "EXISTS"]]).
Definition what (w : string) : slot := Need "what" (AWord [w]).
Definition a_name : slot := Need "ident" (AName []).
Definition set_options : list slot := [Need "set" (AWord ["SET"]); Need "options" (Options "OPTIONS" false)].
Definition options : slot := May "options" (Options "OPTIONS" false).
(* the word a statement begins with, the kind of its node, and its phrases *)
Definition form (d : definition) : string * node_type * list slot :=
  match d with
  | UndropSchema => ("UNDROP", N_UndropStatement, [what "SCHEMA"; if_not_exists; a_name])
  | GrantRoles => ("GRANT", N_GrantStatement,
      [Need "roles" Exprs; Need "on" (AWord ["ON"]); Need "resource_type" (AWord ["SCHEMA"; "TABLE"; "VIEW"; "PROJECT"]); a_name; Need "to" (WordExprs "TO")])
  | RevokeRoles => ("REVOKE", N_RevokeStatement,
      [Need "roles" Exprs; Need "on" (AWord ["ON"]); Need "resource_type" (AWord ["SCHEMA"; "TABLE"; "VIEW"; "PROJECT"]); a_name; Need "from" (WordExprs "FROM")])
  | ExportData => ("EXPORT", N_ExportDataStatement,
      [Need "data" (AWord ["DATA"]); May "with_connection" (Connection false true); Need "options" (Options "OPTIONS" false); Need "as" (AsQuery [])])
  | ExportModel => ("EXPORT", N_ExportModelStatement, [what "MODEL"; a_name; options])
  | LoadData => ("LOAD", N_LoadStatement,
      [Need "data" (AWord ["DATA"]); Need "into" (AWord ["INTO"; "OVERWRITE"]); a_name; May "column_group" (ADeclared false false);
       May "partitionby" (ListBy "PARTITION"); May "clusterby" (ListBy "CLUSTER"); options;
       Need "from" (AWord ["FROM"]); Need "files" (AWord ["FILES"]); Need "from_files" AGroup; May "with_partition_columns" PartitionColumns])
  | LoadThrough => ("LOAD", N_LoadStatement,
      [Need "data" (AWord ["DATA"]); Need "into" (AWord ["INTO"; "OVERWRITE"]); a_name; May "column_group" (ADeclared false false);
       May "partitionby" (ListBy "PARTITION"); May "clusterby" (ListBy "CLUSTER"); options;
       Need "from" (AWord ["FROM"]); Need "files" (AWord ["FILES"]); Need "from_files" AGroup; May "with_partition_columns" PartitionColumns;
       Need "with" (AWord ["WITH"]); Need "connection" (AWord ["CONNECTION"]); Need "connection_name" (AName [])])
  | AlterOrganization => ("ALTER", N_AlterOrganizationStatement, what "ORGANIZATION" :: set_options)
  | AlterProject => ("ALTER", N_AlterProjectStatement, [what "PROJECT"; May "ident" (AName [])] ++ set_options)
  | AlterBiCapacity => ("ALTER", N_AlterBICapacityStatement, [what "BI_CAPACITY"; a_name] ++ set_options)
  | AlterReservation => ("ALTER", N_AlterReservationStatement, [Need "what" (AWord ["CAPACITY"; "RESERVATION"]); a_name] ++ set_options)
  | AlterModel => ("ALTER", N_AlterModelStatement, [what "MODEL"; if_exists; a_name] ++ set_options)
  | AlterView => ("ALTER", N_AlterViewStatement, [May "materialized" (AWord ["MATERIALIZED"]); what "VIEW"; if_exists; a_name] ++ set_options)
  | AlterVectorIndex => ("ALTER", N_AlterVectorIndexStatement,
      [Need "what" (TheChain [["VECTOR"]; ["INDEX"]]); if_exists; a_name; Need "on" (WordName "ON"); Need "operation" (AWord ["REBUILD"])])
  | AlterSchemaCollate => ("ALTER", N_AlterSchemaStatement, [what "SCHEMA"; if_exists; a_name; Need "set" (AWord ["SET"]); Need "default_collate" DefaultCollate])
  | AlterSchemaOptions => ("ALTER", N_AlterSchemaStatement, [what "SCHEMA"; if_exists; a_name] ++ set_options)
  | AlterSchemaAdd => ("ALTER", N_AlterSchemaStatement, [what "SCHEMA"; if_exists; a_name; Need "add" (Replica "ADD"); options])
  | AlterSchemaDrop => ("ALTER", N_AlterSchemaStatement, [what "SCHEMA"; if_exists; a_name; Need "drop" (Replica "DROP")])
  | AlterTableOptions => ("ALTER", N_AlterTableStatement, [what "TABLE"; if_exists; a_name] ++ set_options)
  | AlterTableCollate => ("ALTER", N_AlterTableStatement, [what "TABLE"; if_exists; a_name; Need "set" (AWord ["SET"]); Need "default_collate" DefaultCollate])
  | AlterTableRename => ("ALTER", N_AlterTableStatement, [what "TABLE"; if_exists; a_name; Need "rename" (AWord ["RENAME"]); Need "to" (WordName "TO")])
  | AlterTableAdd => ("ALTER", N_AlterTableStatement, [what "TABLE"; if_exists; a_name; Need "add_columns" (Changes AddingColumns)])
  | AlterTableConstrain => ("ALTER", N_AlterTableStatement, [what "TABLE"; if_exists; a_name; Need "add_constraints" (Changes AddingConstraints)])
  | AlterTableDrop => ("ALTER", N_AlterTableStatement, [what "TABLE"; if_exists; a_name; Need "drop_columns" (Changes Dropping)])
  | AlterTableRenameColumn => ("ALTER", N_AlterTableStatement, [what "TABLE"; if_exists; a_name; Need "rename_columns" (Changes Renaming)])
  | AlterTableColumn => ("ALTER", N_AlterTableStatement, [what "TABLE"; if_exists; a_name; Need "alter_column_stmt" AlterColumn])
  | DropPolicy => ("DROP", N_DropRowAccessPolicyStatement,
      [Need "what" (TheWords [["ROW"; "ACCESS"; "POLICY"]]); if_exists; a_name; Need "on" (WordName "ON")])
  | DropPolicies => ("DROP", N_DropRowAccessPolicyStatement, [Need "what" (TheWords [["ALL"; "ROW"; "ACCESS"; "POLICIES"]]); Need "on" (WordName "ON")])
  | DropIndex => ("DROP", N_DropStatement, [Need "what" (TheChain [["SEARCH"]; ["INDEX"]]); if_exists; a_name; Need "on" (WordName "ON")])
  | CreateSchema => ("CREATE", N_CreateSchemaStatement,
      [May "external" (AWord ["EXTERNAL"]); what "SCHEMA"; if_not_exists; a_name; May "default_collate" DefaultCollate;
       May "with_connection" (Connection false true); options])
  | CreateIndex => ("CREATE", N_CreateIndexStatement,
      [or_replace; Need "what" (TheChain [["SEARCH"; "VECTOR"]; ["INDEX"]]); if_not_exists; a_name; Need "on" (AWord ["ON"]); Need "tablename" (AName []);
       Need "column_group" ColumnsOrAll; May "storing" (Options "STORING" false); May "partitionby" (ListBy "PARTITION"); options])
  | CreateTable => ("CREATE", N_CreateTableStatement,
      [or_replace; May "temp" (AWord ["TEMP"; "TEMPORARY"]); what "TABLE"; if_not_exists; Need "ident" (AName ["FUNCTION"]);
       May "column_schema_group" (ADeclared true false); May "default_collate" DefaultCollate; May "partitionby" (ListBy "PARTITION");
       May "clusterby" (ListBy "CLUSTER"); options; May "as" (AsQuery [])])
  | CreateTableLike => ("CREATE", N_CreateTableStatement,
      [or_replace; May "temp" (AWord ["TEMP"; "TEMPORARY"]); what "TABLE"; if_not_exists; Need "ident" (AName ["FUNCTION"]);
       Need "like_or_copy" LikeOrCopy; May "partitionby" (ListBy "PARTITION"); May "clusterby" (ListBy "CLUSTER"); options; May "as" (AsQuery [])])
  | CreateClone => ("CREATE", N_CreateTableStatement,
      [or_replace; May "temp" (AWord ["TEMP"; "TEMPORARY"]); what "TABLE"; if_not_exists; Need "ident" (AName ["FUNCTION"]); Need "clone" CloneOf])
  | CreateSnapshot => ("CREATE", N_CreateTableStatement,
      [or_replace; May "temp" (AWord ["TEMP"; "TEMPORARY"]); Need "snapshot" (AWord ["SNAPSHOT"]); what "TABLE"; if_not_exists; Need "ident" (AName ["FUNCTION"]); Need "clone" CloneOf])
  | CreateExternalTable => ("CREATE", N_CreateTableStatement,
      [or_replace; Need "external" (AWord ["EXTERNAL"]); what "TABLE"; if_not_exists; Need "ident" (AName ["FUNCTION"]);
       May "column_schema_group" (ADeclared true false); May "with_connection" (Connection false true);
       May "with_partition_columns" PartitionColumns; options])
  | CreateView => ("CREATE", N_CreateViewStatement, [or_replace; what "VIEW"; if_not_exists; a_name; May "column_name_list" ViewColumns; options; Need "as" (AsQuery [])])
  | CreateMaterializedView => ("CREATE", N_CreateViewStatement,
      [or_replace; Need "materialized" (AWord ["MATERIALIZED"]); what "VIEW"; if_not_exists; a_name; May "partitionby" (ListBy "PARTITION");
       May "clusterby" (ListBy "CLUSTER"); options; Need "as" (AsQuery [])])
  | CreateReplicaView => ("CREATE", N_CreateViewStatement,
      [or_replace; Need "materialized" (AWord ["MATERIALIZED"]); what "VIEW"; if_not_exists; a_name; options; Need "as" ReplicaOf])
  | CreateSqlFunction => ("CREATE", N_CreateFunctionStatement,
      [or_replace; May "temp" (AWord ["TEMP"; "TEMPORARY"]); May "aggregate" (AWord ["AGGREGATE"]); what "FUNCTION"; if_not_exists; a_name;
       Need "group" (ADeclared false true); May "returns" Returns; Need "as" Body])
  | CreateTableFunction => ("CREATE", N_CreateFunctionStatement,
      [or_replace; May "temp" (AWord ["TEMP"; "TEMPORARY"]); Need "table" (AWord ["TABLE"]); what "FUNCTION"; if_not_exists; a_name;
       Need "group" (ADeclared false true); May "returns" Returns; Need "as" (AsQuery [])])
  | CreateForeignFunction => ("CREATE", N_CreateFunctionStatement,
      [or_replace; May "temp" (AWord ["TEMP"; "TEMPORARY"]); May "aggregate" (AWord ["AGGREGATE"]); what "FUNCTION"; if_not_exists; a_name;
       Need "group" (ADeclared false true); May "returns" Returns; May "determinism" (TheWords [["DETERMINISTIC"]; ["NOT"; "DETERMINISTIC"]]);
       Need "language" (WordIdent "LANGUAGE"); May "connection" (Connection false false); options; Need "as" (WordExpr "AS")])
  | CreateRemoteFunction => ("CREATE", N_CreateFunctionStatement,
      [or_replace; May "temp" (AWord ["TEMP"; "TEMPORARY"]); what "FUNCTION"; if_not_exists; a_name;
       Need "group" (ADeclared false true); May "returns" Returns; Need "remote" (AWord ["REMOTE"]); Need "connection" (Connection false false); options])
  | CreateForeignProcedure => ("CREATE", N_CreateProcedureStatement,
      [or_replace; what "PROCEDURE"; if_not_exists; a_name; Need "group" (ADeclared true false);
       May "external" (TheChain [["EXTERNAL"]; ["SECURITY"]; ["DEFINER"; "INVOKER"]]); May "with_connection" (Connection false true); options;
       Need "language" (WordIdent "LANGUAGE"); May "as" (WordExpr "AS")])
  | CreatePolicy => ("CREATE", N_CreateRowAccessPolicyStatement,
      [or_replace; Need "what" (TheWords [["ROW"; "ACCESS"; "POLICY"]]); if_not_exists; a_name; Need "on" (WordName "ON"); May "grant" GrantTo;
       Need "filter" (AWord ["FILTER"]); Need "using" (WordExpr "USING")])
  | CreateModel => ("CREATE", N_CreateModelStatement,
      [or_replace; what "MODEL"; if_not_exists; a_name; May "transform" (Options "TRANSFORM" true); May "input" (WordDeclared "INPUT");
       May "output" (WordDeclared "OUTPUT"); May "remote" (Connection true true); options; May "query" (AsQuery ["TRAINING_DATA"])])
  | CreateReservationJson => ("CREATE", N_CreateReservationStatement,
      [Need "what" (AWord ["CAPACITY"; "RESERVATION"; "ASSIGNMENT"]); a_name; Need "as" (AWord ["AS"]); Need "json" (AWord ["JSON"]); Need "json_string" AnExpr])
  | CreateReservation => ("CREATE", N_CreateReservationStatement,
      [Need "what" (AWord ["CAPACITY"; "RESERVATION"; "ASSIGNMENT"]); a_name; options])
  end.

Section WithUnicode.
Context (U : unicode).
Local Notation is_word := (is_word U).
Local Notation word_in := (word_in U).
Local Notation perhaps := (perhaps U).
Local Notation perhaps2 := (perhaps2 U).
Local Notation name := (name U).
Local Notation path := (path U).
Local Notation separated := (separated U).
Local Notation wf := (wf U).
Local Notation wfs := (wfs U).
Local Notation tree := (tree U).
Local Notation trees := (trees U).

(* ----- which phrases are well formed ----- *)
Definition wf_group (named : bool) (g : group) : Prop :=
  match g with Group lp es rp => is_word lp "(" /\ match es with Some es => wfs named true es | None => True end /\ is_word rp ")" end.
Definition wf_enforcement (e : option enforcement) : Prop :=
  match e with Some (Enforcement n e) => perhaps n ["NOT"] /\ is_word e "ENFORCED" | None => True end.
(* [top]: the type of a column rather than of something in it; [schema]: of a table; [function]: of an argument of a function *)
Definition wf_attributes (top schema function : bool) (a : attributes) : Prop :=
  match a with Attributes c k d n o s =>
    (match c with Some (k, s) => is_word k "COLLATE" /\ is_string (b_tok s) = true | None => True end) /\
    (match k with Some (p, k, e) => is_word p "PRIMARY" /\ is_word k "KEY" /\ wf_enforcement e | None => True end) /\
    wf_clause U "DEFAULT" d /\ perhaps2 n ["NOT"] ["NULL"] /\
    (match o with Some (k, g) => is_word k "OPTIONS" /\ wf_group false g | None => True end) /\
    perhaps2 s ["NOT"] ["AGGREGATE"] /\
    (* the combinations that are read differently: PRIMARY KEY NOT NULL, DEFAULT e NOT NULL *)
    (match k, n with Some (_, _, None), Some _ => False | _, _ => True end) /\
    (match d, n with Clause _ _, Some _ => False | _, _ => True end) /\
    (top = false -> d = NoClause) /\ (schema = false -> k = None /\ d = NoClause /\ n = None /\ o = None) /\
    (function = false -> s = None)
  end.
Fixpoint wf_coltype (top schema function : bool) (t : coltype) : Prop :=
  match t with
  | OfName b a => name b /\ ~ is_word b "TYPE" /\ wf_attributes top schema function a
  | OfParam b lp es rp a => name b /\ ~ is_word b "TYPE" /\ is_word lp "(" /\ wfs false true es /\ is_word rp ")" /\ wf_attributes top schema function a
  | OfAny b t a => is_word b "ANY" /\ is_word t "TYPE" /\ wf_attributes top schema function a
  | OfArray b lt t gt a => word_in b ["ARRAY"; "RANGE"] /\ literally lt "<" /\ wf_coltype false schema false t /\ is_word gt ">" /\ wf_attributes top schema function a
  | OfStruct b lt fs gt a => word_in b ["STRUCT"; "TABLE"] /\ literally lt "<" /\ wf_colfields schema fs /\ is_word gt ">" /\ wf_attributes top schema function a
  end
with wf_colfields (schema : bool) (fs : colfields) : Prop :=
  match fs with
  | LastCol b t => name b /\ wf_coltype false schema false t
  | MoreCols b t c r => name b /\ wf_coltype false schema false t /\ is_word c "," /\ wf_colfields schema r
  end.
Definition wf_declaration (schema function : bool) (d : declaration) : Prop :=
  match d with
  | Column m b t => perhaps m ["IN"; "OUT"; "INOUT"] /\ name b /\ ~ word_in b ["OUT"; "INOUT"; "PRIMARY"; "FOREIGN"; "CONSTRAINT"] /\
      wf_coltype true schema function t
  | PrimaryKey c p k g e => (match c with Some (c, x) => is_word c "CONSTRAINT" /\ name x /\ separated (Atom x) p | None => True end) /\
      is_word p "PRIMARY" /\ is_word k "KEY" /\ wf_group false g /\ wf_enforcement e
  end.
Fixpoint wf_declarations (schema function : bool) (ds : declarations) : Prop :=
  match ds with
  | OneDeclaration d => wf_declaration schema function d
  | MoreDeclarations d c r => wf_declaration schema function d /\ is_word c "," /\ wf_declarations schema function r
  end.
Definition wf_declared (schema function : bool) (g : declared) : Prop :=
  match g with Declared lp ds rp => is_word lp "(" /\ match ds with Some ds => wf_declarations schema function ds | None => True end /\ is_word rp ")" end.
(* [next]: the token after the change *)
Definition wf_change (d : kind) (c : change) (next : bundle) : Prop :=
  match d, c with
  | AddingColumns, AddColumn k c e x t => is_word k "ADD" /\ is_word c "COLUMN" /\
      (match e with Some (i, n, e) => is_word i "IF" /\ is_word n "NOT" /\ is_word e "EXISTS" | None => True end) /\ name x /\ wf_coltype true true false t
  | AddingConstraints, AddKey k d => is_word k "ADD" /\ match d with PrimaryKey _ _ _ _ _ => wf_declaration true false d | Column _ _ _ => False end
  | Dropping, DropIt k c e p => is_word k "DROP" /\ word_in c ["COLUMN"; "CONSTRAINT"] /\ perhaps2 e ["IF"] ["EXISTS"] /\ path p /\ separated p next
  | Dropping, DropKey k p y e => is_word k "DROP" /\ is_word p "PRIMARY" /\ is_word y "KEY" /\ perhaps2 e ["IF"] ["EXISTS"]
  | Renaming, RenameIt k c e p t q => is_word k "RENAME" /\ is_word c "COLUMN" /\ perhaps2 e ["IF"] ["EXISTS"] /\
      path p /\ separated p t /\ is_word t "TO" /\ path q /\ separated q next
  | _, _ => False
  end.
Fixpoint wf_changes (d : kind) (cs : changes) (next : bundle) : Prop :=
  match cs with
  | OneChange c => wf_change d c next
  | MoreChanges c m r => wf_change d c m /\ is_word m "," /\ wf_changes d r next
  end.
Definition wf_alteration (a : alteration) : Prop :=
  match a with
  | NewOptions s k g => is_word s "SET" /\ is_word k "OPTIONS" /\ wf_group false g
  | NewType s d y t => is_word s "SET" /\ is_word d "DATA" /\ is_word y "TYPE" /\ wf_coltype true false false t
  | NewDefault s k e => is_word s "SET" /\ is_word k "DEFAULT" /\ wf e
  | NoDefault d f => is_word d "DROP" /\ is_word f "DEFAULT"
  | NoNotNull d n l => is_word d "DROP" /\ is_word n "NOT" /\ is_word l "NULL"
  end.
(* [next]: the token after the columns *)
Definition wf_viewcol (b : bundle) (o : option (bundle * group)) (next : bundle) : Prop :=
  name b /\ separated (Atom b) (hd next (yield_viewoptions o)) /\ match o with Some (k, g) => is_word k "OPTIONS" /\ wf_group false g | None => True end.
Fixpoint wf_viewcols (cs : viewcols) (next : bundle) : Prop :=
  match cs with
  | LastViewCol b o => wf_viewcol b o next
  | MoreViewCols b o m r => wf_viewcol b o m /\ is_word m "," /\ wf_viewcols r next
  end.
Fixpoint words_are (bs : list bundle) (ws : list string) : Prop :=
  match bs, ws with
  | [], [] => True
  | b :: bs, w :: ws => is_word b w /\ words_are bs ws
  | _, _ => False
  end.
Fixpoint words_in (bs : list bundle) (wss : list (list string)) : Prop :=
  match bs, wss with
  | [], [] => True
  | b :: bs, ws :: wss => word_in b ws /\ words_in bs wss
  | _, _ => False
  end.
(* [next]: the token after the phrase *)
Definition wf_part (s : shape) (p : part) (next : bundle) : Prop :=
  match s, p with
  | AWord ws, PWord b => word_in b ws
  | TheWords wss, PWords b bs => exists ws, In ws wss /\ words_are (b :: bs) ws
  | TheChain wss, PChain b bs => words_in (b :: bs) wss
  | AName ws, PName p => path p /\ ~ word_in (first p) ws /\ separated p next
  | WordName w, PWordName k p => is_word k w /\ path p /\ separated p next
  | WordExpr w, PWordExpr k e => is_word k w /\ wf e
  | WordIdent w, PWordIdent k b => is_word k w /\ name b
  | AGroup, PGroup g => wf_group false g
  | ColumnsOrAll, PGroup g => wf_group false g
  | ColumnsOrAll, PAllColumns lp a c rp => is_word lp "(" /\ is_word a "ALL" /\ is_word c "COLUMNS" /\ is_word rp ")"
  | Options w named, POptions k g => is_word k w /\ wf_group named g
  | ListBy w, PBy k b es => is_word k w /\ is_word b "BY" /\ wfs false false es
  | DefaultCollate, PCollate d c s => is_word d "DEFAULT" /\ is_word c "COLLATE" /\ is_string (b_tok s) = true
  | Connection remote dflt, PConnection r w c x =>
      (match r with Some r => remote = true /\ is_word r "REMOTE" | None => remote = false end) /\ is_word w "WITH" /\ is_word c "CONNECTION" /\
      match x with
      | DefaultConnection b => dflt = true /\ is_word b "DEFAULT"
      | ConnectionName p => path p /\ separated p next
      end
  | AsQuery ws, PQuery k q => is_word k "AS" /\ wf_query U q next /\ match yield_query q with _ :: b :: _ => ~ word_in b ws | _ => True end
  | AnExpr, PExpr e => wf e
  | Exprs, PExprs es => wfs false false es
  | WordExprs w, PWordExprs k es => is_word k w /\ wfs false false es
  | ADeclared schema function, PDeclared g => wf_declared schema function g
  | WordDeclared w, PWordDeclared k g => is_word k w /\ wf_declared false false g
  | PartitionColumns, PPartitionColumns w p c g => is_word w "WITH" /\ is_word p "PARTITION" /\ is_word c "COLUMNS" /\
      match g with Some g => wf_declared false false g | None => True end
  | Returns, PReturns k t => is_word k "RETURNS" /\ wf_coltype true false false t
  | Body, PBody k lp e rp => is_word k "AS" /\ is_word lp "(" /\ wf e /\ is_word rp ")"
  | LikeOrCopy, PLike k p => word_in k ["LIKE"; "COPY"] /\ path p /\ separated p next
  | GrantTo, PGrantTo g t r => is_word g "GRANT" /\ is_word t "TO" /\ wf_group false r
  | ReplicaOf, PReplicaOf a r o p => is_word a "AS" /\ is_word r "REPLICA" /\ is_word o "OF" /\ path p /\ separated p next
  | Replica w, PReplica k r p => is_word k w /\ is_word r "REPLICA" /\ path p /\ separated p next
  | Changes d, PChanges cs => wf_changes d cs next
  | AlterColumn, PAlterColumn k c e x a => is_word k "ALTER" /\ is_word c "COLUMN" /\ perhaps2 e ["IF"] ["EXISTS"] /\ name x /\ wf_alteration a
  | ViewColumns, PViewColumns lp cs rp => is_word lp "(" /\ wf_viewcols cs rp /\ is_word rp ")"
  | CloneOf, PClone k s => is_word k "CLONE" /\ wf_source U s next
  | _, _ => False
  end.
Fixpoint wf_parts (fs : list slot) (ps : list (option part)) (next : bundle) : Prop :=
  match fs, ps with
  | [], [] => True
  | Need _ s :: fs, Some p :: ps | May _ s :: fs, Some p :: ps => wf_part s p (hd next (yield_parts ps)) /\ wf_parts fs ps next
  | May _ _ :: fs, None :: ps => wf_parts fs ps next
  | _, _ => False
  end.

(* ----- the tree a phrase denotes ----- *)
Definition tree_grouped (g : group) : node :=
  match g with Group lp es rp => made N_GroupedExprs lp (match es with Some es => [("exprs", CVec (trees es))] | None => [] end ++ [("rparen", symbol rp)]) end.
(* words of which each is a child of the one before *)
Fixpoint chain (b : bundle) (bs : list bundle) : node :=
  match bs with
  | [] => keyword_ b
  | b' :: bs => made N_KeywordSequence b [("next_keyword", CNode (chain b' bs))]
  end.
Definition tree_options (k : bundle) (g : group) : node := made N_KeywordWithGroupedXXX k [("group", CNode (tree_grouped g))].
Definition string_ (b : bundle) : content := CNode (made N_StringLiteral b []).
Definition kid_enforcement (e : option enforcement) : list (string * content) :=
  match e with
  | Some (Enforcement (Some n) e) => [("enforced", CNode (chain n [e]))]
  | Some (Enforcement None e) => [("enforced", keyword e)]
  | None => []
  end.
Definition kids_attributes (a : attributes) : list (string * content) :=
  match a with Attributes c k d n o s =>
    (match c with Some (k, s) => [("collate", CNode (made N_KeywordWithExpr k [("expr", string_ s)]))] | None => [] end) ++
    (match k with Some (p, k, e) => ("primarykey", CNode (chain p [k])) :: kid_enforcement e | None => [] end) ++
    (match d with Clause k e => [("default", CNode (made N_KeywordWithExpr k [("expr", CNode (tree e))]))] | NoClause => [] end) ++
    (match n with Some (a, b) => [("not_null", CVec [keyword_ a; keyword_ b])] | None => [] end) ++
    (match o with Some (k, g) => [("options", CNode (tree_options k g))] | None => [] end) ++
    (match s with Some (a, b) => [("aggregate", CNode (chain a [b]))] | None => [] end)
  end.
Fixpoint tree_coltype (t : coltype) : node :=
  match t with
  | OfName b a => made N_Type b (kids_attributes a)
  | OfParam b lp es rp a => made N_Type b (("parameter", CNode (tree_grouped (Group lp (Some es) rp))) :: kids_attributes a)
  | OfAny b t a => made N_Type b (("type", keyword t) :: kids_attributes a)
  | OfArray b lt t gt a => made N_Type b
      (("type_declaration", CNode (made N_GroupedType lt [("type", CNode (tree_coltype t)); ("rparen", symbol gt)])) :: kids_attributes a)
  | OfStruct b lt fs gt a => made N_Type b
      (("type_declaration", CNode (made N_GroupedTypeDeclarationOrConstraints lt [("rparen", symbol gt); ("declarations", CVec (tree_colfields fs))])) :: kids_attributes a)
  end
with tree_colfields (fs : colfields) : list node :=
  match fs with
  | LastCol b t => [made N_TypeDeclaration b [("type", CNode (tree_coltype t))]]
  | MoreCols b t c r => made N_TypeDeclaration b [("type", CNode (tree_coltype t)); ("comma", symbol c)] :: tree_colfields r
  end.
Definition tree_declaration (d : declaration) : node :=
  match d with
  | Column m b t => made N_TypeDeclaration b (match m with Some m => [("in_out", keyword m)] | None => [] end ++ [("type", CNode (tree_coltype t))])
  | PrimaryKey c p k g e => made N_Constraint p
      ((match c with Some (c, x) => [("constraint", keyword c); ("ident", ident x)] | None => [] end) ++
       [("key", keyword k); ("columns", CNode (tree_grouped g))] ++ kid_enforcement e)
  end.
Fixpoint tree_declarations (ds : declarations) : list node :=
  match ds with
  | OneDeclaration d => [tree_declaration d]
  | MoreDeclarations d c r => with_kid "comma" (symbol c) (tree_declaration d) :: tree_declarations r
  end.
Definition tree_declared (g : declared) : node :=
  match g with Declared lp ds rp => made N_GroupedTypeDeclarationOrConstraints lp
    (match ds with Some ds => [("declarations", CVec (tree_declarations ds))] | None => [] end ++ [("rparen", symbol rp)]) end.
Definition kid_exists (e : option (bundle * bundle)) : list (string * content) :=
  match e with Some (i, e) => [("if_exists", CVec [keyword_ i; keyword_ e])] | None => [] end.
(* [m]: the comma after it *)
Definition tree_change (c : change) (m : option bundle) : node :=
  let comma := match m with Some m => [("comma", symbol m)] | None => [] end in
  match c with
  | AddColumn k c e x t => made N_AddColumnClause k ([("what", keyword c)] ++
      match e with Some (i, n, e) => [("if_not_exists", CVec [keyword_ i; keyword_ n; keyword_ e])] | None => [] end ++
      [("type_declaration", CNode (made N_TypeDeclaration x [("type", CNode (tree_coltype t))]))] ++ comma)
  | AddKey k d => made N_AddConstraintClause k (comma ++ [("what", CNode (tree_declaration d))])
  | DropIt k c e p => made N_AlterTableDropClause k ([("what", keyword c)] ++ kid_exists e ++ [("ident", CNode (tree p))] ++ comma)
  | DropKey k p y e => made N_AlterTableDropClause k ([("what", CNode (made N_KeywordWithExpr p [("expr", keyword y)]))] ++ kid_exists e ++ comma)
  | RenameIt k c e p t q => made N_RenameColumnClause k ([("column", keyword c)] ++
      match e with Some (i, e) => [("if_exists", CNode (chain i [e]))] | None => [] end ++
      [("ident", CNode (tree p))] ++ comma ++ [("to", CNode (made N_KeywordWithExpr t [("expr", CNode (tree q))]))])
  end.
Fixpoint tree_changes (cs : changes) : list node :=
  match cs with
  | OneChange c => [tree_change c None]
  | MoreChanges c m r => tree_change c (Some m) :: tree_changes r
  end.
Definition kids_alteration (a : alteration) : list (string * content) :=
  match a with
  | NewOptions s k g => [("set", keyword s); ("options", CNode (tree_options k g))]
  | NewType s d y t => [("set", keyword s); ("data_type", CVec [keyword_ d; keyword_ y]); ("type", CNode (tree_coltype t))]
  | NewDefault s k e => [("set", keyword s); ("default", CNode (made N_KeywordWithExpr k [("expr", CNode (tree e))]))]
  | NoDefault d f => [("drop_default", CVec [keyword_ d; keyword_ f])]
  | NoNotNull d n l => [("drop_not_null", CVec [keyword_ d; keyword_ n; keyword_ l])]
  end.
Definition tree_connection (w c : bundle) (x : connection) : node :=
  made N_KeywordSequence w [("next_keyword", CNode (made N_KeywordWithExpr c
    [("expr", match x with DefaultConnection b => keyword b | ConnectionName p => CNode (tree p) end)]))].
Definition tree_viewcol (b : bundle) (o : option (bundle * group)) (comma : option bundle) : node :=
  made N_IdentWithOptions b ((match o with Some (k, g) => [("options", CNode (tree_options k g))] | None => [] end) ++
    match comma with Some m => [("comma", symbol m)] | None => [] end).
Fixpoint tree_viewcols (cs : viewcols) : list node :=
  match cs with
  | LastViewCol b o => [tree_viewcol b o None]
  | MoreViewCols b o m r => tree_viewcol b o (Some m) :: tree_viewcols r
  end.
Definition kids_part (key : string) (p : part) : list (string * content) :=
  match p with
  | PWord b => [(key, keyword b)]
  | PWords b bs => [(key, CVec (map keyword_ (b :: bs)))]
  | PChain b bs => [(key, CNode (chain b bs))]
  | PName p | PExpr p => [(key, CNode (tree p))]
  | PWordName k p | PWordExpr k p => [(key, CNode (made N_KeywordWithExpr k [("expr", CNode (tree p))]))]
  | PWordIdent k b => [(key, CNode (made N_KeywordWithExpr k [("expr", ident b)]))]
  | PGroup g => [(key, CNode (tree_grouped g))]
  | POptions k g => [(key, CNode (tree_options k g))]
  | PBy k b es => [(key, CNode (made N_XXXByExprs k [("by", keyword b); ("exprs", CVec (trees es))]))]
  | PCollate d c s => [(key, CNode (made N_KeywordSequence d [("next_keyword", CNode (made N_KeywordWithExpr c [("expr", string_ s)]))]))]
  | PConnection None w c x => [(key, CNode (tree_connection w c x))]
  | PConnection (Some r) w c x => [(key, CNode (made N_KeywordSequence r [("next_keyword", CNode (tree_connection w c x))]))]
  | PQuery k q => [(key, CNode (made N_KeywordWithStatement k [("stmt", CNode (tree_query U q None))]))]
  | PExprs es => [(key, CVec (trees es))]
  | PWordExprs k es => [(key, CNode (made N_KeywordWithExprs k [("exprs", CVec (trees es))]))]
  | PDeclared g => [(key, CNode (tree_declared g))]
  | PWordDeclared k g => [(key, CNode (made N_KeywordWithGroupedXXX k [("group", CNode (tree_declared g))]))]
  | PPartitionColumns w p c g => [(key, CNode (made N_WithPartitionColumnsClause w
      (("partition_columns", CVec [keyword_ p; keyword_ c]) :: match g with Some g => [("column_schema_group", CNode (tree_declared g))] | None => [] end)))]
  | PReturns k t => [(key, CNode (made N_KeywordWithType k [("type", CNode (tree_coltype t))]))]
  | PBody k lp e rp => [(key, CNode (made N_KeywordWithGroupedXXX k [("group", CNode (made N_GroupedExpr lp [("expr", CNode (tree e)); ("rparen", symbol rp)]))]))]
  | PAllColumns lp a c rp => [(key, CNode (made N_GroupedExpr lp [("expr", CNode (chain a [c])); ("rparen", symbol rp)]))]
  | PLike k p => [(key, keyword k); ("source_table", CNode (tree p))]
  | PGrantTo g t r => [(key, keyword g); ("to", CNode (tree_options t r))]
  | PReplicaOf a r o p => [(key, CNode (made N_KeywordSequence a [("next_keyword", CNode (made N_KeywordSequence r [("next_keyword",
      CNode (made N_KeywordWithExpr o [("expr", CNode (tree p))]))]))]))]
  | PReplica k r p => [(key, CNode (made N_KeywordSequence k [("next_keyword", CNode (made N_KeywordWithExpr r [("expr", CNode (tree p))]))]))]
  | PChanges cs => [(key, CVec (tree_changes cs))]
  | PAlterColumn k c e x a => [(key, CNode (made N_AlterColumnStatement k ([("what", keyword c)] ++ kid_exists e ++ [("ident", ident x)] ++ kids_alteration a)))]
  | PViewColumns lp cs rp => [(key, CNode (made N_GroupedIdentWithOptions lp [("rparen", symbol rp); ("idents", CVec (tree_viewcols cs))]))]
  | PClone k s => [(key, CNode (made N_KeywordWithExpr k [("expr", CNode (tree_source U s))]))]
  end.
Fixpoint kids_parts (fs : list slot) (ps : list (option part)) : list (string * content) :=
  match fs, ps with
  | (Need key _ | May key _) :: fs, Some p :: ps => kids_part key p ++ kids_parts fs ps
  | _ :: fs, None :: ps => kids_parts fs ps
  | _, _ => []
  end.
(* [k]: the first word of the statement; [semi]: the semicolon after it *)
Definition wf_definition (d : definition) (k : bundle) (ps : list (option part)) (next : bundle) : Prop :=
  is_word k (fst (fst (form d))) /\ wf_parts (snd (form d)) ps next.
Definition tree_definition (d : definition) (k : bundle) (ps : list (option part)) (semi : option bundle) : node :=
  with_semi semi (made (snd (fst (form d))) k (kids_parts (snd (form d)) ps)).
End WithUnicode.
