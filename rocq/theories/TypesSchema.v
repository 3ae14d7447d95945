(* Generated by tools/types_schema.py from the TypeScript declarations in types.rs: which
   children a node of each type is declared to have. Intersections are resolved: a key
   declared twice has both restrictions, and a key declared as undefined is forbidden. *)
From Verif Require Import Chars Token Cst.
Local Open Scope string_scope.
Local Open Scope list_scope.

(* what the declaration of a node type says about its token: Token, null, or Token | null *)
Inductive token_decl := TokenRequired | TokenNull | TokenOrNull.
(* about one child: k: ..., k?: ..., k: undefined *)
Inductive presence := Required | Optional | Forbidden.
(* { Node: ... } or { NodeVec: ... } *)
Inductive kind := OneNode | ManyNodes.
(* the types the child may have; None is UnknownNode *)
Record field := Field { fd_presence : presence; fd_kind : kind; fd_types : option (list node_type) }.
Record declaration := Declaration { dc_token : token_decl; dc_fields : list (string * field) }.

Definition types_0 : list node_type := [N_Comment].
Definition types_1 : list node_type := [N_Keyword].
Definition types_2 : list node_type := [N_Identifier].
Definition types_3 : list node_type := [N_Symbol].
Definition types_4 : list node_type := [N_AccessOperator; N_ArrayLiteral; N_Asterisk; N_BetweenOperator; N_BinaryOperator; N_BooleanLiteral; N_CallingFunction; N_CallingTableFunction; N_CallingUnnest; N_CaseExpr; N_DotOperator; N_EmptyStruct; N_FunctionChain; N_GroupedExpr; N_GroupedStatement; N_IdentWithOptions; N_Identifier; N_InOperator; N_IntervalLiteral; N_IsDistinctFromOperator; N_JoinOperator; N_MultiTokenIdentifier; N_NullLiteral; N_NumericLiteral; N_Parameter; N_RangeLiteral; N_StringLiteral; N_StructLiteral; N_Template; N_UnaryOperator].
Definition types_5 : list node_type := [N_DotOperator; N_Identifier; N_MultiTokenIdentifier; N_Parameter; N_Template].
Definition types_6 : list node_type := [N_AccessOperator; N_ArrayLiteral; N_Asterisk; N_BetweenOperator; N_BinaryOperator; N_BooleanLiteral; N_CallingFunction; N_CallingTableFunction; N_CallingUnnest; N_CaseExpr; N_DotOperator; N_EmptyStruct; N_FunctionChain; N_GroupedExpr; N_GroupedStatement; N_IdentWithOptions; N_Identifier; N_InOperator; N_IntervalLiteral; N_IsDistinctFromOperator; N_JoinOperator; N_MultiTokenIdentifier; N_NullLiteral; N_NumericLiteral; N_Parameter; N_RangeLiteral; N_SelectStatement; N_StringLiteral; N_StructLiteral; N_Template; N_UnaryOperator].
Definition types_7 : list node_type := [N_WithClause].
Definition types_8 : list node_type := [N_Keyword; N_KeywordSequence; N_KeywordWithExpr; N_KeywordWithGroupedXXX].
Definition types_9 : list node_type := [N_GroupedStatement; N_SelectStatement; N_SetOperator].
Definition types_10 : list node_type := [N_WithQuery].
Definition types_11 : list node_type := [N_GroupedStatement].

(* None: types.rs declares no such type *)
Definition declared (t : node_type) : option declaration :=
  match t with
  (* types.rs:414-422 *)
  | N_AccessOperator => Some (Declaration TokenRequired
      [("alias", Field Optional OneNode (Some types_2));
       ("as", Field Optional OneNode (Some types_1));
       ("comma", Field Optional OneNode None);
       ("leading_comments", Field Optional ManyNodes (Some types_0));
       ("left", Field Required OneNode None);
       ("not", Field Forbidden OneNode None);
       ("null_order", Field Optional ManyNodes None);
       ("order", Field Optional OneNode None);
       ("right", Field Required OneNode None);
       ("rparen", Field Required OneNode None);
       ("trailing_comments", Field Optional ManyNodes (Some types_0))])
  (* types.rs:244-252 *)
  | N_AddColumnClause => Some (Declaration TokenOrNull
      [("comma", Field Optional OneNode None);
       ("if_not_exists", Field Optional ManyNodes None);
       ("leading_comments", Field Optional ManyNodes (Some types_0));
       ("trailing_comments", Field Optional ManyNodes (Some types_0));
       ("type_declaration", Field Required OneNode None);
       ("what", Field Required OneNode None)])
  (* types.rs:254-260 *)
  | N_AddConstraintClause => Some (Declaration TokenOrNull
      [("comma", Field Optional OneNode None);
       ("leading_comments", Field Optional ManyNodes (Some types_0));
       ("trailing_comments", Field Optional ManyNodes (Some types_0));
       ("what", Field Optional OneNode None)])
  (* types.rs:262-267 *)
  | N_AggregatePipeOperator => Some (Declaration TokenOrNull
      [("exprs", Field Optional ManyNodes None);
       ("groupby", Field Optional OneNode None);
       ("keywords", Field Optional OneNode None);
       ("leading_comments", Field Optional ManyNodes (Some types_0));
       ("trailing_comments", Field Optional ManyNodes (Some types_0))])
  (* types.rs:269-277 *)
  | N_AlterBICapacityStatement => Some (Declaration TokenRequired
      [("ident", Field Required OneNode None);
       ("leading_comments", Field Optional ManyNodes (Some types_0));
       ("options", Field Required OneNode None);
       ("semicolon", Field Optional OneNode (Some types_3));
       ("set", Field Required OneNode None);
       ("trailing_comments", Field Optional ManyNodes (Some types_0));
       ("what", Field Required OneNode None)])
  (* types.rs:279-296 *)
  | N_AlterColumnStatement => Some (Declaration TokenOrNull
      [("data_type", Field Optional ManyNodes None);
       ("default", Field Optional OneNode None);
       ("drop_default", Field Optional ManyNodes None);
       ("drop_not_null", Field Optional ManyNodes None);
       ("ident", Field Required OneNode None);
       ("if_exists", Field Optional ManyNodes None);
       ("leading_comments", Field Optional ManyNodes (Some types_0));
       ("options", Field Optional OneNode None);
       ("set", Field Required OneNode None);
       ("trailing_comments", Field Optional ManyNodes (Some types_0));
       ("type", Field Optional OneNode None);
       ("what", Field Required OneNode None)])
  (* types.rs:298-307 *)
  | N_AlterModelStatement => Some (Declaration TokenRequired
      [("ident", Field Required OneNode None);
       ("if_exists", Field Optional ManyNodes None);
       ("leading_comments", Field Optional ManyNodes (Some types_0));
       ("options", Field Required OneNode None);
       ("semicolon", Field Optional OneNode (Some types_3));
       ("set", Field Required OneNode None);
       ("trailing_comments", Field Optional ManyNodes (Some types_0));
       ("what", Field Required OneNode None)])
  (* types.rs:309-316 *)
  | N_AlterOrganizationStatement => Some (Declaration TokenRequired
      [("leading_comments", Field Optional ManyNodes (Some types_0));
       ("options", Field Required OneNode None);
       ("semicolon", Field Optional OneNode (Some types_3));
       ("set", Field Required OneNode None);
       ("trailing_comments", Field Optional ManyNodes (Some types_0));
       ("what", Field Required OneNode None)])
  (* types.rs:318-326 *)
  | N_AlterProjectStatement => Some (Declaration TokenRequired
      [("ident", Field Optional OneNode None);
       ("leading_comments", Field Optional ManyNodes (Some types_0));
       ("options", Field Required OneNode None);
       ("semicolon", Field Optional OneNode (Some types_3));
       ("set", Field Required OneNode None);
       ("trailing_comments", Field Optional ManyNodes (Some types_0));
       ("what", Field Required OneNode None)])
  (* types.rs:328-336 *)
  | N_AlterReservationStatement => Some (Declaration TokenRequired
      [("ident", Field Required OneNode None);
       ("leading_comments", Field Optional ManyNodes (Some types_0));
       ("options", Field Required OneNode None);
       ("semicolon", Field Optional OneNode (Some types_3));
       ("set", Field Required OneNode None);
       ("trailing_comments", Field Optional ManyNodes (Some types_0));
       ("what", Field Required OneNode None)])
  (* types.rs:338-350 *)
  | N_AlterSchemaStatement => Some (Declaration TokenRequired
      [("add", Field Optional OneNode None);
       ("default_collate", Field Optional OneNode None);
       ("drop", Field Optional OneNode None);
       ("ident", Field Required OneNode None);
       ("if_exists", Field Optional ManyNodes None);
       ("leading_comments", Field Optional ManyNodes (Some types_0));
       ("options", Field Optional OneNode None);
       ("semicolon", Field Optional OneNode (Some types_3));
       ("set", Field Optional OneNode None);
       ("trailing_comments", Field Optional ManyNodes (Some types_0));
       ("what", Field Required OneNode None)])
  (* types.rs:352-360 *)
  | N_AlterTableDropClause => Some (Declaration TokenOrNull
      [("comma", Field Optional OneNode None);
       ("ident", Field Optional OneNode None);
       ("if_exists", Field Optional ManyNodes None);
       ("leading_comments", Field Optional ManyNodes (Some types_0));
       ("trailing_comments", Field Optional ManyNodes (Some types_0));
       ("what", Field Required OneNode None)])
  (* types.rs:362-386 *)
  | N_AlterTableStatement => Some (Declaration TokenRequired
      [("add_columns", Field Optional ManyNodes None);
       ("add_constraints", Field Optional ManyNodes None);
       ("alter_column_stmt", Field Optional OneNode None);
       ("default_collate", Field Optional OneNode None);
       ("drop_columns", Field Optional ManyNodes None);
       ("ident", Field Required OneNode None);
       ("if_exists", Field Optional ManyNodes None);
       ("leading_comments", Field Optional ManyNodes (Some types_0));
       ("options", Field Optional OneNode None);
       ("rename", Field Optional OneNode None);
       ("rename_columns", Field Optional ManyNodes None);
       ("semicolon", Field Optional OneNode (Some types_3));
       ("set", Field Optional OneNode None);
       ("to", Field Optional OneNode None);
       ("trailing_comments", Field Optional ManyNodes (Some types_0));
       ("what", Field Required OneNode None)])
  (* types.rs:388-397 *)
  | N_AlterVectorIndexStatement => Some (Declaration TokenRequired
      [("ident", Field Required OneNode None);
       ("if_exists", Field Optional ManyNodes None);
       ("leading_comments", Field Optional ManyNodes (Some types_0));
       ("on", Field Required OneNode None);
       ("operation", Field Required OneNode None);
       ("semicolon", Field Optional OneNode (Some types_3));
       ("trailing_comments", Field Optional ManyNodes (Some types_0));
       ("what", Field Required OneNode None)])
  (* types.rs:399-412 *)
  | N_AlterViewStatement => Some (Declaration TokenRequired
      [("alter_column_stmt", Field Optional OneNode None);
       ("ident", Field Required OneNode None);
       ("if_exists", Field Optional ManyNodes None);
       ("leading_comments", Field Optional ManyNodes (Some types_0));
       ("materialized", Field Optional OneNode None);
       ("options", Field Optional OneNode None);
       ("semicolon", Field Optional OneNode (Some types_3));
       ("set", Field Optional OneNode None);
       ("trailing_comments", Field Optional ManyNodes (Some types_0));
       ("what", Field Required OneNode None)])
  (* types.rs:424-431 *)
  | N_ArrayLiteral => Some (Declaration TokenRequired
      [("alias", Field Optional OneNode (Some types_2));
       ("as", Field Optional OneNode (Some types_1));
       ("comma", Field Optional OneNode None);
       ("exprs", Field Required ManyNodes None);
       ("leading_comments", Field Optional ManyNodes (Some types_0));
       ("null_order", Field Optional ManyNodes None);
       ("order", Field Optional OneNode None);
       ("rparen", Field Required OneNode None);
       ("trailing_comments", Field Optional ManyNodes (Some types_0));
       ("type", Field Optional OneNode None)])
  (* types.rs:433-440 *)
  | N_AssertStatement => Some (Declaration TokenRequired
      [("as", Field Required OneNode None);
       ("description", Field Required OneNode None);
       ("expr", Field Required OneNode None);
       ("leading_comments", Field Optional ManyNodes (Some types_0));
       ("semicolon", Field Optional OneNode (Some types_3));
       ("trailing_comments", Field Optional ManyNodes (Some types_0))])
  (* types.rs:442-450 *)
  | N_Asterisk => Some (Declaration TokenRequired
      [("alias", Field Optional OneNode (Some types_2));
       ("as", Field Optional OneNode (Some types_1));
       ("comma", Field Optional OneNode None);
       ("except", Field Optional OneNode None);
       ("leading_comments", Field Optional ManyNodes (Some types_0));
       ("null_order", Field Forbidden OneNode None);
       ("order", Field Forbidden OneNode None);
       ("replace", Field Optional OneNode None);
       ("trailing_comments", Field Optional ManyNodes (Some types_0))])
  (* types.rs:452-454 *)
  | N_BasePipeOperator => Some (Declaration TokenOrNull
      [("exprs", Field Optional ManyNodes None);
       ("keywords", Field Optional OneNode None);
       ("leading_comments", Field Optional ManyNodes (Some types_0));
       ("trailing_comments", Field Optional ManyNodes (Some types_0))])
  (* types.rs:466-474 *)
  | N_BeginStatement => Some (Declaration TokenRequired
      [("colon", Field Optional OneNode None);
       ("end", Field Required OneNode None);
       ("exception_when_error", Field Optional ManyNodes None);
       ("leading_comments", Field Optional ManyNodes (Some types_0));
       ("leading_label", Field Optional OneNode None);
       ("semicolon", Field Optional OneNode (Some types_3));
       ("stmts", Field Optional ManyNodes None);
       ("then", Field Optional OneNode None);
       ("trailing_comments", Field Optional ManyNodes (Some types_0));
       ("trailing_label", Field Optional OneNode None)])
  (* types.rs:476-485 *)
  | N_BetweenOperator => Some (Declaration TokenRequired
      [("alias", Field Optional OneNode (Some types_2));
       ("and", Field Required OneNode None);
       ("as", Field Optional OneNode (Some types_1));
       ("comma", Field Optional OneNode None);
       ("leading_comments", Field Optional ManyNodes (Some types_0));
       ("left", Field Required OneNode None);
       ("not", Field Optional OneNode None);
       ("null_order", Field Optional ManyNodes None);
       ("order", Field Optional OneNode None);
       ("right_max", Field Required OneNode None);
       ("right_min", Field Required OneNode None);
       ("trailing_comments", Field Optional ManyNodes (Some types_0))])
  (* types.rs:456-464 *)
  | N_BinaryOperator => Some (Declaration TokenRequired
      [("alias", Field Optional OneNode (Some types_2));
       ("as", Field Optional OneNode (Some types_1));
       ("comma", Field Optional OneNode None);
       ("leading_comments", Field Optional ManyNodes (Some types_0));
       ("left", Field Required OneNode (Some types_4));
       ("not", Field Optional OneNode None);
       ("null_order", Field Optional ManyNodes None);
       ("order", Field Optional OneNode None);
       ("quantifier", Field Optional OneNode None);
       ("right", Field Required OneNode (Some types_4));
       ("trailing_comments", Field Optional ManyNodes (Some types_0))])
  (* types.rs:487-489 *)
  | N_BooleanLiteral => Some (Declaration TokenRequired
      [("alias", Field Optional OneNode (Some types_2));
       ("as", Field Optional OneNode (Some types_1));
       ("comma", Field Optional OneNode None);
       ("leading_comments", Field Optional ManyNodes (Some types_0));
       ("null_order", Field Optional ManyNodes None);
       ("order", Field Optional OneNode None);
       ("trailing_comments", Field Optional ManyNodes (Some types_0))])
  (* types.rs:491-496 *)
  | N_BreakContinueStatement => Some (Declaration TokenRequired
      [("label", Field Optional OneNode None);
       ("leading_comments", Field Optional ManyNodes (Some types_0));
       ("semicolon", Field Optional OneNode (Some types_3));
       ("trailing_comments", Field Optional ManyNodes (Some types_0))])
  (* types.rs:534-539 *)
  | N_CallStatement => Some (Declaration TokenRequired
      [("leading_comments", Field Optional ManyNodes (Some types_0));
       ("procedure", Field Required OneNode None);
       ("semicolon", Field Optional OneNode (Some types_3));
       ("trailing_comments", Field Optional ManyNodes (Some types_0))])
  (* types.rs:498-500 *)
  | N_CallingFunction => Some (Declaration TokenRequired
      [("alias", Field Optional OneNode (Some types_2));
       ("args", Field Optional ManyNodes (Some types_6));
       ("as", Field Optional OneNode (Some types_1));
       ("comma", Field Optional OneNode None);
       ("distinct", Field Optional OneNode None);
       ("func", Field Required OneNode (Some types_5));
       ("having", Field Optional OneNode None);
       ("ignore_nulls", Field Optional ManyNodes None);
       ("leading_comments", Field Optional ManyNodes (Some types_0));
       ("limit", Field Optional OneNode None);
       ("null_order", Field Optional ManyNodes None);
       ("order", Field Optional OneNode None);
       ("orderby", Field Optional OneNode None);
       ("over", Field Optional OneNode None);
       ("rparen", Field Required OneNode None);
       ("trailing_comments", Field Optional ManyNodes (Some types_0))])
  (* types.rs:502-516 *)
  | N_CallingTableFunction => Some (Declaration TokenRequired
      [("alias", Field Optional OneNode (Some types_2));
       ("args", Field Optional ManyNodes (Some types_6));
       ("as", Field Optional OneNode (Some types_1));
       ("comma", Field Forbidden OneNode None);
       ("distinct", Field Forbidden OneNode None);
       ("func", Field Required OneNode (Some types_5));
       ("having", Field Forbidden OneNode None);
       ("ignore_nulls", Field Forbidden OneNode None);
       ("leading_comments", Field Optional ManyNodes (Some types_0));
       ("limit", Field Forbidden OneNode None);
       ("match_recognize", Field Optional OneNode None);
       ("null_order", Field Forbidden OneNode None);
       ("order", Field Forbidden OneNode None);
       ("orderby", Field Forbidden OneNode None);
       ("over", Field Forbidden OneNode None);
       ("pivot", Field Optional OneNode None);
       ("rparen", Field Required OneNode None);
       ("trailing_comments", Field Optional ManyNodes (Some types_0));
       ("unpivot", Field Optional OneNode None);
       ("with_offset", Field Required OneNode None)])
  (* types.rs:518-532 *)
  | N_CallingUnnest => Some (Declaration TokenRequired
      [("alias", Field Optional OneNode (Some types_2));
       ("args", Field Optional ManyNodes (Some types_6));
       ("as", Field Optional OneNode (Some types_1));
       ("comma", Field Forbidden OneNode None);
       ("distinct", Field Forbidden OneNode None);
       ("func", Field Required OneNode (Some types_5));
       ("having", Field Forbidden OneNode None);
       ("ignore_nulls", Field Forbidden OneNode None);
       ("leading_comments", Field Optional ManyNodes (Some types_0));
       ("limit", Field Forbidden OneNode None);
       ("match_recognize", Field Optional OneNode None);
       ("null_order", Field Forbidden OneNode None);
       ("order", Field Forbidden OneNode None);
       ("orderby", Field Forbidden OneNode None);
       ("over", Field Forbidden OneNode None);
       ("pivot", Field Optional OneNode None);
       ("rparen", Field Required OneNode None);
       ("trailing_comments", Field Optional ManyNodes (Some types_0));
       ("unpivot", Field Optional OneNode None);
       ("with_offset", Field Required OneNode None)])
  (* types.rs:541-548 *)
  | N_CaseExpr => Some (Declaration TokenRequired
      [("alias", Field Optional OneNode (Some types_2));
       ("arms", Field Required ManyNodes None);
       ("as", Field Optional OneNode (Some types_1));
       ("comma", Field Optional OneNode None);
       ("end", Field Required OneNode None);
       ("expr", Field Optional OneNode None);
       ("leading_comments", Field Optional ManyNodes (Some types_0));
       ("null_order", Field Optional ManyNodes None);
       ("order", Field Optional OneNode None);
       ("trailing_comments", Field Optional ManyNodes (Some types_0))])
  (* types.rs:550-557 *)
  | N_CaseExprArm => Some (Declaration TokenOrNull
      [("expr", Field Optional OneNode None);
       ("leading_comments", Field Optional ManyNodes (Some types_0));
       ("result", Field Required OneNode None);
       ("then", Field Optional OneNode None);
       ("trailing_comments", Field Optional ManyNodes (Some types_0))])
  (* types.rs:559-566 *)
  | N_CaseStatement => Some (Declaration TokenRequired
      [("arms", Field Required ManyNodes None);
       ("end_case", Field Required ManyNodes None);
       ("expr", Field Optional OneNode None);
       ("leading_comments", Field Optional ManyNodes (Some types_0));
       ("semicolon", Field Optional OneNode (Some types_3));
       ("trailing_comments", Field Optional ManyNodes (Some types_0))])
  (* types.rs:568-575 *)
  | N_CaseStatementArm => Some (Declaration TokenOrNull
      [("expr", Field Optional OneNode None);
       ("leading_comments", Field Optional ManyNodes (Some types_0));
       ("stmts", Field Required ManyNodes None);
       ("then", Field Optional OneNode None);
       ("trailing_comments", Field Optional ManyNodes (Some types_0))])
  (* types.rs:577-585 *)
  | N_CastArgument => Some (Declaration TokenRequired
      [("cast_from", Field Required OneNode None);
       ("cast_to", Field Required OneNode None);
       ("format", Field Optional OneNode None);
       ("leading_comments", Field Optional ManyNodes (Some types_0));
       ("trailing_comments", Field Optional ManyNodes (Some types_0))])
  (* types.rs:587-594 *)
  | N_Comment => Some (Declaration TokenRequired
      [("leading_comments", Field Forbidden OneNode None);
       ("trailing_comments", Field Forbidden OneNode None)])
  (* types.rs:596-609 *)
  | N_Constraint => Some (Declaration TokenRequired
      [("columns", Field Optional OneNode None);
       ("comma", Field Optional OneNode None);
       ("constraint", Field Optional OneNode None);
       ("enforced", Field Optional OneNode None);
       ("ident", Field Optional OneNode None);
       ("if_not_exists", Field Optional ManyNodes None);
       ("key", Field Required OneNode None);
       ("leading_comments", Field Optional ManyNodes (Some types_0));
       ("references", Field Optional OneNode None);
       ("trailing_comments", Field Optional ManyNodes (Some types_0))])
  (* types.rs:611-630 *)
  | N_CreateFunctionStatement => Some (Declaration TokenRequired
      [("aggregate", Field Optional OneNode None);
       ("as", Field Optional OneNode None);
       ("connection", Field Optional OneNode None);
       ("determinism", Field Optional ManyNodes None);
       ("group", Field Required OneNode None);
       ("ident", Field Required OneNode None);
       ("if_not_exists", Field Optional ManyNodes None);
       ("language", Field Optional OneNode None);
       ("leading_comments", Field Optional ManyNodes (Some types_0));
       ("options", Field Optional OneNode None);
       ("or_replace", Field Optional ManyNodes None);
       ("remote", Field Optional OneNode None);
       ("returns", Field Optional OneNode None);
       ("semicolon", Field Optional OneNode (Some types_3));
       ("table", Field Optional OneNode None);
       ("temp", Field Optional OneNode None);
       ("trailing_comments", Field Optional ManyNodes (Some types_0));
       ("what", Field Required OneNode None)])
  (* types.rs:706-720 *)
  | N_CreateIndexStatement => Some (Declaration TokenRequired
      [("column_group", Field Required OneNode None);
       ("ident", Field Required OneNode None);
       ("if_not_exists", Field Optional ManyNodes None);
       ("leading_comments", Field Optional ManyNodes (Some types_0));
       ("on", Field Required OneNode None);
       ("options", Field Optional OneNode None);
       ("or_replace", Field Optional ManyNodes None);
       ("partitionby", Field Optional OneNode None);
       ("semicolon", Field Optional OneNode (Some types_3));
       ("storing", Field Optional OneNode None);
       ("tablename", Field Required OneNode None);
       ("trailing_comments", Field Optional ManyNodes (Some types_0));
       ("what", Field Required OneNode None)])
  (* types.rs:632-647 *)
  | N_CreateModelStatement => Some (Declaration TokenRequired
      [("ident", Field Required OneNode None);
       ("if_not_exists", Field Optional ManyNodes None);
       ("input", Field Optional OneNode None);
       ("leading_comments", Field Optional ManyNodes (Some types_0));
       ("options", Field Optional OneNode None);
       ("or_replace", Field Optional ManyNodes None);
       ("output", Field Optional OneNode None);
       ("query", Field Optional OneNode None);
       ("remote", Field Optional OneNode None);
       ("semicolon", Field Optional OneNode (Some types_3));
       ("trailing_comments", Field Optional ManyNodes (Some types_0));
       ("training_data_custom_holiday", Field Optional OneNode None);
       ("transform", Field Optional OneNode None);
       ("what", Field Required OneNode None)])
  (* types.rs:649-664 *)
  | N_CreateProcedureStatement => Some (Declaration TokenRequired
      [("as", Field Optional OneNode None);
       ("external", Field Optional OneNode None);
       ("group", Field Required OneNode None);
       ("ident", Field Required OneNode None);
       ("if_not_exists", Field Optional ManyNodes None);
       ("language", Field Optional OneNode None);
       ("leading_comments", Field Optional ManyNodes (Some types_0));
       ("options", Field Optional OneNode None);
       ("or_replace", Field Optional ManyNodes None);
       ("semicolon", Field Optional OneNode (Some types_3));
       ("stmt", Field Optional OneNode None);
       ("trailing_comments", Field Optional ManyNodes (Some types_0));
       ("what", Field Required OneNode None);
       ("with_connection", Field Optional OneNode None)])
  (* types.rs:666-676 *)
  | N_CreateReservationStatement => Some (Declaration TokenRequired
      [("as", Field Optional OneNode None);
       ("ident", Field Required OneNode None);
       ("json", Field Optional OneNode None);
       ("json_string", Field Optional OneNode None);
       ("leading_comments", Field Optional ManyNodes (Some types_0));
       ("options", Field Optional OneNode None);
       ("semicolon", Field Optional OneNode (Some types_3));
       ("trailing_comments", Field Optional ManyNodes (Some types_0));
       ("what", Field Required OneNode None)])
  (* types.rs:678-691 *)
  | N_CreateRowAccessPolicyStatement => Some (Declaration TokenRequired
      [("filter", Field Required OneNode None);
       ("grant", Field Optional OneNode None);
       ("ident", Field Required OneNode None);
       ("if_not_exists", Field Optional ManyNodes None);
       ("leading_comments", Field Optional ManyNodes (Some types_0));
       ("on", Field Required OneNode None);
       ("or_replace", Field Optional ManyNodes None);
       ("semicolon", Field Optional OneNode (Some types_3));
       ("to", Field Optional OneNode None);
       ("trailing_comments", Field Optional ManyNodes (Some types_0));
       ("using", Field Required OneNode None);
       ("what", Field Required ManyNodes None)])
  (* types.rs:693-704 *)
  | N_CreateSchemaStatement => Some (Declaration TokenRequired
      [("default_collate", Field Required OneNode None);
       ("external", Field Optional OneNode None);
       ("ident", Field Required OneNode None);
       ("if_not_exists", Field Optional ManyNodes None);
       ("leading_comments", Field Optional ManyNodes (Some types_0));
       ("options", Field Optional OneNode None);
       ("semicolon", Field Optional OneNode (Some types_3));
       ("trailing_comments", Field Optional ManyNodes (Some types_0));
       ("what", Field Required OneNode None);
       ("with_connection", Field Optional OneNode None)])
  (* types.rs:722-744 *)
  | N_CreateTableStatement => Some (Declaration TokenRequired
      [("as", Field Optional OneNode None);
       ("clone", Field Optional OneNode None);
       ("clusterby", Field Optional OneNode None);
       ("column_schema_group", Field Optional OneNode None);
       ("default_collate", Field Optional OneNode None);
       ("external", Field Optional OneNode None);
       ("ident", Field Required OneNode None);
       ("if_not_exists", Field Optional ManyNodes None);
       ("leading_comments", Field Optional ManyNodes (Some types_0));
       ("like_or_copy", Field Required OneNode None);
       ("options", Field Optional OneNode None);
       ("or_replace", Field Optional ManyNodes None);
       ("partitionby", Field Optional OneNode None);
       ("semicolon", Field Optional OneNode (Some types_3));
       ("snapshot", Field Optional OneNode None);
       ("source_table", Field Required OneNode None);
       ("temp", Field Optional OneNode None);
       ("trailing_comments", Field Optional ManyNodes (Some types_0));
       ("what", Field Required OneNode None);
       ("with_connection", Field Optional OneNode None);
       ("with_partition_columns", Field Optional OneNode None)])
  (* types.rs:746-760 *)
  | N_CreateViewStatement => Some (Declaration TokenRequired
      [("as", Field Required OneNode None);
       ("clusterby", Field Optional OneNode None);
       ("column_name_list", Field Optional OneNode None);
       ("ident", Field Required OneNode None);
       ("if_not_exists", Field Optional ManyNodes None);
       ("leading_comments", Field Optional ManyNodes (Some types_0));
       ("materialized", Field Optional OneNode None);
       ("options", Field Optional OneNode None);
       ("or_replace", Field Optional ManyNodes None);
       ("partitionby", Field Optional OneNode None);
       ("semicolon", Field Optional OneNode (Some types_3));
       ("trailing_comments", Field Optional ManyNodes (Some types_0));
       ("what", Field Required OneNode None)])
  (* types.rs:762-769 *)
  | N_DeclareStatement => Some (Declaration TokenRequired
      [("default", Field Optional OneNode None);
       ("idents", Field Required ManyNodes None);
       ("leading_comments", Field Optional ManyNodes (Some types_0));
       ("semicolon", Field Optional OneNode (Some types_3));
       ("trailing_comments", Field Optional ManyNodes (Some types_0));
       ("variable_type", Field Optional OneNode None)])
  (* types.rs:771-778 *)
  | N_DeleteStatement => Some (Declaration TokenRequired
      [("from", Field Required OneNode None);
       ("leading_comments", Field Optional ManyNodes (Some types_0));
       ("semicolon", Field Optional OneNode (Some types_3));
       ("table_name", Field Required OneNode None);
       ("trailing_comments", Field Optional ManyNodes (Some types_0));
       ("where", Field Required OneNode None)])
  (* types.rs:780-787 *)
  | N_DifferentialPrivacyClause => Some (Declaration TokenRequired
      [("differential_privacy", Field Required OneNode None);
       ("leading_comments", Field Optional ManyNodes (Some types_0));
       ("options", Field Optional OneNode None);
       ("trailing_comments", Field Optional ManyNodes (Some types_0))])
  (* types.rs:789-795 *)
  | N_DotOperator => Some (Declaration TokenRequired
      [("alias", Field Optional OneNode (Some types_2));
       ("as", Field Optional OneNode (Some types_1));
       ("comma", Field Optional OneNode None);
       ("for_system_time_as_of", Field Optional OneNode None);
       ("leading_comments", Field Optional ManyNodes (Some types_0));
       ("left", Field Required OneNode (Some types_5));
       ("match_recognize", Field Optional OneNode None);
       ("null_order", Field Optional ManyNodes None);
       ("order", Field Optional OneNode None);
       ("pivot", Field Optional OneNode None);
       ("right", Field Required OneNode (Some types_5));
       ("tablesample", Field Optional OneNode None);
       ("trailing_comments", Field Optional ManyNodes (Some types_0));
       ("unpivot", Field Optional OneNode None);
       ("with_offset", Field Required OneNode None)])
  (* types.rs:797-805 *)
  | N_DropRowAccessPolicyStatement => Some (Declaration TokenRequired
      [("ident", Field Optional OneNode None);
       ("if_exists", Field Optional ManyNodes None);
       ("leading_comments", Field Optional ManyNodes (Some types_0));
       ("on", Field Required OneNode None);
       ("semicolon", Field Optional OneNode (Some types_3));
       ("trailing_comments", Field Optional ManyNodes (Some types_0));
       ("what", Field Required ManyNodes None)])
  (* types.rs:807-819 *)
  | N_DropStatement => Some (Declaration TokenRequired
      [("cascade_or_restrict", Field Optional OneNode None);
       ("external", Field Optional OneNode None);
       ("ident", Field Required OneNode None);
       ("if_exists", Field Optional ManyNodes None);
       ("leading_comments", Field Optional ManyNodes (Some types_0));
       ("materialized", Field Optional OneNode None);
       ("on", Field Optional OneNode None);
       ("semicolon", Field Optional OneNode (Some types_3));
       ("table", Field Optional OneNode None);
       ("trailing_comments", Field Optional ManyNodes (Some types_0));
       ("what", Field Required OneNode None)])
  (* types.rs:837-843 *)
  | N_EOF => Some (Declaration TokenNull
      [("leading_comments", Field Optional ManyNodes (Some types_0));
       ("trailing_comments", Field Forbidden OneNode None)])
  (* types.rs:821-828 *)
  | N_ElseIfClause => Some (Declaration TokenRequired
      [("condition", Field Required OneNode None);
       ("leading_comments", Field Optional ManyNodes (Some types_0));
       ("then", Field Required OneNode None);
       ("trailing_comments", Field Optional ManyNodes (Some types_0))])
  (* types.rs:830-835 *)
  | N_EmptyStruct => Some (Declaration TokenRequired
      [("alias", Field Optional OneNode (Some types_2));
       ("as", Field Optional OneNode (Some types_1));
       ("comma", Field Optional OneNode None);
       ("leading_comments", Field Optional ManyNodes (Some types_0));
       ("null_order", Field Optional ManyNodes None);
       ("order", Field Optional OneNode None);
       ("rparen", Field Required OneNode None);
       ("trailing_comments", Field Optional ManyNodes (Some types_0))])
  (* types.rs:845-853 *)
  | N_ExecuteStatement => Some (Declaration TokenRequired
      [("immediate", Field Required OneNode None);
       ("into", Field Required OneNode None);
       ("leading_comments", Field Optional ManyNodes (Some types_0));
       ("semicolon", Field Optional OneNode (Some types_3));
       ("sql_expr", Field Required OneNode None);
       ("trailing_comments", Field Optional ManyNodes (Some types_0));
       ("using", Field Optional OneNode None)])
  (* types.rs:855-863 *)
  | N_ExportDataStatement => Some (Declaration TokenRequired
      [("as", Field Required OneNode None);
       ("data", Field Required OneNode None);
       ("leading_comments", Field Optional ManyNodes (Some types_0));
       ("options", Field Required OneNode None);
       ("semicolon", Field Optional OneNode (Some types_3));
       ("trailing_comments", Field Optional ManyNodes (Some types_0));
       ("with_connection", Field Optional OneNode None)])
  (* types.rs:865-872 *)
  | N_ExportModelStatement => Some (Declaration TokenRequired
      [("ident", Field Required OneNode None);
       ("leading_comments", Field Optional ManyNodes (Some types_0));
       ("options", Field Optional OneNode None);
       ("semicolon", Field Optional OneNode (Some types_3));
       ("trailing_comments", Field Optional ManyNodes (Some types_0));
       ("what", Field Required OneNode None)])
  (* types.rs:874-883 *)
  | N_ExtractArgument => Some (Declaration TokenRequired
      [("at_time_zone", Field Required ManyNodes None);
       ("extract_datepart", Field Required OneNode None);
       ("extract_from", Field Required OneNode None);
       ("leading_comments", Field Optional ManyNodes (Some types_0));
       ("time_zone", Field Required OneNode None);
       ("trailing_comments", Field Optional ManyNodes (Some types_0))])
  (* types.rs:885-893 *)
  | N_ForStatement => Some (Declaration TokenRequired
      [("colon", Field Optional OneNode None);
       ("do", Field Required OneNode None);
       ("end_for", Field Required ManyNodes None);
       ("ident", Field Required OneNode None);
       ("in", Field Required OneNode None);
       ("leading_comments", Field Optional ManyNodes (Some types_0));
       ("leading_label", Field Optional OneNode None);
       ("semicolon", Field Optional OneNode (Some types_3));
       ("trailing_comments", Field Optional ManyNodes (Some types_0));
       ("trailing_label", Field Optional OneNode None)])
  (* types.rs:895-902 *)
  | N_ForSystemTimeAsOfClause => Some (Declaration TokenRequired
      [("expr", Field Required OneNode None);
       ("leading_comments", Field Optional ManyNodes (Some types_0));
       ("system_time_as_of", Field Required ManyNodes None);
       ("trailing_comments", Field Optional ManyNodes (Some types_0))])
  (* types.rs:904-910 *)
  | N_FromStatement => Some (Declaration TokenRequired
      [("expr", Field Required OneNode None);
       ("leading_comments", Field Optional ManyNodes (Some types_0));
       ("semicolon", Field Optional OneNode (Some types_3));
       ("trailing_comments", Field Optional ManyNodes (Some types_0));
       ("with", Field Required OneNode None)])
  (* types.rs:912-918 *)
  | N_FunctionChain => Some (Declaration TokenRequired
      [("alias", Field Optional OneNode (Some types_2));
       ("as", Field Optional OneNode (Some types_1));
       ("comma", Field Optional OneNode None);
       ("leading_comments", Field Optional ManyNodes (Some types_0));
       ("left", Field Required OneNode None);
       ("match_recognize", Field Optional OneNode None);
       ("null_order", Field Optional ManyNodes None);
       ("order", Field Optional OneNode None);
       ("pivot", Field Optional OneNode None);
       ("right", Field Required OneNode None);
       ("trailing_comments", Field Optional ManyNodes (Some types_0));
       ("unpivot", Field Optional OneNode None);
       ("with_offset", Field Required OneNode None)])
  (* types.rs:920-929 *)
  | N_GrantStatement => Some (Declaration TokenRequired
      [("ident", Field Required OneNode None);
       ("leading_comments", Field Optional ManyNodes (Some types_0));
       ("on", Field Required OneNode None);
       ("resource_type", Field Required OneNode None);
       ("roles", Field Required ManyNodes None);
       ("semicolon", Field Optional OneNode (Some types_3));
       ("to", Field Required OneNode None);
       ("trailing_comments", Field Optional ManyNodes (Some types_0))])
  (* types.rs:931-939 *)
  | N_GroupByExprs => Some (Declaration TokenRequired
      [("by", Field Required OneNode None);
       ("exprs", Field Optional ManyNodes (Some types_4));
       ("how", Field Optional ManyNodes None);
       ("leading_comments", Field Optional ManyNodes (Some types_0));
       ("trailing_comments", Field Optional ManyNodes (Some types_0))])
  (* types.rs:941-947 *)
  | N_GroupedExpr => Some (Declaration TokenRequired
      [("alias", Field Optional OneNode (Some types_2));
       ("as", Field Optional OneNode (Some types_1));
       ("comma", Field Optional OneNode None);
       ("expr", Field Required OneNode None);
       ("leading_comments", Field Optional ManyNodes (Some types_0));
       ("match_recognize", Field Optional OneNode None);
       ("null_order", Field Optional ManyNodes None);
       ("order", Field Optional OneNode None);
       ("pivot", Field Optional OneNode None);
       ("rparen", Field Required OneNode None);
       ("trailing_comments", Field Optional ManyNodes (Some types_0));
       ("unpivot", Field Optional OneNode None);
       ("with_offset", Field Required OneNode None)])
  (* types.rs:949-961 *)
  | N_GroupedExprs => Some (Declaration TokenRequired
      [("as", Field Optional OneNode None);
       ("comma", Field Optional OneNode None);
       ("exprs", Field Optional ManyNodes None);
       ("leading_comments", Field Optional ManyNodes (Some types_0));
       ("row_value_alias", Field Optional OneNode None);
       ("rparen", Field Required OneNode None);
       ("trailing_comments", Field Optional ManyNodes (Some types_0))])
  (* types.rs:963-970 *)
  | N_GroupedIdentWithOptions => Some (Declaration TokenRequired
      [("idents", Field Required ManyNodes None);
       ("leading_comments", Field Optional ManyNodes (Some types_0));
       ("rparen", Field Required OneNode None);
       ("trailing_comments", Field Optional ManyNodes (Some types_0))])
  (* types.rs:972-980 *)
  | N_GroupedPattern => Some (Declaration TokenRequired
      [("leading_comments", Field Optional ManyNodes (Some types_0));
       ("patterns", Field Required ManyNodes None);
       ("rparen", Field Required OneNode None);
       ("suffixes", Field Required ManyNodes None);
       ("trailing_comments", Field Optional ManyNodes (Some types_0))])
  (* types.rs:982-992 *)
  | N_GroupedStatement => Some (Declaration TokenRequired
      [("alias", Field Optional OneNode (Some types_2));
       ("as", Field Optional OneNode (Some types_1));
       ("comma", Field Optional OneNode None);
       ("leading_comments", Field Optional ManyNodes (Some types_0));
       ("limit", Field Required OneNode None);
       ("match_recognize", Field Optional OneNode None);
       ("null_order", Field Optional ManyNodes None);
       ("order", Field Optional OneNode None);
       ("orderby", Field Required OneNode None);
       ("pivot", Field Optional OneNode None);
       ("rparen", Field Required OneNode None);
       ("semicolon", Field Optional OneNode (Some types_3));
       ("stmt", Field Required OneNode None);
       ("trailing_comments", Field Optional ManyNodes (Some types_0));
       ("unpivot", Field Optional OneNode None);
       ("with", Field Optional OneNode (Some types_7));
       ("with_offset", Field Required OneNode None)])
  (* types.rs:1002-1008 *)
  | N_GroupedType => Some (Declaration TokenOrNull
      [("leading_comments", Field Optional ManyNodes (Some types_0));
       ("rparen", Field Required OneNode None);
       ("trailing_comments", Field Optional ManyNodes (Some types_0));
       ("type", Field Required OneNode None)])
  (* types.rs:994-1000 *)
  | N_GroupedTypeDeclarationOrConstraints => Some (Declaration TokenOrNull
      [("declarations", Field Required ManyNodes None);
       ("leading_comments", Field Optional ManyNodes (Some types_0));
       ("rparen", Field Required OneNode None);
       ("trailing_comments", Field Optional ManyNodes (Some types_0))])
  (* types.rs:1014-1023 *)
  | N_IdentWithOptions => Some (Declaration TokenRequired
      [("alias", Field Forbidden OneNode None);
       ("as", Field Forbidden OneNode None);
       ("comma", Field Optional OneNode None);
       ("leading_comments", Field Optional ManyNodes (Some types_0));
       ("null_order", Field Forbidden OneNode None);
       ("options", Field Optional OneNode None);
       ("order", Field Forbidden OneNode None);
       ("trailing_comments", Field Optional ManyNodes (Some types_0))])
  (* types.rs:1010-1012 *)
  | N_Identifier => Some (Declaration TokenRequired
      [("alias", Field Optional OneNode (Some types_2));
       ("as", Field Optional OneNode (Some types_1));
       ("comma", Field Optional OneNode None);
       ("for_system_time_as_of", Field Optional OneNode None);
       ("leading_comments", Field Optional ManyNodes (Some types_0));
       ("match_recognize", Field Optional OneNode None);
       ("null_order", Field Optional ManyNodes None);
       ("order", Field Optional OneNode None);
       ("pivot", Field Optional OneNode None);
       ("tablesample", Field Optional OneNode None);
       ("trailing_comments", Field Optional ManyNodes (Some types_0));
       ("unpivot", Field Optional OneNode None);
       ("with_offset", Field Required OneNode None)])
  (* types.rs:1025-1034 *)
  | N_IfStatement => Some (Declaration TokenRequired
      [("condition", Field Required OneNode None);
       ("else", Field Required OneNode None);
       ("elseifs", Field Required ManyNodes None);
       ("end_if", Field Required ManyNodes None);
       ("leading_comments", Field Optional ManyNodes (Some types_0));
       ("semicolon", Field Optional OneNode (Some types_3));
       ("then", Field Required OneNode None);
       ("trailing_comments", Field Optional ManyNodes (Some types_0))])
  (* types.rs:1036-1043 *)
  | N_InOperator => Some (Declaration TokenRequired
      [("alias", Field Optional OneNode (Some types_2));
       ("as", Field Optional OneNode (Some types_1));
       ("comma", Field Optional OneNode None);
       ("leading_comments", Field Optional ManyNodes (Some types_0));
       ("left", Field Required OneNode None);
       ("not", Field Optional OneNode None);
       ("null_order", Field Optional ManyNodes None);
       ("order", Field Optional OneNode None);
       ("right", Field Required OneNode None);
       ("trailing_comments", Field Optional ManyNodes (Some types_0))])
  (* types.rs:1045-1053 *)
  | N_InsertStatement => Some (Declaration TokenRequired
      [("columns", Field Optional OneNode None);
       ("input", Field Required OneNode None);
       ("into", Field Optional OneNode None);
       ("leading_comments", Field Optional ManyNodes (Some types_0));
       ("semicolon", Field Optional OneNode (Some types_3));
       ("target_name", Field Optional OneNode None);
       ("trailing_comments", Field Optional ManyNodes (Some types_0))])
  (* types.rs:1055-1065 *)
  | N_IntervalLiteral => Some (Declaration TokenRequired
      [("alias", Field Optional OneNode (Some types_2));
       ("as", Field Optional OneNode (Some types_1));
       ("comma", Field Optional OneNode None);
       ("date_part", Field Required OneNode None);
       ("expr", Field Required OneNode None);
       ("leading_comments", Field Optional ManyNodes (Some types_0));
       ("null_order", Field Forbidden OneNode None);
       ("order", Field Forbidden OneNode None);
       ("to", Field Optional OneNode None);
       ("to_date_part", Field Optional OneNode None);
       ("trailing_comments", Field Optional ManyNodes (Some types_0))])
  (* types.rs:1067-1076 *)
  | N_IsDistinctFromOperator => Some (Declaration TokenRequired
      [("alias", Field Optional OneNode (Some types_2));
       ("as", Field Optional OneNode (Some types_1));
       ("comma", Field Optional OneNode None);
       ("distinct", Field Required OneNode None);
       ("from", Field Required OneNode None);
       ("leading_comments", Field Optional ManyNodes (Some types_0));
       ("left", Field Required OneNode None);
       ("not", Field Optional OneNode None);
       ("null_order", Field Optional ManyNodes None);
       ("order", Field Optional OneNode None);
       ("right", Field Required OneNode None);
       ("trailing_comments", Field Optional ManyNodes (Some types_0))])
  (* types.rs:1078-1091 *)
  | N_JoinOperator => Some (Declaration TokenRequired
      [("alias", Field Optional OneNode (Some types_2));
       ("as", Field Optional OneNode (Some types_1));
       ("comma", Field Forbidden OneNode None);
       ("join_type", Field Required OneNode None);
       ("leading_comments", Field Optional ManyNodes (Some types_0));
       ("left", Field Required OneNode None);
       ("match_recognize", Field Optional OneNode None);
       ("null_order", Field Forbidden OneNode None);
       ("on", Field Required OneNode None);
       ("order", Field Forbidden OneNode None);
       ("outer", Field Required OneNode None);
       ("pivot", Field Optional OneNode None);
       ("right", Field Required OneNode None);
       ("trailing_comments", Field Optional ManyNodes (Some types_0));
       ("unpivot", Field Optional OneNode None);
       ("using", Field Required OneNode None);
       ("with_offset", Field Required OneNode None)])
  (* types.rs:1093-1100 *)
  | N_JoinPipeOperator => Some (Declaration TokenOrNull
      [("exprs", Field Optional ManyNodes None);
       ("keywords", Field Optional OneNode None);
       ("leading_comments", Field Optional ManyNodes (Some types_0));
       ("method", Field Optional OneNode None);
       ("on", Field Optional OneNode None);
       ("trailing_comments", Field Optional ManyNodes (Some types_0));
       ("using", Field Optional OneNode None)])
  (* types.rs:1102-1105 *)
  | N_Keyword => Some (Declaration TokenRequired
      [("leading_comments", Field Optional ManyNodes (Some types_0));
       ("trailing_comments", Field Optional ManyNodes (Some types_0))])
  (* types.rs:1107-1112 *)
  | N_KeywordSequence => Some (Declaration TokenOrNull
      [("leading_comments", Field Optional ManyNodes (Some types_0));
       ("next_keyword", Field Required OneNode (Some types_8));
       ("trailing_comments", Field Optional ManyNodes (Some types_0))])
  (* types.rs:1114-1119 *)
  | N_KeywordWithExpr => Some (Declaration TokenOrNull
      [("expr", Field Required OneNode None);
       ("leading_comments", Field Optional ManyNodes (Some types_0));
       ("trailing_comments", Field Optional ManyNodes (Some types_0))])
  (* types.rs:1121-1126 *)
  | N_KeywordWithExprs => Some (Declaration TokenOrNull
      [("exprs", Field Required ManyNodes None);
       ("leading_comments", Field Optional ManyNodes (Some types_0));
       ("trailing_comments", Field Optional ManyNodes (Some types_0))])
  (* types.rs:1128-1133 *)
  | N_KeywordWithGroupedXXX => Some (Declaration TokenOrNull
      [("group", Field Required OneNode None);
       ("leading_comments", Field Optional ManyNodes (Some types_0));
       ("trailing_comments", Field Optional ManyNodes (Some types_0))])
  (* types.rs:1135-1140 *)
  | N_KeywordWithStatement => Some (Declaration TokenOrNull
      [("leading_comments", Field Optional ManyNodes (Some types_0));
       ("stmt", Field Required OneNode None);
       ("trailing_comments", Field Optional ManyNodes (Some types_0))])
  (* types.rs:1142-1147 *)
  | N_KeywordWithStatements => Some (Declaration TokenOrNull
      [("leading_comments", Field Optional ManyNodes (Some types_0));
       ("stmts", Field Required ManyNodes None);
       ("trailing_comments", Field Optional ManyNodes (Some types_0))])
  (* types.rs:1149-1154 *)
  | N_KeywordWithType => Some (Declaration TokenOrNull
      [("leading_comments", Field Optional ManyNodes (Some types_0));
       ("trailing_comments", Field Optional ManyNodes (Some types_0));
       ("type", Field Required OneNode None)])
  (* types.rs:1156-1162 *)
  | N_LimitClause => Some (Declaration TokenOrNull
      [("expr", Field Required OneNode None);
       ("leading_comments", Field Optional ManyNodes (Some types_0));
       ("offset", Field Optional OneNode None);
       ("trailing_comments", Field Optional ManyNodes (Some types_0))])
  (* types.rs:1164-1169 *)
  | N_LimitPipeOperator => Some (Declaration TokenOrNull
      [("exprs", Field Optional ManyNodes None);
       ("keywords", Field Optional OneNode None);
       ("leading_comments", Field Optional ManyNodes (Some types_0));
       ("offset", Field Optional OneNode None);
       ("trailing_comments", Field Optional ManyNodes (Some types_0))])
  (* types.rs:1210-1229 *)
  | N_LoadStatement => Some (Declaration TokenRequired
      [("clusterby", Field Optional OneNode None);
       ("column_group", Field Optional OneNode None);
       ("connection", Field Optional OneNode None);
       ("connection_name", Field Optional OneNode None);
       ("data", Field Required OneNode None);
       ("files", Field Required OneNode None);
       ("from", Field Required OneNode None);
       ("from_files", Field Required OneNode None);
       ("ident", Field Required OneNode None);
       ("into", Field Required OneNode None);
       ("leading_comments", Field Optional ManyNodes (Some types_0));
       ("options", Field Optional OneNode None);
       ("overwrite_partitions", Field Optional OneNode None);
       ("partitionby", Field Optional OneNode None);
       ("semicolon", Field Optional OneNode (Some types_3));
       ("trailing_comments", Field Optional ManyNodes (Some types_0));
       ("with", Field Optional OneNode None);
       ("with_partition_columns", Field Optional OneNode None)])
  (* types.rs:1202-1208 *)
  | N_LoopStatement => Some (Declaration TokenRequired
      [("colon", Field Optional OneNode None);
       ("end_loop", Field Required ManyNodes None);
       ("leading_comments", Field Optional ManyNodes (Some types_0));
       ("leading_label", Field Optional OneNode None);
       ("semicolon", Field Optional OneNode (Some types_3));
       ("stmts", Field Optional ManyNodes None);
       ("trailing_comments", Field Optional ManyNodes (Some types_0));
       ("trailing_label", Field Optional OneNode None)])
  (* types.rs:1171-1179 *)
  | N_MatchRecognizeClause => Some (Declaration TokenRequired
      [("alias", Field Optional OneNode None);
       ("as", Field Optional OneNode None);
       ("config", Field Required OneNode None);
       ("leading_comments", Field Optional ManyNodes (Some types_0));
       ("trailing_comments", Field Optional ManyNodes (Some types_0))])
  (* types.rs:1181-1194 *)
  | N_MatchRecognizeConfig => Some (Declaration TokenRequired
      [("define", Field Optional OneNode None);
       ("leading_comments", Field Optional ManyNodes (Some types_0));
       ("measures", Field Optional OneNode None);
       ("options", Field Optional OneNode None);
       ("orderby", Field Optional OneNode None);
       ("partitionby", Field Optional OneNode None);
       ("pattern", Field Required OneNode None);
       ("rparen", Field Required OneNode None);
       ("skip_rule", Field Optional OneNode None);
       ("trailing_comments", Field Optional ManyNodes (Some types_0))])
  (* types.rs:1196-1200 *)
  | N_MatchRecognizePipeOperator => Some (Declaration TokenRequired
      [("alias", Field Optional OneNode None);
       ("as", Field Optional OneNode None);
       ("config", Field Required OneNode None);
       ("leading_comments", Field Optional ManyNodes (Some types_0));
       ("trailing_comments", Field Optional ManyNodes (Some types_0))])
  (* types.rs:1231-1240 *)
  | N_MergeStatement => Some (Declaration TokenRequired
      [("into", Field Optional OneNode None);
       ("leading_comments", Field Optional ManyNodes (Some types_0));
       ("on", Field Required OneNode None);
       ("semicolon", Field Optional OneNode (Some types_3));
       ("table_name", Field Required OneNode None);
       ("trailing_comments", Field Optional ManyNodes (Some types_0));
       ("using", Field Required OneNode None);
       ("whens", Field Required ManyNodes None)])
  (* types.rs:1242-1247 *)
  | N_MultiTokenIdentifier => Some (Declaration TokenRequired
      [("alias", Field Optional OneNode (Some types_2));
       ("as", Field Optional OneNode (Some types_1));
       ("comma", Field Optional OneNode None);
       ("for_system_time_as_of", Field Optional OneNode None);
       ("leading_comments", Field Optional ManyNodes (Some types_0));
       ("match_recognize", Field Optional OneNode None);
       ("null_order", Field Optional ManyNodes None);
       ("order", Field Optional OneNode None);
       ("pivot", Field Optional OneNode None);
       ("tablesample", Field Optional OneNode None);
       ("trailing_comments", Field Optional ManyNodes (Some types_0));
       ("trailing_idents", Field Required ManyNodes (Some types_5));
       ("unpivot", Field Optional OneNode None);
       ("with_offset", Field Required OneNode None)])
  (* types.rs:1249-1251 *)
  | N_NullLiteral => Some (Declaration TokenRequired
      [("alias", Field Optional OneNode (Some types_2));
       ("as", Field Optional OneNode (Some types_1));
       ("comma", Field Optional OneNode None);
       ("leading_comments", Field Optional ManyNodes (Some types_0));
       ("null_order", Field Optional ManyNodes None);
       ("order", Field Optional OneNode None);
       ("trailing_comments", Field Optional ManyNodes (Some types_0))])
  (* types.rs:1253-1255 *)
  | N_NumericLiteral => Some (Declaration TokenRequired
      [("alias", Field Optional OneNode (Some types_2));
       ("as", Field Optional OneNode (Some types_1));
       ("comma", Field Optional OneNode None);
       ("leading_comments", Field Optional ManyNodes (Some types_0));
       ("null_order", Field Optional ManyNodes None);
       ("order", Field Optional OneNode None);
       ("trailing_comments", Field Optional ManyNodes (Some types_0))])
  (* types.rs:1257-1264 *)
  | N_OrPattern => Some (Declaration TokenRequired
      [("leading_comments", Field Optional ManyNodes (Some types_0));
       ("left", Field Required ManyNodes None);
       ("right", Field Required ManyNodes None);
       ("trailing_comments", Field Optional ManyNodes (Some types_0))])
  (* types.rs:1267-1273 *)
  | N_OverClause => Some (Declaration TokenRequired
      [("leading_comments", Field Optional ManyNodes (Some types_0));
       ("trailing_comments", Field Optional ManyNodes (Some types_0));
       ("window", Field Required OneNode None)])
  (* types.rs:1275-1282 *)
  | N_OverwritePartitionsClause => Some (Declaration TokenRequired
      [("grouped_expr", Field Required OneNode None);
       ("leading_comments", Field Optional ManyNodes (Some types_0));
       ("overwrite", Field Optional OneNode None);
       ("trailing_comments", Field Optional ManyNodes (Some types_0))])
  (* types.rs:1284-1286 *)
  | N_Parameter => Some (Declaration TokenRequired
      [("alias", Field Optional OneNode (Some types_2));
       ("as", Field Optional OneNode (Some types_1));
       ("comma", Field Optional OneNode None);
       ("for_system_time_as_of", Field Optional OneNode None);
       ("leading_comments", Field Optional ManyNodes (Some types_0));
       ("match_recognize", Field Optional OneNode None);
       ("null_order", Field Optional ManyNodes None);
       ("order", Field Optional OneNode None);
       ("pivot", Field Optional OneNode None);
       ("tablesample", Field Optional OneNode None);
       ("trailing_comments", Field Optional ManyNodes (Some types_0));
       ("unpivot", Field Optional OneNode None);
       ("with_offset", Field Required OneNode None)])
  (* types.rs:1288-1294 *)
  | N_Pattern => Some (Declaration TokenRequired
      [("leading_comments", Field Optional ManyNodes (Some types_0));
       ("suffixes", Field Required ManyNodes None);
       ("trailing_comments", Field Optional ManyNodes (Some types_0))])
  (* types.rs:1296-1302 *)
  | N_PatternClause => Some (Declaration TokenRequired
      [("leading_comments", Field Optional ManyNodes (Some types_0));
       ("pattern", Field Required OneNode None);
       ("trailing_comments", Field Optional ManyNodes (Some types_0))])
  (* types.rs:1304-1313 *)
  | N_PatternQuantifier => Some (Declaration TokenRequired
      [("comma", Field Optional OneNode None);
       ("leading_comments", Field Optional ManyNodes (Some types_0));
       ("max", Field Optional OneNode None);
       ("min", Field Optional OneNode None);
       ("rbrace", Field Required OneNode None);
       ("trailing_comments", Field Optional ManyNodes (Some types_0))])
  (* types.rs:1315-1321 *)
  | N_PipeStatement => Some (Declaration TokenRequired
      [("leading_comments", Field Optional ManyNodes (Some types_0));
       ("left", Field Required OneNode None);
       ("right", Field Required OneNode None);
       ("semicolon", Field Optional OneNode (Some types_3));
       ("trailing_comments", Field Optional ManyNodes (Some types_0))])
  (* types.rs:1343-1352 *)
  | N_PivotConfig => Some (Declaration TokenRequired
      [("exprs", Field Required ManyNodes None);
       ("for", Field Required OneNode None);
       ("in", Field Required OneNode None);
       ("leading_comments", Field Optional ManyNodes (Some types_0));
       ("rparen", Field Required OneNode None);
       ("trailing_comments", Field Optional ManyNodes (Some types_0))])
  (* types.rs:1333-1341 *)
  | N_PivotOperator => Some (Declaration TokenRequired
      [("alias", Field Optional OneNode None);
       ("as", Field Optional OneNode None);
       ("config", Field Required OneNode None);
       ("leading_comments", Field Optional ManyNodes (Some types_0));
       ("trailing_comments", Field Optional ManyNodes (Some types_0))])
  (* types.rs:1323-1331 *)
  | N_PivotPipeOperator => Some (Declaration TokenOrNull
      [("alias", Field Optional OneNode None);
       ("as", Field Optional OneNode None);
       ("config", Field Required OneNode None);
       ("exprs", Field Forbidden OneNode None);
       ("keywords", Field Optional OneNode None);
       ("leading_comments", Field Optional ManyNodes (Some types_0));
       ("trailing_comments", Field Optional ManyNodes (Some types_0))])
  (* types.rs:1354-1359 *)
  | N_RaiseStatement => Some (Declaration TokenRequired
      [("leading_comments", Field Optional ManyNodes (Some types_0));
       ("semicolon", Field Optional OneNode (Some types_3));
       ("trailing_comments", Field Optional ManyNodes (Some types_0));
       ("using", Field Optional OneNode None)])
  (* types.rs:1361-1366 *)
  | N_RangeLiteral => Some (Declaration TokenRequired
      [("alias", Field Optional OneNode (Some types_2));
       ("as", Field Optional OneNode (Some types_1));
       ("comma", Field Optional OneNode None);
       ("leading_comments", Field Optional ManyNodes (Some types_0));
       ("null_order", Field Optional ManyNodes None);
       ("order", Field Optional OneNode None);
       ("trailing_comments", Field Optional ManyNodes (Some types_0));
       ("type", Field Required OneNode None)])
  (* types.rs:1368-1378 *)
  | N_RenameColumnClause => Some (Declaration TokenRequired
      [("column", Field Required OneNode None);
       ("comma", Field Optional OneNode None);
       ("ident", Field Required OneNode None);
       ("if_exists", Field Optional OneNode None);
       ("leading_comments", Field Optional ManyNodes (Some types_0));
       ("to", Field Required OneNode None);
       ("trailing_comments", Field Optional ManyNodes (Some types_0))])
  (* types.rs:1380-1387 *)
  | N_RepeatStatement => Some (Declaration TokenRequired
      [("colon", Field Optional OneNode None);
       ("end_repeat", Field Required ManyNodes None);
       ("leading_comments", Field Optional ManyNodes (Some types_0));
       ("leading_label", Field Optional OneNode None);
       ("semicolon", Field Optional OneNode (Some types_3));
       ("stmts", Field Required ManyNodes None);
       ("trailing_comments", Field Optional ManyNodes (Some types_0));
       ("trailing_label", Field Optional OneNode None);
       ("until", Field Required OneNode None)])
  (* types.rs:1389-1398 *)
  | N_RevokeStatement => Some (Declaration TokenRequired
      [("from", Field Required OneNode None);
       ("ident", Field Required OneNode None);
       ("leading_comments", Field Optional ManyNodes (Some types_0));
       ("on", Field Required OneNode None);
       ("resource_type", Field Required OneNode None);
       ("roles", Field Required ManyNodes None);
       ("semicolon", Field Optional OneNode (Some types_3));
       ("trailing_comments", Field Optional ManyNodes (Some types_0))])
  (* types.rs:1420-1425 *)
  | N_SelectPipeOperator => Some (Declaration TokenOrNull
      [("exprs", Field Optional ManyNodes None);
       ("keywords", Field Optional OneNode None);
       ("leading_comments", Field Optional ManyNodes (Some types_0));
       ("trailing_comments", Field Optional ManyNodes (Some types_0));
       ("window", Field Optional OneNode None)])
  (* types.rs:1400-1418 *)
  | N_SelectStatement => Some (Declaration TokenRequired
      [("as_struct_or_value", Field Optional ManyNodes None);
       ("differential_privacy", Field Optional OneNode None);
       ("distinct_or_all", Field Optional OneNode None);
       ("exprs", Field Required ManyNodes None);
       ("from", Field Optional OneNode None);
       ("groupby", Field Optional OneNode None);
       ("having", Field Optional OneNode None);
       ("leading_comments", Field Optional ManyNodes (Some types_0));
       ("limit", Field Optional OneNode None);
       ("orderby", Field Optional OneNode None);
       ("qualify", Field Optional OneNode None);
       ("semicolon", Field Optional OneNode (Some types_3));
       ("trailing_comments", Field Optional ManyNodes (Some types_0));
       ("where", Field Optional OneNode None);
       ("window", Field Optional OneNode None);
       ("with", Field Optional OneNode (Some types_7))])
  (* types.rs:1428-1439 *)
  | N_SetOperator => Some (Declaration TokenRequired
      [("by", Field Optional OneNode None);
       ("corresponding", Field Optional OneNode None);
       ("distinct_or_all", Field Required OneNode None);
       ("leading_comments", Field Optional ManyNodes (Some types_0));
       ("left", Field Required OneNode (Some types_9));
       ("method", Field Optional OneNode None);
       ("right", Field Required OneNode (Some types_9));
       ("semicolon", Field Optional OneNode (Some types_3));
       ("trailing_comments", Field Optional ManyNodes (Some types_0));
       ("with", Field Optional OneNode (Some types_7))])
  (* types.rs:1441-1446 *)
  | N_SetStatement => Some (Declaration TokenRequired
      [("expr", Field Required OneNode None);
       ("leading_comments", Field Optional ManyNodes (Some types_0));
       ("semicolon", Field Optional OneNode (Some types_3));
       ("trailing_comments", Field Optional ManyNodes (Some types_0))])
  (* types.rs:1448-1450 *)
  | N_SingleTokenStatement => Some (Declaration TokenRequired
      [("leading_comments", Field Optional ManyNodes (Some types_0));
       ("semicolon", Field Optional OneNode (Some types_3));
       ("trailing_comments", Field Optional ManyNodes (Some types_0))])
  (* types.rs:1452-1454 *)
  | N_StringLiteral => Some (Declaration TokenRequired
      [("alias", Field Optional OneNode (Some types_2));
       ("as", Field Optional OneNode (Some types_1));
       ("comma", Field Optional OneNode None);
       ("leading_comments", Field Optional ManyNodes (Some types_0));
       ("null_order", Field Optional ManyNodes None);
       ("order", Field Optional OneNode None);
       ("trailing_comments", Field Optional ManyNodes (Some types_0))])
  (* types.rs:1456-1463 *)
  | N_StructLiteral => Some (Declaration TokenRequired
      [("alias", Field Optional OneNode (Some types_2));
       ("as", Field Optional OneNode (Some types_1));
       ("comma", Field Optional OneNode None);
       ("exprs", Field Required ManyNodes None);
       ("leading_comments", Field Optional ManyNodes (Some types_0));
       ("null_order", Field Optional ManyNodes None);
       ("order", Field Optional OneNode None);
       ("rparen", Field Required OneNode None);
       ("trailing_comments", Field Optional ManyNodes (Some types_0));
       ("type", Field Optional OneNode None)])
  (* types.rs:1465-1468 *)
  | N_Symbol => Some (Declaration TokenRequired
      [("leading_comments", Field Optional ManyNodes (Some types_0));
       ("trailing_comments", Field Optional ManyNodes (Some types_0))])
  (* types.rs:1470-1477 *)
  | N_TableSampleClause => Some (Declaration TokenRequired
      [("group", Field Required OneNode None);
       ("leading_comments", Field Optional ManyNodes (Some types_0));
       ("system", Field Required OneNode None);
       ("trailing_comments", Field Optional ManyNodes (Some types_0))])
  (* types.rs:1479-1485 *)
  | N_TableSamplePipeOperator => Some (Declaration TokenOrNull
      [("exprs", Field Forbidden OneNode None);
       ("group", Field Optional OneNode None);
       ("keywords", Field Optional OneNode None);
       ("leading_comments", Field Optional ManyNodes (Some types_0));
       ("trailing_comments", Field Optional ManyNodes (Some types_0))])
  (* types.rs:1487-1495 *)
  | N_TableSampleRatio => Some (Declaration TokenRequired
      [("expr", Field Required OneNode None);
       ("leading_comments", Field Optional ManyNodes (Some types_0));
       ("percent", Field Required OneNode None);
       ("rparen", Field Required OneNode None);
       ("trailing_comments", Field Optional ManyNodes (Some types_0))])
  (* types.rs:1497-1499 *)
  | N_Template => Some (Declaration TokenRequired
      [("alias", Field Optional OneNode (Some types_2));
       ("as", Field Optional OneNode (Some types_1));
       ("comma", Field Optional OneNode None);
       ("for_system_time_as_of", Field Optional OneNode None);
       ("leading_comments", Field Optional ManyNodes (Some types_0));
       ("match_recognize", Field Optional OneNode None);
       ("null_order", Field Optional ManyNodes None);
       ("order", Field Optional OneNode None);
       ("pivot", Field Optional OneNode None);
       ("tablesample", Field Optional OneNode None);
       ("trailing_comments", Field Optional ManyNodes (Some types_0));
       ("unpivot", Field Optional OneNode None);
       ("with_offset", Field Required OneNode None)])
  (* types.rs:1508-1515 *)
  | N_TrainingDataCustomHolidayClause => Some (Declaration TokenOrNull
      [("custom_holiday", Field Required OneNode None);
       ("leading_comments", Field Optional ManyNodes (Some types_0));
       ("rparen", Field Required OneNode None);
       ("trailing_comments", Field Optional ManyNodes (Some types_0));
       ("training_data", Field Required OneNode None)])
  (* types.rs:1501-1506 *)
  | N_TransactionStatement => Some (Declaration TokenRequired
      [("leading_comments", Field Optional ManyNodes (Some types_0));
       ("semicolon", Field Optional OneNode (Some types_3));
       ("trailing_comments", Field Optional ManyNodes (Some types_0));
       ("transaction", Field Optional OneNode None)])
  (* types.rs:1517-1523 *)
  | N_TruncateStatement => Some (Declaration TokenRequired
      [("leading_comments", Field Optional ManyNodes (Some types_0));
       ("semicolon", Field Optional OneNode (Some types_3));
       ("table", Field Required OneNode None);
       ("table_name", Field Required OneNode None);
       ("trailing_comments", Field Optional ManyNodes (Some types_0))])
  (* types.rs:1525-1542 *)
  | N_Type => Some (Declaration TokenRequired
      [("aggregate", Field Optional OneNode None);
       ("collate", Field Optional OneNode None);
       ("constraint", Field Optional OneNode None);
       ("default", Field Optional OneNode None);
       ("enforced", Field Optional OneNode None);
       ("leading_comments", Field Optional ManyNodes (Some types_0));
       ("not_null", Field Optional ManyNodes None);
       ("options", Field Optional OneNode None);
       ("parameter", Field Optional OneNode None);
       ("primarykey", Field Optional OneNode None);
       ("references", Field Optional OneNode None);
       ("trailing_comments", Field Optional ManyNodes (Some types_0));
       ("type", Field Optional OneNode None);
       ("type_declaration", Field Optional OneNode None)])
  (* types.rs:1544-1552 *)
  | N_TypeDeclaration => Some (Declaration TokenRequired
      [("comma", Field Optional OneNode None);
       ("in_out", Field Required OneNode None);
       ("leading_comments", Field Optional ManyNodes (Some types_0));
       ("trailing_comments", Field Optional ManyNodes (Some types_0));
       ("type", Field Required OneNode None)])
  (* types.rs:1554-1560 *)
  | N_UnaryOperator => Some (Declaration TokenRequired
      [("alias", Field Optional OneNode (Some types_2));
       ("as", Field Optional OneNode (Some types_1));
       ("comma", Field Optional OneNode None);
       ("leading_comments", Field Optional ManyNodes (Some types_0));
       ("null_order", Field Optional ManyNodes None);
       ("order", Field Optional OneNode None);
       ("right", Field Required OneNode None);
       ("trailing_comments", Field Optional ManyNodes (Some types_0))])
  (* types.rs:1562-1569 *)
  | N_UndropStatement => Some (Declaration TokenRequired
      [("ident", Field Required OneNode None);
       ("if_not_exists", Field Optional ManyNodes None);
       ("leading_comments", Field Optional ManyNodes (Some types_0));
       ("semicolon", Field Optional OneNode (Some types_3));
       ("trailing_comments", Field Optional ManyNodes (Some types_0));
       ("what", Field Required OneNode None)])
  (* types.rs:1571-1578 *)
  | N_UnionPipeOperator => Some (Declaration TokenOrNull
      [("by", Field Optional OneNode None);
       ("corresponding", Field Optional OneNode None);
       ("exprs", Field Optional ManyNodes None);
       ("keywords", Field Optional OneNode None);
       ("leading_comments", Field Optional ManyNodes (Some types_0));
       ("method", Field Optional OneNode None);
       ("trailing_comments", Field Optional ManyNodes (Some types_0))])
  (* types.rs:1580-1589 *)
  | N_UnpivotConfig => Some (Declaration TokenRequired
      [("expr", Field Required OneNode None);
       ("for", Field Required OneNode None);
       ("in", Field Required OneNode None);
       ("leading_comments", Field Optional ManyNodes (Some types_0));
       ("rparen", Field Required OneNode None);
       ("trailing_comments", Field Optional ManyNodes (Some types_0))])
  (* types.rs:1601-1610 *)
  | N_UnpivotOperator => Some (Declaration TokenRequired
      [("alias", Field Optional OneNode None);
       ("as", Field Optional OneNode None);
       ("config", Field Required OneNode None);
       ("include_or_exclude_nulls", Field Required ManyNodes None);
       ("leading_comments", Field Optional ManyNodes (Some types_0));
       ("trailing_comments", Field Optional ManyNodes (Some types_0))])
  (* types.rs:1591-1599 *)
  | N_UnpivotPipeOperator => Some (Declaration TokenOrNull
      [("alias", Field Optional OneNode None);
       ("as", Field Optional OneNode None);
       ("config", Field Required OneNode None);
       ("exprs", Field Forbidden OneNode None);
       ("keywords", Field Optional OneNode None);
       ("leading_comments", Field Optional ManyNodes (Some types_0));
       ("trailing_comments", Field Optional ManyNodes (Some types_0))])
  (* types.rs:1612-1620 *)
  | N_UpdateStatement => Some (Declaration TokenRequired
      [("from", Field Optional OneNode None);
       ("leading_comments", Field Optional ManyNodes (Some types_0));
       ("semicolon", Field Optional OneNode (Some types_3));
       ("set", Field Required OneNode None);
       ("table_name", Field Optional OneNode None);
       ("trailing_comments", Field Optional ManyNodes (Some types_0));
       ("where", Field Required OneNode None)])
  (* types.rs:1622-1631 *)
  | N_WhenClause => Some (Declaration TokenOrNull
      [("and", Field Required OneNode None);
       ("by_target_or_source", Field Required ManyNodes None);
       ("leading_comments", Field Optional ManyNodes (Some types_0));
       ("matched", Field Required OneNode None);
       ("not", Field Optional OneNode None);
       ("then", Field Required OneNode None);
       ("trailing_comments", Field Optional ManyNodes (Some types_0))])
  (* types.rs:1633-1640 *)
  | N_WhileStatement => Some (Declaration TokenRequired
      [("colon", Field Optional OneNode None);
       ("condition", Field Required OneNode None);
       ("do", Field Required OneNode None);
       ("end_while", Field Required ManyNodes None);
       ("leading_comments", Field Optional ManyNodes (Some types_0));
       ("leading_label", Field Optional OneNode None);
       ("semicolon", Field Optional OneNode (Some types_3));
       ("trailing_comments", Field Optional ManyNodes (Some types_0));
       ("trailing_label", Field Optional OneNode None)])
  (* types.rs:1642-1648 *)
  | N_WindowClause => Some (Declaration TokenRequired
      [("leading_comments", Field Optional ManyNodes (Some types_0));
       ("trailing_comments", Field Optional ManyNodes (Some types_0));
       ("window_exprs", Field Required ManyNodes None)])
  (* types.rs:1650-1658 *)
  | N_WindowExpr => Some (Declaration TokenRequired
      [("as", Field Required OneNode None);
       ("comma", Field Optional OneNode None);
       ("leading_comments", Field Optional ManyNodes (Some types_0));
       ("trailing_comments", Field Optional ManyNodes (Some types_0));
       ("window", Field Required OneNode None)])
  (* types.rs:1660-1669 *)
  | N_WindowFrameClause => Some (Declaration TokenRequired
      [("and", Field Optional OneNode None);
       ("between", Field Optional OneNode None);
       ("end", Field Optional ManyNodes None);
       ("leading_comments", Field Optional ManyNodes (Some types_0));
       ("start", Field Required ManyNodes None);
       ("trailing_comments", Field Optional ManyNodes (Some types_0))])
  (* types.rs:1671-1681 *)
  | N_WindowSpecification => Some (Declaration TokenRequired
      [("frame", Field Required OneNode None);
       ("leading_comments", Field Optional ManyNodes (Some types_0));
       ("name", Field Optional OneNode None);
       ("orderby", Field Required OneNode None);
       ("partitionby", Field Required OneNode None);
       ("rparen", Field Required OneNode None);
       ("trailing_comments", Field Optional ManyNodes (Some types_0))])
  (* types.rs:1683-1690 *)
  | N_WithClause => Some (Declaration TokenRequired
      [("leading_comments", Field Optional ManyNodes (Some types_0));
       ("queries", Field Required ManyNodes (Some types_10));
       ("recursive", Field Optional OneNode None);
       ("trailing_comments", Field Optional ManyNodes (Some types_0))])
  (* types.rs:1692-1700 *)
  | N_WithOffsetClause => Some (Declaration TokenRequired
      [("alias", Field Optional OneNode None);
       ("as", Field Optional OneNode (Some types_1));
       ("leading_comments", Field Optional ManyNodes (Some types_0));
       ("offset", Field Required OneNode (Some types_1));
       ("trailing_comments", Field Optional ManyNodes (Some types_0))])
  (* types.rs:1708-1715 *)
  | N_WithPartitionColumnsClause => Some (Declaration TokenRequired
      [("column_schema_group", Field Required OneNode None);
       ("leading_comments", Field Optional ManyNodes (Some types_0));
       ("partition_columns", Field Required ManyNodes None);
       ("trailing_comments", Field Optional ManyNodes (Some types_0))])
  (* types.rs:1702-1706 *)
  | N_WithPipeOperator => Some (Declaration TokenRequired
      [("leading_comments", Field Optional ManyNodes (Some types_0));
       ("queries", Field Required ManyNodes (Some types_10));
       ("recursive", Field Optional OneNode None);
       ("trailing_comments", Field Optional ManyNodes (Some types_0))])
  (* types.rs:1717-1725 *)
  | N_WithQuery => Some (Declaration TokenRequired
      [("as", Field Required OneNode (Some types_1));
       ("comma", Field Required OneNode None);
       ("leading_comments", Field Optional ManyNodes (Some types_0));
       ("stmt", Field Required OneNode (Some types_11));
       ("trailing_comments", Field Optional ManyNodes (Some types_0))])
  (* types.rs:1727-1734 *)
  | N_XXXByExprs => Some (Declaration TokenRequired
      [("by", Field Required OneNode None);
       ("exprs", Field Required ManyNodes (Some types_4));
       ("leading_comments", Field Optional ManyNodes (Some types_0));
       ("trailing_comments", Field Optional ManyNodes (Some types_0))])
  | _ => None
  end.
