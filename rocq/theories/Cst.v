(* The concrete syntax tree: /repo/src/cst.rs *)
From Verif Require Import Chars Token.
Local Open Scope string_scope.

(* cst.rs:16-168 enum NodeType; variant X is N_X here *)
Inductive node_type :=
| N_AccessOperator
| N_AddColumnClause
| N_AddConstraintClause
| N_AggregatePipeOperator
| N_AlterColumnStatement
| N_AlterBICapacityStatement
| N_AlterModelStatement
| N_AlterOrganizationStatement
| N_AlterTableDropClause
| N_AlterProjectStatement
| N_AlterReservationStatement
| N_AlterSchemaStatement
| N_AlterTableStatement
| N_AlterVectorIndexStatement
| N_AlterViewStatement
| N_ArrayLiteral
| N_AssertStatement
| N_Asterisk
| N_BasePipeOperator
| N_BinaryOperator
| N_BeginStatement
| N_BetweenOperator
| N_BooleanLiteral
| N_BreakContinueStatement
| N_CallingFunction
| N_CallingTableFunction
| N_CallingUnnest
| N_CallStatement
| N_Constraint
| N_CaseExpr
| N_CaseExprArm
| N_CaseStatement
| N_CaseStatementArm
| N_CastArgument
| N_CreateFunctionStatement
| N_CreateIndexStatement
| N_CreateModelStatement
| N_CreateProcedureStatement
| N_CreateReservationStatement
| N_CreateRowAccessPolicyStatement
| N_CreateSchemaStatement
| N_CreateTableStatement
| N_CreateViewStatement
| N_Comment
| N_DeclareStatement
| N_DeleteStatement
| N_DifferentialPrivacyClause
| N_DotOperator
| N_DropStatement
| N_DropRowAccessPolicyStatement
| N_ElseIfClause
| N_EOF
| N_EmptyStruct
| N_ExecuteStatement
| N_ExportDataStatement
| N_ExportModelStatement
| N_ExtractArgument
| N_ForSystemTimeAsOfClause
| N_ForStatement
| N_FromStatement
| N_FunctionChain
| N_GrantStatement
| N_GroupByExprs
| N_GroupedIdentWithOptions
| N_GroupedExpr
| N_GroupedExprs
| N_GroupedPattern
| N_GroupedStatement
| N_GroupedType
| N_GroupedTypeDeclarationOrConstraints
| N_Keyword
| N_KeywordSequence
| N_KeywordWithExpr
| N_KeywordWithExprs
| N_KeywordWithType
| N_KeywordWithGroupedXXX
| N_KeywordWithStatement
| N_KeywordWithStatements
| N_Identifier
| N_IdentWithOptions
| N_IfStatement
| N_InsertStatement
| N_IntervalLiteral
| N_InOperator
| N_IsDistinctFromOperator
| N_JoinOperator
| N_JoinPipeOperator
| N_LimitClause
| N_LimitPipeOperator
| N_LoadStatement
| N_LoopStatement
| N_MatchRecognizeClause
| N_MatchRecognizeConfig
| N_MatchRecognizePipeOperator
| N_MergeStatement
| N_MultiTokenIdentifier
| N_NumericLiteral
| N_NullLiteral
| N_OrPattern
| N_OverClause
| N_OverwritePartitionsClause
| N_Parameter
| N_Pattern
| N_PatternClause
| N_PatternQuantifier
| N_PipeStatement
| N_PivotConfig
| N_PivotOperator
| N_PivotPipeOperator
| N_RaiseStatement
| N_RangeLiteral
| N_RenameColumnClause
| N_RepeatStatement
| N_RevokeStatement
| N_SelectPipeOperator
| N_SelectStatement
| N_SetOperator
| N_SetStatement
| N_SingleTokenStatement
| N_StringLiteral
| N_StructLiteral
| N_Symbol
| N_TableSampleClause
| N_TableSamplePipeOperator
| N_TableSampleRatio
| N_Template
| N_TrainingDataCustomHolidayClause
| N_TransactionStatement
| N_TruncateStatement
| N_Type
| N_TypeDeclaration
| N_UnaryOperator
| N_Unknown
| N_UndropStatement
| N_UnionPipeOperator
| N_UnpivotOperator
| N_UnpivotPipeOperator
| N_UnpivotConfig
| N_UpdateStatement
| N_WhenClause
| N_WhileStatement
| N_WindowClause
| N_WindowExpr
| N_WindowFrameClause
| N_WindowSpecification
| N_WithClause
| N_WithOffsetClause
| N_WithPipeOperator
| N_WithPartitionColumnsClause
| N_WithQuery
| N_XXXByExprs.

(* the derived Debug name of a variant *)
Definition nt_name (t : node_type) : string :=
  match t with
  | N_AccessOperator => "AccessOperator"
  | N_AddColumnClause => "AddColumnClause"
  | N_AddConstraintClause => "AddConstraintClause"
  | N_AggregatePipeOperator => "AggregatePipeOperator"
  | N_AlterColumnStatement => "AlterColumnStatement"
  | N_AlterBICapacityStatement => "AlterBICapacityStatement"
  | N_AlterModelStatement => "AlterModelStatement"
  | N_AlterOrganizationStatement => "AlterOrganizationStatement"
  | N_AlterTableDropClause => "AlterTableDropClause"
  | N_AlterProjectStatement => "AlterProjectStatement"
  | N_AlterReservationStatement => "AlterReservationStatement"
  | N_AlterSchemaStatement => "AlterSchemaStatement"
  | N_AlterTableStatement => "AlterTableStatement"
  | N_AlterVectorIndexStatement => "AlterVectorIndexStatement"
  | N_AlterViewStatement => "AlterViewStatement"
  | N_ArrayLiteral => "ArrayLiteral"
  | N_AssertStatement => "AssertStatement"
  | N_Asterisk => "Asterisk"
  | N_BasePipeOperator => "BasePipeOperator"
  | N_BinaryOperator => "BinaryOperator"
  | N_BeginStatement => "BeginStatement"
  | N_BetweenOperator => "BetweenOperator"
  | N_BooleanLiteral => "BooleanLiteral"
  | N_BreakContinueStatement => "BreakContinueStatement"
  | N_CallingFunction => "CallingFunction"
  | N_CallingTableFunction => "CallingTableFunction"
  | N_CallingUnnest => "CallingUnnest"
  | N_CallStatement => "CallStatement"
  | N_Constraint => "Constraint"
  | N_CaseExpr => "CaseExpr"
  | N_CaseExprArm => "CaseExprArm"
  | N_CaseStatement => "CaseStatement"
  | N_CaseStatementArm => "CaseStatementArm"
  | N_CastArgument => "CastArgument"
  | N_CreateFunctionStatement => "CreateFunctionStatement"
  | N_CreateIndexStatement => "CreateIndexStatement"
  | N_CreateModelStatement => "CreateModelStatement"
  | N_CreateProcedureStatement => "CreateProcedureStatement"
  | N_CreateReservationStatement => "CreateReservationStatement"
  | N_CreateRowAccessPolicyStatement => "CreateRowAccessPolicyStatement"
  | N_CreateSchemaStatement => "CreateSchemaStatement"
  | N_CreateTableStatement => "CreateTableStatement"
  | N_CreateViewStatement => "CreateViewStatement"
  | N_Comment => "Comment"
  | N_DeclareStatement => "DeclareStatement"
  | N_DeleteStatement => "DeleteStatement"
  | N_DifferentialPrivacyClause => "DifferentialPrivacyClause"
  | N_DotOperator => "DotOperator"
  | N_DropStatement => "DropStatement"
  | N_DropRowAccessPolicyStatement => "DropRowAccessPolicyStatement"
  | N_ElseIfClause => "ElseIfClause"
  | N_EOF => "EOF"
  | N_EmptyStruct => "EmptyStruct"
  | N_ExecuteStatement => "ExecuteStatement"
  | N_ExportDataStatement => "ExportDataStatement"
  | N_ExportModelStatement => "ExportModelStatement"
  | N_ExtractArgument => "ExtractArgument"
  | N_ForSystemTimeAsOfClause => "ForSystemTimeAsOfClause"
  | N_ForStatement => "ForStatement"
  | N_FromStatement => "FromStatement"
  | N_FunctionChain => "FunctionChain"
  | N_GrantStatement => "GrantStatement"
  | N_GroupByExprs => "GroupByExprs"
  | N_GroupedIdentWithOptions => "GroupedIdentWithOptions"
  | N_GroupedExpr => "GroupedExpr"
  | N_GroupedExprs => "GroupedExprs"
  | N_GroupedPattern => "GroupedPattern"
  | N_GroupedStatement => "GroupedStatement"
  | N_GroupedType => "GroupedType"
  | N_GroupedTypeDeclarationOrConstraints => "GroupedTypeDeclarationOrConstraints"
  | N_Keyword => "Keyword"
  | N_KeywordSequence => "KeywordSequence"
  | N_KeywordWithExpr => "KeywordWithExpr"
  | N_KeywordWithExprs => "KeywordWithExprs"
  | N_KeywordWithType => "KeywordWithType"
  | N_KeywordWithGroupedXXX => "KeywordWithGroupedXXX"
  | N_KeywordWithStatement => "KeywordWithStatement"
  | N_KeywordWithStatements => "KeywordWithStatements"
  | N_Identifier => "Identifier"
  | N_IdentWithOptions => "IdentWithOptions"
  | N_IfStatement => "IfStatement"
  | N_InsertStatement => "InsertStatement"
  | N_IntervalLiteral => "IntervalLiteral"
  | N_InOperator => "InOperator"
  | N_IsDistinctFromOperator => "IsDistinctFromOperator"
  | N_JoinOperator => "JoinOperator"
  | N_JoinPipeOperator => "JoinPipeOperator"
  | N_LimitClause => "LimitClause"
  | N_LimitPipeOperator => "LimitPipeOperator"
  | N_LoadStatement => "LoadStatement"
  | N_LoopStatement => "LoopStatement"
  | N_MatchRecognizeClause => "MatchRecognizeClause"
  | N_MatchRecognizeConfig => "MatchRecognizeConfig"
  | N_MatchRecognizePipeOperator => "MatchRecognizePipeOperator"
  | N_MergeStatement => "MergeStatement"
  | N_MultiTokenIdentifier => "MultiTokenIdentifier"
  | N_NumericLiteral => "NumericLiteral"
  | N_NullLiteral => "NullLiteral"
  | N_OrPattern => "OrPattern"
  | N_OverClause => "OverClause"
  | N_OverwritePartitionsClause => "OverwritePartitionsClause"
  | N_Parameter => "Parameter"
  | N_Pattern => "Pattern"
  | N_PatternClause => "PatternClause"
  | N_PatternQuantifier => "PatternQuantifier"
  | N_PipeStatement => "PipeStatement"
  | N_PivotConfig => "PivotConfig"
  | N_PivotOperator => "PivotOperator"
  | N_PivotPipeOperator => "PivotPipeOperator"
  | N_RaiseStatement => "RaiseStatement"
  | N_RangeLiteral => "RangeLiteral"
  | N_RenameColumnClause => "RenameColumnClause"
  | N_RepeatStatement => "RepeatStatement"
  | N_RevokeStatement => "RevokeStatement"
  | N_SelectPipeOperator => "SelectPipeOperator"
  | N_SelectStatement => "SelectStatement"
  | N_SetOperator => "SetOperator"
  | N_SetStatement => "SetStatement"
  | N_SingleTokenStatement => "SingleTokenStatement"
  | N_StringLiteral => "StringLiteral"
  | N_StructLiteral => "StructLiteral"
  | N_Symbol => "Symbol"
  | N_TableSampleClause => "TableSampleClause"
  | N_TableSamplePipeOperator => "TableSamplePipeOperator"
  | N_TableSampleRatio => "TableSampleRatio"
  | N_Template => "Template"
  | N_TrainingDataCustomHolidayClause => "TrainingDataCustomHolidayClause"
  | N_TransactionStatement => "TransactionStatement"
  | N_TruncateStatement => "TruncateStatement"
  | N_Type => "Type"
  | N_TypeDeclaration => "TypeDeclaration"
  | N_UnaryOperator => "UnaryOperator"
  | N_Unknown => "Unknown"
  | N_UndropStatement => "UndropStatement"
  | N_UnionPipeOperator => "UnionPipeOperator"
  | N_UnpivotOperator => "UnpivotOperator"
  | N_UnpivotPipeOperator => "UnpivotPipeOperator"
  | N_UnpivotConfig => "UnpivotConfig"
  | N_UpdateStatement => "UpdateStatement"
  | N_WhenClause => "WhenClause"
  | N_WhileStatement => "WhileStatement"
  | N_WindowClause => "WindowClause"
  | N_WindowExpr => "WindowExpr"
  | N_WindowFrameClause => "WindowFrameClause"
  | N_WindowSpecification => "WindowSpecification"
  | N_WithClause => "WithClause"
  | N_WithOffsetClause => "WithOffsetClause"
  | N_WithPipeOperator => "WithPipeOperator"
  | N_WithPartitionColumnsClause => "WithPartitionColumnsClause"
  | N_WithQuery => "WithQuery"
  | N_XXXByExprs => "XXXByExprs"
  end.

Definition all_node_types : list node_type := [
  N_AccessOperator; N_AddColumnClause; N_AddConstraintClause; N_AggregatePipeOperator;
  N_AlterColumnStatement; N_AlterBICapacityStatement; N_AlterModelStatement;
  N_AlterOrganizationStatement; N_AlterTableDropClause; N_AlterProjectStatement;
  N_AlterReservationStatement; N_AlterSchemaStatement; N_AlterTableStatement;
  N_AlterVectorIndexStatement; N_AlterViewStatement; N_ArrayLiteral; N_AssertStatement;
  N_Asterisk; N_BasePipeOperator; N_BinaryOperator; N_BeginStatement; N_BetweenOperator;
  N_BooleanLiteral; N_BreakContinueStatement; N_CallingFunction; N_CallingTableFunction;
  N_CallingUnnest; N_CallStatement; N_Constraint; N_CaseExpr; N_CaseExprArm; N_CaseStatement;
  N_CaseStatementArm; N_CastArgument; N_CreateFunctionStatement; N_CreateIndexStatement;
  N_CreateModelStatement; N_CreateProcedureStatement; N_CreateReservationStatement;
  N_CreateRowAccessPolicyStatement; N_CreateSchemaStatement; N_CreateTableStatement;
  N_CreateViewStatement; N_Comment; N_DeclareStatement; N_DeleteStatement;
  N_DifferentialPrivacyClause; N_DotOperator; N_DropStatement; N_DropRowAccessPolicyStatement;
  N_ElseIfClause; N_EOF; N_EmptyStruct; N_ExecuteStatement; N_ExportDataStatement;
  N_ExportModelStatement; N_ExtractArgument; N_ForSystemTimeAsOfClause; N_ForStatement;
  N_FromStatement; N_FunctionChain; N_GrantStatement; N_GroupByExprs;
  N_GroupedIdentWithOptions; N_GroupedExpr; N_GroupedExprs; N_GroupedPattern;
  N_GroupedStatement; N_GroupedType; N_GroupedTypeDeclarationOrConstraints; N_Keyword;
  N_KeywordSequence; N_KeywordWithExpr; N_KeywordWithExprs; N_KeywordWithType;
  N_KeywordWithGroupedXXX; N_KeywordWithStatement; N_KeywordWithStatements; N_Identifier;
  N_IdentWithOptions; N_IfStatement; N_InsertStatement; N_IntervalLiteral; N_InOperator;
  N_IsDistinctFromOperator; N_JoinOperator; N_JoinPipeOperator; N_LimitClause;
  N_LimitPipeOperator; N_LoadStatement; N_LoopStatement; N_MatchRecognizeClause;
  N_MatchRecognizeConfig; N_MatchRecognizePipeOperator; N_MergeStatement;
  N_MultiTokenIdentifier; N_NumericLiteral; N_NullLiteral; N_OrPattern; N_OverClause;
  N_OverwritePartitionsClause; N_Parameter; N_Pattern; N_PatternClause; N_PatternQuantifier;
  N_PipeStatement; N_PivotConfig; N_PivotOperator; N_PivotPipeOperator; N_RaiseStatement;
  N_RangeLiteral; N_RenameColumnClause; N_RepeatStatement; N_RevokeStatement;
  N_SelectPipeOperator; N_SelectStatement; N_SetOperator; N_SetStatement;
  N_SingleTokenStatement; N_StringLiteral; N_StructLiteral; N_Symbol; N_TableSampleClause;
  N_TableSamplePipeOperator; N_TableSampleRatio; N_Template;
  N_TrainingDataCustomHolidayClause; N_TransactionStatement; N_TruncateStatement; N_Type;
  N_TypeDeclaration; N_UnaryOperator; N_Unknown; N_UndropStatement; N_UnionPipeOperator;
  N_UnpivotOperator; N_UnpivotPipeOperator; N_UnpivotConfig; N_UpdateStatement; N_WhenClause;
  N_WhileStatement; N_WindowClause; N_WindowExpr; N_WindowFrameClause; N_WindowSpecification;
  N_WithClause; N_WithOffsetClause; N_WithPipeOperator; N_WithPartitionColumnsClause;
  N_WithQuery; N_XXXByExprs
]%list.

Definition nt_eqb (a b : node_type) : bool := String.eqb (nt_name a) (nt_name b).

Lemma nt_eqb_eq a b : nt_eqb a b = true <-> a = b.
Proof.
  unfold nt_eqb. rewrite String.eqb_eq. split; [|now intros ->].
  intro H.
  assert (D : forall t, find (fun t' => String.eqb (nt_name t') (nt_name t)) all_node_types = Some t)
    by (intro t; destruct t; vm_compute; reflexivity).
  pose proof (D a) as Da. rewrite H in Da. rewrite D in Da. congruence.
Qed.

(* cst.rs:9-13 enum ContentType, cst.rs:170-175 struct Node.
   `children: HashMap<String, ContentType>` is an association list in which a key
   occurs at most once; nothing observable depends on its order except what
   [format] makes of it, and that sorts the keys. *)
Inductive node := Node (token_ : option token) (node_type_ : node_type)
                       (children : list (string * content))
with content := CNode (n : node) | CVec (ns : list node).

Definition n_token (n : node) := match n with Node t _ _ => t end.
Definition n_type (n : node) := match n with Node _ ty _ => ty end.
Definition n_children (n : node) := match n with Node _ _ c => c end.

(* HashMap::insert *)
Fixpoint map_insert {A} (k : string) (v : A) (m : list (string * A)) : list (string * A) :=
  match m with
  | [] => [(k, v)]
  | (k', v') :: m' => if String.eqb k k' then (k, v) :: m' else (k', v') :: map_insert k v m'
  end.
(* HashMap::get *)
Fixpoint map_get {A} (k : string) (m : list (string * A)) : option A :=
  match m with
  | [] => None
  | (k', v') :: m' => if String.eqb k k' then Some v' else map_get k m'
  end.

(* cst.rs:178-184 Node::new *)
Definition node_new (t : token) (ty : node_type) : node := Node (Some t) ty [].
(* cst.rs:185-191 Node::empty *)
Definition node_empty (ty : node_type) : node := Node None ty [].
(* cst.rs:231-234 push_node *)
Definition push_node (k : string) (c : node) (n : node) : node :=
  match n with Node t ty m => Node t ty (map_insert k (CNode c) m) end.
(* cst.rs:235-238 push_node_vec *)
Definition push_node_vec (k : string) (cs : list node) (n : node) : node :=
  match n with Node t ty m => Node t ty (map_insert k (CVec cs) m) end.
(* `node.node_type = ty` *)
Definition set_type (ty : node_type) (n : node) : node :=
  match n with Node t _ m => Node t ty m end.
Definition child (k : string) (n : node) : option content := map_get k (n_children n).

(* keys.sort() on ASCII keys: byte-wise lexicographic order *)
Definition key_leb (a b : string) : bool :=
  match String.compare a b with Gt => false | _ => true end.
Fixpoint sort_insert {A} (kv : string * A) (l : list (string * A)) : list (string * A) :=
  match l with
  | [] => [kv]
  | kv' :: l' => if key_leb (fst kv) (fst kv') then kv :: l else kv' :: sort_insert kv l'
  end.
Definition sort_keys {A} (l : list (string * A)) : list (string * A) :=
  fold_right sort_insert [] l.

Definition spaces (n : nat) : str := repeat 32%N n.
Definition newline : str := [10%N].

(* res.join("\n") *)
Fixpoint join_lines (l : list str) : str :=
  match l with
  | [] => []
  | [x] => x
  | x :: l' => (x ++ newline ++ join_lines l')%list
  end.

(* cst.rs:192-230 format. Formatting the children before sorting the keys, rather
   than after, gives the same lines in the same order and is structurally
   recursive. `(indent - 1) * 2` cannot underflow: is_array is only passed with
   indent + 1. *)
Fixpoint format (indent : nat) (is_array : bool) (n : node) {struct n} : list str :=
  match n with
  | Node tok ty ch =>
      let lit := match tok with Some t => literal t | None => s_ "None" end in
      let self_ :=
        if is_array
        then (spaces ((indent - 1) * 2) ++ s_ "- self: " ++ lit)%list
        else (spaces (indent * 2) ++ s_ "self: " ++ lit)%list in
      let head := (self_ ++ s_ " (" ++ s_ (nt_name ty) ++ s_ ")")%list in
      let blocks := (fix go (l : list (string * content)) : list (string * list str) :=
        match l with
        | [] => []
        | (k, CNode c) :: l' =>
            (k, ((spaces (indent * 2) ++ s_ k ++ s_ ":") :: format (indent + 1) false c)%list) :: go l'
        | (k, CVec cs) :: l' =>
            (k, ((spaces (indent * 2) ++ s_ k ++ s_ ":" ++
                   (match cs with [] => s_ " []" | _ => [] end))
                :: (fix gov (cs : list node) : list str :=
                      match cs with
                      | [] => []
                      | c :: cs' => format (indent + 1) true c ++ gov cs'
                      end) cs)%list) :: go l'
        end) ch in
      (head :: List.concat (List.map snd (sort_keys blocks)))%list
  end.

(* cst.rs:241-245 Display *)
Definition to_string (n : node) : str := (join_lines (format 0 false n) ++ newline)%list.
