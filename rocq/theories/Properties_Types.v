(* The properties C35 and C36 of properties.jsonl: how far the nodes of a returned tree match the
   TypeScript types that the package publishes. TypesSchema.v holds the declarations of types.rs,
   TypesSpec.v says what a deviation is, TypesDeviations.v lists those that occur. *)
From Verif Require Import Chars Token Cst Core MiniRust Lexer Program Api TreeSpec ParserSpec ParserGeneric
  LexSpec TypesSchema TypesSpec TypesDeviations TypesTheorems TypesKnown Properties_Lexer Properties_Parser Properties_Tree.
Local Open Scope string_scope.
Local Open Scope list_scope.

(* C35: every child is declared, of the declared kind and of a declared type, apart from those in
   extra_children and odd_children, and the three in disguised_odd_children, which occur only if
   some character has a bracket or a dot as its upper case. *)
Theorem c35_children U code ns n x k c : ascii_faithful U -> parses U code (Success ns) -> In n ns -> within x n ->
  child k x = Some c ->
  (exists f, declares x k f /\ content_kind c = fd_kind f /\
     forall l y, fd_types f = Some l -> In y (content_nodes c) ->
       In (n_type y) l \/ listed_odd odd_children (n_type x) k (n_type y) \/ listed_odd disguised_odd_children (n_type x) k (n_type y)) \/
  listed extra_children (n_type x) k \/ In (n_type x) undeclared_types.
Proof. exact (node_children U code ns n x k c). Qed.
(* Every node type but those in undeclared_types is declared; the token is as declared, but for
   the types in tokenless_types. *)
Theorem c35_types_and_tokens U code ns n x : ascii_faithful U -> parses U code (Success ns) -> In n ns -> within x n ->
  match declared (n_type x) with
  | None => In (n_type x) undeclared_types
  | Some d =>
      match dc_token d with
      | TokenRequired => n_token x <> None \/ In (n_type x) tokenless_types
      | TokenNull => n_token x = None
      | TokenOrNull => True
      end
  end.
Proof. exact (node_types_and_tokens U code ns n x). Qed.
(* Nodes of these types conform to their declarations in every respect. *)
Definition conforming_types : list node_type :=
  [N_AddColumnClause; N_AddConstraintClause; N_AggregatePipeOperator; N_AlterTableDropClause; N_BasePipeOperator;
   N_BeginStatement; N_Constraint; N_CaseExprArm; N_CaseStatementArm; N_CastArgument; N_Comment;
   N_DifferentialPrivacyClause; N_ElseIfClause; N_EOF; N_ForSystemTimeAsOfClause; N_ForStatement;
   N_GroupedIdentWithOptions; N_GroupedExprs; N_GroupedPattern; N_GroupedType; N_Keyword; N_KeywordWithExpr;
   N_KeywordWithExprs; N_KeywordWithType; N_KeywordWithGroupedXXX; N_KeywordWithStatement; N_KeywordWithStatements;
   N_JoinPipeOperator; N_LimitClause; N_LimitPipeOperator; N_LoopStatement; N_MatchRecognizeClause;
   N_MatchRecognizePipeOperator; N_OrPattern; N_OverClause; N_OverwritePartitionsClause; N_Pattern; N_PatternClause;
   N_PatternQuantifier; N_PivotConfig; N_PivotOperator; N_PivotPipeOperator; N_RenameColumnClause; N_RepeatStatement;
   N_SelectPipeOperator; N_Symbol; N_TableSampleClause; N_TableSamplePipeOperator; N_TableSampleRatio;
   N_TrainingDataCustomHolidayClause; N_Type; N_UnionPipeOperator; N_UnpivotPipeOperator; N_UnpivotConfig;
   N_WhileStatement; N_WindowClause; N_WindowExpr; N_WithClause; N_WithOffsetClause; N_WithPipeOperator].
Theorem c35_conforming_types U code ns n x : ascii_faithful U -> parses U code (Success ns) -> In n ns -> within x n ->
  In (n_type x) conforming_types -> conforms x.
Proof.
  intros HU P I W C. apply (node_conforms U code ns n x HU P I W). apply disjoint_types with (l := conforming_types); [|exact C].
  vm_compute. reflexivity.
Qed.
(* The listed deviations do occur: the property as stated fails. *)
Theorem c35_extra_children_refuted t k : listed extra_children t k ->
  exists code ns n x c, parses ascii_tables code (Success ns) /\ In n ns /\ within x n /\ n_type x = t /\
    child k x = Some c /\ forall f, ~ declares x k f.
Proof.
  intro L. destruct (extra_children_occur t k L) as (code & ns & n & x & P & I & W & D).
  inversion D as [| | |? ? _ C F| | |]; subst. destruct (child k x) as [c|] eqn:E; [|congruence].
  exists code, ns, n, x, c. auto 9.
Qed.
Theorem c35_odd_children_refuted t k u : listed_odd odd_children t k u ->
  exists code ns n x c y f l, parses ascii_tables code (Success ns) /\ In n ns /\ within x n /\ n_type x = t /\
    child k x = Some c /\ In y (content_nodes c) /\ n_type y = u /\ declares x k f /\ fd_types f = Some l /\ ~ In u l.
Proof.
  intro L. destruct (odd_children_occur t k u L) as (code & ns & n & x & P & I & W & D).
  inversion D as [| | | | |? f c l y E1 E2 E3 E4 E5|]; subst.
  exists code, ns, n, x, c, y, f, l. auto 12.
Qed.
(* Those in disguised_odd_children occur for tables that agree with Unicode on ASCII only. *)
Theorem c35_disguised_children_refuted t k u : listed_odd disguised_odd_children t k u ->
  exists U code ns n x c y f l, ascii_faithful U /\ parses U code (Success ns) /\ In n ns /\ within x n /\ n_type x = t /\
    child k x = Some c /\ In y (content_nodes c) /\ n_type y = u /\ declares x k f /\ fd_types f = Some l /\ ~ In u l.
Proof.
  intro L. destruct (disguised_children_occur t k u L) as (code & ns & n & x & P & I & W & D).
  inversion D as [| | | | |? f c l y E1 E2 E3 E4 E5|]; subst.
  exists disguising_tables, code, ns, n, x, c, y, f, l. split; [exact disguising_faithful|]. auto 12.
Qed.
Theorem c35_undeclared_types_refuted t : In t undeclared_types ->
  exists code ns n x, parses ascii_tables code (Success ns) /\ In n ns /\ within x n /\ n_type x = t /\ declared t = None.
Proof.
  intro L. destruct (undeclared_types_occur t L) as (code & ns & n & x & P & I & W & D).
  inversion D; subst. exists code, ns, n, x. auto.
Qed.
Theorem c35_tokenless_types_refuted t : In t tokenless_types ->
  exists code ns n x d, parses ascii_tables code (Success ns) /\ In n ns /\ within x n /\ n_type x = t /\
    declared t = Some d /\ dc_token d = TokenRequired /\ n_token x = None.
Proof.
  intro L. destruct (tokenless_types_occur t L) as (code & ns & n & x & P & I & W & D).
  inversion D as [|d| | | | |]; subst. exists code, ns, n, x, d. auto 9.
Qed.

(* C36: every required child is present, apart from those in missing_children *)
Theorem c36_required U code ns n x k f : ascii_faithful U -> parses U code (Success ns) -> In n ns -> within x n ->
  declares x k f -> fd_presence f = Required ->
  child k x <> None \/ listed missing_children (n_type x) k.
Proof. exact (node_required U code ns n x k f). Qed.
Theorem c36_missing_children_refuted t k : listed missing_children t k ->
  exists code ns n x f, parses ascii_tables code (Success ns) /\ In n ns /\ within x n /\ n_type x = t /\
    declares x k f /\ fd_presence f = Required /\ child k x = None.
Proof.
  intro L. destruct (missing_children_occur t k L) as (code & ns & n & x & P & I & W & D).
  inversion D as [| | | | | |? f E1 E2 E3]; subst. exists code, ns, n, x, f. auto 9.
Qed.

(* An example: the required children of CASE and WHEN are there, in a text where both occur. *)
Definition case_text : str := s_ "select case when a then 1 end, b order by 2 limit 3".
Definition case_nodes : list node :=
  match parse ascii_tables 60 case_text with Success ns => flat_map (nodes_below 60) ns | _ => [] end.
Example c35_example : existsb (fun x => nt_eqb (n_type x) N_CaseExprArm) case_nodes = true /\
  existsb (fun x => nt_eqb (n_type x) N_LimitClause) case_nodes = true /\
  In N_CaseExprArm conforming_types /\ In N_LimitClause conforming_types.
Proof. vm_compute. repeat split; auto 40. Qed.
(* nothing unusual is needed for a deviation: every identifier lacks the required with_offset *)
Example c36_identifier_example : listed missing_children N_Identifier "with_offset" /\
  exists x, In x case_nodes /\ n_type x = N_Identifier /\ child "with_offset" x = None.
Proof.
  split; [eexists; split; [unfold missing_children; cbn; tauto|now left]|].
  exists (leaf N_Identifier 1 18 "a"). vm_compute. auto 20.
Qed.
(* nor for an undeclared child: ORDER BY after a set operation *)
Example c35_set_operator_example : listed extra_children N_SetOperator "orderby".
Proof. eexists. split; [unfold extra_children; cbn; tauto|cbn; tauto]. Qed.

Definition types_theorems := (c35_children, c35_types_and_tokens, c35_conforming_types, c35_extra_children_refuted,
  c35_odd_children_refuted, c35_disguised_children_refuted, c35_undeclared_types_refuted, c35_tokenless_types_refuted, c36_required, c36_missing_children_refuted).
Print Assumptions types_theorems.
