(* Specification vocabulary for the theorems about whole trees: the nodes and the tokens of
   a tree. *)
From Verif Require Import Chars Token Cst.
From Coq Require Import Permutation.
Local Open Scope string_scope.
Local Open Scope list_scope.
Local Notation length := List.length.

(* [within x n]: x is a node of the tree n, which may be n itself. *)
Inductive within (x : node) : node -> Prop :=
| within_here : within x x
| within_node n k c : In (k, CNode c) (n_children n) -> within x c -> within x n
| within_list n k l c : In (k, CVec l) (n_children n) -> In c l -> within x c -> within x n.

(* All tokens of a tree, those of comments included, as often as they occur. *)
Fixpoint tree_tokens (n : node) : list token :=
  match n with
  | Node t _ m =>
      (match t with Some t => [t] | None => [] end) ++
      (fix children (m : list (string * content)) : list token :=
         match m with
         | [] => []
         | (_, CNode c) :: m' => tree_tokens c ++ children m'
         | (_, CVec l) :: m' =>
             (fix nodes (l : list node) : list token :=
                match l with [] => [] | c :: l' => tree_tokens c ++ nodes l' end) l ++ children m'
         end) m
  end.
Definition trees_tokens (l : list node) : list token := flat_map tree_tokens l.

(* ----- what a parse returns ----- *)
(* the types of the statements a source text consists of *)
Definition statement_node_types : list node_type :=
  [N_AlterColumnStatement; N_AlterBICapacityStatement; N_AlterModelStatement; N_AlterOrganizationStatement;
   N_AlterProjectStatement; N_AlterReservationStatement; N_AlterSchemaStatement; N_AlterTableStatement;
   N_AlterVectorIndexStatement; N_AlterViewStatement; N_AssertStatement; N_BeginStatement;
   N_BreakContinueStatement; N_CallStatement; N_CaseStatement; N_CreateFunctionStatement; N_CreateIndexStatement;
   N_CreateModelStatement; N_CreateProcedureStatement; N_CreateReservationStatement;
   N_CreateRowAccessPolicyStatement; N_CreateSchemaStatement; N_CreateTableStatement; N_CreateViewStatement;
   N_DeclareStatement; N_DeleteStatement; N_DropStatement; N_DropRowAccessPolicyStatement; N_ExecuteStatement;
   N_ExportDataStatement; N_ExportModelStatement; N_ForStatement; N_FromStatement; N_GrantStatement;
   N_GroupedStatement; N_IfStatement; N_InsertStatement; N_LoadStatement; N_LoopStatement; N_MergeStatement;
   N_PipeStatement; N_RaiseStatement; N_RepeatStatement; N_RevokeStatement; N_SelectStatement; N_SetOperator;
   N_SetStatement; N_SingleTokenStatement; N_TransactionStatement; N_TruncateStatement; N_UndropStatement;
   N_UpdateStatement; N_WhileStatement].

(* the node made of a comment *)
Definition comment_node (c : token) : node := Node (Some c) N_Comment [].
(* the node x carries the comments l under the key k; a key without comments is absent *)
Definition carries (x : node) (k : string) (l : list token) : Prop :=
  child k x = match l with [] => None | _ => Some (CVec (map comment_node l)) end.

(* the last node: it has no token, and carries the comments after the last token *)
Definition eof_node_with (tail : list token) : node :=
  Node None N_EOF match tail with [] => [] | _ => [("leading_comments", CVec (map comment_node tail))] end.

Section WithUnicode.
Context (U : unicode) .

(* the node's token is, in upper case, one of the words *)
Definition reads (words : list string) (n : node) : Prop :=
  exists t w, n_token n = Some t /\ In w words /\ upper_literal U t = s_ w.

(* A child that was replaced, in a node of type [in_type], by a second one with the same key. *)
Record replacement := Replacement { in_type : node_type; under_key : string; old_child : node; new_child : node }.
(* The only replacements that happen:
   - [NOT] ENFORCED after PRIMARY KEY, by the one after REFERENCES (parser.rs:1505-1520);
   - the semicolon after the source of MERGE, or of a statement in a FROM or pipe statement,
     by the one at the end. *)
Inductive replaced : replacement -> Prop :=
| replaced_enforced a b :
    In (n_type a) [N_Keyword; N_KeywordSequence] -> reads ["NOT"; "ENFORCED"] a ->
    In (n_type b) [N_Keyword; N_KeywordSequence] -> reads ["NOT"; "ENFORCED"] b ->
    replaced (Replacement N_Type "enforced" a b)
| replaced_semicolon p a b :
    In p [N_MergeStatement; N_FromStatement; N_PipeStatement] ->
    n_type a = N_Symbol -> reads [";"] a -> n_type b = N_Symbol -> reads [";"] b ->
    replaced (Replacement p "semicolon" a b).

(* [n] is made of the tokens [sl], except those of the children [L] that were replaced *)
Definition made_from (n : node) (sl : list token) : Prop :=
  exists L, Forall replaced L /\ Permutation (tree_tokens n ++ trees_tokens (map old_child L)) sl.

(* how many of the tokens read, in upper case, as one of the words *)
Definition occurrences (words : list string) (ts : list token) : nat :=
  length (filter (fun t => existsb (fun w => str_eqb (upper_literal U t) (s_ w)) words) ts).
End WithUnicode.

(* ----- the same, as equations ----- *)
Definition content_tokens (c : content) : list token :=
  match c with CNode n => tree_tokens n | CVec l => trees_tokens l end.
Definition children_tokens (m : list (string * content)) : list token :=
  flat_map (fun kc => content_tokens (snd kc)) m.
Definition own_token (n : node) : list token := match n_token n with Some t => [t] | None => [] end.

Lemma tree_tokens_eq n : tree_tokens n = own_token n ++ children_tokens (n_children n).
Proof.
  destruct n as [t ty m]. unfold own_token. cbn [tree_tokens n_token n_children]. f_equal.
  induction m as [|[k c] m IH]; [reflexivity|]. cbn [children_tokens flat_map snd content_tokens].
  destruct c as [c|l]; [now rewrite IH|]. rewrite IH. reflexivity.
Qed.

(* the number of nodes, for inductions *)
Fixpoint tree_size (n : node) : nat :=
  match n with
  | Node _ _ m =>
      S ((fix children (m : list (string * content)) : nat :=
         match m with
         | [] => 0
         | (_, CNode c) :: m' => tree_size c + children m'
         | (_, CVec l) :: m' =>
             (fix nodes (l : list node) : nat :=
                match l with [] => 0 | c :: l' => tree_size c + nodes l' end) l + children m'
         end) m)
  end.
Lemma tree_size_node n k c : In (k, CNode c) (n_children n) -> tree_size c < tree_size n.
Proof.
  destruct n as [t ty m]. cbn [n_children tree_size]. induction m as [|[k' c'] m IH]; [intros []|].
  intros [H|H]; [injection H as -> ->; lia|]. specialize (IH H). destruct c'; lia.
Qed.
Lemma tree_size_list n k l c : In (k, CVec l) (n_children n) -> In c l -> tree_size c < tree_size n.
Proof.
  destruct n as [t ty m]. cbn [n_children tree_size]. intros H J. induction m as [|[k' c'] m IH]; [destruct H|].
  destruct H as [H|H].
  - injection H as -> ->. clear IH. induction l as [|x l IHl]; [destruct J|]. destruct J as [->|J]; [lia|].
    specialize (IHl J). lia.
  - specialize (IH H). destruct c'; lia.
Qed.
Lemma node_induction (P : node -> Prop) :
  (forall n,
    (forall k c, In (k, CNode c) (n_children n) -> P c) ->
    (forall k l c, In (k, CVec l) (n_children n) -> In c l -> P c) -> P n) -> forall n, P n.
Proof.
  intros H n. assert (K : forall z n, tree_size n < z -> P n).
  { induction z as [|z IH]; intros x L; [lia|]. apply H.
    - intros k c J. apply IH. pose proof (tree_size_node _ _ _ J). lia.
    - intros k l c J1 J2. apply IH. pose proof (tree_size_list _ _ _ _ J1 J2). lia. }
  apply (K (S (tree_size n))). lia.
Qed.

Lemma within_trans x y z : within x y -> within y z -> within x z.
Proof. intros H1 H2. induction H2; eauto using within. Qed.

(* ----- weights: the sum of w over a list of tokens ----- *)
Definition weight (w : token -> nat) (l : list token) : nat := list_sum (map w l).
Lemma weight_nil w : weight w [] = 0. Proof. reflexivity. Qed.
Lemma weight_cons w t l : weight w (t :: l) = w t + weight w l. Proof. reflexivity. Qed.
Lemma weight_app w a b : weight w (a ++ b) = weight w a + weight w b.
Proof. unfold weight. now rewrite map_app, list_sum_app. Qed.

Definition token_eq_dec (a b : token) : {a = b} + {a <> b}.
Proof. repeat decide equality. Defined.

Lemma weight_count t l : weight (fun x => if token_eq_dec x t then 1 else 0) l = count_occ token_eq_dec l t.
Proof.
  induction l as [|x l IH]; [reflexivity|]. rewrite weight_cons, IH. cbn [count_occ].
  destruct (token_eq_dec x t); reflexivity.
Qed.
Lemma weight_permutation a b : (forall w, weight w a = weight w b) -> Permutation a b.
Proof.
  intro E. apply (Permutation_count_occ token_eq_dec). intro t. rewrite <- !weight_count. apply E.
Qed.
Lemma permutation_weight a b : Permutation a b -> forall w, weight w a = weight w b.
Proof. induction 1; intro w; rewrite ?weight_cons; try rewrite IHPermutation; try lia. now rewrite IHPermutation1, IHPermutation2. Qed.

Lemma weight_children_insert w k v m :
  weight w (children_tokens (map_insert k v m)) +
    match map_get k m with Some o => weight w (content_tokens o) | None => 0 end =
  weight w (children_tokens m) + weight w (content_tokens v).
Proof.
  unfold children_tokens. induction m as [|[k' v'] m IH]; cbn [map_insert map_get flat_map snd].
  - rewrite !weight_app, weight_nil. lia.
  - destruct (String.eqb k k'); cbn [flat_map snd]; rewrite !weight_app; [lia|]. lia.
Qed.
