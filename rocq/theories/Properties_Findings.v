(* The properties C42-C45, C47, C48 and C50-C54 of properties.jsonl: expectations of a user that the parser does not meet. Each is
   stated for all texts, and refuted by a text. *)
From Verif Require Import Chars Token Cst Core MiniRust Lexer Program Api Bundles ParserSpec TreeSpec Properties_Lexer Properties_Parser.
Local Open Scope string_scope.
Local Open Scope list_scope.

Definition accepted (U : unicode) (code : str) : Prop := exists ns, parses U code (Success ns).
Definition rejected (U : unicode) (code : str) : Prop := exists e, parses U code (Failure e).
(* the two exclude each other: a text has one outcome *)
Lemma rejected_not_accepted U code : rejected U code -> ~ accepted U code.
Proof.
  intros (e & P) (ns & Q). discriminate (c20_one_outcome U code _ _ P Q).
Qed.
Lemma tables_faithful : ascii_faithful ascii_tables.
Proof. split; intros c H; reflexivity. Qed.
Ltac run := split; [discriminate|exists 60; vm_compute; reflexivity].

(* ----- C42 ----- *)
(* how many brackets are open after the words; None if one was closed that was not open *)
Fixpoint open_after (n : nat) (ws : list str) : option nat :=
  match ws with
  | [] => Some n
  | w :: r => if str_eqb w (s_ "(") then open_after (S n) r
              else if str_eqb w (s_ ")") then match n with S m => open_after m r | 0 => None end
              else open_after n r
  end.
Definition balanced (ts : list token) : Prop := open_after 0 (map literal (code_tokens ts)) = Some 0.
(* C42: the round brackets of accepted code need not match. *)
Theorem c42_balanced_refuted : ~ forall U code ts, ascii_faithful U -> tokenize U code = Success ts -> accepted U code -> balanced ts.
Proof.
  intro H. destruct (tokenize ascii_tables (s_ "SELECT )")) as [ts|e| |] eqn:T; [|vm_compute in T; discriminate T..].
  apply (H ascii_tables (s_ "SELECT )") ts tables_faithful) in T as B.
  - vm_compute in T. injection T as <-. vm_compute in B. discriminate B.
  - eexists. run.
Qed.
Example c42_nontrivial : exists ts, tokenize ascii_tables (s_ "SELECT (a + (b)) FROM (SELECT 1)") = Success ts /\ balanced ts.
Proof. eexists. split; vm_compute; reflexivity. Qed.

(* ----- C43 ----- *)
(* C43: that a text is accepted with a semicolon at its end does not mean that it is accepted without. *)
Theorem c43_final_semicolon_refuted :
  ~ forall U code, ascii_faithful U -> accepted U (code ++ s_ ";") -> ~ rejected U code.
Proof.
  intro H. apply (H ascii_tables (s_ "BREAK") tables_faithful).
  - eexists. run.
  - eexists. run.
Qed.
Example c43_nontrivial : accepted ascii_tables (s_ "SELECT 1;") /\ accepted ascii_tables (s_ "SELECT 1").
Proof. split; eexists; run. Qed.

(* ----- C44 ----- *)
(* C44: SET x = e assigns e. Refuted: an e whose operator binds weaker than '=' is torn apart, and what is
   assigned is its left operand. *)
Theorem c44_assignment_refuted : exists ns n e,
  accepted ascii_tables (s_ "SELECT a AND b") /\
  parses ascii_tables (s_ "SET x = a AND b") (Success ns) /\ In n ns /\ n_type n = N_SetStatement /\
  child "expr" n = Some (CNode e) /\ option_map literal (n_token e) = Some (s_ "AND").
Proof.
  do 3 eexists. split; [eexists; run|]. split; [run|]. split; [left; reflexivity|].
  split; [reflexivity|]. split; reflexivity.
Qed.

(* ----- C45 ----- *)
(* C45: a query in brackets is a query. Refuted: (SELECT 1) UNION ALL (SELECT 2) is accepted in brackets as a
   statement, and the same operands without brackets as an operand of an expression, but not the former in the
   place of the latter. *)
Theorem c45_query_in_brackets_refuted :
  accepted ascii_tables (s_ "((SELECT 1) UNION ALL (SELECT 2))") /\
  accepted ascii_tables (s_ "SELECT (SELECT 1 UNION ALL SELECT 2)") /\
  rejected ascii_tables (s_ "SELECT ((SELECT 1) UNION ALL (SELECT 2))").
Proof. split; [eexists; run|]. split; eexists; run. Qed.
(* nor is one accepted after INSERT, where it is taken for a list of columns, *)
Theorem c45_insert_refuted : accepted ascii_tables (s_ "INSERT INTO t SELECT 1") /\ rejected ascii_tables (s_ "INSERT INTO t (SELECT 1)").
Proof. split; eexists; run. Qed.
(* and the ORDER BY after a set operation is under its last operand, not at the set operation *)
Theorem c45_order_by_refuted : exists ns n r o,
  parses ascii_tables (s_ "SELECT 1 UNION ALL SELECT 2 ORDER BY 1") (Success ns) /\ In n ns /\ n_type n = N_SetOperator /\
  child "orderby" n = None /\ child "right" n = Some (CNode r) /\ child "orderby" r = Some o.
Proof. do 4 eexists. split; [run|]. split; [left; reflexivity|]. split; [reflexivity|]. split; [reflexivity|]. split; reflexivity. Qed.
(* neither can it follow an operand in brackets *)
Theorem c45_order_by_rejected_refuted :
  accepted ascii_tables (s_ "SELECT 1 UNION ALL (SELECT 2)") /\ accepted ascii_tables (s_ "SELECT 1 ORDER BY 1") /\
  rejected ascii_tables (s_ "SELECT 1 UNION ALL (SELECT 2) ORDER BY 1").
Proof. split; [eexists; run|]. split; eexists; run. Qed.
(* nor can both modifiers follow a star, though each can *)
Theorem c45_star_modifiers_refuted :
  accepted ascii_tables (s_ "SELECT * EXCEPT (a) FROM t") /\ accepted ascii_tables (s_ "SELECT * REPLACE (1 AS b) FROM t") /\
  rejected ascii_tables (s_ "SELECT * EXCEPT (a) REPLACE (1 AS b) FROM t").
Proof. split; [eexists; run|]. split; eexists; run. Qed.

(* ----- C47 ----- *)
Definition table_with (column : str) : str := s_ "CREATE TABLE t (" ++ column ++ s_ ")".
(* C47: the attributes of a column can be combined. Refuted: DEFAULT and NOT NULL are each accepted, but not one after the other, *)
Theorem c47_default_not_null_refuted :
  accepted ascii_tables (table_with (s_ "a INT64 DEFAULT 1")) /\ accepted ascii_tables (table_with (s_ "a INT64 NOT NULL")) /\
  rejected ascii_tables (table_with (s_ "a INT64 DEFAULT 1 NOT NULL")).
Proof. split; [eexists; run|]. split; eexists; run. Qed.
(* in the other order DEFAULT 1 is read as a second column, called DEFAULT and of the type 1, *)
Theorem c47_not_null_default_refuted : exists ns n g d d' t,
  parses ascii_tables (table_with (s_ "a INT64 NOT NULL DEFAULT 1")) (Success ns) /\ In n ns /\ child "column_schema_group" n = Some (CNode g) /\
  child "declarations" g = Some (CVec [d; d']) /\ option_map literal (n_token d') = Some (s_ "DEFAULT") /\
  child "type" d' = Some (CNode t) /\ option_map literal (n_token t) = Some (s_ "1").
Proof. do 6 eexists. split; [run|]. split; [left; reflexivity|]. repeat (split; [reflexivity|]). reflexivity. Qed.
(* and NOT NULL after PRIMARY KEY is kept as if it were NOT ENFORCED *)
Theorem c47_primary_key_not_null_refuted : exists ns n g d t e w,
  parses ascii_tables (table_with (s_ "a INT64 PRIMARY KEY NOT NULL")) (Success ns) /\ In n ns /\ child "column_schema_group" n = Some (CNode g) /\
  child "declarations" g = Some (CVec [d]) /\ child "type" d = Some (CNode t) /\ child "not_null" t = None /\
  child "enforced" t = Some (CNode e) /\ child "next_keyword" e = Some (CNode w) /\ option_map literal (n_token w) = Some (s_ "NULL").
Proof. do 7 eexists. split; [run|]. split; [left; reflexivity|]. repeat (split; [reflexivity|]). reflexivity. Qed.

(* ----- C48 ----- *)
(* C48: what is left out is missed. Refuted: the comma between two columns can be left out, *)
Theorem c48_comma_refuted :
  accepted ascii_tables (table_with (s_ "a INT64, b INT64")) /\ accepted ascii_tables (table_with (s_ "a INT64 b INT64")).
Proof. split; eexists; run. Qed.
(* so can the name of the table that is dropped (the semicolon is taken for the name), *)
Theorem c48_name_refuted : exists ns n m,
  parses ascii_tables (s_ "DROP TABLE ;") (Success ns) /\ In n ns /\ child "ident" n = Some (CNode m) /\ n_type m = N_Identifier /\
  option_map literal (n_token m) = Some (s_ ";").
Proof. do 3 eexists. split; [run|]. split; [left; reflexivity|]. repeat (split; [reflexivity|]). reflexivity. Qed.
(* and the word SELECT of a query after INSERT can be any word *)
Theorem c48_select_refuted : exists ns n q,
  parses ascii_tables (s_ "INSERT t anything a FROM b") (Success ns) /\ In n ns /\ child "input" n = Some (CNode q) /\ n_type q = N_SelectStatement /\
  option_map literal (n_token q) = Some (s_ "anything").
Proof. do 3 eexists. split; [run|]. split; [left; reflexivity|]. repeat (split; [reflexivity|]). reflexivity. Qed.
(* neither is it missed in the query of CREATE TABLE *)
Theorem c48_as_select_refuted : exists ns n a q,
  parses ascii_tables (s_ "CREATE TABLE t AS FROM u") (Success ns) /\ In n ns /\ child "as" n = Some (CNode a) /\ child "stmt" a = Some (CNode q) /\
  n_type q = N_SelectStatement /\ option_map literal (n_token q) = Some (s_ "FROM").
Proof. do 4 eexists. split; [run|]. split; [left; reflexivity|]. repeat (split; [reflexivity|]). reflexivity. Qed.
(* an item of a list: the comma after a comma becomes an item, and the name after it the alias of the comma, *)
Theorem c48_item_refuted : exists ns n a m al,
  parses ascii_tables (s_ "SELECT a,,b") (Success ns) /\ In n ns /\ child "exprs" n = Some (CVec [a; m]) /\
  option_map literal (n_token m) = Some (s_ ",") /\ child "alias" m = Some (CNode al) /\ option_map literal (n_token al) = Some (s_ "b").
Proof. do 5 eexists. split; [run|]. split; [left; reflexivity|]. repeat (split; [reflexivity|]). reflexivity. Qed.
(* and the semicolon becomes the only item of a query without any *)
Theorem c48_items_refuted : exists ns n m,
  parses ascii_tables (s_ "SELECT ;") (Success ns) /\ In n ns /\ child "exprs" n = Some (CVec [m]) /\ option_map literal (n_token m) = Some (s_ ";") /\
  child "semicolon" n = None.
Proof. do 3 eexists. split; [run|]. split; [left; reflexivity|]. repeat (split; [reflexivity|]). reflexivity. Qed.

(* ----- C50 ----- *)
(* C50: a pipe operator applies to all that comes before it. Refuted: after a query in brackets it applies to that query alone. The root
   of FROM (SELECT 1) |> WHERE a is the FROM, and the WHERE is below it, *)
Theorem c50_from_refuted : exists ns n p q o,
  parses ascii_tables (s_ "FROM (SELECT 1) |> WHERE a") (Success ns) /\ In n ns /\ n_type n = N_FromStatement /\ child "expr" n = Some (CNode p) /\
  n_type p = N_PipeStatement /\ child "left" p = Some (CNode q) /\ n_type q = N_GroupedStatement /\ child "right" p = Some (CNode o) /\
  option_map literal (n_token o) = Some (s_ "WHERE").
Proof. do 5 eexists. split; [run|]. split; [left; reflexivity|]. repeat (split; [reflexivity|]). reflexivity. Qed.
(* and in FROM t |> JOIN (SELECT 1) |> WHERE a the WHERE is a part of the JOIN; with an alias in between it is not *)
Theorem c50_join_refuted : exists ns n j p o,
  parses ascii_tables (s_ "FROM t |> JOIN (SELECT 1) |> WHERE a") (Success ns) /\ In n ns /\ n_type n = N_PipeStatement /\ child "right" n = Some (CNode j) /\
  n_type j = N_JoinPipeOperator /\ child "exprs" j = Some (CVec [p]) /\ n_type p = N_PipeStatement /\ child "right" p = Some (CNode o) /\
  option_map literal (n_token o) = Some (s_ "WHERE").
Proof. do 5 eexists. split; [run|]. split; [left; reflexivity|]. repeat (split; [reflexivity|]). reflexivity. Qed.
Theorem c50_join_alias : exists ns n j o,
  parses ascii_tables (s_ "FROM t |> JOIN (SELECT 1) AS u |> WHERE a") (Success ns) /\ In n ns /\ n_type n = N_PipeStatement /\ child "left" n = Some (CNode j) /\
  n_type j = N_PipeStatement /\ child "right" n = Some (CNode o) /\ option_map literal (n_token o) = Some (s_ "WHERE").
Proof. do 4 eexists. split; [run|]. split; [left; reflexivity|]. repeat (split; [reflexivity|]). reflexivity. Qed.

(* ----- C51 ----- *)
(* C51: the space between a word and a symbol can be left out. Refuted: it decides how the symbol |> is read. After a space, it is the
   operator; without it, it is a part of the name of the table, which then is t|>WHERE and has the alias a. *)
Theorem c51_space_before_pipe_refuted : exists ns n ns' n' m w1 w2 a,
  parses ascii_tables (s_ "FROM t |>WHERE a") (Success ns) /\ In n ns /\ n_type n = N_PipeStatement /\
  parses ascii_tables (s_ "FROM t|>WHERE a") (Success ns') /\ In n' ns' /\ n_type n' = N_FromStatement /\ child "expr" n' = Some (CNode m) /\
  n_type m = N_MultiTokenIdentifier /\ child "trailing_idents" m = Some (CVec [w1; w2]) /\
  option_map literal (n_token w1) = Some (s_ "|>") /\ option_map literal (n_token w2) = Some (s_ "WHERE") /\
  child "alias" m = Some (CNode a) /\ option_map literal (n_token a) = Some (s_ "a").
Proof.
  do 8 eexists. split; [run|]. split; [left; reflexivity|]. split; [reflexivity|]. split; [run|]. split; [left; reflexivity|].
  repeat (split; [reflexivity|]). reflexivity.
Qed.

(* ----- C52 ----- *)
(* C52: any word that is not reserved can name a column. Refuted: MODEL is not reserved, but SELECT model FROM t is read as the word MODEL
   before a name FROM, with the alias t, and the query has no FROM. *)
Theorem c52_model_refuted : exists ns n ns' n' m r a,
  parses ascii_tables (s_ "SELECT modal FROM t") (Success ns) /\ In n ns /\ child "from" n <> None /\
  parses ascii_tables (s_ "SELECT model FROM t") (Success ns') /\ In n' ns' /\ child "from" n' = None /\ child "exprs" n' = Some (CVec [m]) /\
  child "right" m = Some (CNode r) /\ option_map literal (n_token r) = Some (s_ "FROM") /\
  child "alias" m = Some (CNode a) /\ option_map literal (n_token a) = Some (s_ "t").
Proof.
  do 7 eexists. split; [run|]. split; [left; reflexivity|]. split; [discriminate|]. split; [run|]. split; [left; reflexivity|].
  repeat (split; [reflexivity|]). reflexivity.
Qed.
(* at the end of a list it is rejected *)
Theorem c52_last_refuted : accepted ascii_tables (s_ "SELECT a, modal") /\ rejected ascii_tables (s_ "SELECT a, model").
Proof. split; eexists; run. Qed.

(* ----- C53 ----- *)
(* C53: what can be created can be dropped. Refuted: a vector index can be created and altered, but not dropped; a search index can. *)
Theorem c53_vector_index_refuted :
  accepted ascii_tables (s_ "CREATE VECTOR INDEX i ON t(a)") /\ accepted ascii_tables (s_ "ALTER VECTOR INDEX i ON t REBUILD") /\
  rejected ascii_tables (s_ "DROP VECTOR INDEX i ON t") /\ accepted ascii_tables (s_ "DROP SEARCH INDEX i ON t").
Proof. repeat split; eexists; run. Qed.

(* ----- C54 ----- *)
(* C54: OPTIONS can be given to any table that is created. Refuted: not to a snapshot. *)
Theorem c54_snapshot_options_refuted :
  accepted ascii_tables (s_ "CREATE TABLE a OPTIONS (x = 1)") /\ accepted ascii_tables (s_ "CREATE SNAPSHOT TABLE a CLONE b") /\
  rejected ascii_tables (s_ "CREATE SNAPSHOT TABLE a CLONE b OPTIONS (x = 1)").
Proof. repeat split; eexists; run. Qed.

(* ----- C55 ----- *)
(* C55: what follows a dot is a name. Refuted: in SELECT a..b the second dot is read as the field of a, and b as an alias, *)
Theorem c55_dot_refuted : exists ns n m l r a,
  parses ascii_tables (s_ "SELECT a..b") (Success ns) /\ In n ns /\ child "exprs" n = Some (CVec [m]) /\ n_type m = N_DotOperator /\
  child "left" m = Some (CNode l) /\ option_map literal (n_token l) = Some (s_ "a") /\
  child "right" m = Some (CNode r) /\ n_type r = N_Identifier /\ option_map literal (n_token r) = Some (s_ ".") /\
  child "alias" m = Some (CNode a) /\ option_map literal (n_token a) = Some (s_ "b").
Proof. do 6 eexists. split; [run|]. split; [left; reflexivity|]. repeat (split; [reflexivity|]). reflexivity. Qed.
(* and in SELECT a.) the bracket is; without anything after the dot the text is rejected *)
Theorem c55_bracket_refuted : (exists ns n m r,
  parses ascii_tables (s_ "SELECT a.)") (Success ns) /\ In n ns /\ child "exprs" n = Some (CVec [m]) /\ n_type m = N_DotOperator /\
  child "right" m = Some (CNode r) /\ n_type r = N_Identifier /\ option_map literal (n_token r) = Some (s_ ")")) /\
  rejected ascii_tables (s_ "SELECT a.").
Proof.
  split; [|eexists; run].
  do 4 eexists. split; [run|]. split; [left; reflexivity|]. repeat (split; [reflexivity|]). reflexivity.
Qed.

Definition findings := (rejected_not_accepted, c42_balanced_refuted, c43_final_semicolon_refuted, c44_assignment_refuted,
  c45_query_in_brackets_refuted, c45_order_by_refuted, c45_order_by_rejected_refuted, c45_star_modifiers_refuted,
  c47_default_not_null_refuted, c47_not_null_default_refuted, c47_primary_key_not_null_refuted, c48_comma_refuted, c48_name_refuted, c48_select_refuted, c48_as_select_refuted,
  c50_from_refuted, c50_join_refuted, c50_join_alias, c51_space_before_pipe_refuted,
  c45_insert_refuted, c48_item_refuted, c48_items_refuted, c52_model_refuted, c52_last_refuted, c53_vector_index_refuted, c54_snapshot_options_refuted,
  c55_dot_refuted, c55_bracket_refuted).
Print Assumptions findings.
