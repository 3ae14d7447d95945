(* The properties C22 to C26 of properties.jsonl: which tokens and comments the trees of a
   successful parse hold. The words used are defined in TreeSpec.v ([within], [tree_tokens],
   [made_from], [carries]) and Bundles.v ([grouped]). *)
From Verif Require Import Chars Token Cst Core MiniRust Lexer Program Api Bundles TreeSpec
  LexSpec LexGrammar ParserSpec ParserInvariance TreeTheorems Properties_Lexer Properties_Parser.
From Coq Require Import Permutation.
Local Open Scope string_scope.
Local Open Scope list_scope.

(* The text the examples parse. *)
Definition sample : str := s_ "/* a */ select x, -- b
 [1] # c
from t; # d
-- e
(select 'y');
-- f".
Definition sample_trees : list node :=
  match parse ascii_tables 60 sample with Success ns => ns | _ => [] end.
Definition sample_tokens : list token :=
  match tokenize ascii_tables sample with Success ts => removelast ts | _ => [] end.
Lemma sample_parses : parses ascii_tables sample (Success sample_trees).
Proof. apply (parses_by 60); [vm_compute; reflexivity|discriminate]. Qed.

(* C22: statements, then one EOF node, which has no token *)
Theorem c22_shape U code ns : ascii_faithful U -> parses U code (Success ns) ->
  exists stmts tail, ns = stmts ++ [eof_node_with tail] /\
    Forall (fun n => In (n_type n) statement_node_types) stmts /\ ~ In N_EOF statement_node_types.
Proof. intros HU P. exact (parse_result_shape U HU code ns P). Qed.
Example c22_example : exists a b tail, sample_trees = [a; b; eof_node_with tail] /\
  n_type a = N_SelectStatement /\ n_type b = N_GroupedStatement /\ map literal tail = [s_ "-- f"].
Proof. do 2 eexists. exists [T 6 1 "-- f"]. split; [vm_compute; reflexivity|]. repeat split. Qed.

(* C23: the tree's tokens are tokens of the source, none twice, the EOF marker not among them *)
Theorem c23_no_duplicates U code ns : ascii_faithful U -> parses U code (Success ns) ->
  exists ts, tokenize U code = Success (ts ++ [eof_token]) /\ NoDup (trees_tokens ns) /\
    incl (trees_tokens ns) ts /\ ~ In eof_token (trees_tokens ns).
Proof. intros HU P. exact (parse_no_duplicates U HU code ns P). Qed.
Example c23_example : List.length (trees_tokens sample_trees) = 20.
Proof. vm_compute. reflexivity. Qed.

(* C24: every token is in the tree or in a child that was replaced; none is lost if there
   is only one semicolon and only one NOT or ENFORCED *)
Theorem c24_tokens_kept_or_replaced U code ns : ascii_faithful U -> parses U code (Success ns) ->
  exists ts L, tokenize U code = Success (ts ++ [eof_token]) /\ Forall (replaced U) L /\
    Permutation (trees_tokens ns ++ trees_tokens (map old_child L)) ts.
Proof. intros HU P. exact (parse_tokens_kept U HU code ns P). Qed.
Theorem c24_no_token_lost U code ns ts : ascii_faithful U -> parses U code (Success ns) ->
  tokenize U code = Success (ts ++ [eof_token]) ->
  occurrences U [";"] ts <= 1 -> occurrences U ["NOT"; "ENFORCED"] ts <= 1 ->
  Permutation (trees_tokens ns) ts.
Proof. intros HU P. exact (parse_keeps_all U HU code ns ts P). Qed.
Definition one_statement : str := s_ "create table t (a int64 primary key not enforced); # c".
Example c24_example : exists ns ts, parses ascii_tables one_statement (Success ns) /\
  tokenize ascii_tables one_statement = Success (ts ++ [eof_token]) /\
  occurrences ascii_tables [";"] ts <= 1 /\ occurrences ascii_tables ["ENFORCED"] ts = 1.
Proof.
  eexists. exists (match tokenize ascii_tables one_statement with Success ts => removelast ts | _ => [] end).
  split; [apply (parses_by 60); [vm_compute; reflexivity|discriminate]|].
  split; [vm_compute; reflexivity|]. split; [vm_compute; apply le_n|vm_compute; reflexivity].
Qed.
(* tokens do get lost *)
Definition loses (code : str) (lost : list token) : Prop :=
  exists ns ts, parses ascii_tables code (Success ns) /\ tokenize ascii_tables code = Success (ts ++ [eof_token]) /\
    forall t, In t lost -> In t ts /\ ~ In t (trees_tokens ns).
Definition loses_check (fuel : nat) (code : str) (lost : list token) : bool :=
  match parse ascii_tables fuel code, tokenize ascii_tables code with
  | Success ns, Success ts =>
      forallb (fun t => if in_dec token_eq_dec t (removelast ts)
                        then if in_dec token_eq_dec t (trees_tokens ns) then false else true else false) lost
  | _, _ => false
  end.
Lemma loses_by fuel code lost : loses_check fuel code lost = true -> loses code lost.
Proof.
  unfold loses_check. destruct (parse ascii_tables fuel code) as [ns| | |] eqn:P; try discriminate.
  destruct (tokenize ascii_tables code) as [ts| | |] eqn:E; try discriminate. intro H.
  destruct (tokenize_ends _ _ _ E) as [ts0 ->]. rewrite removelast_last in H.
  exists ns, ts0. split; [now apply (parses_by fuel)|]. split; [exact E|].
  intros t I. rewrite forallb_forall in H. specialize (H t I). destruct (in_dec token_eq_dec t ts0); [|discriminate].
  destruct (in_dec token_eq_dec t (trees_tokens ns)); [discriminate|]. auto.
Qed.
Theorem c24_enforced_lost_refuted :
  loses (s_ "CREATE TABLE t (a INT64 PRIMARY KEY NOT ENFORCED REFERENCES u(a) NOT ENFORCED)") [T 1 37 "NOT"; T 1 41 "ENFORCED"].
Proof. apply (loses_by 60). vm_compute. reflexivity. Qed.
Theorem c24_merge_semicolon_lost_refuted :
  loses (s_ "MERGE t USING s ; ON a = b WHEN MATCHED THEN DELETE ;") [T 1 17 ";"].
Proof. apply (loses_by 60). vm_compute. reflexivity. Qed.
Theorem c24_labelled_from_semicolon_lost_refuted : loses (s_ "l: FROM a /* c */ ; -- d
;") [T 1 19 ";"; T 1 21 "-- d"].
Proof. apply (loses_by 60). vm_compute. reflexivity. Qed.
Theorem c24_labelled_pipe_semicolon_lost_refuted : loses (s_ "l: FROM a |> WHERE x ; ;") [T 1 22 ";"].
Proof. apply (loses_by 60). vm_compute. reflexivity. Qed.

(* C25: the source divides into tokens with the comments before and after them ([grouped]),
   and the node of a token carries exactly these; a comment occurs nowhere else in the tree *)
Theorem c25_comments U code ns : ascii_faithful U -> parses U code (Success ns) ->
  exists bs, grouped bs /\ tokenize U code = Success (flats bs) /\
  forall n x, In n ns -> within x n ->
    match n_token x with
    | Some t =>
        if is_comment t
        then x = comment_node t /\
             exists p k l, within p n /\ In (k, CVec l) (n_children p) /\ (k = "leading_comments" \/ k = "trailing_comments") /\ In x l
        else exists b, In b bs /\ b_tok b = t /\ carries x "leading_comments" (b_lead b) /\ carries x "trailing_comments" (b_trail b)
    | None =>
        n_type x <> N_EOF -> carries x "leading_comments" [] /\ carries x "trailing_comments" []
    end.
Proof. intros HU P. exact (parse_comments U HU code ns P). Qed.
Example c25_example : exists bs, grouped bs /\ flats bs = sample_tokens ++ [eof_token] /\
  In (Bundle [] (T 2 4 "]") [T 2 6 "# c"]) bs /\ In (Bundle [T 4 1 "-- e"] (T 5 1 "(") []) bs /\
  In (Bundle [] (T 3 7 ";") [T 3 9 "# d"]) bs /\ In (Bundle [T 6 1 "-- f"] eof_token []) bs.
Proof.
  exists [Bundle [T 1 1 "/* a */"] (T 1 9 "select") []; Bundle [] (T 1 16 "x") []; Bundle [] (T 1 17 ",") [T 1 19 "-- b"];
          Bundle [] (T 2 2 "[") []; Bundle [] (T 2 3 "1") []; Bundle [] (T 2 4 "]") [T 2 6 "# c"];
          Bundle [] (T 3 1 "from") []; Bundle [] (T 3 6 "t") []; Bundle [] (T 3 7 ";") [T 3 9 "# d"];
          Bundle [T 4 1 "-- e"] (T 5 1 "(") []; Bundle [] (T 5 2 "select") []; Bundle [] (T 5 9 "'y'") [];
          Bundle [] (T 5 12 ")") []; Bundle [] (T 5 13 ";") []; Bundle [T 6 1 "-- f"] eof_token []].
  split; [|split; [vm_compute; reflexivity|repeat split; vm_compute; tauto]].
  repeat (constructor; [repeat constructor|reflexivity|repeat constructor|repeat constructor|intros ? ? E; try discriminate E; injection E as <- _; discriminate|]).
  constructor; [repeat constructor|reflexivity].
Qed.

(* C26: the statements are made from consecutive slices of the source *)
Theorem c26_slices U code ns : ascii_faithful U -> parses U code (Success ns) ->
  exists stmts slices tail,
    ns = stmts ++ [eof_node_with tail] /\ tokenize U code = Success (List.concat slices ++ tail ++ [eof_token]) /\
    Forall2 (fun n sl => In (n_type n) statement_node_types /\ sl <> [] /\ made_from U n sl) stmts slices /\
    comments tail.
Proof. intros HU P. exact (parse_slices U HU code ns P). Qed.
Example c26_example : map (fun n => map literal (tree_tokens n)) (removelast sample_trees) =
  [map s_ ["select"; "/* a */"; "x"; ","; "-- b"; "["; "1"; "]"; "# c"; "from"; "t"; ";"; "# d"];
   map s_ ["("; "-- e"; "select"; "'y'"; ")"; ";"]].
Proof. vm_compute. reflexivity. Qed.

Definition tree_theorems :=
  (@c22_shape, @c23_no_duplicates, @c24_tokens_kept_or_replaced, @c24_no_token_lost, @c24_enforced_lost_refuted,
   @c24_merge_semicolon_lost_refuted, @c24_labelled_from_semicolon_lost_refuted, @c24_labelled_pipe_semicolon_lost_refuted,
   @c25_comments, @c26_slices).
Print Assumptions tree_theorems.
