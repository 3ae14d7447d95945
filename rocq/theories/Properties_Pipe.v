(* The property C49 of properties.jsonl: a query in pipe syntax, FROM t |> WHERE a |> SELECT b, is read as the table
   with the operators applied one after the other, from left to right; the trees are those of PipeSpec.v. *)
From Verif Require Import Chars Token Cst Core Lexer Program Api ParserTotal Bundles LexSpec LexProps ParserInvariance GroupingSpec GrammarSpec GroupedCheck
  PipeSpec DefinitionSpec StatementSpec StatementScript Properties_Parser.
Local Open Scope string_scope.
Local Open Scope list_scope.

(* a pipeline: FROM, a table, and operators, before the token [next] *)
Definition yield_pipeline (k : bundle) (t : table) (os : operators) : list bundle := k :: yield_table t ++ yield_operators os.
Definition wf_pipeline (U : unicode) (k : bundle) (t : table) (os : operators) (next : bundle) : Prop :=
  is_word U k "FROM" /\ wf_table U t (hd next (yield_operators os)) /\ wf_operators U os next.
Definition tree_pipeline (U : unicode) (k : bundle) (t : table) (os : operators) : node :=
  tree_operators U (made N_FromStatement k [("expr", CNode (tree_table U t))]) os.

(* C49: a text that consists of the tokens of a pipeline is parsed to its tree *)
Theorem c49_pipelines_are_read U code k t os eof : ascii_faithful U ->
  tokenize U code = Success (flats (yield_pipeline k t os ++ [eof])) -> grouped (yield_pipeline k t os ++ [eof]) -> wf_pipeline U k t os eof ->
  parses U code (Success [tree_pipeline U k t os; eof_tree eof]).
Proof. intros HU T G W. exact (program_parses U HU code (LastStmt (Do (Piped k t os))) eof T G W). Qed.
(* the same with a semicolon after it, which becomes a part of the tree *)
Theorem c49_semicolon U code k t os semi eof : ascii_faithful U ->
  tokenize U code = Success (flats (yield_pipeline k t os ++ [semi; eof])) -> grouped (yield_pipeline k t os ++ [semi; eof]) ->
  wf_pipeline U k t os semi -> is_word U semi ";" ->
  parses U code (Success [with_kid "semicolon" (symbol semi) (tree_pipeline U k t os); eof_tree eof]).
Proof.
  intros HU T G W S.
  assert (E : yield_pipeline k t os ++ [semi; eof] = yield_program (ThenStmt (Do (Piped k t os)) semi NoMore) ++ [eof]) by
    (unfold yield_pipeline; cbn [yield_program yield_stmt yield_deed]; now rewrite <- app_assoc).
  rewrite E in T, G. exact (program_parses U HU code (ThenStmt (Do (Piped k t os)) semi NoMore) eof T G (conj W (conj S Logic.I))).
Qed.
(* Left to right: the last operator is on top, and below it is the tree of the text without that operator. *)
Theorem c49_left_to_right U code code' k t os b o eof eof' n : ascii_faithful U ->
  tokenize U code = Success (flats (yield_pipeline k t (os ++ [(b, o)]) ++ [eof])) -> grouped (yield_pipeline k t (os ++ [(b, o)]) ++ [eof]) ->
  wf_pipeline U k t (os ++ [(b, o)]) eof ->
  tokenize U code' = Success (flats (yield_pipeline k t os ++ [eof'])) -> grouped (yield_pipeline k t os ++ [eof']) -> wf_pipeline U k t os eof' ->
  parses U code' (Success [n; eof_tree eof']) ->
  parses U code (Success [made N_PipeStatement b [("left", CNode n); ("right", CNode (tree_operator U o))]; eof_tree eof]).
Proof.
  intros HU T G W T' G' W' P. pose proof (c49_pipelines_are_read U code' k t os eof' HU T' G' W') as P'.
  pose proof (ParserTotal.parses_functional U code' _ _ P P') as E.
  pose proof (f_equal (fun o => match o with Success (n :: _) => n | _ => eof_tree eof end) E) as En. cbn beta iota in En. rewrite En.
  pose proof (c49_pipelines_are_read U code k t (os ++ [(b, o)]) eof HU T G W) as Q.
  replace (made N_PipeStatement b [("left", CNode (tree_pipeline U k t os)); ("right", CNode (tree_operator U o))]) with (tree_pipeline U k t (os ++ [(b, o)])); [exact Q|].
  clear. unfold tree_pipeline. generalize (made N_FromStatement k [("expr", CNode (tree_table U t))]). induction os as [|[b' o'] r IH]; intro l; [reflexivity|].
  cbn [tree_operators app]. apply IH.
Qed.
(* one text has one tree *)
Theorem c49_unambiguous U code k t os eof k' t' os' eof' : ascii_faithful U ->
  tokenize U code = Success (flats (yield_pipeline k t os ++ [eof])) -> grouped (yield_pipeline k t os ++ [eof]) -> wf_pipeline U k t os eof ->
  tokenize U code = Success (flats (yield_pipeline k' t' os' ++ [eof'])) -> grouped (yield_pipeline k' t' os' ++ [eof']) -> wf_pipeline U k' t' os' eof' ->
  tree_pipeline U k t os = tree_pipeline U k' t' os'.
Proof.
  intros HU T G W T' G' W'. pose proof (c49_pipelines_are_read U code k t os eof HU T G W) as P. pose proof (c49_pipelines_are_read U code k' t' os' eof' HU T' G' W') as P'.
  pose proof (ParserTotal.parses_functional U code _ _ P P') as E. exact (f_equal (fun o => match o with Success (n :: _) => n | _ => eof_tree eof end) E).
Qed.

(* Texts that meet the hypotheses. *)
Definition sample_a : str := s_ "FROM t AS u, d.v |> WHERE a > 1 |> EXTEND a + 1 AS c, b d |> JOIN (SELECT 1) AS s ON a = b |> ORDER BY a DESC, b |> SELECT DISTINCT AS STRUCT a, b |> LIMIT 10 OFFSET 5;".
Definition tokens_a : list token := Eval vm_compute in match tokenize ascii_tables sample_a with Success ts => ts | _ => [] end.
Definition a (k : nat) : bundle := Bundle [] (nth k tokens_a eof_token) [].
Definition program_a : program :=
  (ThenStmt (Do (Piped (a 0) (Join (Base (Source (Path (Atom (a 1))) (AliasAs (a 2) (a 3)) Now NoOffset NoSample)) (Joined (a 4)) (Source (Path (Field (Atom (a 5)) (a 6) (a 7))) NoAlias Now NoOffset NoSample) NoCondition)
    [((a 8), Apply (a 9) (One (Plain (Infix (Atom (a 10)) (a 11) (Atom (a 12))))));
     ((a 13), Apply (a 14) (More (Named (Infix (Atom (a 15)) (a 16) (Atom (a 17))) (a 18) (a 19)) (a 20) (One (Called (Atom (a 21)) (a 22)))));
     ((a 23), Attach (Joined (a 24)) (Source (SubTable (a 25) (Select (a 26) None None (One (Plain (Atom (a 27)))) NoFrom NoClause NoBy NoClause NoClause NoWindow NoBy NoLimit) (a 28)) (AliasAs (a 29) (a 30)) Now NoOffset NoSample) (On (a 31) (Infix (Atom (a 32)) (a 33) (Atom (a 34)))));
     ((a 35), Arrange (a 36) (a 37) (More (Ordered (Atom (a 38)) (Some (a 39)) None) (a 40) (One (Plain (Atom (a 41))))));
     ((a 42), Project (a 43) (Some (a 44)) (Some ((a 45), (a 46))) (More (Plain (Atom (a 47))) (a 48) (One (Plain (Atom (a 49))))));
     ((a 50), Take (a 51) (Atom (a 52)) (Some ((a 53), (Atom (a 54)))))])) (a 55) NoMore).
Definition sample_b : str := s_ "FROM t |> AGGREGATE SUM(a) AS s GROUP BY b, c AS d |> FULL OUTER UNION ALL BY NAME ON (a) (SELECT 1), (SELECT 2) |> INTERSECT DISTINCT STRICT CORRESPONDING BY (a, b) (SELECT 3) |> LEFT OUTER JOIN w USING (a) |> CROSS JOIN x |> AS y |> DISTINCT;".
Definition tokens_b : list token := Eval vm_compute in match tokenize ascii_tables sample_b with Success ts => ts | _ => [] end.
Definition b (k : nat) : bundle := Bundle [] (nth k tokens_b eof_token) [].
Definition program_b : program :=
  (ThenStmt (Do (Piped (b 0) (Base (Source (Path (Atom (b 1))) NoAlias Now NoOffset NoSample))
    [((b 2), Aggregate (b 3) (One (Named (Call (Atom (b 4)) (b 5) None (One (Plain (Atom (b 6)))) None NoBy NoClause (b 7) NoOver) (b 8) (b 9))) (GroupBy (b 10) (b 11) (More (Plain (Atom (b 12))) (b 13) (One (Named (Atom (b 14)) (b 15) (b 16))))));
     ((b 17), Unite (OuterSide (b 18) (b 19)) (b 20) (b 21) (ByNameOn (b 22) (b 23) (b 24) (b 25) (LastColumn (b 26)) (b 27)) (More (Plain (Sub (b 28) (Select (b 29) None None (One (Plain (Atom (b 30)))) NoFrom NoClause NoBy NoClause NoClause NoWindow NoBy NoLimit) (b 31))) (b 32) (One (Plain (Sub (b 33) (Select (b 34) None None (One (Plain (Atom (b 35)))) NoFrom NoClause NoBy NoClause NoClause NoWindow NoBy NoLimit) (b 36))))));
     ((b 37), Unite BothSides (b 38) (b 39) (CorrespondingBy (Some (b 40)) (b 41) (b 42) (b 43) (MoreColumns (b 44) (b 45) (LastColumn (b 46))) (b 47)) (One (Plain (Sub (b 48) (Select (b 49) None None (One (Plain (Atom (b 50)))) NoFrom NoClause NoBy NoClause NoClause NoWindow NoBy NoLimit) (b 51)))));
     ((b 52), Attach (JoinedOuter (b 53) (b 54) (b 55)) (Source (Path (Atom (b 56))) NoAlias Now NoOffset NoSample) (Using (Call (Fn (b 57)) (b 58) None (One (Plain (Atom (b 59)))) None NoBy NoClause (b 60) NoOver)));
     ((b 61), Attach (JoinedBy (b 62) (b 63)) (Source (Path (Atom (b 64))) NoAlias Now NoOffset NoSample) NoCondition);
     ((b 65), Apply (b 66) (One (Plain (Atom (b 67)))));
     ((b 68), Dedup (b 69))])) (b 70) NoMore).
Definition sample_c : str := s_ "FROM t |> TABLESAMPLE SYSTEM (10 PERCENT) |> WITH RECURSIVE m AS (SELECT 1) |> PIVOT (SUM(a) AS s, p(b) FOR q IN ('x', 'y' z)) AS p |> DROP a, b |> SET a = 1".
Definition tokens_c : list token := Eval vm_compute in match tokenize ascii_tables sample_c with Success ts => ts | _ => [] end.
Definition c (k : nat) : bundle := Bundle [] (nth k tokens_c eof_token) [].
Definition program_c : program :=
  (LastStmt (Do (Piped (c 0) (Base (Source (Path (Atom (c 1))) NoAlias Now NoOffset NoSample))
    [((c 2), Sample (c 3) (c 4) (c 5) (Atom (c 6)) (c 7) (c 8));
     ((c 9), Common (c 10) (Some (c 11)) (LastCte (c 12) (c 13) (c 14) (Select (c 15) None None (One (Plain (Atom (c 16)))) NoFrom NoClause NoBy NoClause NoClause NoWindow NoBy NoLimit) (c 17)));
     ((c 18), PivotOn (c 19) (c 20) (More (Named (Call (Atom (c 21)) (c 22) None (One (Plain (Atom (c 23)))) None NoBy NoClause (c 24) NoOver) (c 25) (c 26)) (c 27) (One (Plain (Call (Atom (c 28)) (c 29) None (One (Plain (Atom (c 30)))) None NoBy NoClause (c 31) NoOver)))) (c 32) (c 33) (c 34) (c 35) (More (Plain (Atom (c 36))) (c 37) (One (Called (Atom (c 38)) (c 39)))) (c 40) (c 41) (AliasAs (c 42) (c 43)));
     ((c 44), Apply (c 45) (More (Plain (Atom (c 46))) (c 47) (One (Plain (Atom (c 48))))));
     ((c 49), Apply (c 50) (One (Plain (Infix (Atom (c 51)) (c 52) (Atom (c 53))))))]))).
Ltac not_in := let J := fresh in let E := fresh in intros (? & J & E); cbn in J; repeat (destruct J as [<-|J]; [vm_compute in E; discriminate E|]); destruct J.
Ltac one_of := first [exists "USING"; split; [cbn; auto 40|vm_compute; reflexivity] |
  eexists; split; [left; reflexivity|vm_compute; reflexivity] | eexists; split; [right; left; reflexivity|vm_compute; reflexivity] |
  eexists; split; [do 2 right; left; reflexivity|vm_compute; reflexivity] | eexists; split; [do 3 right; left; reflexivity|vm_compute; reflexivity] |
  eexists; split; [do 4 right; left; reflexivity|vm_compute; reflexivity] | eexists; split; [do 5 right; left; reflexivity|vm_compute; reflexivity] |
  eexists; split; [do 6 right; left; reflexivity|vm_compute; reflexivity]].
Ltac apart_ := let J := fresh in let E := fresh in intros [(J & E)|[(J & E)|(J & E)]]; first [vm_compute in E; discriminate E | revert J; not_in | vm_compute in E; discriminate E | revert E; not_in |
  destruct E as [E|E]; [vm_compute in E; discriminate E|revert E; not_in]].
Ltac fact :=
  match goal with
  | |- _ /\ _ => split
  | |- GrammarSpec.name _ _ => split
  | |- operand _ _ => split
  | |- label _ _ => split
  | |- GrammarSpec.word_in _ _ _ \/ _ => left
  | |- True => exact Logic.I
  | |- _ -> _ = None => intros _; reflexivity
  | |- _ -> _ = NoClause => intros _; reflexivity
  | |- exists ws, In ws _ /\ _ => first [eexists; split; [left; reflexivity|cbn [words_are]; repeat split; vm_compute; reflexivity] | eexists; split; [right; left; reflexivity|cbn [words_are]; repeat split; vm_compute; reflexivity]]
  | |- match _ with [] => _ | _ => _ end => cbn [yields yield_item yield app]
  | |- _ = _ -> _ => let J := fresh in intro J; first [discriminate J | clear J]
  | |- ~ GrammarSpec.word_in _ _ _ => not_in
  | |- ~ GrammarSpec.is_word _ _ _ => vm_compute; discriminate
  | |- apart_from _ _ _ => apart_
  | |- GrammarSpec.is_word _ _ _ -> _ => let J := fresh in intro J; first [vm_compute in J; discriminate J | clear J]
  | |- GrammarSpec.word_in _ _ _ => one_of
  | |- GrammarSpec.is_word _ _ _ => vm_compute; reflexivity
  | |- literally _ _ => reflexivity
  | |- field_name _ _ => left; vm_compute; reflexivity
  | |- GrammarSpec.separated _ _ _ => (right; right; split; [vm_compute; discriminate|first [left; vm_compute; discriminate | right; vm_compute; discriminate]]) || (right; left; one_of)
  | |- is_word _ _ _ \/ _ => left
  | |- exists _, _ => eexists; split; [vm_compute; reflexivity|]
  | |- _ = _ => vm_compute; reflexivity
  | |- _ <> _ => vm_compute; discriminate
  | |- fits_left _ _ _ => vm_compute; discriminate
  | |- fits_right _ _ _ => vm_compute; reflexivity
  end.
Example c49_sample_a :
  tokenize ascii_tables sample_a = Success (flats (yield_program program_a ++ [a 56])) /\
  grouped (yield_program program_a ++ [a 56]) /\ wf_program ascii_tables program_a (a 56).
Proof.
  split; [vm_compute; reflexivity|]. split; [apply grouped_b_sound; vm_compute; reflexivity|].
  cbn [program_a wf_program wf_stmt wf_deed wf_operators wf_operator wf_matching wf_side wf_grouping yield_operators yield_operator yield_matching yield_side yield_grouping
      is_call can_be_labelled hd opt opt2 app yields yield yield_item yield_alias yield_clause yield_query yield_ctes yield_joining yield_source yield_place yield_as_of yield_offset yield_condition first_table
      wf_query wf_ctes wfs wf_item wf wf_from wf_table wf_source wf_windows wf_sample GrammarSpec.wf_columns dotted wf_place wf_as_of wf_alias wf_offset wf_joining wf_condition wf_clause wf_by wf_limit wf_arms
      wf_over wf_rows wf_bound wf_type wf_field wf_fields path function_name call_of chain simple starts_grouped ends_grouped first first_type first_query perhaps perhaps2 star]. repeat fact.
Qed.
Example c49_sample_b :
  tokenize ascii_tables sample_b = Success (flats (yield_program program_b ++ [b 71])) /\
  grouped (yield_program program_b ++ [b 71]) /\ wf_program ascii_tables program_b (b 71).
Proof.
  split; [vm_compute; reflexivity|]. split; [apply grouped_b_sound; vm_compute; reflexivity|].
  cbn [program_b wf_program wf_stmt wf_deed wf_operators wf_operator wf_matching wf_side wf_grouping yield_operators yield_operator yield_matching yield_side yield_grouping
      is_call can_be_labelled hd opt opt2 app yields yield yield_item yield_alias yield_clause yield_query yield_ctes yield_joining yield_source yield_place yield_as_of yield_offset yield_condition first_table
      wf_query wf_ctes wfs wf_item wf wf_from wf_table wf_source wf_windows wf_sample GrammarSpec.wf_columns dotted wf_place wf_as_of wf_alias wf_offset wf_joining wf_condition wf_clause wf_by wf_limit wf_arms
      wf_over wf_rows wf_bound wf_type wf_field wf_fields path function_name call_of chain simple starts_grouped ends_grouped first first_type first_query perhaps perhaps2 star]. repeat fact.
Qed.
Example c49_sample_c :
  tokenize ascii_tables sample_c = Success (flats (yield_program program_c ++ [c 54])) /\
  grouped (yield_program program_c ++ [c 54]) /\ wf_program ascii_tables program_c (c 54).
Proof.
  split; [vm_compute; reflexivity|]. split; [apply grouped_b_sound; vm_compute; reflexivity|].
  cbn [program_c wf_program wf_stmt wf_deed wf_operators wf_operator wf_matching wf_side wf_grouping yield_operators yield_operator yield_matching yield_side yield_grouping
      is_call can_be_labelled hd opt opt2 app yields yield yield_item yield_alias yield_clause yield_query yield_ctes yield_joining yield_source yield_place yield_as_of yield_offset yield_condition first_table
      wf_query wf_ctes wfs wf_item wf wf_from wf_table wf_source wf_windows wf_sample GrammarSpec.wf_columns dotted wf_place wf_as_of wf_alias wf_offset wf_joining wf_condition wf_clause wf_by wf_limit wf_arms
      wf_over wf_rows wf_bound wf_type wf_field wf_fields path function_name call_of chain simple starts_grouped ends_grouped first first_type first_query perhaps perhaps2 star]. repeat fact.
Qed.
Definition c49_theorems := (c49_pipelines_are_read, c49_semicolon, c49_left_to_right, c49_unambiguous).
Print Assumptions c49_theorems.
