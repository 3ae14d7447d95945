(* The property C46 of properties.jsonl: the statements that define, change, remove, share or move things
   (CREATE, ALTER, DROP, UNDROP, GRANT, REVOKE, EXPORT, LOAD) are accepted, and the trees returned are
   the ones that DefinitionSpec.v assigns to them. *)
From Verif Require Import Chars Token Cst Core Lexer Program Api ParserTotal Bundles LexSpec LexProps ParserInvariance GroupingSpec GrammarSpec GroupedCheck
  DefinitionSpec StatementSpec StatementScript Properties_Parser.
Local Open Scope string_scope.
Local Open Scope list_scope.

(* C46: a text that consists of the tokens of one such statement is parsed to its tree *)
Theorem c46_definitions_are_read U code d k ps eof : ascii_faithful U ->
  tokenize U code = Success (flats ((k :: yield_parts ps) ++ [eof])) -> grouped ((k :: yield_parts ps) ++ [eof]) -> wf_definition U d k ps eof ->
  parses U code (Success [tree_definition U d k ps None; eof_tree eof]).
Proof. intros HU T G W. exact (program_parses U HU code (LastStmt (Do (Define d k ps))) eof T G W). Qed.
(* the same with a semicolon after it, which becomes a part of the tree *)
Theorem c46_semicolon U code d k ps semi eof : ascii_faithful U ->
  tokenize U code = Success (flats ((k :: yield_parts ps) ++ [semi; eof])) -> grouped ((k :: yield_parts ps) ++ [semi; eof]) ->
  wf_definition U d k ps semi -> is_word U semi ";" ->
  parses U code (Success [tree_definition U d k ps (Some semi); eof_tree eof]).
Proof.
  intros HU T G W S.
  assert (E : (k :: yield_parts ps) ++ [semi; eof] = yield_program (ThenStmt (Do (Define d k ps)) semi NoMore) ++ [eof]) by (cbn [yield_program yield_stmt yield_deed]; now rewrite <- app_assoc).
  rewrite E in T, G. exact (program_parses U HU code (ThenStmt (Do (Define d k ps)) semi NoMore) eof T G (conj W (conj S Logic.I))).
Qed.
(* and no statement is two of them: one text has one tree *)
Theorem c46_unambiguous U code d k ps eof d' k' ps' eof' : ascii_faithful U ->
  tokenize U code = Success (flats ((k :: yield_parts ps) ++ [eof])) -> grouped ((k :: yield_parts ps) ++ [eof]) -> wf_definition U d k ps eof ->
  tokenize U code = Success (flats ((k' :: yield_parts ps') ++ [eof'])) -> grouped ((k' :: yield_parts ps') ++ [eof']) -> wf_definition U d' k' ps' eof' ->
  tree_definition U d k ps None = tree_definition U d' k' ps' None.
Proof.
  intros HU T G W T' G' W'. pose proof (c46_definitions_are_read U code d k ps eof HU T G W) as P. pose proof (c46_definitions_are_read U code d' k' ps' eof' HU T' G' W') as P'.
  pose proof (ParserTotal.parses_functional U code _ _ P P') as E. exact (f_equal (fun o => match o with Success (n :: _) => n | _ => eof_tree eof end) E).
Qed.

(* Texts that meet the hypotheses. *)
Definition sample_a : str :=
  s_ "CREATE OR REPLACE TABLE d.t (a INT64 NOT NULL OPTIONS (x = 1), b ARRAY<STRUCT<c STRING(10), d RANGE<DATE>>>, CONSTRAINT c PRIMARY KEY (a, b) NOT ENFORCED) PARTITION BY a CLUSTER BY b, c OPTIONS (x = 'y') AS SELECT 1;" ++ [10%N] ++
  s_ "CREATE TEMP FUNCTION f(x INT64, y ANY TYPE) RETURNS INT64 AS (x + 1);" ++ [10%N] ++
  s_ "CREATE TABLE FUNCTION g(x INT64) RETURNS TABLE<a INT64> AS SELECT x;" ++ [10%N] ++
  s_ "CREATE FUNCTION h(x INT64) RETURNS STRING NOT DETERMINISTIC LANGUAGE js OPTIONS (a = 1) AS 'return';" ++ [10%N] ++
  s_ "CREATE MATERIALIZED VIEW IF NOT EXISTS v PARTITION BY a AS SELECT 1;".
Definition tokens_a : list token := Eval vm_compute in match tokenize ascii_tables sample_a with Success ts => ts | _ => [] end.
Definition a (k : nat) : bundle := Bundle [] (nth k tokens_a eof_token) [].
Definition program_a : program :=
  (ThenStmt (Do (Define CreateTable (a 0) [(Some (PWords (a 1) [(a 2)])); None; (Some (PWord (a 3))); None; (Some (PName (Field (Atom (a 4)) (a 5) (a 6)))); (Some (PDeclared (Declared (a 7) (Some (MoreDeclarations (Column None (a 8) (OfName (a 9) (Attributes None None NoClause (Some ((a 10), (a 11))) (Some ((a 12), (Group (a 13) (Some (One (Plain (Infix (Atom (a 14)) (a 15) (Atom (a 16)))))) (a 17)))) None))) (a 18) (MoreDeclarations (Column None (a 19) (OfArray (a 20) (a 21) (OfStruct (a 22) (a 23) (MoreCols (a 24) (OfParam (a 25) (a 26) (One (Plain (Atom (a 27)))) (a 28) (Attributes None None NoClause None None None)) (a 29) (LastCol (a 30) (OfArray (a 31) (a 32) (OfName (a 33) (Attributes None None NoClause None None None)) (a 34) (Attributes None None NoClause None None None)))) (a 35) (Attributes None None NoClause None None None)) (a 36) (Attributes None None NoClause None None None))) (a 37) (OneDeclaration (PrimaryKey (Some ((a 38), (a 39))) (a 40) (a 41) (Group (a 42) (Some (More (Plain (Atom (a 43))) (a 44) (One (Plain (Atom (a 45)))))) (a 46)) (Some (Enforcement (Some (a 47)) (a 48)))))))) (a 49)))); None; (Some (PBy (a 50) (a 51) (One (Plain (Atom (a 52)))))); (Some (PBy (a 53) (a 54) (More (Plain (Atom (a 55))) (a 56) (One (Plain (Atom (a 57))))))); (Some (POptions (a 58) (Group (a 59) (Some (One (Plain (Infix (Atom (a 60)) (a 61) (Atom (a 62)))))) (a 63)))); (Some (PQuery (a 64) (Select (a 65) None None (One (Plain (Atom (a 66)))) NoFrom NoClause NoBy NoClause NoClause NoWindow NoBy NoLimit)))])) (a 67)
  (ThenStmt (Do (Define CreateSqlFunction (a 68) [None; (Some (PWord (a 69))); None; (Some (PWord (a 70))); None; (Some (PName (Atom (a 71)))); (Some (PDeclared (Declared (a 72) (Some (MoreDeclarations (Column None (a 73) (OfName (a 74) (Attributes None None NoClause None None None))) (a 75) (OneDeclaration (Column None (a 76) (OfAny (a 77) (a 78) (Attributes None None NoClause None None None)))))) (a 79)))); (Some (PReturns (a 80) (OfName (a 81) (Attributes None None NoClause None None None)))); (Some (PBody (a 82) (a 83) (Infix (Atom (a 84)) (a 85) (Atom (a 86))) (a 87)))])) (a 88)
  (ThenStmt (Do (Define CreateTableFunction (a 89) [None; None; (Some (PWord (a 90))); (Some (PWord (a 91))); None; (Some (PName (Atom (a 92)))); (Some (PDeclared (Declared (a 93) (Some (OneDeclaration (Column None (a 94) (OfName (a 95) (Attributes None None NoClause None None None))))) (a 96)))); (Some (PReturns (a 97) (OfStruct (a 98) (a 99) (LastCol (a 100) (OfName (a 101) (Attributes None None NoClause None None None))) (a 102) (Attributes None None NoClause None None None)))); (Some (PQuery (a 103) (Select (a 104) None None (One (Plain (Atom (a 105)))) NoFrom NoClause NoBy NoClause NoClause NoWindow NoBy NoLimit)))])) (a 106)
  (ThenStmt (Do (Define CreateForeignFunction (a 107) [None; None; None; (Some (PWord (a 108))); None; (Some (PName (Atom (a 109)))); (Some (PDeclared (Declared (a 110) (Some (OneDeclaration (Column None (a 111) (OfName (a 112) (Attributes None None NoClause None None None))))) (a 113)))); (Some (PReturns (a 114) (OfName (a 115) (Attributes None None NoClause None None None)))); (Some (PWords (a 116) [(a 117)])); (Some (PWordIdent (a 118) (a 119))); None; (Some (POptions (a 120) (Group (a 121) (Some (One (Plain (Infix (Atom (a 122)) (a 123) (Atom (a 124)))))) (a 125)))); (Some (PWordExpr (a 126) (Atom (a 127))))])) (a 128)
  (ThenStmt (Do (Define CreateMaterializedView (a 129) [None; (Some (PWord (a 130))); (Some (PWord (a 131))); (Some (PWords (a 132) [(a 133); (a 134)])); (Some (PName (Atom (a 135)))); (Some (PBy (a 136) (a 137) (One (Plain (Atom (a 138)))))); None; None; (Some (PQuery (a 139) (Select (a 140) None None (One (Plain (Atom (a 141)))) NoFrom NoClause NoBy NoClause NoClause NoWindow NoBy NoLimit)))])) (a 142)
  NoMore))))).
Definition sample_b : str :=
  s_ "CREATE EXTERNAL TABLE e WITH CONNECTION c WITH PARTITION COLUMNS (p STRING) OPTIONS (u = 'x');" ++ [10%N] ++
  s_ "CREATE SEARCH INDEX i ON t (ALL COLUMNS) OPTIONS (a = 1);" ++ [10%N] ++
  s_ "CREATE MODEL m INPUT (a INT64) OUTPUT (b STRING) REMOTE WITH CONNECTION DEFAULT OPTIONS (e = 1);".
Definition tokens_b : list token := Eval vm_compute in match tokenize ascii_tables sample_b with Success ts => ts | _ => [] end.
Definition b (k : nat) : bundle := Bundle [] (nth k tokens_b eof_token) [].
Definition program_b : program :=
  (ThenStmt (Do (Define CreateExternalTable (b 0) [None; (Some (PWord (b 1))); (Some (PWord (b 2))); None; (Some (PName (Atom (b 3)))); None; (Some (PConnection None (b 4) (b 5) (ConnectionName (Atom (b 6))))); (Some (PPartitionColumns (b 7) (b 8) (b 9) (Some (Declared (b 10) (Some (OneDeclaration (Column None (b 11) (OfName (b 12) (Attributes None None NoClause None None None))))) (b 13))))); (Some (POptions (b 14) (Group (b 15) (Some (One (Plain (Infix (Atom (b 16)) (b 17) (Atom (b 18)))))) (b 19))))])) (b 20)
  (ThenStmt (Do (Define CreateIndex (b 21) [None; (Some (PChain (b 22) [(b 23)])); None; (Some (PName (Atom (b 24)))); (Some (PWord (b 25))); (Some (PName (Atom (b 26)))); (Some (PAllColumns (b 27) (b 28) (b 29) (b 30))); None; None; (Some (POptions (b 31) (Group (b 32) (Some (One (Plain (Infix (Atom (b 33)) (b 34) (Atom (b 35)))))) (b 36))))])) (b 37)
  (ThenStmt (Do (Define CreateModel (b 38) [None; (Some (PWord (b 39))); None; (Some (PName (Atom (b 40)))); None; (Some (PWordDeclared (b 41) (Declared (b 42) (Some (OneDeclaration (Column None (b 43) (OfName (b 44) (Attributes None None NoClause None None None))))) (b 45)))); (Some (PWordDeclared (b 46) (Declared (b 47) (Some (OneDeclaration (Column None (b 48) (OfName (b 49) (Attributes None None NoClause None None None))))) (b 50)))); (Some (PConnection (Some (b 51)) (b 52) (b 53) (DefaultConnection (b 54)))); (Some (POptions (b 55) (Group (b 56) (Some (One (Plain (Infix (Atom (b 57)) (b 58) (Atom (b 59)))))) (b 60)))); None])) (b 61)
  NoMore))).
Definition sample_c : str :=
  s_ "CREATE ROW ACCESS POLICY p ON t GRANT TO ('a') FILTER USING (b = 1);" ++ [10%N] ++
  s_ "ALTER TABLE IF EXISTS t SET OPTIONS (a = 1);" ++ [10%N] ++
  s_ "ALTER SCHEMA s ADD REPLICA r OPTIONS (a = 1);" ++ [10%N] ++
  s_ "GRANT r ON SCHEMA s TO 'u', 'v';" ++ [10%N] ++
  s_ "EXPORT DATA OPTIONS (u = 'x') AS SELECT 1;" ++ [10%N] ++
  s_ "LOAD DATA INTO t (a INT64) FROM FILES (f = 'x');" ++ [10%N] ++
  s_ "CREATE SCHEMA s DEFAULT COLLATE 'und:ci';" ++ [10%N] ++
  s_ "CREATE PROCEDURE q(INOUT x INT64) EXTERNAL SECURITY INVOKER WITH CONNECTION c LANGUAGE python AS 'x';" ++ [10%N] ++
  s_ "DROP ROW ACCESS POLICY p ON t;".
Definition tokens_c : list token := Eval vm_compute in match tokenize ascii_tables sample_c with Success ts => ts | _ => [] end.
Definition c (k : nat) : bundle := Bundle [] (nth k tokens_c eof_token) [].
Definition program_c : program :=
  (ThenStmt (Do (Define CreatePolicy (c 0) [None; (Some (PWords (c 1) [(c 2); (c 3)])); None; (Some (PName (Atom (c 4)))); (Some (PWordName (c 5) (Atom (c 6)))); (Some (PGrantTo (c 7) (c 8) (Group (c 9) (Some (One (Plain (Atom (c 10))))) (c 11)))); (Some (PWord (c 12))); (Some (PWordExpr (c 13) (Paren (c 14) (Infix (Atom (c 15)) (c 16) (Atom (c 17))) (c 18))))])) (c 19)
  (ThenStmt (Do (Define AlterTableOptions (c 20) [(Some (PWord (c 21))); (Some (PWords (c 22) [(c 23)])); (Some (PName (Atom (c 24)))); (Some (PWord (c 25))); (Some (POptions (c 26) (Group (c 27) (Some (One (Plain (Infix (Atom (c 28)) (c 29) (Atom (c 30)))))) (c 31))))])) (c 32)
  (ThenStmt (Do (Define AlterSchemaAdd (c 33) [(Some (PWord (c 34))); None; (Some (PName (Atom (c 35)))); (Some (PReplica (c 36) (c 37) (Atom (c 38)))); (Some (POptions (c 39) (Group (c 40) (Some (One (Plain (Infix (Atom (c 41)) (c 42) (Atom (c 43)))))) (c 44))))])) (c 45)
  (ThenStmt (Do (Define GrantRoles (c 46) [(Some (PExprs (One (Plain (Atom (c 47)))))); (Some (PWord (c 48))); (Some (PWord (c 49))); (Some (PName (Atom (c 50)))); (Some (PWordExprs (c 51) (More (Plain (Atom (c 52))) (c 53) (One (Plain (Atom (c 54)))))))])) (c 55)
  (ThenStmt (Do (Define ExportData (c 56) [(Some (PWord (c 57))); None; (Some (POptions (c 58) (Group (c 59) (Some (One (Plain (Infix (Atom (c 60)) (c 61) (Atom (c 62)))))) (c 63)))); (Some (PQuery (c 64) (Select (c 65) None None (One (Plain (Atom (c 66)))) NoFrom NoClause NoBy NoClause NoClause NoWindow NoBy NoLimit)))])) (c 67)
  (ThenStmt (Do (Define LoadData (c 68) [(Some (PWord (c 69))); (Some (PWord (c 70))); (Some (PName (Atom (c 71)))); (Some (PDeclared (Declared (c 72) (Some (OneDeclaration (Column None (c 73) (OfName (c 74) (Attributes None None NoClause None None None))))) (c 75)))); None; None; None; (Some (PWord (c 76))); (Some (PWord (c 77))); (Some (PGroup (Group (c 78) (Some (One (Plain (Infix (Atom (c 79)) (c 80) (Atom (c 81)))))) (c 82)))); None])) (c 83)
  (ThenStmt (Do (Define CreateSchema (c 84) [None; (Some (PWord (c 85))); None; (Some (PName (Atom (c 86)))); (Some (PCollate (c 87) (c 88) (c 89))); None; None])) (c 90)
  (ThenStmt (Do (Define CreateForeignProcedure (c 91) [None; (Some (PWord (c 92))); None; (Some (PName (Atom (c 93)))); (Some (PDeclared (Declared (c 94) (Some (OneDeclaration (Column (Some (c 95)) (c 96) (OfName (c 97) (Attributes None None NoClause None None None))))) (c 98)))); (Some (PChain (c 99) [(c 100); (c 101)])); (Some (PConnection None (c 102) (c 103) (ConnectionName (Atom (c 104))))); None; (Some (PWordIdent (c 105) (c 106))); (Some (PWordExpr (c 107) (Atom (c 108))))])) (c 109)
  (ThenStmt (Do (Define DropPolicy (c 110) [(Some (PWords (c 111) [(c 112); (c 113)])); None; (Some (PName (Atom (c 114)))); (Some (PWordName (c 115) (Atom (c 116))))])) (c 117)
  NoMore))))))))).
Ltac not_in := let J := fresh in let E := fresh in intros (? & J & E); cbn in J; repeat (destruct J as [<-|J]; [vm_compute in E; discriminate E|]); destruct J.
Ltac one_of := first [
  eexists; split; [left; reflexivity|vm_compute; reflexivity] | eexists; split; [right; left; reflexivity|vm_compute; reflexivity] |
  eexists; split; [do 2 right; left; reflexivity|vm_compute; reflexivity] | eexists; split; [do 3 right; left; reflexivity|vm_compute; reflexivity] |
  eexists; split; [do 4 right; left; reflexivity|vm_compute; reflexivity] | eexists; split; [do 5 right; left; reflexivity|vm_compute; reflexivity] |
  eexists; split; [do 6 right; left; reflexivity|vm_compute; reflexivity]].
Ltac apart_ := let J := fresh in let E := fresh in intros [(J & E)|[(J & E)|(J & E)]]; first [revert J; not_in | vm_compute in E; discriminate E | revert E; not_in |
  destruct E as [E|E]; [vm_compute in E; discriminate E|revert E; not_in]].
Ltac fact :=
  match goal with
  | |- _ /\ _ => split
  | |- GrammarSpec.name _ _ => split
  | |- operand _ _ => split
  | |- label _ _ => split
  | |- GrammarSpec.word_in _ _ _ \/ _ => left
  | |- True => exact Logic.I
  | |- _ -> _ = None => intros _; reflexivity
  | |- _ -> _ = NoClause => intros _; reflexivity
  | |- exists ws, In ws _ /\ _ => first [eexists; split; [left; reflexivity|cbn [words_are]; repeat split; vm_compute; reflexivity] | eexists; split; [right; left; reflexivity|cbn [words_are]; repeat split; vm_compute; reflexivity]]
  | |- match _ with [] => _ | _ => _ end => cbn [yields yield_item yield app]
  | |- _ = _ -> _ => let J := fresh in intro J; first [discriminate J | clear J]
  | |- ~ GrammarSpec.word_in _ _ _ => not_in
  | |- ~ GrammarSpec.is_word _ _ _ => vm_compute; discriminate
  | |- apart_from _ _ _ => apart_
  | |- GrammarSpec.is_word _ _ _ -> _ => let J := fresh in intro J; first [vm_compute in J; discriminate J | clear J]
  | |- GrammarSpec.word_in _ _ _ => one_of
  | |- GrammarSpec.is_word _ _ _ => vm_compute; reflexivity
  | |- literally _ _ => reflexivity
  | |- field_name _ _ => left; vm_compute; reflexivity
  | |- GrammarSpec.separated _ _ _ => (right; right; split; [vm_compute; discriminate|first [left; vm_compute; discriminate | right; vm_compute; discriminate]]) || (right; left; one_of)
  | |- is_word _ _ _ \/ _ => left
  | |- exists _, _ => eexists; split; [vm_compute; reflexivity|]
  | |- _ = _ => vm_compute; reflexivity
  | |- _ <> _ => vm_compute; discriminate
  | |- fits_left _ _ _ => vm_compute; discriminate
  | |- fits_right _ _ _ => vm_compute; reflexivity
  end.
Example c46_sample_a :
  tokenize ascii_tables sample_a = Success (flats (yield_program program_a ++ [a 143])) /\
  grouped (yield_program program_a ++ [a 143]) /\ wf_program ascii_tables program_a (a 143).
Proof.
  split; [vm_compute; reflexivity|]. split; [apply grouped_b_sound; vm_compute; reflexivity|].
  cbn [wf_program wf_stmt wf_deed program_a]. unfold wf_definition. cbn [form fst snd app]. unfold what, or_replace, if_not_exists, if_exists, a_name, options, set_options.
  cbn [wf_program wf_stmt wf_deed wf_definition form fst snd app DefinitionSpec.wf_parts DefinitionSpec.wf_part wf_group wf_declared wf_declarations wf_declaration wf_coltype wf_colfields wf_attributes
    wf_enforcement words_in words_are what or_replace if_not_exists if_exists a_name options set_options yield_parts yield_part yield_group yield_declared yield_declarations yield_declaration yield_coltype
    yield_query hd opt opt2 app wf_query wf_ctes wfs wf_item wf wf_from wf_windows wf_sample GrammarSpec.wf_columns dotted wf_matching wf_clause wf_by wf_limit path first perhaps perhaps2 yield_clause]. repeat fact.
Qed.
Example c46_sample_b :
  tokenize ascii_tables sample_b = Success (flats (yield_program program_b ++ [b 62])) /\
  grouped (yield_program program_b ++ [b 62]) /\ wf_program ascii_tables program_b (b 62).
Proof.
  split; [vm_compute; reflexivity|]. split; [apply grouped_b_sound; vm_compute; reflexivity|].
  cbn [wf_program wf_stmt wf_deed program_b]. unfold wf_definition. cbn [form fst snd app]. unfold what, or_replace, if_not_exists, if_exists, a_name, options, set_options.
  cbn [wf_program wf_stmt wf_deed wf_definition form fst snd app DefinitionSpec.wf_parts DefinitionSpec.wf_part wf_group wf_declared wf_declarations wf_declaration wf_coltype wf_colfields wf_attributes
    wf_enforcement words_in words_are what or_replace if_not_exists if_exists a_name options set_options yield_parts yield_part yield_group yield_declared yield_declarations yield_declaration yield_coltype
    yield_query hd opt opt2 app wf_query wf_ctes wfs wf_item wf wf_from wf_windows wf_sample GrammarSpec.wf_columns dotted wf_matching wf_clause wf_by wf_limit path first perhaps perhaps2 yield_clause]. repeat fact.
Qed.
Example c46_sample_c :
  tokenize ascii_tables sample_c = Success (flats (yield_program program_c ++ [c 118])) /\
  grouped (yield_program program_c ++ [c 118]) /\ wf_program ascii_tables program_c (c 118).
Proof.
  split; [vm_compute; reflexivity|]. split; [apply grouped_b_sound; vm_compute; reflexivity|].
  cbn [wf_program wf_stmt wf_deed program_c]. unfold wf_definition. cbn [form fst snd app]. unfold what, or_replace, if_not_exists, if_exists, a_name, options, set_options.
  cbn [wf_program wf_stmt wf_deed wf_definition form fst snd app DefinitionSpec.wf_parts DefinitionSpec.wf_part wf_group wf_declared wf_declarations wf_declaration wf_coltype wf_colfields wf_attributes
    wf_enforcement words_in words_are what or_replace if_not_exists if_exists a_name options set_options yield_parts yield_part yield_group yield_declared yield_declarations yield_declaration yield_coltype
    yield_query hd opt opt2 app wf_query wf_ctes wfs wf_item wf wf_from wf_windows wf_sample GrammarSpec.wf_columns dotted wf_matching wf_clause wf_by wf_limit path first perhaps perhaps2 yield_clause]. repeat fact.
Qed.
Definition sample_d : str :=
  s_ "ALTER TABLE t ADD COLUMN IF NOT EXISTS a INT64 NOT NULL, ADD COLUMN b STRING;" ++ [10%N] ++
  s_ "ALTER TABLE t ADD CONSTRAINT k PRIMARY KEY (a) NOT ENFORCED, ADD PRIMARY KEY (b);" ++ [10%N] ++
  s_ "ALTER TABLE t DROP COLUMN IF EXISTS a, DROP PRIMARY KEY;" ++ [10%N] ++
  s_ "ALTER TABLE t RENAME COLUMN a TO b;" ++ [10%N] ++
  s_ "ALTER TABLE t ALTER COLUMN a DROP NOT NULL;" ++ [10%N] ++
  s_ "ALTER TABLE IF EXISTS t ALTER COLUMN IF EXISTS a SET DATA TYPE NUMERIC(3);" ++ [10%N] ++
  s_ "CREATE OR REPLACE PROCEDURE p(INOUT x INT64) OPTIONS (y = 1) BEGIN TRUNCATE TABLE t; EXCEPTION WHEN ERROR THEN TRUNCATE TABLE u; END;".
Definition tokens_d : list token := Eval vm_compute in match tokenize ascii_tables sample_d with Success ts => ts | _ => [] end.
Definition d (k : nat) : bundle := Bundle [] (nth k tokens_d eof_token) [].
Definition program_d : program :=
  (ThenStmt (Do (Define AlterTableAdd (d 0) [(Some (PWord (d 1))); None; (Some (PName (Atom (d 2)))); (Some (PChanges (MoreChanges (AddColumn (d 3) (d 4) (Some ((d 5), (d 6), (d 7))) (d 8) (OfName (d 9) (Attributes None None NoClause (Some ((d 10), (d 11))) None None))) (d 12) (OneChange (AddColumn (d 13) (d 14) None (d 15) (OfName (d 16) (Attributes None None NoClause None None None)))))))])) (d 17)
  (ThenStmt (Do (Define AlterTableConstrain (d 18) [(Some (PWord (d 19))); None; (Some (PName (Atom (d 20)))); (Some (PChanges (MoreChanges (AddKey (d 21) (PrimaryKey (Some ((d 22), (d 23))) (d 24) (d 25) (Group (d 26) (Some (One (Plain (Atom (d 27))))) (d 28)) (Some (Enforcement (Some (d 29)) (d 30))))) (d 31) (OneChange (AddKey (d 32) (PrimaryKey None (d 33) (d 34) (Group (d 35) (Some (One (Plain (Atom (d 36))))) (d 37)) None))))))])) (d 38)
  (ThenStmt (Do (Define AlterTableDrop (d 39) [(Some (PWord (d 40))); None; (Some (PName (Atom (d 41)))); (Some (PChanges (MoreChanges (DropIt (d 42) (d 43) (Some ((d 44), (d 45))) (Atom (d 46))) (d 47) (OneChange (DropKey (d 48) (d 49) (d 50) None)))))])) (d 51)
  (ThenStmt (Do (Define AlterTableRenameColumn (d 52) [(Some (PWord (d 53))); None; (Some (PName (Atom (d 54)))); (Some (PChanges (OneChange (RenameIt (d 55) (d 56) None (Atom (d 57)) (d 58) (Atom (d 59))))))])) (d 60)
  (ThenStmt (Do (Define AlterTableColumn (d 61) [(Some (PWord (d 62))); None; (Some (PName (Atom (d 63)))); (Some (PAlterColumn (d 64) (d 65) None (d 66) (NoNotNull (d 67) (d 68) (d 69))))])) (d 70)
  (ThenStmt (Do (Define AlterTableColumn (d 71) [(Some (PWord (d 72))); (Some (PWords (d 73) [(d 74)])); (Some (PName (Atom (d 75)))); (Some (PAlterColumn (d 76) (d 77) (Some ((d 78), (d 79))) (d 80) (NewType (d 81) (d 82) (d 83) (OfParam (d 84) (d 85) (One (Plain (Atom (d 86)))) (d 87) (Attributes None None NoClause None None None)))))])) (d 88)
  (ThenStmt (Procedure (d 89) [(Some (PWords (d 90) [(d 91)])); (Some (PWord (d 92))); None; (Some (PName (Atom (d 93)))); (Some (PDeclared (Declared (d 94) (Some (OneDeclaration (Column (Some (d 95)) (d 96) (OfName (d 97) (Attributes None None NoClause None None None))))) (d 98)))); (Some (POptions (d 99) (Group (d 100) (Some (One (Plain (Infix (Atom (d 101)) (d 102) (Atom (d 103)))))) (d 104))))] (d 105) (Step (Do (Truncate (d 106) (d 107) (Atom (d 108)))) (d 109) Done) (Handler (d 110) (d 111) (d 112) (d 113) (Step (Do (Truncate (d 114) (d 115) (Atom (d 116)))) (d 117) Done)) (d 118)) (d 119)
  NoMore))))))).
Example c46_sample_d :
  tokenize ascii_tables sample_d = Success (flats (yield_program program_d ++ [d 120])) /\
  grouped (yield_program program_d ++ [d 120]) /\ wf_program ascii_tables program_d (d 120).
Proof.
  split; [vm_compute; reflexivity|]. split; [apply grouped_b_sound; vm_compute; reflexivity|].
  cbn [wf_program wf_stmt wf_deed program_d]. unfold wf_definition. cbn [form fst snd app]. unfold procedure_parts. unfold what, or_replace, if_not_exists, if_exists, a_name, options, set_options.
  cbn [wf_program wf_stmt wf_block wf_handler wf_deed wf_definition wf_changes wf_change wf_alteration yield_changes yield_change yield_alteration form fst snd app DefinitionSpec.wf_parts DefinitionSpec.wf_part wf_group wf_declared wf_declarations wf_declaration wf_coltype wf_colfields wf_attributes
    wf_enforcement words_in words_are what or_replace if_not_exists if_exists a_name options set_options yield_parts yield_part yield_group yield_declared yield_declarations yield_declaration yield_coltype
    yield_query hd opt opt2 app wf_query wf_ctes wfs wf_item wf wf_from wf_windows wf_sample GrammarSpec.wf_columns dotted wf_matching wf_clause wf_by wf_limit path first perhaps perhaps2 yield_clause]. repeat fact.
Qed.
Definition sample_e : str :=
  s_ "CREATE VIEW v (a, b OPTIONS (x = 1)) AS SELECT 1;" ++ [10%N] ++
  s_ "CREATE SNAPSHOT TABLE IF NOT EXISTS p.a CLONE p.b FOR SYSTEM_TIME AS OF c;" ++ [10%N] ++
  s_ "CREATE OR REPLACE TABLE a CLONE b;" ++ [10%N] ++
  s_ "LOAD DATA INTO t (a INT64) FROM FILES (uris = b) WITH PARTITION COLUMNS WITH CONNECTION p.c;".
Definition tokens_e : list token := Eval vm_compute in match tokenize ascii_tables sample_e with Success ts => ts | _ => [] end.
Definition e (k : nat) : bundle := Bundle [] (nth k tokens_e eof_token) [].
Definition program_e : program :=
  (ThenStmt (Do (Define CreateView (e 0) [None; (Some (PWord (e 1))); None; (Some (PName (Atom (e 2)))); (Some (PViewColumns (e 3) (MoreViewCols (e 4) None (e 5) (LastViewCol (e 6) (Some ((e 7), Group (e 8) (Some (One (Plain (Infix (Atom (e 9)) (e 10) (Atom (e 11)))))) (e 12))))) (e 13))); None; (Some (PQuery (e 14) (Select (e 15) None None (One (Plain (Atom (e 16)))) NoFrom NoClause NoBy NoClause NoClause NoWindow NoBy NoLimit)))])) (e 17)
  (ThenStmt (Do (Define CreateSnapshot (e 18) [None; None; (Some (PWord (e 19))); (Some (PWord (e 20))); (Some (PWords (e 21) [(e 22); (e 23)])); (Some (PName (Field (Atom (e 24)) (e 25) (e 26)))); (Some (PClone (e 27) (Source (Path (Field (Atom (e 28)) (e 29) (e 30))) NoAlias (AsOf (e 31) (e 32) (e 33) (e 34) (Atom (e 35))) NoOffset NoSample)))])) (e 36)
  (ThenStmt (Do (Define CreateClone (e 37) [(Some (PWords (e 38) [(e 39)])); None; (Some (PWord (e 40))); None; (Some (PName (Atom (e 41)))); (Some (PClone (e 42) (Source (Path (Atom (e 43))) NoAlias Now NoOffset NoSample)))])) (e 44)
  (ThenStmt (Do (Define LoadThrough (e 45) [(Some (PWord (e 46))); (Some (PWord (e 47))); (Some (PName (Atom (e 48)))); (Some (PDeclared (Declared (e 49) (Some (OneDeclaration (Column None (e 50) (OfName (e 51) (Attributes None None NoClause None None None))))) (e 52)))); None; None; None; (Some (PWord (e 53))); (Some (PWord (e 54))); (Some (PGroup (Group (e 55) (Some (One (Plain (Infix (Atom (e 56)) (e 57) (Atom (e 58)))))) (e 59)))); (Some (PPartitionColumns (e 60) (e 61) (e 62) None)); (Some (PWord (e 63))); (Some (PWord (e 64))); (Some (PName (Field (Atom (e 65)) (e 66) (e 67))))])) (e 68)
  NoMore)))).
Example c46_sample_e :
  tokenize ascii_tables sample_e = Success (flats (yield_program program_e ++ [e 69])) /\
  grouped (yield_program program_e ++ [e 69]) /\ wf_program ascii_tables program_e (e 69).
Proof.
  split; [vm_compute; reflexivity|]. split; [apply grouped_b_sound; vm_compute; reflexivity|].
  cbn [wf_program wf_stmt wf_deed program_e]. unfold wf_definition. cbn [form fst snd app]. unfold procedure_parts. unfold what, or_replace, if_not_exists, if_exists, a_name, options, set_options.
  cbn [wf_program wf_stmt wf_block wf_handler wf_deed wf_definition wf_source wf_place wf_as_of wf_alias wf_offset yield_alias yield_offset yield_sample yield_source yield_place yield_as_of wf_viewcols wf_viewcol yield_viewcols yield_viewoptions wf_changes wf_change wf_alteration yield_changes yield_change yield_alteration form fst snd app DefinitionSpec.wf_parts DefinitionSpec.wf_part wf_group wf_declared wf_declarations wf_declaration wf_coltype wf_colfields wf_attributes
    wf_enforcement words_in words_are what or_replace if_not_exists if_exists a_name options set_options yield_parts yield_part yield_group yield_declared yield_declarations yield_declaration yield_coltype
    yield_query hd opt opt2 app wf_query wf_ctes wfs wf_item wf wf_from wf_windows wf_sample GrammarSpec.wf_columns dotted wf_matching wf_clause wf_by wf_limit path first perhaps perhaps2 yield_clause]. repeat fact.
  all: unfold wf_viewcol; cbn [yield_viewoptions hd wf_group wfs wf_item wf]; repeat fact.
Qed.
Definition c46_theorems := (c46_definitions_are_read, c46_semicolon, c46_unambiguous).
Print Assumptions c46_theorems.
