(* The property C40 of properties.jsonl: a text made of statements (queries, DML, scripting) is accepted,
   and the trees returned are the ones that the grammar of statements assigns to it. The grammar, the
   words each statement is written with, the conditions on these words and the trees are defined in
   StatementSpec.v, on top of GrammarSpec.v. *)
From Verif Require Import Chars Token Cst Core Lexer Program Api ParserTotal Bundles LexSpec LexProps ParserInvariance GroupingSpec GrammarSpec GroupedCheck StatementSpec StatementScript.
Local Open Scope string_scope.
Local Open Scope list_scope.

(* C40: if a text consists of the tokens of a well-formed program, it is parsed to the trees of the program *)
Theorem c40_programs_are_read U code p eof : ascii_faithful U ->
  tokenize U code = Success (flats (yield_program p ++ [eof])) -> grouped (yield_program p ++ [eof]) -> wf_program U p eof ->
  parses U code (Success (tree_program U p ++ [eof_tree eof])).
Proof. intro HU. exact (program_parses U HU code p eof). Qed.

(* hence the grammar is unambiguous: one text has one list of trees *)
Theorem c40_unambiguous U code p p' eof eof' : ascii_faithful U ->
  tokenize U code = Success (flats (yield_program p ++ [eof])) -> grouped (yield_program p ++ [eof]) -> wf_program U p eof ->
  tokenize U code = Success (flats (yield_program p' ++ [eof'])) -> grouped (yield_program p' ++ [eof']) -> wf_program U p' eof' ->
  tree_program U p = tree_program U p'.
Proof.
  intros HU T G W T' G' W'. pose proof (program_parses U HU _ _ _ T G W) as P. pose proof (program_parses U HU _ _ _ T' G' W') as P'.
  pose proof (ParserTotal.parses_functional U code _ _ P P') as E. injection E as E. now apply app_inj_tail in E as [E _].
Qed.

(* A text that meets the hypotheses. *)
Definition sample : str :=
  s_ "DECLARE i, j INT64 DEFAULT 0; # start" ++ [10%N] ++
  s_ "l: LOOP SET i = i + 1; IF i > 5 THEN BREAK l; ELSEIF i = 3 THEN CONTINUE; ELSE INSERT INTO d.t (a) VALUES (1, 2), (3); END IF; END LOOP l; " ++
  s_ "BEGIN UPDATE t SET a = 1 FROM u WHERE b; MERGE INTO t AS x USING s ON x.k = s.k WHEN MATCHED AND c THEN UPDATE SET a = 2 " ++
  s_ "WHEN NOT MATCHED BY TARGET THEN INSERT (a) VALUES (b); EXCEPTION WHEN ERROR THEN RAISE USING MESSAGE = 'm'; END; " ++
  s_ "FOR r IN (SELECT 1) DO DELETE FROM t WHERE r.a; END FOR;" ++ [10%N] ++
  s_ "CASE i WHEN 1 THEN CALL p(1); WHEN 2 THEN ELSE RETURN; END CASE; WHILE x DO EXECUTE IMMEDIATE 'q' INTO a USING 1 AS y; END WHILE; " ++
  s_ "REPEAT TRUNCATE TABLE t; UNTIL done END REPEAT;" ++ [10%N] ++
  s_ "/* two */ INSERT t SELECT 1; DROP MATERIALIZED VIEW IF EXISTS v CASCADE; " ++
  s_ "ASSERT a AS 'x'; BEGIN TRANSACTION; COMMIT; SELECT 1".
Definition sample_tokens : list token := Eval vm_compute in match tokenize ascii_tables sample with Success ts => ts | _ => [] end.
Definition tk (k : nat) : token := nth k sample_tokens eof_token.
Definition w (k : nat) : bundle := Bundle [] (tk k) [].
Definition sample_program : program :=
  ThenStmt (Do (Variables (w 0) (MoreNames (w 1) (w 2) (OneName (w 3))) (Some (TName (w 4))) (Clause (w 5) (Atom (w 6))))) (Bundle [] (tk 7) [tk 8])
  (ThenStmt (Labelled (w 9) (w 10)
      (Loop (w 11)
        (Step (Do (Assign (w 12) (Atom (w 13)) (w 14) (Infix (Atom (w 15)) (w 16) (Atom (w 17))))) (w 18)
        (Step (StatementSpec.If (w 19) (Infix (Atom (w 20)) (w 21) (Atom (w 22))) (w 23) (Step (Do (Leave (w 24) (Some (w 25)))) (w 26) Done)
            (ElseIf (w 27) (Infix (Atom (w 28)) (w 29) (Atom (w 30))) (w 31) (Step (Do (Leave (w 32) None)) (w 33) Done)
            (Else (w 34) (Step (Do (Insert (w 35) (Some (w 36)) (Field (Atom (w 37)) (w 38) (w 39)) (Columns (w 40) (One (Plain (Atom (w 41)))) (w 42))
                (Values (w 43) (MoreTuples (w 44) (More (Plain (Atom (w 45))) (w 46) (One (Plain (Atom (w 47))))) (w 48) (w 49) (OneTuple (w 50) (One (Plain (Atom (w 51)))) (w 52)))))) (w 53) Done))) (w 54) (w 55)) (w 56)
        Done)) (w 57) (w 58)) (Some (w 59))) (w 60)
  (ThenStmt (Begin (w 61)
      (Step (Do (Update (w 62) (Base (Source (Path (Atom (w 63))) NoAlias Now NoOffset NoSample)) (w 64) (One (Plain (Infix (Atom (w 65)) (w 66) (Atom (w 67))))) (From (w 68) (Base (Source (Path (Atom (w 69))) NoAlias Now NoOffset NoSample))) (Clause (w 70) (Atom (w 71))))) (w 72)
      (Step (Do (Merge (w 73) (Some (w 74)) (Source (Path (Atom (w 75))) (AliasAs (w 76) (w 77)) Now NoOffset NoSample) (w 78) (Plain (Atom (w 79))) (w 80) (Infix (Field (Atom (w 81)) (w 82) (w 83)) (w 84) (Field (Atom (w 85)) (w 86) (w 87)))
          (Match (w 88) None (w 89) None (Clause (w 90) (Atom (w 91))) (w 92) (UpdateIt (w 93) (w 94) (One (Plain (Infix (Atom (w 95)) (w 96) (Atom (w 97))))))
          (Match (w 98) (Some (w 99)) (w 100) (Some ((w 101), (w 102))) NoClause (w 103) (InsertIt (w 104) (Columns (w 105) (One (Plain (Atom (w 106)))) (w 107)) (Values (w 108) (OneTuple (w 109) (One (Plain (Atom (w 110)))) (w 111)))) NoMatch)))) (w 112)
      Done))
      (Handler (w 113) (w 114) (w 115) (w 116) (Step (Do (Raise (w 117) (Clause (w 118) (Infix (Atom (w 119)) (w 120) (Atom (w 121)))))) (w 122) Done)) (w 123)) (w 124)
  (ThenStmt (For (w 125) (w 126) (w 127) (w 128) (Select (w 129) None None (One (Plain (Atom (w 130)))) NoFrom NoClause NoBy NoClause NoClause NoWindow NoBy NoLimit) (w 131) (w 132) (Step (Do (Delete (w 133) (Some (w 134)) (Atom (w 135)) NoAlias (w 136) (Field (Atom (w 137)) (w 138) (w 139)))) (w 140) Done) (w 141) (w 142)) (w 143)
  (ThenStmt (CaseDo (w 144) (Some (Atom (w 145))) (MoreCases (w 146) (Atom (w 147)) (w 148) (Step (Do (CallIt (w 149) (Call (Atom (w 150)) (w 151) None (One (Plain (Atom (w 152)))) None NoBy NoClause (w 153) NoOver))) (w 154) Done)
      (LastCaseElse (w 155) (Atom (w 156)) (w 157) Done (w 158) (Step (Do (Return (w 159))) (w 160) Done))) (w 161) (w 162)) (w 163)
  (ThenStmt (While (w 164) (Atom (w 165)) (w 166) (Step (Do (Execute (w 167) (w 168) (Atom (w 169)) (Into (w 170) (OneName (w 171))) (UsingAll (w 172) (One (Named (Atom (w 173)) (w 174) (w 175)))))) (w 176) Done) (w 177) (w 178)) (w 179)
  (ThenStmt (Repeat (w 180) (Step (Do (Truncate (w 181) (w 182) (Atom (w 183)))) (w 184) Done) (w 185) (Atom (w 186)) (w 187) (w 188)) (w 189)
  (ThenStmt (Do (InsertQuery (Bundle [tk 190] (tk 191) []) None (Atom (w 192)) NoColumns (Select (w 193) None None (One (Plain (Atom (w 194)))) NoFrom NoClause NoBy NoClause NoClause NoWindow NoBy NoLimit))) (w 195)
  (ThenStmt (Do (Drop (w 196) (Some (w 197)) (w 198) (Some ((w 199), (w 200))) (Atom (w 201)) (Some (w 202)))) (w 203)
  (ThenStmt (Do (Assert (w 204) (Atom (w 205)) (Some ((w 206), Atom (w 207))))) (w 208)
  (ThenStmt (Do (Transaction (w 209) (Some (w 210)))) (w 211)
  (ThenStmt (Do (Transaction (w 212) None)) (w 213)
  (LastStmt (Do (Ask (Select (w 214) None None (One (Plain (Atom (w 215)))) NoFrom NoClause NoBy NoClause NoClause NoWindow NoBy NoLimit))))))))))))))).
Ltac not_in := let J := fresh in let E := fresh in intros (? & J & E); cbn in J; repeat (destruct J as [<-|J]; [vm_compute in E; discriminate E|]); destruct J.
Ltac one_of := first [
  eexists; split; [left; reflexivity|vm_compute; reflexivity] | eexists; split; [right; left; reflexivity|vm_compute; reflexivity] |
  eexists; split; [do 2 right; left; reflexivity|vm_compute; reflexivity] | eexists; split; [do 3 right; left; reflexivity|vm_compute; reflexivity] |
  eexists; split; [do 4 right; left; reflexivity|vm_compute; reflexivity] | eexists; split; [do 5 right; left; reflexivity|vm_compute; reflexivity] |
  eexists; split; [do 6 right; left; reflexivity|vm_compute; reflexivity]].
Ltac apart_ := let J := fresh in let E := fresh in intros [(J & E)|[(J & E)|(J & E)]]; first [revert J; not_in | vm_compute in E; discriminate E | revert E; not_in |
  destruct E as [E|E]; [vm_compute in E; discriminate E|revert E; not_in]].
Ltac fact :=
  match goal with
  | |- _ /\ _ => split
  | |- GrammarSpec.name _ _ => split
  | |- operand _ _ => split
  | |- label _ _ => split
  | |- GrammarSpec.word_in _ _ _ \/ _ => left
  | |- True => exact Logic.I
  | |- ~ GrammarSpec.word_in _ _ _ => not_in
  | |- ~ GrammarSpec.is_word _ _ _ => vm_compute; discriminate
  | |- apart_from _ _ _ => apart_
  | |- GrammarSpec.is_word _ _ _ -> _ => let J := fresh in intro J; first [vm_compute in J; discriminate J | clear J]
  | |- GrammarSpec.word_in _ _ _ => one_of
  | |- GrammarSpec.is_word _ _ _ => vm_compute; reflexivity
  | |- literally _ _ => reflexivity
  | |- field_name _ _ => left; vm_compute; reflexivity
  | |- GrammarSpec.separated _ _ _ => (right; right; split; [vm_compute; discriminate|first [left; vm_compute; discriminate | right; vm_compute; discriminate]]) || (right; left; one_of)
  | |- is_word _ _ _ \/ _ => left
  | |- exists _, _ => eexists; split; [vm_compute; reflexivity|]
  | |- _ = _ => vm_compute; reflexivity
  | |- _ <> _ => vm_compute; discriminate
  | |- fits_left _ _ _ => vm_compute; discriminate
  | |- fits_right _ _ _ => vm_compute; reflexivity
  end.
Example c40_sample :
  tokenize ascii_tables sample = Success (flats (yield_program sample_program ++ [w 216])) /\
  grouped (yield_program sample_program ++ [w 216]) /\ wf_program ascii_tables sample_program (w 216).
Proof.
  split; [vm_compute; reflexivity|]. split.
  - apply grouped_b_sound. vm_compute. reflexivity.
  - cbn [wf_program wf_stmt wf_block wf_handler wf_elses wf_cases wf_deed wf_names wf_tuples wf_columns wf_values assignment assignments wf_action wf_matches wf_into wf_using is_call
      can_be_labelled hd opt opt2 app yield_columns yield_values yield_alias yield_clause yield_using yield_maybe_type yield_type yield_query first_table
      wf_query wf_ctes wfs wf_item wf wf_from wf_table wf_source wf_windows wf_sample dotted wf_matching wf_place wf_as_of wf_alias wf_offset wf_joining wf_condition wf_clause wf_by wf_limit wf_arms
      wf_over wf_rows wf_bound wf_type wf_field wf_fields sample_program path function_name call_of chain simple starts_grouped ends_grouped first first_type first_query perhaps perhaps2 star].
    repeat fact.
Qed.

Definition c40_theorems := (c40_programs_are_read, c40_unambiguous).
Print Assumptions c40_theorems.
