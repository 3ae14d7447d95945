(* The property C39 of properties.jsonl: a text written by a grammar of queries is accepted, and the
   trees returned are the ones that the grammar assigns to it. The grammar, the words each phrase is
   written with, the conditions on these words and the trees are defined in GrammarSpec.v. *)
From Verif Require Import Chars Token Cst Core Lexer Program Api ParserTotal Bundles LexSpec LexProps ParserInvariance GroupingSpec GroupedCheck GrammarSpec GrammarScript.
Local Open Scope string_scope.
Local Open Scope list_scope.

(* C39: if a text consists of the tokens of a well-formed script, it is parsed to the trees of the script *)
Theorem c39_scripts_are_read U code sc eof : ascii_faithful U ->
  tokenize U code = Success (flats (yield_script sc ++ [eof])) -> grouped (yield_script sc ++ [eof]) -> wf_script U sc eof ->
  parses U code (Success (tree_script U sc ++ [eof_tree eof])).
Proof. intro HU. exact (script_parses U HU code sc eof). Qed.

(* hence the grammar is unambiguous: one text has one list of trees *)
Theorem c39_unambiguous U code sc sc' eof eof' : ascii_faithful U ->
  tokenize U code = Success (flats (yield_script sc ++ [eof])) -> grouped (yield_script sc ++ [eof]) -> wf_script U sc eof ->
  tokenize U code = Success (flats (yield_script sc' ++ [eof'])) -> grouped (yield_script sc' ++ [eof']) -> wf_script U sc' eof' ->
  tree_script U sc = tree_script U sc'.
Proof.
  intros HU T G W T' G' W'. pose proof (script_parses U HU _ _ _ T G W) as P. pose proof (script_parses U HU _ _ _ T' G' W') as P'.
  pose proof (ParserTotal.parses_functional U code _ _ P P') as E. injection E as E. now apply app_inj_tail in E as [E _].
Qed.

(* A text that meets the hypotheses. *)
Definition sample : str :=
  s_ "WITH RECURSIVE r AS (SELECT 1 AS n UNION ALL SELECT n + 1 FROM r WHERE n < 5), # one" ++ [10%N] ++
  s_ "q AS (SELECT DISTINCT * EXCEPT (k), DATE '2020-01-01' d FROM UNNEST([1, 2]) AS u WITH OFFSET o) " ++
  s_ "SELECT AS STRUCT CAST(r.n AS ARRAY<STRING>), " ++
  s_ "agg(DISTINCT x IGNORE NULLS ORDER BY y LIMIT 2) OVER (PARTITION BY p ORDER BY z DESC NULLS LAST ROWS BETWEEN UNBOUNDED PRECEDING AND CURRENT ROW), " ++
  s_ "exists(SELECT 1), FROM a.r LEFT JOIN (SELECT 2) AS s ON r.n = y, t FOR SYSTEM_TIME AS OF x " ++
  s_ "WHERE a IS NOT DISTINCT FROM b AND c NOT IN UNNEST(k) GROUP BY g HAVING count() > 1 QUALIFY ok LIMIT 10 OFFSET 5;" ++ [10%N] ++
  s_ "/* two */ (SELECT 1) UNION ALL (SELECT 2) ORDER BY c DESC LIMIT 3; " ++
  s_ "SELECT CASE WHEN x NOT BETWEEN 1 AND 2 THEN [1][0] WHEN s NOT LIKE 'z' THEN INTERVAL 1 DAY ELSE -a * (b - c) END, " ++
  s_ "STRUCT<f INT64, g ARRAY<DATE>>(1, []), EXTRACT(year FROM ts), (v IN (1, 2), (SELECT 3))".
Definition sample_tokens : list token := Eval vm_compute in match tokenize ascii_tables sample with Success ts => ts | _ => [] end.
Definition tk (k : nat) : token := nth k sample_tokens eof_token.
Definition w (k : nat) : bundle := Bundle [] (tk k) [].
Definition sample_script : script :=
  Then
    (With (w 0) (Some (w 1))
      (MoreCtes (w 2) (w 3) (w 4)
        (Combined
          (Select (w 5) None None (One (Named (Atom (w 6)) (w 7) (w 8))) NoFrom NoClause NoBy NoClause NoClause NoWindow NoBy NoLimit) (w 9) (w 10)
          InOrder (Select (w 11) None None (One (Plain (Infix (Atom (w 12)) (w 13) (Atom (w 14))))) (From (w 15) (Base (Source (Path (Atom (w 16))) NoAlias Now NoOffset NoSample)))
            (Clause (w 17) (Infix (Atom (w 18)) (w 19) (Atom (w 20)))) NoBy NoClause NoClause NoWindow NoBy NoLimit))
        (w 21) (Bundle [] (tk 22) [tk 23])
      (LastCte (w 24) (w 25) (w 26)
        (Select (w 27) (Some (w 28)) None (More (Plain (StarBut (w 29) (w 30) (w 31) (One (Plain (Atom (w 32)))) (w 33))) (w 34) (One (Called (Typed (w 35) (w 36)) (w 37))))
          (From (w 38) (Base (Source (Unnest (Call (Fn (w 39)) (w 40) None (One (Plain (Array (w 41) (More (Plain (Atom (w 42))) (w 43) (One (Plain (Atom (w 44))))) (w 45)))) None NoBy NoClause (w 46) NoOver))
            (AliasAs (w 47) (w 48)) Now (WithOffset (w 49) (w 50) (Alias (w 51))) NoSample)))
          NoClause NoBy NoClause NoClause NoWindow NoBy NoLimit)
        (w 52)))
      (Select (w 53) None (Some ((w 54), (w 55)))
        (More (Plain (Cast (w 56) (w 57) (Field (Atom (w 58)) (w 59) (w 60)) (w 61) (TArray (w 62) (w 63) (TName (w 64)) (w 65)) (w 66))) (w 67)
        (More (Plain (Call (Atom (w 68)) (w 69) (Some (w 70)) (One (Plain (Atom (w 71)))) (Some ((w 72), (w 73))) (By (w 74) (w 75) (One (Plain (Atom (w 76))))) (Clause (w 77) (Atom (w 78))) (w 79)
            (OverSpec (w 80) (w 81) None (By (w 82) (w 83) (One (Plain (Atom (w 84))))) (By (w 85) (w 86) (One (Ordered (Atom (w 87)) (Some (w 88)) (Some ((w 89), (w 90))))))
              (RowsBetween (w 91) (w 92) (Edge (w 93) (w 94)) (w 95) (Edge (w 96) (w 97))) (w 98)))) (w 99)
        (Trailing (Plain (CallQuery (Fn (w 100)) (w 101) (Select (w 102) None None (One (Plain (Atom (w 103)))) NoFrom NoClause NoBy NoClause NoClause NoWindow NoBy NoLimit) (w 104))) (w 105))))
        (From (w 106) (Join
          (Join (Base (Source (Path (Field (Atom (w 107)) (w 108) (w 109))) NoAlias Now NoOffset NoSample)) (JoinedBy (w 110) (w 111))
            (Source (SubTable (w 112) (Select (w 113) None None (One (Plain (Atom (w 114)))) NoFrom NoClause NoBy NoClause NoClause NoWindow NoBy NoLimit) (w 115)) (AliasAs (w 116) (w 117)) Now NoOffset NoSample)
            (On (w 118) (Infix (Field (Atom (w 119)) (w 120) (w 121)) (w 122) (Atom (w 123)))))
          (Joined (w 124)) (Source (Path (Atom (w 125))) NoAlias (AsOf (w 126) (w 127) (w 128) (w 129) (Atom (w 130))) NoOffset NoSample) NoCondition))
        (Clause (w 131) (Infix (IsDistinct (Atom (w 132)) (w 133) (Some (w 134)) (w 135) (w 136) (Atom (w 137))) (w 138) (InUnnest (Atom (w 139)) (Some (w 140)) (w 141) (Call (Fn (w 142)) (w 143) None (One (Plain (Atom (w 144)))) None NoBy NoClause (w 145) NoOver))))
        (By (w 146) (w 147) (One (Plain (Atom (w 148))))) (Clause (w 149) (Infix (Call0 (Atom (w 150)) (w 151) (w 152) NoOver) (w 153) (Atom (w 154)))) (Clause (w 155) (Atom (w 156))) NoWindow NoBy (LimitOffset (w 157) (Atom (w 158)) (w 159) (Atom (w 160)))))
    (w 161)
  (Then
    (Sorted (Combined (Grouped (Bundle [tk 162] (tk 163) []) (Select (w 164) None None (One (Plain (Atom (w 165)))) NoFrom NoClause NoBy NoClause NoClause NoWindow NoBy NoLimit) (w 166)) (w 167) (w 168)
        InOrder (Grouped (w 169) (Select (w 170) None None (One (Plain (Atom (w 171)))) NoFrom NoClause NoBy NoClause NoClause NoWindow NoBy NoLimit) (w 172)))
      (By (w 173) (w 174) (One (Ordered (Atom (w 175)) (Some (w 176)) None))) (Limit (w 177) (Atom (w 178))))
    (w 179)
  (Last
    (Select (w 180) None None
      (More (Plain (Case (w 181) (When (w 182) (Between (Atom (w 183)) (Some (w 184)) (w 185) (Atom (w 186)) (w 187) (Atom (w 188))) (w 189) (Index (Array (w 190) (One (Plain (Atom (w 191)))) (w 192)) (w 193) (Atom (w 194)) (w 195))
          (LastElse (w 196) (NotLike (Atom (w 197)) (w 198) (w 199) (Atom (w 200))) (w 201) (Interval (w 202) (Atom (w 203)) (w 204)) (w 205) (Infix (Prefix (w 206) (Atom (w 207))) (w 208) (Paren (w 209) (Infix (Atom (w 210)) (w 211) (Atom (w 212))) (w 213))))) (w 214))) (w 215)
      (More (Plain (Struct (TStruct (w 216) (w 217) (MoreFields (FieldOf (w 218) (TName (w 219))) (w 220) (LastField (FieldOf (w 221) (TArray (w 222) (w 223) (TName (w 224)) (w 225))))) (w 226)) (w 227)
          (More (Plain (Atom (w 228))) (w 229) (One (Plain (EmptyArray (w 230) (w 231))))) (w 232))) (w 233)
      (More (Plain (Extract (w 234) (w 235) (Atom (w 236)) (w 237) (Atom (w 238)) (w 239))) (w 240)
      (One (Plain (Tuple (w 241) (Plain (InList (Atom (w 242)) None (w 243) (w 244) (More (Plain (Atom (w 245))) (w 246) (One (Plain (Atom (w 247))))) (w 248))) (w 249) (One (Plain (Sub (w 250) (Select (w 251) None None (One (Plain (Atom (w 252)))) NoFrom NoClause NoBy NoClause NoClause NoWindow NoBy NoLimit) (w 253)))) (w 254)))))))
      NoFrom NoClause NoBy NoClause NoClause NoWindow NoBy NoLimit))).
Ltac not_in := let J := fresh in let E := fresh in intros (? & J & E); cbn in J; repeat (destruct J as [<-|J]; [vm_compute in E; discriminate E|]); destruct J.
Ltac one_of := first [
  eexists; split; [left; reflexivity|vm_compute; reflexivity] | eexists; split; [right; left; reflexivity|vm_compute; reflexivity] |
  eexists; split; [do 2 right; left; reflexivity|vm_compute; reflexivity] | eexists; split; [do 3 right; left; reflexivity|vm_compute; reflexivity] |
  eexists; split; [do 4 right; left; reflexivity|vm_compute; reflexivity] | eexists; split; [do 5 right; left; reflexivity|vm_compute; reflexivity] |
  eexists; split; [do 6 right; left; reflexivity|vm_compute; reflexivity]].
Ltac apart_ := let J := fresh in let E := fresh in intros [(J & E)|[(J & E)|(J & E)]]; first [revert J; not_in | vm_compute in E; discriminate E | revert E; not_in |
  destruct E as [E|E]; [vm_compute in E; discriminate E|revert E; not_in]].
Ltac fact :=
  match goal with
  | |- _ /\ _ => split
  | |- GrammarSpec.name _ _ => split
  | |- operand _ _ => split
  | |- True => exact Logic.I
  | |- ~ GrammarSpec.word_in _ _ _ => not_in
  | |- ~ GrammarSpec.is_word _ _ _ => vm_compute; discriminate
  | |- apart_from _ _ _ => apart_
  | |- GrammarSpec.is_word _ _ _ -> _ => let J := fresh in intro J; first [vm_compute in J; discriminate J | clear J]
  | |- GrammarSpec.word_in _ _ _ => one_of
  | |- GrammarSpec.is_word _ _ _ => vm_compute; reflexivity
  | |- literally _ _ => reflexivity
  | |- field_name _ _ => left; vm_compute; reflexivity
  | |- glued _ _ _ => split; [vm_compute; discriminate|]; split; [not_in|]; split; [vm_compute; discriminate|right; split; vm_compute; reflexivity]
  | |- GrammarSpec.separated _ _ _ => right; right; split; [vm_compute; discriminate|first [left; vm_compute; discriminate | right; vm_compute; discriminate]]
  | |- is_word _ _ _ \/ _ => left
  | |- exists _, _ => eexists; split; [vm_compute; reflexivity|]
  | |- _ = _ => vm_compute; reflexivity
  | |- _ <> _ => vm_compute; discriminate
  | |- fits_left _ _ _ => vm_compute; discriminate
  | |- fits_right _ _ _ => vm_compute; reflexivity
  end.
Example c39_sample :
  tokenize ascii_tables sample = Success (flats (yield_script sample_script ++ [w 255])) /\
  grouped (yield_script sample_script ++ [w 255]) /\ wf_script ascii_tables sample_script (w 255).
Proof.
  split; [vm_compute; reflexivity|]. split.
  - apply grouped_b_sound. vm_compute. reflexivity.
  - cbn [wf_script wf_query wf_ctes wfs wf_item wf wf_from wf_table wf_source wf_place wf_as_of wf_alias wf_offset wf_joining wf_condition wf_clause wf_by wf_limit wf_arms
      wf_over wf_rows wf_bound wf_windows wf_matching wf_columns wf_sample wf_type wf_field wf_fields sample_script path all_glued dotted function_name call_of chain simple starts_grouped ends_grouped first_type first_query perhaps perhaps2 star].
    repeat fact.
Qed.

(* A second one, with the less common phrases. *)
Definition sample2 : str :=
  s_ "SELECT f.g LIKE ANY ('a', 'b'), s NOT LIKE ALL UNNEST(k), max(x HAVING MIN y), v(DISTINCT a HAVING MAX b) OVER w, " ++
  s_ "CAST(x AS STRING FORMAT 'y'), EXTRACT(hour FROM t AT TIME ZONE 'z') " ++
  s_ "FROM my-project.d.t-1 AS a TABLESAMPLE SYSTEM (10 PERCENT), a-b PIVOT (sum(a) AS s, n(b) FOR q IN ('x', 'y' z)) AS p " ++
  s_ "GROUP BY ROLLUP (a, b) WINDOW w AS (PARTITION BY p ORDER BY o ROWS 1 PRECEDING), v AS w, u AS (v) ORDER BY c; " ++
  s_ "SELECT 1 INTERSECT DISTINCT STRICT CORRESPONDING BY (a, b) SELECT 2 FROM t GROUP BY ALL " ++
  s_ "UNION ALL BY NAME SELECT 3 GROUP BY GROUPING SETS (a, (b, c))".
Definition sample2_tokens : list token := Eval vm_compute in match tokenize ascii_tables sample2 with Success ts => ts | _ => [] end.
Definition x (k : nat) : bundle := Bundle [] (nth k sample2_tokens eof_token) [].
Definition sample2_script : script :=
  Then
    (Select (x 0) None None (More (Plain (LikeSome (Field (Atom (x 1)) (x 2) (x 3)) None (x 4) (x 5) (Tuple (x 6) (Plain (Atom (x 7))) (x 8) (One (Plain (Atom (x 9)))) (x 10)))) (x 11) (More (Plain (LikeSome (Atom (x 12)) (Some (x 13)) (x 14) (x 15) (Call (Fn (x 16)) (x 17) None (One (Plain (Atom (x 18)))) None NoBy NoClause (x 19) NoOver))) (x 20) (More (Plain (CallMost (Atom (x 21)) (x 22) None (One (Plain (Atom (x 23)))) (x 24) (x 25) (Atom (x 26)) (x 27) NoOver)) (x 28) (More (Plain (CallMost (Atom (x 29)) (x 30) (Some (x 31)) (One (Plain (Atom (x 32)))) (x 33) (x 34) (Atom (x 35)) (x 36) (OverName (x 37) (x 38)))) (x 39) (More (Plain (CastFormat (x 40) (x 41) (Atom (x 42)) (x 43) (TName (x 44)) (x 45) (Atom (x 46)) (x 47))) (x 48) (One (Plain (ExtractAt (x 49) (x 50) (Atom (x 51)) (x 52) (Atom (x 53)) (x 54) (x 55) (x 56) (Atom (x 57)) (x 58)))))))))
      (From (x 59) (Join (Base (Source (Path (FieldDashed (Field (Dashed (x 60) [(x 61); (x 62)]) (x 63) (x 64)) (x 65) (x 66) [(x 67); (x 68)])) (AliasAs (x 69) (x 70)) Now NoOffset (TableSample (x 71) (x 72) (x 73) (x 74) (x 75) (x 76)))) (Joined (x 77))
        (Pivot (Path (Dashed (x 78) [(x 79); (x 80)])) NoAlias (x 81) (x 82) (More (Named (Call (Atom (x 83)) (x 84) None (One (Plain (Atom (x 85)))) None NoBy NoClause (x 86) NoOver) (x 87) (x 88)) (x 89) (One (Plain (Call (Atom (x 90)) (x 91) None (One (Plain (Atom (x 92)))) None NoBy NoClause (x 93) NoOver)))) (x 94) (x 95) (x 96) (x 97) (More (Plain (Atom (x 98))) (x 99) (One (Called (Atom (x 100)) (x 101)))) (x 102) (x 103) (AliasAs (x 104) (x 105)) NoSample) NoCondition))
      NoClause (ByEach (x 106) (x 107) (x 108) (One (Plain (Tuple (x 109) (Plain (Atom (x 110))) (x 111) (One (Plain (Atom (x 112)))) (x 113))))) NoClause NoClause
      (NewWindow (x 114) (x 115) (x 116) (x 117) None (By (x 118) (x 119) (One (Plain (Atom (x 120))))) (By (x 121) (x 122) (One (Plain (Atom (x 123))))) (RowsFrom (x 124) (Away (Atom (x 125)) (x 126))) (x 127) (SameWindow (x 128) (x 129) (x 130) (x 131) (NewWindow (x 132) (x 133) (x 134) (x 135) (Some (x 136)) NoBy NoBy NoRows (x 137) NoWindow)))
      (By (x 138) (x 139) (One (Plain (Atom (x 140))))) NoLimit)
    (x 141)
  (Last
    (Combined (Combined (Select (x 142) None None (One (Plain (Atom (x 143)))) NoFrom NoClause NoBy NoClause NoClause NoWindow NoBy NoLimit) (x 144) (x 145) (CorrespondingBy (Some (x 146)) (x 147) (x 148) (x 149) (MoreColumns (x 150) (x 151) (LastColumn (x 152))) (x 153)) (Select (x 154) None None (One (Plain (Atom (x 155)))) (From (x 156) (Base (Source (Path (Atom (x 157))) NoAlias Now NoOffset NoSample))) NoClause (ByAll (x 158) (x 159) (x 160)) NoClause NoClause NoWindow NoBy NoLimit))
      (x 161) (x 162) (ByName (x 163) (x 164)) (Select (x 165) None None (One (Plain (Atom (x 166)))) NoFrom NoClause (BySets (x 167) (x 168) (x 169) (x 170) (One (Plain (Tuple (x 171) (Plain (Atom (x 172))) (x 173) (One (Plain (Tuple (x 174) (Plain (Atom (x 175))) (x 176) (One (Plain (Atom (x 177)))) (x 178)))) (x 179))))) NoClause NoClause NoWindow NoBy NoLimit))).
Example c39_sample2 :
  tokenize ascii_tables sample2 = Success (flats (yield_script sample2_script ++ [x 180])) /\
  grouped (yield_script sample2_script ++ [x 180]) /\ wf_script ascii_tables sample2_script (x 180).
Proof.
  split; [vm_compute; reflexivity|]. split.
  - apply grouped_b_sound. vm_compute. reflexivity.
  - cbn [wf_script wf_query wf_ctes wfs wf_item wf wf_from wf_table wf_source wf_place wf_as_of wf_alias wf_offset wf_joining wf_condition wf_clause wf_by wf_limit wf_arms
      wf_over wf_rows wf_bound wf_windows wf_matching wf_columns wf_sample wf_type wf_field wf_fields sample2_script path all_glued dotted function_name call_of chain simple starts_grouped ends_grouped first_type first_query perhaps perhaps2 star].
    repeat fact.
Qed.

(* The conditions on operators tell groupings apart: a - y - 1 is read with the first two operands together, and
   the other grouping is not well formed. *)
Example c39_grouping : forall a m y n one, wf ascii_tables (Infix a m (Infix y n one)) -> is_word ascii_tables m "-" -> ~ is_word ascii_tables n "-".
Proof.
  intros a m y n one (_ & _ & _ & q & L & _ & R) M N. unfold fits_right in R. cbn [loosest_left] in R. unfold infix_level in *.
  unfold is_word in *. rewrite M in L. rewrite N in R. vm_compute in L. injection L as <-. cbn in R. lia.
Qed.

Definition c39_theorems := (c39_scripts_are_read, c39_unambiguous).
Print Assumptions c39_theorems.
