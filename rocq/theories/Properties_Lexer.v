(* The tokenizer properties C01 to C17 of properties.jsonl, about the model [tokenize] of
   lexer.rs (Lexer.v). The vocabulary is that of LexSpec.v, which does not mention the
   model. [tables_ok U] says that the Unicode tables agree with ASCII on ASCII characters
   and that no white space character is alphabetic; the tables of the Rust standard
   library satisfy it, and so does [ascii_tables] (Example tables_exist). *)
From Verif Require Import Chars Token Core Lexer LexSpec LexProofs LexGrammar LexTheorems LexProps LexInvariance LexClasses.
From Coq Require Import Sorted.
Local Open Scope string_scope.
Local Open Scope list_scope.

Definition T (l c : N) (s : string) : token := {| line := l; column := c; literal := s_ s |}.
Example tables_exist : tables_ok ascii_tables.
Proof.
  split; [split; intros; reflexivity|]. intros c H. cbn [ascii_tables u_alphabetic].
  unfold is_letter_ascii, is_lower_ascii, is_upper_ascii.
  destruct (in_range 97 122 c) eqn:E1; [apply in_range_true in E1|destruct (in_range 65 90 c) eqn:E2; [apply in_range_true in E2|reflexivity]];
  exfalso; revert H; unfold is_whitespace_char; rewrite !(proj2 (in_range_false _ _ _)) by lia;
  repeat match goal with |- context [N.eqb c ?k] => destruct (N.eqb_spec c k); [lia|] end; discriminate.
Qed.

(* The whole tokenizer: it accepts exactly the texts of the lexical grammar of LexSpec.v,
   and yields exactly the tokens of that grammar. *)
Theorem tokenizer_correct U code ts : tables_ok U ->
  (tokenize U code = Success ts <->
   exists ts0, ts = ts0 ++ [eof_token] /\ tokenization U [] code 0 None ts0).
Proof. exact (tokenize_grammar U code ts). Qed.

(* C01 *)
Theorem c01_no_text_lost U code ts : tokenize U code = Success ts ->
  exists ts0, ts = ts0 ++ [eof_token] /\ interleaved code (map literal ts0).
Proof. exact (tokenize_interleaved U code ts). Qed.
Example c01_example : tokenize ascii_tables (s_ " SELECT 'a b'-- x") =
  Success [T 1 2 "SELECT"; T 1 9 "'a b'"; T 1 14 "-- x"; eof_token].
Proof. vm_compute. reflexivity. Qed.

(* C02 *)
Theorem c02_true_positions U code ts : tokenize U code = Success ts ->
  exists ts0, ts = ts0 ++ [eof_token] /\ located [] code ts0.
Proof. exact (tokenize_located U code ts). Qed.
Example c02_example : tokenize ascii_tables (s_ "a
  'b
c'  d") = Success [T 1 1 "a"; T 2 3 "'b
c'"; T 3 5 "d"; eof_token].
Proof. vm_compute. reflexivity. Qed.

(* C03 *)
Theorem c03_source_order U code ts : tokenize U code = Success ts ->
  exists ts0, ts = ts0 ++ [eof_token] /\ StronglySorted (fun t u => pos_lt (at_ t) (at_ u)) ts0.
Proof. exact (tokenize_sorted U code ts). Qed.

(* C04: [eof_token] has the empty literal and line = column = usize::MAX. *)
Theorem c04_one_eof U code ts : tables_ok U -> tokenize U code = Success ts ->
  exists ts0, ts = ts0 ++ [eof_token] /\
    forall t, In t ts0 ->
      (exists c l, literal t = c :: l /\ is_whitespace_char c = false) /\
      (forall c, last_char (literal t) = Some c -> is_whitespace_char c = false) /\
      (1 <= line t <= N.of_nat (List.length code))%N /\
      (1 <= column t <= N.of_nat (List.length code))%N.
Proof. exact (tokenize_eof U code ts). Qed.
Example c04_example : (line eof_token, column eof_token, literal eof_token) = (usize_max, usize_max, [])
  /\ tokenize ascii_tables (s_ "  # x   ") = Success [T 1 3 "# x"; eof_token].
Proof. vm_compute. split; reflexivity. Qed.

(* C05 *)
Theorem c05_terminates U code : tokenize U code <> NoFuel.
Proof. exact (tokenize_total U code). Qed.

(* C06 *)
Theorem c06_panics_iff U code : tokenize U code = Panicked <->
  exists w rest, code = w ++ s_ "<" ++ rest /\ white w /\ not_followed (is_char (s_ "<=>")) rest.
Proof. exact (tokenize_panics U code). Qed.
Example c06_example : tokenize ascii_tables (s_ " < 1") = Panicked /\
  tokenize ascii_tables (s_ " <= 1") = Success [T 1 2 "<="; T 1 5 "1"; eof_token].
Proof. vm_compute. split; reflexivity. Qed.

(* C07 *)
Theorem c07_located_errors U code e : tokenize U code = Failure e ->
  (e_message e = "Unexpected EOF." /\ (e_line e, e_column e) = line_col code) \/
  (e_message e = "Invalid character as an identifier." /\
   exists pre post, code = pre ++ post /\ last_char pre = Some 64%N /\
     (e_line e, e_column e) = line_col pre /\
     not_followed (fun c => is_char (s_ "@`") c || word_start U c) post).
Proof. exact (tokenize_error U code e). Qed.
Example c07_example :
  tokenize ascii_tables (s_ "SELECT 'a") =
    Failure {| e_line := 1; e_column := 10; e_message := "Unexpected EOF."; e_detail := None |} /\
  tokenize ascii_tables (s_ "SELECT @ a") =
    Failure {| e_line := 1; e_column := 9; e_message := "Invalid character as an identifier."; e_detail := None |}.
Proof. vm_compute. split; reflexivity. Qed.

(* C08. In the theorems below [tokenize U code = Success (ts1 ++ t :: ts2 ++ [eof_token])]
   and [at_ t = line_col pre] say that a token t starts where the text pre ends. *)
Theorem c08_quoted_string U code ts1 t ts2 pre q lit post : tables_ok U ->
  tokenize U code = Success (ts1 ++ t :: ts2 ++ [eof_token]) ->
  code = pre ++ lit ++ post -> at_ t = line_col pre ->
  (q = 34%N \/ q = 39%N) -> quoted_literal q lit ->
  (lit = [q; q] -> not_followed (is_char [q]) post) ->
  literal t = lit.
Proof. exact (fun HU => quoted_at U HU code ts1 t ts2 pre q lit post). Qed.
Theorem c08_quoted_name U code ts1 t ts2 pre lit post : tables_ok U ->
  tokenize U code = Success (ts1 ++ t :: ts2 ++ [eof_token]) ->
  code = pre ++ lit ++ post -> at_ t = line_col pre ->
  back_quoted_literal lit -> literal t = lit.
Proof. exact (fun HU => back_quoted_at U HU code ts1 t ts2 pre lit post). Qed.
Theorem c08_only_quoted_strings U code ts t c l : tables_ok U ->
  tokenize U code = Success (ts ++ [eof_token]) -> In t ts ->
  literal t = c :: l -> (c = 34%N \/ c = 39%N) ->
  quoted_literal c (literal t) \/ triple_literal c (literal t).
Proof. exact (fun HU => quoted_token U HU code ts t c l). Qed.
Theorem c08_only_quoted_names U code ts t l : tables_ok U ->
  tokenize U code = Success (ts ++ [eof_token]) -> In t ts ->
  literal t = 96%N :: l -> back_quoted_literal (literal t).
Proof. exact (fun HU => back_quoted_token U HU code ts t l). Qed.
(* the text after a token is tokenized independently of what comes before it: only the
   number of open type declarations and whether t is ARRAY or STRUCT matter *)
Theorem c08_independent U code code' ts1 t ts2 ts1' t' ts2' pre pre' post : tables_ok U ->
  tokenize U code = Success (ts1 ++ t :: ts2 ++ [eof_token]) ->
  tokenize U code' = Success (ts1' ++ t' :: ts2' ++ [eof_token]) ->
  code = pre ++ literal t ++ post -> at_ t = line_col pre ->
  code' = pre' ++ literal t' ++ post -> at_ t' = line_col pre' ->
  open_types U None 0 (ts1 ++ [t]) = open_types U None 0 (ts1' ++ [t']) ->
  in_ U ["ARRAY"; "STRUCT"] t = in_ U ["ARRAY"; "STRUCT"] t' ->
  map literal ts2 = map literal ts2'.
Proof. exact (fun HU => independent U HU code code' ts1 t ts2 ts1' t' ts2' pre pre' post). Qed.
Example c08_example : tokenize ascii_tables (s_ "x'it\'s'y`a""b`") =
  Success [T 1 1 "x"; T 1 2 "'it\'s'"; T 1 9 "y"; T 1 10 "`a""b`"; eof_token]
  /\ quoted_literal 39 (s_ "'it\'s'").
Proof.
  split; [vm_compute; reflexivity|]. exists (s_ "it\'s"). split; [|reflexivity].
  repeat (apply eb_char; [discriminate|discriminate|] || apply eb_esc). constructor.
Qed.

(* C09 *)
Theorem c09_triple_quoted U code ts1 t ts2 pre q lit post : tables_ok U ->
  tokenize U code = Success (ts1 ++ t :: ts2 ++ [eof_token]) ->
  code = pre ++ lit ++ post -> at_ t = line_col pre ->
  (q = 34%N \/ q = 39%N) -> triple_literal q lit -> literal t = lit.
Proof. exact (fun HU => triple_at U HU code ts1 t ts2 pre q lit post). Qed.
Theorem c09_only_triple_quoted U code ts t c l : tables_ok U ->
  tokenize U code = Success (ts ++ [eof_token]) -> In t ts ->
  literal t = c :: c :: c :: l -> (c = 34%N \/ c = 39%N) -> triple_literal c (literal t).
Proof. exact (fun HU => triple_token U HU code ts t c l). Qed.
Example c09_example : tokenize ascii_tables (s_ "'''a
''b\''''''c") = Success [T 1 1 "'''a
''b\''''"; T 2 9 "''"; T 2 11 "c"; eof_token].
Proof. vm_compute. reflexivity. Qed.

(* C10 *)
Theorem c10_line_comment U code ts1 t ts2 pre lit w post : tables_ok U ->
  tokenize U code = Success (ts1 ++ t :: ts2 ++ [eof_token]) ->
  code = pre ++ lit ++ w ++ post -> at_ t = line_col pre ->
  line_comment lit -> white w -> ~ In newline w -> (post = [] \/ exists r, post = newline :: r) ->
  literal t = lit.
Proof. exact (fun HU => line_comment_at U HU code ts1 t ts2 pre lit w post). Qed.
Theorem c10_block_comment U code ts1 t ts2 pre lit post : tables_ok U ->
  tokenize U code = Success (ts1 ++ t :: ts2 ++ [eof_token]) ->
  code = pre ++ lit ++ post -> at_ t = line_col pre -> block_comment lit -> literal t = lit.
Proof. exact (fun HU => block_comment_at U HU code ts1 t ts2 pre lit post). Qed.
Theorem c10_only_comments U code ts t : tables_ok U ->
  tokenize U code = Success (ts ++ [eof_token]) -> In t ts ->
  is_comment t = true <-> line_comment (literal t) \/ block_comment (literal t).
Proof. exact (fun HU => comment_token U HU code ts t). Qed.
Example c10_example : tokenize ascii_tables (s_ "a -- b 'c   
/* d
**/e/*/f") = Success [T 1 1 "a"; T 1 3 "-- b 'c"; T 2 1 "/* d
**/"; T 3 4 "e"; T 3 5 "/*/"; T 3 8 "f"; eof_token].
Proof. vm_compute. reflexivity. Qed.

(* C11 *)
Theorem c11_word U code ts1 t ts2 pre lit post : tables_ok U ->
  tokenize U code = Success (ts1 ++ t :: ts2 ++ [eof_token]) ->
  code = pre ++ lit ++ post -> at_ t = line_col pre ->
  word U lit -> not_followed (word_char U) post -> literal t = lit.
Proof. exact (fun HU => word_at U HU code ts1 t ts2 pre lit post). Qed.
Theorem c11_only_words U code ts1 t ts2 pre post c l : tables_ok U ->
  tokenize U code = Success (ts1 ++ t :: ts2 ++ [eof_token]) ->
  code = pre ++ literal t ++ post -> at_ t = line_col pre ->
  literal t = c :: l -> word_start U c = true ->
  word U (literal t) /\ not_followed (word_char U) post.
Proof. exact (fun HU => word_token U HU code ts1 t ts2 pre post c l). Qed.
Example c11_example : tokenize ascii_tables (s_ "_a1.b2(") =
  Success [T 1 1 "_a1"; T 1 4 "."; T 1 5 "b2"; T 1 7 "("; eof_token].
Proof. vm_compute. reflexivity. Qed.

(* C12 *)
Theorem c12_number U code ts1 t ts2 pre lit post : tables_ok U ->
  tokenize U code = Success (ts1 ++ t :: ts2 ++ [eof_token]) ->
  code = pre ++ lit ++ post -> at_ t = line_col pre ->
  number lit -> not_followed (fun c => is_digit_char c || is_char (s_ ".eE") c) post ->
  literal t = lit.
Proof. exact (fun HU => number_at U HU code ts1 t ts2 pre lit post). Qed.
Theorem c12_numeric_test t : is_numeric t = true <-> number (literal t).
Proof. exact (is_numeric_spec t). Qed.
Example c12_example : tokenize ascii_tables (s_ "1.5e-3+.2") =
  Success [T 1 1 "1.5e-3"; T 1 7 "+"; T 1 8 ".2"; eof_token] /\
  is_numeric (T 1 1 "1.5e-3") = true /\ is_numeric (T 1 1 "1.") = false.
Proof. vm_compute. repeat split; reflexivity. Qed.

(* C13 for ARRAY< and STRUCT< (the code counts these two only) *)
Theorem c13_inside_types U code ts1 t ts2 pre post : tables_ok U ->
  tokenize U code = Success (ts1 ++ t :: ts2 ++ [eof_token]) ->
  code = pre ++ s_ ">" ++ post -> at_ t = line_col pre ->
  open_types U None 0 ts1 <> 0%N -> literal t = s_ ">".
Proof. exact (fun HU => close_at U HU code ts1 t ts2 pre post). Qed.
Theorem c13_outside_types U code ts1 t ts2 pre post : tables_ok U ->
  tokenize U code = Success (ts1 ++ t :: ts2 ++ [eof_token]) ->
  code = pre ++ s_ ">>" ++ post -> at_ t = line_col pre ->
  open_types U None 0 ts1 = 0%N -> literal t = s_ ">>".
Proof.
  exact (fun HU H Ec A Hd => operator_at U HU code ts1 t ts2 pre ">>" post H Ec A
    (or_intror (or_intror (or_intror (or_intror (or_intror (or_introl eq_refl)))))) (fun _ => Hd)).
Qed.
(* every nesting depth: ARRAY< n times, INT64, > n times *)
Theorem c13_nested U n : tables_ok U -> exists ts,
  tokenize U (opens n ++ s_ "INT64" ++ repeat 62%N n) = Success (ts ++ [eof_token]) /\
  map literal ts = opens_literals n ++ s_ "INT64" :: repeat (s_ ">") n.
Proof. exact (fun HU => nested_types U HU n). Qed.
Example c13_example : tokenize ascii_tables (s_ "ARRAY<STRUCT<a INT64>>[] a>>b") =
  Success [T 1 1 "ARRAY"; T 1 6 "<"; T 1 7 "STRUCT"; T 1 13 "<"; T 1 14 "a"; T 1 16 "INT64"; T 1 21 ">"; T 1 22 ">";
           T 1 23 "["; T 1 24 "]"; T 1 26 "a"; T 1 27 ">>"; T 1 29 "b"; eof_token].
Proof. vm_compute. reflexivity. Qed.
(* With RANGE< in between the claim is false: the last two brackets of this well-formed
   type are read as a shift operator. *)
Theorem c13_range_refuted : exists ts,
  tokenize ascii_tables (s_ "STRUCT<a RANGE<DATE>, b ARRAY<RANGE<DATE>>>") = Success ts /\
  In (s_ ">>") (map literal ts).
Proof. eexists. split; [vm_compute; reflexivity|]. vm_compute. intuition. Qed.

(* C14 *)
Theorem c14_longest_operator U code ts1 t ts2 pre op post : tables_ok U ->
  tokenize U code = Success (ts1 ++ t :: ts2 ++ [eof_token]) ->
  code = pre ++ s_ op ++ post -> at_ t = line_col pre ->
  In op ["||"; "|>"; "<<"; "<="; "<>"; ">>"; ">="; "=>"; "!="] ->
  (op = ">>" \/ op = ">=" -> open_types U None 0 ts1 = 0%N) ->
  literal t = s_ op.
Proof. exact (fun HU => operator_at U HU code ts1 t ts2 pre op post). Qed.
Example c14_example : tokenize ascii_tables (s_ "a<=b||c!=d|>e") =
  Success [T 1 1 "a"; T 1 2 "<="; T 1 4 "b"; T 1 5 "||"; T 1 7 "c"; T 1 8 "!="; T 1 10 "d"; T 1 11 "|>"; T 1 13 "e"; eof_token].
Proof. vm_compute. reflexivity. Qed.

(* C15 *)
Theorem c15_white_space U a b ts : tables_ok U ->
  tokenize U a = Success (ts ++ [eof_token]) -> relaid a b (map literal ts) ->
  exists ts', tokenize U b = Success (ts' ++ [eof_token]) /\ map literal ts' = map literal ts.
Proof. exact (tokenize_relaid U a b ts). Qed.
Example c15_example : relaid (s_ "a -- b
<c ") (s_ "  a  -- b 
 <c") (map s_ ["a"; "-- b"; "<"; "c"]).
Proof.
  assert (W : forall w, forallb is_whitespace_char w = true -> white w).
  { intros w H. apply Forall_forall. now apply forallb_forall. }
  apply (rl_lit [] (s_ "  ") (s_ "a")); [now apply W|now apply W|].
  apply (ra_lit (s_ "a") (s_ " ") (s_ "  ") (s_ "-- b")); [now apply W|now apply W|split; discriminate|discriminate|].
  apply (ra_lit (s_ "-- b") (s_ "
") (s_ " 
 ") (s_ "<")); [now apply W|now apply W|split; discriminate|intros _; split; cbn; auto|].
  apply (ra_lit (s_ "<") [] [] (s_ "c")); [now apply W|now apply W|split; auto|discriminate|].
  apply ra_end; now apply W.
Qed.

(* C16 *)
Theorem c16_letter_case U a b : ascii_faithful U -> recased a b ->
  match tokenize U a, tokenize U b with
  | Success ts, Success ts' => Forall2 recased_token ts ts'
  | Failure e, Failure e' => e = e'
  | Panicked, Panicked => True
  | _, _ => False
  end.
Proof. exact (fun HU => tokenize_recased U HU a b). Qed.
Example c16_example : recased (s_ "Array<int64>> x1E5") (s_ "aRRAY<INT64>> X1e5").
Proof. apply recased_ups. reflexivity. Qed.

(* C17 *)
Theorem c17_exclusive_classes U t : ascii_faithful U ->
  List.length (filter (fun p => p t)
    [is_identifier U; is_numeric; is_string; is_boolean U; is_parameter; is_template; is_comment]) <= 1.
Proof. exact (fun HU => classes_exclusive U HU t). Qed.
Theorem c17_reserved_not_identifier U t : ascii_faithful U ->
  is_reserved_keyword U t = true -> is_identifier U t = false.
Proof. exact (fun HU => reserved_not_identifier U HU t). Qed.
Example c17_example : map (fun s => filter (fun p => p (T 1 1 s))
    [is_identifier ascii_tables; is_numeric; is_string; is_boolean ascii_tables; is_parameter; is_template; is_comment])
    ["`from`"; "from"; "1e5"; "'a'"; "False"; "@x"; "{{y}}"; "--z"] =
  [[is_identifier ascii_tables]; []; [is_numeric]; [is_string]; [is_boolean ascii_tables]; [is_parameter]; [is_template]; [is_comment]].
Proof. reflexivity. Qed.

(* one Print Assumptions for all of them: it lists the axioms any of them uses *)
Definition lexer_theorems :=
  (@tokenizer_correct,
   @c01_no_text_lost,
   @c02_true_positions,
   @c03_source_order,
   @c04_one_eof,
   @c05_terminates,
   @c06_panics_iff,
   @c07_located_errors,
   @c08_quoted_string,
   @c08_quoted_name,
   @c08_only_quoted_strings,
   @c08_only_quoted_names,
   @c08_independent,
   @c09_triple_quoted,
   @c09_only_triple_quoted,
   @c10_line_comment,
   @c10_block_comment,
   @c10_only_comments,
   @c11_word,
   @c11_only_words,
   @c12_number,
   @c12_numeric_test,
   @c13_inside_types,
   @c13_outside_types,
   @c13_nested,
   @c13_range_refuted,
   @c14_longest_operator,
   @c15_white_space,
   @c16_letter_case,
   @c17_exclusive_classes,
   @c17_reserved_not_identifier).
Print Assumptions lexer_theorems.
