(* The parser properties C20 to C36 of properties.jsonl, about the model of lib.rs's parse:
   [parses U code o] says that parsing the text code ends with the outcome o, which is
   [Success] of a list of trees, [Failure] of an error, or [Panicked]. *)
From Verif Require Import Chars Token Cst Core MiniRust Lexer Program Api Bundles ParserView ParserGeneric
  LexSpec LexGrammar LexProps LexInvariance ParserSpec ParserInvariance ParserTotal Properties_Lexer.
Local Open Scope string_scope.
Local Open Scope list_scope.

(* how the examples below are computed *)
Lemma parses_by {U} fuel code o : parse U fuel code = o -> o <> NoFuel -> parses U code o.
Proof. intros H N. split; [exact N|now exists fuel]. Qed.

(* C20: parsing any text ends, with one outcome *)
Theorem c20_ends U code : exists o, parses U code o.
Proof. exact (parses_total U code). Qed.
Theorem c20_one_outcome U code o o' : parses U code o -> parses U code o' -> o = o'.
Proof. exact (parses_functional U code o o'). Qed.
Definition leaf (ty : node_type) (l c : N) (s : string) : node := Node (Some (T l c s)) ty [].
Definition eof_node : node := Node None N_EOF [].
Example c20_example : parses ascii_tables (s_ "SELECT 1;")
  (Success [Node (Some (T 1 1 "SELECT")) N_SelectStatement
    [("exprs", CVec [leaf N_NumericLiteral 1 8 "1"]);
     ("semicolon", CNode (leaf N_Symbol 1 9 ";"))]; eof_node]).
Proof. apply (parses_by 30); [vm_compute; reflexivity|discriminate]. Qed.

(* C21: parse panics only if the tokenizer does (C06) or when the parser stands at the EOF
   marker; no panic if the last token had a text. It does panic: on DROP TABLE. *)
Theorem c21_panics_at_eof U code fuel : parse U fuel code = Panicked ->
  tokenize U code = Panicked \/
  exists ts s0 s, tokenize U code = Success (ts ++ [eof_token]) /\ parser_new (ts ++ [eof_token]) = Some s0 /\
    run U prog fuel F_parse_code [] s0 = Panic s /\ get_token 0 s = Ok eof_token s.
Proof. exact (parse_panic U fuel code). Qed.
Theorem c21_panic_free_refuted : exists code, parses ascii_tables code Panicked /\
  exists ts, tokenize ascii_tables code = Success ts.
Proof.
  exists (s_ "DROP TABLE"). split; [|eexists; vm_compute; reflexivity].
  apply (parses_by 30); [vm_compute; reflexivity|discriminate].
Qed.

(* C27 *)
Theorem c27_located_errors U code e : parses U code (Failure e) ->
  tokenize U code = Failure e \/
  exists ts, tokenize U code = Success ts /\
    (exists t, In t ts /\ is_comment t = false /\ e_line e = line t /\ e_column e = column t) /\
    (forall t, e_detail e = Some t -> In t ts /\ is_comment t = false).
Proof. exact (parses_error U code e). Qed.
Example c27_example : exists e, parses ascii_tables (s_ "SELECT 1
NOT 2") (Failure e) /\ (e_line e, e_column e) = (2, 5)%N.
Proof. eexists. split; [apply (parses_by 30); [vm_compute; reflexivity|discriminate]|reflexivity]. Qed.

(* C28: a and b have the same tokens apart from comments (positions may differ, but the same
   tokens touch each other) *)
Theorem c28_comments U a b tsa tsb oa ob :
  tokenize U a = Success tsa -> tokenize U b = Success tsb ->
  map literal (code_tokens tsa) = map literal (code_tokens tsb) ->
  touches (code_tokens tsa) = touches (code_tokens tsb) ->
  parses U a oa -> parses U b ob ->
  same_outcome (paired (code_tokens tsa) (code_tokens tsb)) oa ob.
Proof. exact (parses_comments U a b tsa tsb oa ob). Qed.
Example c28_example :
  exists tsa tsb, tokenize ascii_tables (s_ "SELECT a.b, c") = Success tsa /\
    tokenize ascii_tables (s_ "/* x */ SELECT # y
  a.b, --z
c") = Success tsb /\
    map literal (code_tokens tsa) = map literal (code_tokens tsb) /\
    touches (code_tokens tsa) = touches (code_tokens tsb).
Proof. do 2 eexists. refine (conj _ (conj _ (conj _ _))); vm_compute; reflexivity. Qed.

(* C29 *)
Theorem c29_letter_case U a b oa ob : ascii_faithful U -> recased a b -> parses U a oa -> parses U b ob ->
  match tokenize U a with Success _ => same_outcome recased_token oa ob | _ => oa = ob end.
Proof. exact (parses_recased U a b oa ob). Qed.
Example c29_example : recased (s_ "select A from t") (s_ "SELECT a FrOm T") /\
  exists ns, parses ascii_tables (s_ "select A from t") (Success ns).
Proof.
  split; [apply recased_ups; reflexivity|].
  eexists. apply (parses_by 30); [vm_compute; reflexivity|discriminate].
Qed.

(* C30 *)
Theorem c30_layout U a b ts oa ob : tables_ok U ->
  tokenize U a = Success (ts ++ [eof_token]) -> relaid a b (map literal ts) ->
  (N.of_nat (List.length a) < usize_max - 1)%N -> (N.of_nat (List.length b) < usize_max - 1)%N ->
  parses U a oa -> parses U b ob ->
  same_outcome (fun t1 t2 => literal t1 = literal t2) oa ob.
Proof. exact (parses_relaid U a b ts oa ob). Qed.
Example c30_example : relaid (s_ "SELECT a.b") (s_ "
SELECT
    a.b ") (map s_ ["SELECT"; "a"; "."; "b"]).
Proof.
  apply (rl_lit [] [10%N] (s_ "SELECT") (s_ " a.b") (10%N :: s_ "    a.b ")); [constructor|repeat constructor|].
  apply (ra_lit _ (s_ " ") (10%N :: s_ "    ") (s_ "a") (s_ ".b") (s_ ".b ")); [repeat constructor|repeat constructor|split; discriminate|discriminate|].
  apply (ra_lit _ [] [] (s_ ".") (s_ "b") (s_ "b ")); [constructor|constructor|tauto|discriminate|].
  apply (ra_lit _ [] [] (s_ "b") [] (s_ " ")); [constructor|constructor|tauto|discriminate|].
  constructor; repeat constructor.
Qed.

(* C34: if the attempt `x = f(args)` fails, the handler runs from the state before it *)
Theorem c34_backtracking U {fn} (call : fn -> list value -> M value) lf x f args h e vs e1 s er s' :
  eval_args U args e s = Ok (vs, e1) s -> call f vs s = Err er s' ->
  exec U call lf (Try x f args h) e s = scoped (List.length e1) (exec U call lf h e1) s.
Proof. exact (try_leaves_no_trace U call lf x f args h e vs e1 s er s'). Qed.

Definition parser_theorems :=
  (@c20_ends, @c20_one_outcome, @c21_panics_at_eof, @c21_panic_free_refuted, @c27_located_errors,
   @c28_comments, @c29_letter_case, @c30_layout, @c34_backtracking).
Print Assumptions parser_theorems.
