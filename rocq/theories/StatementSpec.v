(* Specification vocabulary for statements other than queries: their grammar, the token sequence each
   is written as, and the tree each denotes. It builds on the queries and expressions of
   GrammarSpec.v; nothing here refers to the parser. *)
From Verif Require Import Chars Token Cst Bundles GroupingSpec GrammarSpec PipeSpec DefinitionSpec.
Local Open Scope string_scope.
Local Open Scope list_scope.

(* a, b, c *)
Inductive names :=
| OneName (b : bundle)
| MoreNames (b comma : bundle) (r : names).
(* (1, 2), (3, 4) *)
Inductive tuples :=
| OneTuple (lp : bundle) (es : items) (rp : bundle)
| MoreTuples (lp : bundle) (es : items) (rp comma : bundle) (r : tuples).
(* (a, b) *)
Inductive columns :=
| NoColumns
| Columns (lp : bundle) (es : items) (rp : bundle).
Inductive values :=
| Values (k : bundle) (ts : tuples)                              (* VALUES (1, 2), (3, 4) *)
| WholeRow (k : bundle).                                         (* ROW *)
(* what MERGE does with a row *)
Inductive action :=
| DeleteIt (k : bundle)                                          (* DELETE *)
| UpdateIt (k s : bundle) (es : items)                           (* UPDATE SET a = 1 *)
| InsertIt (k : bundle) (c : columns) (v : values).              (* INSERT (a) VALUES (1) *)
Inductive matches :=
| NoMatch
| Match (w : bundle) (n : option bundle) (m : bundle) (b : option (bundle * bundle)) (c : clause) (t : bundle) (a : action) (r : matches).
                                                                 (* WHEN NOT MATCHED BY SOURCE AND c THEN a *)
Inductive receivers :=
| NoInto
| Into (k : bundle) (ns : names).                                (* INTO a, b *)
Inductive arguments :=
| NoUsing
| UsingAll (k : bundle) (es : items).                            (* USING 1, 2 AS x *)

(* statements that have no statements in them *)
Inductive deed :=
| Ask (q : query)
| Piped (k : bundle) (t : table) (os : operators)                                         (* FROM t |> WHERE a |> SELECT b *)
| Insert (k : bundle) (i : option bundle) (p : expr) (c : columns) (v : values)           (* INSERT INTO p (a) VALUES (1) *)
| InsertQuery (k : bundle) (i : option bundle) (p : expr) (c : columns) (q : query)       (* INSERT INTO p (a) SELECT 1 *)
| Delete (k : bundle) (f : option bundle) (p : expr) (a : alias) (w : bundle) (e : expr)  (* DELETE FROM p AS a WHERE e *)
| Truncate (k t : bundle) (p : expr)                                                      (* TRUNCATE TABLE p *)
| Update (k : bundle) (t : table) (s : bundle) (es : items) (f : from) (w : clause)       (* UPDATE t SET a = 1 FROM f WHERE w *)
| Merge (k : bundle) (i : option bundle) (t : source) (u : bundle) (x : item) (o : bundle) (e : expr) (ms : matches)
                                                                                          (* MERGE INTO t USING x ON e ms *)
| Drop (k : bundle) (x : option bundle) (w : bundle) (n : option (bundle * bundle)) (p : expr) (c : option bundle)
                                                                                          (* DROP EXTERNAL TABLE IF EXISTS p CASCADE *)
| Variables (k : bundle) (ns : names) (t : option type_) (d : clause)                     (* DECLARE a, b INT64 DEFAULT 1 *)
| Assign (k : bundle) (x : expr) (eq : bundle) (e : expr)                                 (* SET x = e *)
| Execute (k i : bundle) (e : expr) (n : receivers) (u : arguments)                                (* EXECUTE IMMEDIATE e INTO a USING 1 *)
| Transaction (k : bundle) (t : option bundle)                                            (* BEGIN TRANSACTION, COMMIT, ROLLBACK *)
| Leave (k : bundle) (l : option bundle)                                                  (* BREAK l, CONTINUE l *)
| Return (k : bundle)                                                                     (* RETURN *)
| Raise (k : bundle) (u : clause)                                                         (* RAISE USING MESSAGE = 'x' *)
| CallIt (k : bundle) (e : expr)                                                          (* CALL p(1, 2) *)
| Assert (k : bundle) (e : expr) (d : option (bundle * expr))                             (* ASSERT e AS 'x' *)
| Define (d : definition) (k : bundle) (ps : list (option part)).                         (* CREATE TABLE t (a INT64), ALTER ..., GRANT ... *)

Inductive stmt :=
| Do (d : deed)
| Begin (k : bundle) (b : block) (h : handler) (e : bundle)                               (* BEGIN b EXCEPTION ... END *)
| If (k : bundle) (c : expr) (t : bundle) (b : block) (r : elses) (e i : bundle)          (* IF c THEN b ELSE ... END IF *)
| Loop (k : bundle) (b : block) (e l : bundle)                                            (* LOOP b END LOOP *)
| Repeat (k : bundle) (b : block) (u : bundle) (c : expr) (e r : bundle)                  (* REPEAT b UNTIL c END REPEAT *)
| While (k : bundle) (c : expr) (d : bundle) (b : block) (e w : bundle)                   (* WHILE c DO b END WHILE *)
| For (k v i lp : bundle) (q : query) (rp d : bundle) (b : block) (e f : bundle)          (* FOR v IN (q) DO b END FOR *)
| CaseDo (k : bundle) (s : option expr) (ws : cases) (e c : bundle)                       (* CASE s WHEN ... END CASE *)
| Labelled (l colon : bundle) (s : stmt) (t : option bundle)                              (* l: s l *)
| Procedure (k : bundle) (ps : list (option part)) (g : bundle) (b : block) (h : handler) (e : bundle)
                                                                                          (* CREATE PROCEDURE p (x INT64) BEGIN b EXCEPTION ... END *)
with block :=
| Done
| Step (s : stmt) (semi : bundle) (b : block)
with handler :=
| NoHandler
| Handler (x w r t : bundle) (b : block)                                                  (* EXCEPTION WHEN ERROR THEN b *)
with elses :=
| NoElse
| Else (k : bundle) (b : block)                                                           (* ELSE b *)
| ElseIf (k : bundle) (c : expr) (t : bundle) (b : block) (r : elses)                     (* ELSEIF c THEN b ... *)
with cases :=
| LastCase (w : bundle) (c : expr) (t : bundle) (b : block)                               (* WHEN c THEN b *)
| LastCaseElse (w : bundle) (c : expr) (t : bundle) (b : block) (k : bundle) (b' : block) (* WHEN c THEN b ELSE b' *)
| MoreCases (w : bundle) (c : expr) (t : bundle) (b : block) (r : cases).

(* statements, each ended by a semicolon except possibly the last one *)
Inductive program :=
| NoMore
| LastStmt (s : stmt)
| ThenStmt (s : stmt) (semi : bundle) (r : program).

(* ----- the tokens ----- *)
Fixpoint yield_names (ns : names) : list bundle :=
  match ns with OneName b => [b] | MoreNames b c r => b :: c :: yield_names r end.
Fixpoint yield_tuples (ts : tuples) : list bundle :=
  match ts with OneTuple lp es rp => lp :: yields es ++ [rp] | MoreTuples lp es rp c r => lp :: yields es ++ rp :: c :: yield_tuples r end.
Definition yield_columns (c : columns) : list bundle :=
  match c with NoColumns => [] | Columns lp es rp => lp :: yields es ++ [rp] end.
Definition yield_values (v : values) : list bundle :=
  match v with Values k ts => k :: yield_tuples ts | WholeRow k => [k] end.
Definition yield_action (a : action) : list bundle :=
  match a with DeleteIt k => [k] | UpdateIt k s es => k :: s :: yields es | InsertIt k c v => k :: yield_columns c ++ yield_values v end.
Fixpoint yield_matches (ms : matches) : list bundle :=
  match ms with
  | NoMatch => []
  | Match w n m b c t a r => w :: opt n ++ m :: opt2 b ++ yield_clause c ++ t :: yield_action a ++ yield_matches r
  end.
Definition yield_into (n : receivers) : list bundle := match n with NoInto => [] | Into k ns => k :: yield_names ns end.
Definition yield_using (u : arguments) : list bundle := match u with NoUsing => [] | UsingAll k es => k :: yields es end.
Definition yield_maybe_type (t : option type_) : list bundle := match t with Some t => yield_type t | None => [] end.
Definition yield_deed (d : deed) : list bundle :=
  match d with
  | Ask q => yield_query q
  | Piped k t os => k :: yield_table t ++ yield_operators os
  | Insert k i p c v => k :: opt i ++ yield p ++ yield_columns c ++ yield_values v
  | InsertQuery k i p c q => k :: opt i ++ yield p ++ yield_columns c ++ yield_query q
  | Delete k f p a w e => k :: opt f ++ yield p ++ yield_alias a ++ w :: yield e
  | Truncate k t p => k :: t :: yield p
  | Update k t s es f w => k :: yield_table t ++ s :: yields es ++ yield_from f ++ yield_clause w
  | Merge k i t u x o e ms => k :: opt i ++ yield_source t ++ u :: yield_item x ++ o :: yield e ++ yield_matches ms
  | Drop k x w n p c => k :: opt x ++ w :: opt2 n ++ yield p ++ opt c
  | Variables k ns t d => k :: yield_names ns ++ yield_maybe_type t ++ yield_clause d
  | Assign k x eq e => k :: yield x ++ eq :: yield e
  | Execute k i e n u => k :: i :: yield e ++ yield_into n ++ yield_using u
  | Transaction k t => k :: opt t
  | Leave k l => k :: opt l
  | Return k => [k]
  | Raise k u => k :: yield_clause u
  | CallIt k e => k :: yield e
  | Assert k e d => k :: yield e ++ match d with Some (a, x) => a :: yield x | None => [] end
  | Define d k ps => k :: yield_parts ps
  end.
Definition yield_subject (s : option expr) : list bundle := match s with Some e => yield e | None => [] end.
Fixpoint yield_stmt (s : stmt) : list bundle :=
  match s with
  | Do d => yield_deed d
  | Begin k b h e => k :: yield_block b ++ yield_handler h ++ [e]
  | If k c t b r e i => k :: yield c ++ t :: yield_block b ++ yield_elses r ++ [e; i]
  | Loop k b e l => k :: yield_block b ++ [e; l]
  | Repeat k b u c e r => k :: yield_block b ++ u :: yield c ++ [e; r]
  | While k c d b e w => k :: yield c ++ d :: yield_block b ++ [e; w]
  | For k v i lp q rp d b e f => k :: v :: i :: lp :: yield_query q ++ rp :: d :: yield_block b ++ [e; f]
  | CaseDo k s ws e c => k :: yield_subject s ++ yield_cases ws ++ [e; c]
  | Labelled l c s t => l :: c :: yield_stmt s ++ opt t
  | Procedure k ps g b h e => k :: yield_parts ps ++ g :: yield_block b ++ yield_handler h ++ [e]
  end
with yield_block (b : block) : list bundle :=
  match b with
  | Done => []
  | Step s semi b => yield_stmt s ++ semi :: yield_block b
  end
with yield_handler (h : handler) : list bundle :=
  match h with
  | NoHandler => []
  | Handler x w r t b => x :: w :: r :: t :: yield_block b
  end
with yield_elses (r : elses) : list bundle :=
  match r with
  | NoElse => []
  | Else k b => k :: yield_block b
  | ElseIf k c t b r => k :: yield c ++ t :: yield_block b ++ yield_elses r
  end
with yield_cases (ws : cases) : list bundle :=
  match ws with
  | LastCase w c t b => w :: yield c ++ t :: yield_block b
  | LastCaseElse w c t b k b' => w :: yield c ++ t :: yield_block b ++ k :: yield_block b'
  | MoreCases w c t b r => w :: yield c ++ t :: yield_block b ++ yield_cases r
  end.
Fixpoint yield_program (p : program) : list bundle :=
  match p with
  | NoMore => []
  | LastStmt s => yield_stmt s
  | ThenStmt s semi r => yield_stmt s ++ semi :: yield_program r
  end.

Section WithUnicode.
Context (U : unicode).
Local Notation is_word := (is_word U).
Local Notation word_in := (word_in U).
Local Notation perhaps := (perhaps U).
Local Notation perhaps2 := (perhaps2 U).
Local Notation name := (name U).
Local Notation path := (path U).
Local Notation separated := (separated U).
Local Notation wf := (wf U).
Local Notation wfs := (wfs U).
Local Notation tree := (tree U).
Local Notation trees := (trees U).

(* ----- which statements are well formed ----- *)
(* [next]: the token after the phrase *)
Fixpoint wf_names (ns : names) (next : bundle) : Prop :=
  match ns with
  | OneName b => name b /\ separated (Atom b) next
  | MoreNames b c r => name b /\ is_word c "," /\ wf_names r next
  end.
Fixpoint wf_tuples (ts : tuples) : Prop :=
  match ts with
  | OneTuple lp es rp => is_word lp "(" /\ wfs false true es /\ is_word rp ")"
  | MoreTuples lp es rp c r => is_word lp "(" /\ wfs false true es /\ is_word rp ")" /\ is_word c "," /\ wf_tuples r
  end.
Definition wf_columns (c : columns) : Prop :=
  match c with NoColumns => True | Columns lp es rp => is_word lp "(" /\ wfs false true es /\ is_word rp ")" end.
Definition wf_values (v : values) : Prop :=
  match v with Values k ts => is_word k "VALUES" /\ wf_tuples ts | WholeRow k => is_word k "ROW" end.
(* a = 1, b = 2 *)
Definition assignment (i : item) : Prop := match i with Plain (Infix _ b _) => is_word b "=" | _ => False end.
Fixpoint assignments (es : items) : Prop :=
  match es with One i => assignment i | Trailing i _ => False | More i _ r => assignment i /\ assignments r end.
Definition wf_action (a : action) : Prop :=
  match a with
  | DeleteIt k => is_word k "DELETE"
  | UpdateIt k s es => is_word k "UPDATE" /\ is_word s "SET" /\ wfs false false es /\ assignments es
  | InsertIt k c v => is_word k "INSERT" /\ wf_columns c /\ wf_values v
  end.
Fixpoint wf_matches (ms : matches) : Prop :=
  match ms with
  | NoMatch => True
  | Match w n m b c t a r => is_word w "WHEN" /\ perhaps n ["NOT"] /\ is_word m "MATCHED" /\ perhaps2 b ["BY"] ["TARGET"; "SOURCE"] /\
      wf_clause U "AND" c /\ is_word t "THEN" /\ wf_action a /\ wf_matches r
  end.
Definition wf_into (n : receivers) (next : bundle) : Prop := match n with NoInto => True | Into k ns => is_word k "INTO" /\ wf_names ns next end.
Definition wf_using (u : arguments) : Prop := match u with NoUsing => True | UsingAll k es => is_word k "USING" /\ wfs true false es end.
(* the kinds of things that are dropped *)
Definition droppable : list string :=
  ["TABLE"; "SCHEMA"; "VIEW"; "FUNCTION"; "PROCEDURE"; "MODEL"; "SNAPSHOT"; "RESERVATION"; "CAPACITY"; "ASSIGNMENT"].
Definition is_call (e : expr) : Prop := match e with Call0 _ _ _ _ | Call _ _ _ _ _ _ _ _ _ => True | _ => False end.
Definition wf_deed (d : deed) (next : bundle) : Prop :=
  match d with
  | Ask q => wf_query U q next
  | Piped k t os => is_word k "FROM" /\ wf_table U t (hd next (yield_operators os)) /\ wf_operators U os next
  | Insert k i p c v => is_word k "INSERT" /\ perhaps i ["INTO"] /\ path p /\ ~ word_in (first p) ["VALUES"; "ROW"; "INTO"] /\
      separated p (hd next (yield_columns c ++ yield_values v)) /\ wf_columns c /\ wf_values v
  | InsertQuery k i p c q => is_word k "INSERT" /\ perhaps i ["INTO"] /\ path p /\ ~ word_in (first p) ["VALUES"; "ROW"; "INTO"] /\
      separated p (hd next (yield_columns c ++ yield_query q)) /\ wf_columns c /\ wf_query U q next /\
      match c with NoColumns => ~ is_word (first_query q) "(" | _ => True end
  | Delete k f p a w e => is_word k "DELETE" /\ perhaps f ["FROM"] /\ path p /\ separated p (hd w (yield_alias a)) /\
      wf_alias U a /\ is_word w "WHERE" /\ wf e
  | Truncate k t p => is_word k "TRUNCATE" /\ is_word t "TABLE" /\ path p /\ separated p next
  | Update k t s es f w => is_word k "UPDATE" /\ wf_table U t s /\ ~ is_word (first_table t) "SET" /\ is_word s "SET" /\ wfs false false es /\ assignments es /\
      wf_from U f (hd next (yield_clause w)) /\ wf_clause U "WHERE" w
  | Merge k i t u x o e ms => is_word k "MERGE" /\ perhaps i ["INTO"] /\ wf_source U t u /\ ~ is_word (first_table (Base t)) "INTO" /\
      is_word u "USING" /\ wf_item U true x /\ is_word o "ON" /\ wf e /\ wf_matches ms
  | Drop k x w n p c => is_word k "DROP" /\ (match x with Some x => word_in x ["EXTERNAL"; "MATERIALIZED"] \/ is_word x "TABLE" /\ is_word w "FUNCTION" | None => True end) /\
      word_in w droppable /\ perhaps2 n ["IF"] ["EXISTS"] /\ path p /\ ~ is_word (first p) "FUNCTION" /\
      separated p (hd next (opt c)) /\ perhaps c ["CASCADE"; "RESTRICT"]
  | Variables k ns t d => is_word k "DECLARE" /\ wf_names ns (hd next (yield_maybe_type t ++ yield_clause d)) /\
      match t with Some t => wf_type U t | None => d <> NoClause end /\ wf_clause U "DEFAULT" d
  | Assign k x eq e => is_word k "SET" /\ is_word eq "=" /\ wf (Infix x eq e)
  | Execute k i e n u => is_word k "EXECUTE" /\ is_word i "IMMEDIATE" /\ wf e /\ wf_into n (hd next (yield_using u)) /\ wf_using u
  | Transaction k t => word_in k ["BEGIN"; "COMMIT"; "ROLLBACK"] /\ perhaps t ["TRANSACTION"]
  | Leave k l => word_in k ["BREAK"; "LEAVE"; "CONTINUE"; "ITERATE"] /\ match l with Some b => name b | None => is_word next ";" end
  | Return k => is_word k "RETURN"
  | Raise k u => is_word k "RAISE" /\ wf_clause U "USING" u
  | CallIt k e => is_word k "CALL" /\ wf e /\ is_call e
  | Assert k e d => is_word k "ASSERT" /\ wf e /\ match d with Some (a, x) => is_word a "AS" /\ wf x | None => True end
  | Define d k ps => wf_definition U d k ps next
  end.

(* Words that begin a statement, end a list of statements or follow BEGIN. A label is none of them. *)
Definition statement_words : list string :=
  ["WITH"; "SELECT"; "("; "FROM"; "INSERT"; "DELETE"; "TRUNCATE"; "UPDATE"; "MERGE"; "CREATE"; "ALTER"; "DROP"; "UNDROP"; "GRANT"; "REVOKE";
   "DECLARE"; "SET"; "EXECUTE"; "IF"; "BEGIN"; "CASE"; "LOAD"; "LOOP"; "REPEAT"; "WHILE"; "BREAK"; "LEAVE"; "CONTINUE"; "ITERATE"; "FOR";
   "COMMIT"; "ROLLBACK"; "RAISE"; "RETURN"; "CALL"; "ASSERT"; "EXPORT"; "END"; "EXCEPTION"; "ELSE"; "ELSEIF"; "WHEN"; "UNTIL"; "TRANSACTION"].
Definition label (b : bundle) : Prop := name b /\ ~ word_in b statement_words.
(* the statements that are given labels *)
Definition can_be_labelled (s : stmt) : Prop :=
  match s with Begin _ _ _ _ | Loop _ _ _ _ | Repeat _ _ _ _ _ _ | While _ _ _ _ _ _ | For _ _ _ _ _ _ _ _ _ _ => True | _ => False end.

(* what comes before the statements of a procedure *)
Definition procedure_parts : list slot :=
  [or_replace; what "PROCEDURE"; if_not_exists; a_name; Need "group" (ADeclared true false); options].
Fixpoint wf_stmt (s : stmt) (next : bundle) : Prop :=
  match s with
  | Do d => wf_deed d next
  | Begin k b h e => is_word k "BEGIN" /\ wf_block b /\ wf_handler h /\ is_word e "END"
  | If k c t b r e i => is_word k "IF" /\ wf c /\ is_word t "THEN" /\ wf_block b /\ wf_elses r /\ is_word e "END" /\ is_word i "IF"
  | Loop k b e l => is_word k "LOOP" /\ wf_block b /\ is_word e "END" /\ is_word l "LOOP"
  | Repeat k b u c e r => is_word k "REPEAT" /\ wf_block b /\ is_word u "UNTIL" /\ wf c /\ is_word e "END" /\ is_word r "REPEAT"
  | While k c d b e w => is_word k "WHILE" /\ wf c /\ is_word d "DO" /\ wf_block b /\ is_word e "END" /\ is_word w "WHILE"
  | For k v i lp q rp d b e f => is_word k "FOR" /\ name v /\ is_word i "IN" /\ is_word lp "(" /\ wf_query U q rp /\ is_word rp ")" /\
      is_word d "DO" /\ wf_block b /\ is_word e "END" /\ is_word f "FOR"
  | CaseDo k s ws e c => is_word k "CASE" /\ match s with Some x => wf x | None => True end /\ wf_cases ws /\ is_word e "END" /\ is_word c "CASE"
  | Labelled l c s t => label l /\ is_word c ":" /\ can_be_labelled s /\ wf_stmt s (hd next (opt t)) /\
      match t with Some b => name b | None => is_word next ";" end
  | Procedure k ps g b h e => is_word k "CREATE" /\ wf_parts U procedure_parts ps g /\ is_word g "BEGIN" /\ wf_block b /\ wf_handler h /\ is_word e "END"
  end
with wf_block (b : block) : Prop :=
  match b with
  | Done => True
  | Step s semi b => wf_stmt s semi /\ is_word semi ";" /\ wf_block b
  end
with wf_handler (h : handler) : Prop :=
  match h with
  | NoHandler => True
  | Handler x w r t b => is_word x "EXCEPTION" /\ is_word w "WHEN" /\ is_word r "ERROR" /\ is_word t "THEN" /\ wf_block b
  end
with wf_elses (r : elses) : Prop :=
  match r with
  | NoElse => True
  | Else k b => is_word k "ELSE" /\ wf_block b
  | ElseIf k c t b r => is_word k "ELSEIF" /\ wf c /\ is_word t "THEN" /\ wf_block b /\ wf_elses r
  end
with wf_cases (ws : cases) : Prop :=
  match ws with
  | LastCase w c t b => is_word w "WHEN" /\ wf c /\ is_word t "THEN" /\ wf_block b
  | LastCaseElse w c t b k b' => is_word w "WHEN" /\ wf c /\ is_word t "THEN" /\ wf_block b /\ is_word k "ELSE" /\ wf_block b'
  | MoreCases w c t b r => is_word w "WHEN" /\ wf c /\ is_word t "THEN" /\ wf_block b /\ wf_cases r
  end.
(* [eof]: the end of the text *)
Fixpoint wf_program (p : program) (eof : bundle) : Prop :=
  match p with
  | NoMore => True
  | LastStmt s => wf_stmt s eof
  | ThenStmt s semi r => wf_stmt s semi /\ is_word semi ";" /\ wf_program r eof
  end.

(* ----- the tree a statement denotes ----- *)
Definition kid (k : string) (o : option bundle) : list (string * content) := match o with Some b => [(k, keyword b)] | None => [] end.
Definition kids (k : string) (o : option (bundle * bundle)) : list (string * content) :=
  match o with Some (a, b) => [(k, CVec [keyword_ a; keyword_ b])] | None => [] end.
Definition kid_clause (k : string) (c : clause) : list (string * content) :=
  match c with Clause b e => [(k, CNode (made N_KeywordWithExpr b [("expr", CNode (tree e))]))] | NoClause => [] end.
Definition kid_from (f : from) : list (string * content) :=
  match f with From b t => [("from", CNode (made N_KeywordWithExpr b [("expr", CNode (tree_table U t))]))] | NoFrom => [] end.
Definition tree_group (lp : bundle) (es : items) (rp : bundle) : node := made N_GroupedExprs lp [("exprs", CVec (trees es)); ("rparen", symbol rp)].
Definition kid_columns (c : columns) : list (string * content) :=
  match c with Columns lp es rp => [("columns", CNode (tree_group lp es rp))] | NoColumns => [] end.
Definition with_comma (c : bundle) (n : node) : node := with_kid "comma" (symbol c) n.
Fixpoint tree_names (ns : names) : list node :=
  match ns with OneName b => [made N_Identifier b []] | MoreNames b c r => with_comma c (made N_Identifier b []) :: tree_names r end.
Fixpoint tree_tuples (ts : tuples) : list node :=
  match ts with OneTuple lp es rp => [tree_group lp es rp] | MoreTuples lp es rp c r => with_comma c (tree_group lp es rp) :: tree_tuples r end.
Definition tree_values (v : values) : node :=
  match v with Values k ts => made N_KeywordWithExprs k [("exprs", CVec (tree_tuples ts))] | WholeRow k => keyword_ k end.
Definition tree_action (a : action) : node :=
  match a with
  | DeleteIt k => made N_SingleTokenStatement k []
  | UpdateIt k s es => made N_UpdateStatement k [("set", CNode (made N_KeywordWithExprs s [("exprs", CVec (trees es))]))]
  | InsertIt k c v => made N_InsertStatement k (kid_columns c ++ [("input", CNode (tree_values v))])
  end.
Fixpoint tree_matches (ms : matches) : list node :=
  match ms with
  | NoMatch => []
  | Match w n m b c t a r => made N_WhenClause w (kid "not" n ++ [("matched", keyword m)] ++ kids "by_target_or_source" b ++ kid_clause "and" c ++
      [("then", CNode (made N_KeywordWithStatement t [("stmt", CNode (tree_action a))]))]) :: tree_matches r
  end.
(* the words before the kind of thing that is dropped *)
Definition dropped_key (x : bundle) : string :=
  if str_eqb (word U x) (s_ "EXTERNAL") then "external" else if str_eqb (word U x) (s_ "MATERIALIZED") then "materialized" else "table".
(* [semi]: the semicolon after the statement *)
Definition tree_deed (d : deed) (semi : option bundle) : node :=
  match d with
  | Ask q => tree_query U q semi
  | Piped k t os => with_semi semi (tree_operators U (made N_FromStatement k [("expr", CNode (tree_table U t))]) os)
  | Insert k i p c v => with_semi semi (made N_InsertStatement k
      (kid "into" i ++ [("target_name", CNode (tree p))] ++ kid_columns c ++ [("input", CNode (tree_values v))]))
  | InsertQuery k i p c q => with_semi semi (made N_InsertStatement k
      (kid "into" i ++ [("target_name", CNode (tree p))] ++ kid_columns c ++ [("input", CNode (tree_query U q None))]))
  | Delete k f p a w e => with_semi semi (made N_DeleteStatement k
      (kid "from" f ++ [("table_name", CNode (with_alias a (tree p))); ("where", CNode (made N_KeywordWithExpr w [("expr", CNode (tree e))]))]))
  | Truncate k t p => with_semi semi (made N_TruncateStatement k [("table", keyword t); ("table_name", CNode (tree p))])
  | Update k t s es f w => with_semi semi (made N_UpdateStatement k
      ([("table_name", CNode (tree_table U t))] ++ kid_from f ++ [("set", CNode (made N_KeywordWithExprs s [("exprs", CVec (trees es))]))] ++ kid_clause "where" w))
  | Merge k i t u x o e ms => with_semi semi (made N_MergeStatement k
      (kid "into" i ++
       [("table_name", CNode (tree_source U t)); ("using", CNode (made N_KeywordWithExpr u [("expr", CNode (tree_item U x))]));
        ("on", CNode (made N_KeywordWithExpr o [("expr", CNode (tree e))])); ("whens", CVec (tree_matches ms))]))
  | Drop k x w n p c => with_semi semi (made N_DropStatement k
      ((match x with Some b => [(dropped_key b, keyword b)] | None => [] end) ++ [("what", keyword w)] ++ kids "if_exists" n ++
       [("ident", CNode (tree p))] ++ kid "cascade_or_restrict" c))
  | Variables k ns t d => with_semi semi (made N_DeclareStatement k
      ([("idents", CVec (tree_names ns))] ++ (match t with Some t => [("variable_type", CNode (tree_type U t))] | None => [] end) ++ kid_clause "default" d))
  | Assign k x eq e => with_semi semi (made N_SetStatement k [("expr", CNode (tree (Infix x eq e)))])
  | Execute k i e n u => with_semi semi (made N_ExecuteStatement k
      ([("immediate", keyword i); ("sql_expr", CNode (tree e))] ++
       (match n with Into k ns => [("into", CNode (made N_KeywordWithExprs k [("exprs", CVec (tree_names ns))]))] | NoInto => [] end) ++
       (match u with UsingAll k es => [("using", CNode (made N_KeywordWithExprs k [("exprs", CVec (trees es))]))] | NoUsing => [] end)))
  | Transaction k t => with_semi semi (made N_TransactionStatement k (kid "transaction" t))
  | Leave k l => with_semi semi (made N_BreakContinueStatement k (match l with Some b => [("label", ident b)] | None => [] end))
  | Return k => with_semi semi (made N_SingleTokenStatement k [])
  | Raise k u => with_semi semi (made N_RaiseStatement k (kid_clause "using" u))
  | CallIt k e => with_semi semi (made N_CallStatement k [("procedure", CNode (tree e))])
  | Assert k e d => with_semi semi (made N_AssertStatement k
      ([("expr", CNode (tree e))] ++ match d with Some (a, x) => [("as", keyword a); ("description", CNode (tree x))] | None => [] end))
  | Define d k ps => tree_definition U d k ps semi
  end.
(* a word followed by statements *)
Definition tree_stmts (k : bundle) (l : list node) : content := CNode (made N_KeywordWithStatements k [("stmts", CVec l)]).
Fixpoint tree_stmt (s : stmt) (semi : option bundle) : node :=
  match s with
  | Do d => tree_deed d semi
  | Begin k b h e => with_semi semi (made N_BeginStatement k
      ((match b with Done => [] | _ => [("stmts", CVec (tree_block b))] end) ++ kid_handler h ++ [("end", keyword e)]))
  | If k c t b r e i => with_semi semi (made N_IfStatement k
      ([("condition", CNode (tree c)); ("then", tree_stmts t (tree_block b))] ++
       (match r with ElseIf _ _ _ _ _ => [("elseifs", CVec (tree_elseifs r))] | _ => [] end) ++ kid_else r ++
       [("end_if", CVec [keyword_ e; keyword_ i])]))
  | Loop k b e l => with_semi semi (made N_LoopStatement k [("stmts", CVec (tree_block b)); ("end_loop", CVec [keyword_ e; keyword_ l])])
  | Repeat k b u c e r => with_semi semi (made N_RepeatStatement k
      [("stmts", CVec (tree_block b)); ("until", CNode (made N_KeywordWithExpr u [("expr", CNode (tree c))]));
       ("end_repeat", CVec [keyword_ e; keyword_ r])])
  | While k c d b e w => with_semi semi (made N_WhileStatement k
      [("condition", CNode (tree c)); ("do", tree_stmts d (tree_block b)); ("end_while", CVec [keyword_ e; keyword_ w])])
  | For k v i lp q rp d b e f => with_semi semi (made N_ForStatement k
      [("ident", ident v); ("in", CNode (made N_KeywordWithGroupedXXX i [("group", CNode (tree_query U (Grouped lp q rp) None))]));
       ("do", tree_stmts d (tree_block b)); ("end_for", CVec [keyword_ e; keyword_ f])])
  | CaseDo k s ws e c => with_semi semi (made N_CaseStatement k
      ((match s with Some x => [("expr", CNode (tree x))] | None => [] end) ++
       [("arms", CVec (tree_cases ws)); ("end_case", CVec [keyword_ e; keyword_ c])]))
  | Labelled l c s t => with_semi semi (
      (match t with Some b => with_kid "trailing_label" (ident b) | None => fun n => n end)
        (with_kid "colon" (symbol c) (with_kid "leading_label" (ident l) (tree_stmt s None))))
  | Procedure k ps g b h e => with_semi semi (made N_CreateProcedureStatement k (kids_parts U procedure_parts ps ++
      [("stmt", CNode (made N_BeginStatement g ((match b with Done => [] | _ => [("stmts", CVec (tree_block b))] end) ++ kid_handler h ++ [("end", keyword e)])))]))
  end
with tree_block (b : block) : list node :=
  match b with
  | Done => []
  | Step s semi b => tree_stmt s (Some semi) :: tree_block b
  end
with kid_handler (h : handler) : list (string * content) :=
  match h with
  | NoHandler => []
  | Handler x w r t b => [("exception_when_error", CVec [keyword_ x; keyword_ w; keyword_ r]); ("then", tree_stmts t (tree_block b))]
  end
with tree_elseifs (r : elses) : list node :=
  match r with
  | ElseIf k c t b r => made N_ElseIfClause k [("condition", CNode (tree c)); ("then", tree_stmts t (tree_block b))] :: tree_elseifs r
  | _ => []
  end
with kid_else (r : elses) : list (string * content) :=
  match r with
  | NoElse => []
  | Else k b => [("else", tree_stmts k (tree_block b))]
  | ElseIf _ _ _ _ r => kid_else r
  end
with tree_cases (ws : cases) : list node :=
  match ws with
  | LastCase w c t b => [made N_CaseStatementArm w [("expr", CNode (tree c)); ("then", keyword t); ("stmts", CVec (tree_block b))]]
  | LastCaseElse w c t b k b' =>
      [made N_CaseStatementArm w [("expr", CNode (tree c)); ("then", keyword t); ("stmts", CVec (tree_block b))];
       made N_CaseStatementArm k [("stmts", CVec (tree_block b'))]]
  | MoreCases w c t b r =>
      made N_CaseStatementArm w [("expr", CNode (tree c)); ("then", keyword t); ("stmts", CVec (tree_block b))] :: tree_cases r
  end.
Fixpoint tree_program (p : program) : list node :=
  match p with
  | NoMore => []
  | LastStmt s => [tree_stmt s None]
  | ThenStmt s semi r => tree_stmt s (Some semi) :: tree_program r
  end.
End WithUnicode.
