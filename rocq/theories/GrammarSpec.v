(* Specification vocabulary for the round trip: a grammar of queries, the token sequence each phrase
   is written as, and the tree each phrase denotes. Nothing here refers to the parser. *)
From Verif Require Import Chars Token Cst Bundles GroupingSpec.
Local Open Scope string_scope.
Local Open Scope list_scope.

(* words before a table that is joined: JOIN, a comma, LEFT JOIN, LEFT OUTER JOIN *)
Inductive joining :=
| Joined (j : bundle)
| JoinedBy (k j : bundle)
| JoinedOuter (k o j : bundle).
(* a name given to a table *)
Inductive alias :=
| NoAlias
| AliasAs (as_ a : bundle)                                       (* AS a *)
| Alias (a : bundle).                                            (* a *)
Inductive offset :=
| NoOffset
| WithOffset (w o : bundle) (a : alias).                         (* WITH OFFSET AS a *)

(* A phrase keeps the tokens it is written with, each with its comments. *)
(* a list of column names: a, b *)
Inductive columns :=
| LastColumn (b : bundle)
| MoreColumns (b comma : bundle) (r : columns).
(* which columns of the two sides of a set operator belong together *)
Inductive matching :=
| InOrder
| ByName (b n : bundle)                                          (* BY NAME *)
| ByNameOn (b n o lp : bundle) (cs : columns) (rp : bundle)      (* BY NAME ON (a, b) *)
| Corresponding (s : option bundle) (c : bundle)                 (* STRICT CORRESPONDING *)
| CorrespondingBy (s : option bundle) (c b lp : bundle) (cs : columns) (rp : bundle).  (* STRICT CORRESPONDING BY (a, b) *)
Inductive sample :=
| NoSample
| TableSample (k s lp e p rp : bundle).                          (* TABLESAMPLE SYSTEM (10 PERCENT) *)

Inductive expr :=
| Atom (b : bundle)                                              (* name, number, string, TRUE, NULL, parameter *)
| Fn (b : bundle)                                                (* IF, as the name of a function *)
| Star (b : bundle)                                              (* * *)
| StarBut (b k lp : bundle) (es : items) (rp : bundle)           (* * EXCEPT (es), * REPLACE (es) *)
| Typed (k s : bundle)                                           (* DATE '...', r'...' *)
| TypedRaw (k r s : bundle)                                      (* DATE r'...' *)
| Interval (k : bundle) (e : expr) (p : bundle)                  (* INTERVAL e DAY *)
| IntervalTo (k : bundle) (e : expr) (p t p' : bundle)           (* INTERVAL e DAY TO SECOND *)
| Field (e : expr) (dot b : bundle)                              (* e.b *)
| AllOf (e : expr) (dot : bundle) (s : expr)                     (* e.*, e.* EXCEPT (es) *)
| Dashed (b : bundle) (bs : list bundle)                         (* my-project, as the name of a table *)
| FieldDashed (e : expr) (dot b : bundle) (bs : list bundle)     (* e.my-table *)
| Paren (lp : bundle) (e : expr) (rp : bundle)                   (* (e) *)
| Tuple (lp : bundle) (i : item) (comma : bundle) (es : items) (rp : bundle)   (* (i, es) *)
| EmptyTuple (lp rp : bundle)                                    (* () *)
| Prefix (b : bundle) (e : expr)                                 (* -e, NOT e *)
| Infix (l : expr) (b : bundle) (r : expr)                       (* l + r *)
| IsNot (l : expr) (b n : bundle) (r : expr)                     (* l IS NOT r *)
| IsDistinct (l : expr) (b : bundle) (n : option bundle) (d f : bundle) (r : expr)   (* l IS NOT DISTINCT FROM r *)
| NotLike (l : expr) (n b : bundle) (r : expr)                   (* l NOT LIKE r *)
| LikeSome (l : expr) (n : option bundle) (b k : bundle) (r : expr)            (* l NOT LIKE ANY r *)
| Between (l : expr) (n : option bundle) (b : bundle) (lo : expr) (a : bundle) (hi : expr)   (* l NOT BETWEEN lo AND hi *)
| InList (l : expr) (n : option bundle) (b lp : bundle) (es : items) (rp : bundle)     (* l NOT IN (es) *)
| InQuery (l : expr) (n : option bundle) (b lp : bundle) (q : query) (rp : bundle)     (* l NOT IN (SELECT ...) *)
| InUnnest (l : expr) (n : option bundle) (b : bundle) (c : expr)                      (* l NOT IN UNNEST(e) *)
| Call0 (f : expr) (lp rp : bundle) (ov : over)                  (* f() OVER w *)
| Call (f : expr) (lp : bundle) (d : option bundle) (es : items) (ig : option (bundle * bundle)) (o : by_clause) (l : clause)
    (rp : bundle) (ov : over)                                    (* f(DISTINCT es IGNORE NULLS ORDER BY o LIMIT l) OVER w *)
| CallMost (f : expr) (lp : bundle) (d : option bundle) (es : items) (h m : bundle) (e : expr) (rp : bundle) (ov : over)
                                                                 (* f(DISTINCT es HAVING MAX e) OVER w *)
| CallQuery (f : expr) (lp : bundle) (q : query) (rp : bundle)   (* EXISTS(SELECT ...) *)
| Cast (f lp : bundle) (e : expr) (as_ : bundle) (t : type_) (rp : bundle)     (* CAST(e AS t) *)
| CastFormat (f lp : bundle) (e : expr) (as_ : bundle) (t : type_) (k : bundle) (x : expr) (rp : bundle)   (* CAST(e AS t FORMAT x) *)
| Extract (f lp : bundle) (p : expr) (from_ : bundle) (e : expr) (rp : bundle) (* EXTRACT(p FROM e) *)
| ExtractAt (f lp : bundle) (p : expr) (from_ : bundle) (e : expr) (a t z : bundle) (x : expr) (rp : bundle)
                                                                 (* EXTRACT(p FROM e AT TIME ZONE x) *)
| Index (e : expr) (lp : bundle) (i : expr) (rp : bundle)        (* e[i] *)
| Array (lp : bundle) (es : items) (rp : bundle)                 (* [es] *)
| EmptyArray (lp rp : bundle)                                    (* [] *)
| TypedArray (t : type_) (lp : bundle) (es : items) (rp : bundle)              (* ARRAY<t>[es] *)
| Struct (t : type_) (lp : bundle) (es : items) (rp : bundle)    (* STRUCT<t>(es) *)
| Case (c : bundle) (ws : arms) (e : bundle)                     (* CASE WHEN c THEN r ... END *)
| CaseOf (c : bundle) (s : expr) (ws : arms) (e : bundle)        (* CASE s WHEN ... END *)
| Sub (lp : bundle) (q : query) (rp : bundle)                    (* (SELECT ...) *)
with item :=
| Plain (e : expr)
| Named (e : expr) (as_ a : bundle)                              (* e AS a *)
| Called (e : expr) (a : bundle)                                 (* e a *)
| Ordered (e : expr) (d : option bundle) (ns : option (bundle * bundle))       (* e DESC NULLS LAST *)
with items :=
| One (i : item)
| Trailing (i : item) (comma : bundle)
| More (i : item) (comma : bundle) (r : items)
with arms :=
| When (w : bundle) (c : expr) (t : bundle) (r : expr) (ws : arms)
| LastWhen (w : bundle) (c : expr) (t : bundle) (r : expr)
| LastElse (w : bundle) (c : expr) (t : bundle) (r : expr) (el : bundle) (x : expr)
with over :=
| NoOver
| OverName (k b : bundle)                                        (* OVER w *)
| OverSpec (k lp : bundle) (n : option bundle) (p o : by_clause) (f : rows) (rp : bundle)   (* OVER (w PARTITION BY p ORDER BY o f) *)
with rows :=
| NoRows
| Rows (k : bundle)                                              (* ROWS *)
| RowsFrom (k : bundle) (s : bound)                              (* ROWS s *)
| RowsBetween (k b : bundle) (s : bound) (a : bundle) (e : bound)              (* ROWS BETWEEN s AND e *)
with bound :=
| Edge (u p : bundle)                                            (* UNBOUNDED PRECEDING, CURRENT ROW *)
| Away (e : expr) (p : bundle)                                   (* e PRECEDING *)
with type_ :=
| TName (b : bundle)                                             (* INT64 *)
| TParam (b lp : bundle) (es : items) (rp : bundle)              (* STRING(es) *)
| TBare (b : bundle)                                             (* ARRAY, STRUCT *)
| TArray (b lt : bundle) (t : type_) (gt : bundle)               (* ARRAY<t> *)
| TStruct (b lt : bundle) (fs : fields) (gt : bundle)            (* STRUCT<fs> *)
with field :=
| Unnamed (t : type_)
| FieldOf (b : bundle) (t : type_)
with fields :=
| LastField (f : field)
| MoreFields (f : field) (comma : bundle) (r : fields)
with query :=
| Select (s : bundle) (d : option bundle) (a : option (bundle * bundle)) (es : items) (f : from) (w : clause) (g : by_clause)
    (h q : clause) (ws : windows) (o : by_clause) (l : limit)
| Grouped (lp : bundle) (q : query) (rp : bundle)                (* (q) *)
| Combined (l : query) (k d : bundle) (m : matching) (r : query) (* l UNION ALL BY NAME r *)
| Sorted (q : query) (o : by_clause) (l : limit)                 (* q ORDER BY o LIMIT l *)
| With (w : bundle) (r : option bundle) (cs : ctes) (q : query)  (* WITH RECURSIVE cs q *)
(* WINDOW n AS m, n AS (m PARTITION BY p ORDER BY o f): the first token is the word WINDOW or the comma *)
with windows :=
| NoWindow
| SameWindow (k n as_ m : bundle) (r : windows)
| NewWindow (k n as_ lp : bundle) (m : option bundle) (p o : by_clause) (f : rows) (rp : bundle) (r : windows)
with ctes :=
| LastCte (n as_ lp : bundle) (q : query) (rp : bundle)          (* n AS (q) *)
| MoreCtes (n as_ lp : bundle) (q : query) (rp comma : bundle) (r : ctes)
with from :=
| NoFrom
| From (f : bundle) (t : table)
with table :=
| Base (s : source)
| Join (t : table) (j : joining) (s : source) (c : condition)
with source :=
| Source (b : place) (a : alias) (t : as_of) (o : offset) (s : sample)
| Pivot (b : place) (a : alias) (k lp : bundle) (es : items) (f n i lq : bundle) (vs : items) (rq rp : bundle) (a2 : alias) (s : sample)
                                                                 (* b AS a PIVOT (es FOR n IN (vs)) AS a2 *)
with as_of :=
| Now
| AsOf (f s a o : bundle) (e : expr)                             (* FOR SYSTEM_TIME AS OF e *)
with place :=
| Path (p : expr)                                                (* a.b *)
| Unnest (c : expr)                                              (* UNNEST(e) *)
| SubTable (lp : bundle) (q : query) (rp : bundle)               (* (SELECT ...) *)
| GroupTable (lp : bundle) (t : table) (rp : bundle)             (* (a JOIN b) *)
with condition :=
| NoCondition
| On (k : bundle) (e : expr)                                     (* ON e *)
| Using (c : expr)                                               (* USING (a, b) *)
with clause :=
| NoClause
| Clause (k : bundle) (e : expr)                                 (* WHERE e *)
with by_clause :=
| NoBy
| By (k b : bundle) (es : items)                                 (* ORDER BY es *)
| ByEach (k b h : bundle) (es : items)                           (* GROUP BY ROLLUP es *)
| BySets (k b h s : bundle) (es : items)                         (* GROUP BY GROUPING SETS es *)
| ByAll (k b a : bundle)                                         (* GROUP BY ALL *)
with limit :=
| NoLimit
| Limit (k : bundle) (e : expr)                                  (* LIMIT e *)
| LimitOffset (k : bundle) (e : expr) (o : bundle) (x : expr).   (* LIMIT e OFFSET x *)

(* statements, each ended by a semicolon except possibly the last one *)
Inductive script :=
| Nothing
| Last (q : query)
| Then (q : query) (semi : bundle) (r : script).

(* ----- the tokens ----- *)
Definition opt (o : option bundle) : list bundle := match o with Some b => [b] | None => [] end.
Definition opt2 (o : option (bundle * bundle)) : list bundle := match o with Some (a, b) => [a; b] | None => [] end.
Definition yield_joining (j : joining) : list bundle :=
  match j with Joined j => [j] | JoinedBy k j => [k; j] | JoinedOuter k o j => [k; o; j] end.
Definition yield_alias (a : alias) : list bundle :=
  match a with NoAlias => [] | AliasAs k a => [k; a] | Alias a => [a] end.
Definition yield_offset (o : offset) : list bundle :=
  match o with NoOffset => [] | WithOffset w o a => w :: o :: yield_alias a end.
Fixpoint yield_columns (cs : columns) : list bundle :=
  match cs with LastColumn b => [b] | MoreColumns b c r => b :: c :: yield_columns r end.
Definition yield_matching (m : matching) : list bundle :=
  match m with
  | InOrder => []
  | ByName b n => [b; n]
  | ByNameOn b n o lp cs rp => b :: n :: o :: lp :: yield_columns cs ++ [rp]
  | Corresponding s c => opt s ++ [c]
  | CorrespondingBy s c b lp cs rp => opt s ++ c :: b :: lp :: yield_columns cs ++ [rp]
  end.
Definition yield_sample (s : sample) : list bundle :=
  match s with NoSample => [] | TableSample k s lp e p rp => [k; s; lp; e; p; rp] end.
Fixpoint yield (e : expr) : list bundle :=
  match e with
  | Atom b | Fn b | Star b => [b]
  | StarBut b k lp es rp => b :: k :: lp :: yields es ++ [rp]
  | Typed k s => [k; s]
  | TypedRaw k r s => [k; r; s]
  | Interval k e p => k :: yield e ++ [p]
  | IntervalTo k e p t p' => k :: yield e ++ [p; t; p']
  | Field e d b => yield e ++ [d; b]
  | AllOf e d s => yield e ++ d :: yield s
  | Dashed b bs => b :: bs
  | FieldDashed e d b bs => yield e ++ d :: b :: bs
  | Paren lp e rp => lp :: yield e ++ [rp]
  | Tuple lp i c es rp => lp :: (yield_item i ++ c :: yields es) ++ [rp]
  | EmptyTuple lp rp => [lp; rp]
  | Prefix b e => b :: yield e
  | Infix l b r => yield l ++ b :: yield r
  | IsNot l b n r => yield l ++ b :: n :: yield r
  | IsDistinct l b n d f r => yield l ++ b :: opt n ++ d :: f :: yield r
  | NotLike l n b r => yield l ++ n :: b :: yield r
  | LikeSome l n b k r => yield l ++ opt n ++ b :: k :: yield r
  | Between l n b lo a hi => yield l ++ opt n ++ b :: yield lo ++ a :: yield hi
  | InList l n b lp es rp => yield l ++ opt n ++ b :: lp :: yields es ++ [rp]
  | InQuery l n b lp q rp => yield l ++ opt n ++ b :: lp :: yield_query q ++ [rp]
  | InUnnest l n b c => yield l ++ opt n ++ b :: yield c
  | Call0 f lp rp ov => yield f ++ lp :: rp :: yield_over ov
  | Call f lp d es ig o l rp ov =>
      yield f ++ lp :: opt d ++ yields es ++ opt2 ig ++ yield_by o ++ yield_clause l ++ rp :: yield_over ov
  | CallMost f lp d es h m e rp ov => yield f ++ lp :: opt d ++ yields es ++ h :: m :: yield e ++ rp :: yield_over ov
  | CallQuery f lp q rp => yield f ++ lp :: yield_query q ++ [rp]
  | Cast f lp e as_ t rp => f :: lp :: yield e ++ as_ :: yield_type t ++ [rp]
  | CastFormat f lp e as_ t k x rp => f :: lp :: yield e ++ as_ :: yield_type t ++ k :: yield x ++ [rp]
  | Extract f lp p from_ e rp => f :: lp :: yield p ++ from_ :: yield e ++ [rp]
  | ExtractAt f lp p from_ e a t z x rp => f :: lp :: yield p ++ from_ :: yield e ++ a :: t :: z :: yield x ++ [rp]
  | Index e lp i rp => yield e ++ lp :: yield i ++ [rp]
  | Array lp es rp => lp :: yields es ++ [rp]
  | EmptyArray lp rp => [lp; rp]
  | TypedArray t lp es rp | Struct t lp es rp => yield_type t ++ lp :: yields es ++ [rp]
  | Case c ws e => c :: yield_arms ws ++ [e]
  | CaseOf c s ws e => c :: yield s ++ yield_arms ws ++ [e]
  | Sub lp q rp => lp :: yield_query q ++ [rp]
  end
with yield_item (i : item) : list bundle :=
  match i with
  | Plain e => yield e
  | Named e as_ a => yield e ++ [as_; a]
  | Called e a => yield e ++ [a]
  | Ordered e d ns => yield e ++ opt d ++ opt2 ns
  end
with yields (es : items) : list bundle :=
  match es with
  | One i => yield_item i
  | Trailing i c => yield_item i ++ [c]
  | More i c r => yield_item i ++ c :: yields r
  end
with yield_arms (ws : arms) : list bundle :=
  match ws with
  | When w c t r ws => w :: yield c ++ t :: yield r ++ yield_arms ws
  | LastWhen w c t r => w :: yield c ++ t :: yield r
  | LastElse w c t r el x => w :: yield c ++ t :: yield r ++ el :: yield x
  end
with yield_over (ov : over) : list bundle :=
  match ov with
  | NoOver => []
  | OverName k b => [k; b]
  | OverSpec k lp n p o f rp => k :: lp :: opt n ++ yield_by p ++ yield_by o ++ yield_rows f ++ [rp]
  end
with yield_rows (f : rows) : list bundle :=
  match f with
  | NoRows => []
  | Rows k => [k]
  | RowsFrom k s => k :: yield_bound s
  | RowsBetween k b s a e => k :: b :: yield_bound s ++ a :: yield_bound e
  end
with yield_bound (x : bound) : list bundle :=
  match x with
  | Edge u p => [u; p]
  | Away e p => yield e ++ [p]
  end
with yield_type (t : type_) : list bundle :=
  match t with
  | TName b | TBare b => [b]
  | TParam b lp es rp => b :: lp :: yields es ++ [rp]
  | TArray b lt t gt => b :: lt :: yield_type t ++ [gt]
  | TStruct b lt fs gt => b :: lt :: yield_fields fs ++ [gt]
  end
with yield_field (f : field) : list bundle :=
  match f with
  | Unnamed t => yield_type t
  | FieldOf b t => b :: yield_type t
  end
with yield_fields (fs : fields) : list bundle :=
  match fs with
  | LastField f => yield_field f
  | MoreFields f c r => yield_field f ++ c :: yield_fields r
  end
with yield_query (q : query) : list bundle :=
  match q with
  | Select s d a es f w g h qf ws o l =>
      s :: opt d ++ opt2 a ++ yields es ++ yield_from f ++ yield_clause w ++ yield_by g ++ yield_clause h ++ yield_clause qf ++
      yield_windows ws ++ yield_by o ++ yield_limit l
  | Grouped lp q rp => lp :: yield_query q ++ [rp]
  | Combined l k d m r => yield_query l ++ k :: d :: yield_matching m ++ yield_query r
  | Sorted q o l => yield_query q ++ yield_by o ++ yield_limit l
  | With w r cs q => w :: opt r ++ yield_ctes cs ++ yield_query q
  end
with yield_windows (ws : windows) : list bundle :=
  match ws with
  | NoWindow => []
  | SameWindow k n as_ m r => k :: n :: as_ :: m :: yield_windows r
  | NewWindow k n as_ lp m p o f rp r => k :: n :: as_ :: lp :: opt m ++ yield_by p ++ yield_by o ++ yield_rows f ++ rp :: yield_windows r
  end
with yield_ctes (cs : ctes) : list bundle :=
  match cs with
  | LastCte n as_ lp q rp => n :: as_ :: lp :: yield_query q ++ [rp]
  | MoreCtes n as_ lp q rp c r => n :: as_ :: lp :: yield_query q ++ rp :: c :: yield_ctes r
  end
with yield_from (f : from) : list bundle :=
  match f with
  | NoFrom => []
  | From f t => f :: yield_table t
  end
with yield_table (t : table) : list bundle :=
  match t with
  | Base s => yield_source s
  | Join t j s c => yield_table t ++ yield_joining j ++ yield_source s ++ yield_condition c
  end
with yield_source (s : source) : list bundle :=
  match s with
  | Source b a t o s => yield_place b ++ yield_alias a ++ yield_as_of t ++ yield_offset o ++ yield_sample s
  | Pivot b a k lp es f n i lq vs rq rp a2 s =>
      yield_place b ++ yield_alias a ++ k :: lp :: yields es ++ f :: n :: i :: lq :: yields vs ++ rq :: rp :: yield_alias a2 ++ yield_sample s
  end
with yield_as_of (t : as_of) : list bundle :=
  match t with
  | Now => []
  | AsOf f s a o e => f :: s :: a :: o :: yield e
  end
with yield_place (b : place) : list bundle :=
  match b with
  | Path p => yield p
  | Unnest c => yield c
  | SubTable lp q rp => lp :: yield_query q ++ [rp]
  | GroupTable lp t rp => lp :: yield_table t ++ [rp]
  end
with yield_condition (c : condition) : list bundle :=
  match c with
  | NoCondition => []
  | On k e => k :: yield e
  | Using c => yield c
  end
with yield_clause (c : clause) : list bundle :=
  match c with
  | NoClause => []
  | Clause k e => k :: yield e
  end
with yield_by (c : by_clause) : list bundle :=
  match c with
  | NoBy => []
  | By k b es => k :: b :: yields es
  | ByEach k b h es => k :: b :: h :: yields es
  | BySets k b h s es => k :: b :: h :: s :: yields es
  | ByAll k b a => [k; b; a]
  end
with yield_limit (c : limit) : list bundle :=
  match c with
  | NoLimit => []
  | Limit k e => k :: yield e
  | LimitOffset k e o x => k :: yield e ++ o :: yield x
  end.
Fixpoint yield_script (sc : script) : list bundle :=
  match sc with
  | Nothing => []
  | Last q => yield_query q
  | Then q semi r => yield_query q ++ semi :: yield_script r
  end.

Section WithUnicode.
Context (U : unicode).

(* ----- words ----- *)
Definition word (b : bundle) : str := upper_literal U (b_tok b).
Definition is_word (b : bundle) (w : string) : Prop := word b = s_ w.
Definition word_in (b : bundle) (ws : list string) : Prop := exists w, In w ws /\ is_word b w.
Definition perhaps (o : option bundle) (ws : list string) : Prop := match o with Some b => word_in b ws | None => True end.
Definition perhaps2 (o : option (bundle * bundle)) (ws ws' : list string) : Prop :=
  match o with Some (a, b) => word_in a ws /\ word_in b ws' | None => True end.
(* written exactly so, with no other letter case or width *)
Definition literally (b : bundle) (w : string) : Prop := literal (b_tok b) = s_ w.

(* ----- which phrases are well formed ----- *)
(* Words with a meaning of their own at the start of an expression, or that end one. A name, or
   another operand of one token, is none of them. *)
Definition reserved_here : list string :=
  ["*"; "("; "["; "-"; "+"; "~"; "NOT"; "CASE"; "STRUCT"; "RANGE"; "ARRAY"; "INTERVAL"; "TABLE"; "MODEL";
   "WITH"; "SELECT"; ")"; "]"; ","; ";"; "|>"; "DISTINCT"; "ALL"; "ANY"; "SOME"; "AS"; "WHEN"; "ELSE"; "END"; "UNNEST"; "FROM"; "WHERE";
   "GROUP"; "HAVING"; "QUALIFY"; "WINDOW"; "ORDER"; "LIMIT"; "UNION"; "INTERSECT"; "EXCEPT"; "ROLLUP"; "CUBE"; "GROUPING";
   "UNBOUNDED"; "CURRENT"; "BETWEEN"; "RECURSIVE"].
(* what kind of operand a token is *)
Definition kind (t : token) : option node_type :=
  if is_identifier U t then Some N_Identifier
  else if is_numeric t then Some N_NumericLiteral
  else if is_string t then Some N_StringLiteral
  else if is_boolean U t then Some N_BooleanLiteral
  else if is_parameter t then Some N_Parameter
  else if is_template t then Some N_Template
  else if str_eqb (upper_literal U t) (s_ "NULL") then Some N_NullLiteral
  else None.
Definition operand (b : bundle) : Prop := ~ word_in b reserved_here /\ kind (b_tok b) <> None.
Definition name (b : bundle) : Prop := ~ word_in b reserved_here /\ is_identifier U (b_tok b) = true.
(* after a dot any word is a name *)
Definition field_name (b : bundle) : Prop := is_identifier U (b_tok b) = true \/ word_in b KEYWORDS.

(* Two tokens that have a meaning of their own when one comes after the other. *)
Definition literal_types : list string :=
  ["DATE"; "TIME"; "DATETIME"; "TIMESTAMP"; "NUMERIC"; "BIGNUMERIC"; "DECIMAL"; "BIGDECIMAL"; "JSON"].
Definition string_prefixes : list string := ["B"; "R"; "BR"; "RB"].
Definition fuses (a b : bundle) : Prop :=
  word_in a ["*"] /\ word_in b ["EXCEPT"; "REPLACE"] \/
  word_in a string_prefixes /\ is_string (b_tok b) = true \/
  word_in a literal_types /\ (is_string (b_tok b) = true \/ word_in b string_prefixes).
(* the last token of a phrase and the one after it have no such meaning *)
Definition apart_from (l : list bundle) (b : bundle) : Prop := ~ fuses (last l b) b.

Definition infix_level (b : bundle) : option N := find_level (word b) binary_levels.
Definition prefix_level (b : bundle) : option N := find_level (word b) prefix_levels.
Definition level_of (o : option N) : N := match o with Some q => q | None => 0 end.

(* The loosest operator that the first operand of [e] is an operand of, from the left, and the
   loosest that its last operand is one of, from the right; 0 if there is none. After e.* no operator
   can come at all. *)
Fixpoint loosest_left (e : expr) : N :=
  match e with
  | Infix l b _ => N.max (level_of (infix_level b)) (loosest_left l)
  | IsNot l _ _ _ | IsDistinct l _ _ _ _ _ | NotLike l _ _ _ | LikeSome l _ _ _ _ | Between l _ _ _ _ _
  | InList l _ _ _ _ _ | InQuery l _ _ _ _ _ | InUnnest l _ _ _ => N.max 9 (loosest_left l)
  | Field e _ _ | AllOf e _ _ => N.max 2 (loosest_left e)
  | Call0 e _ _ _ | Call e _ _ _ _ _ _ _ _ | CallMost e _ _ _ _ _ _ _ _ | CallQuery e _ _ _ | Index e _ _ _ => N.max 1 (loosest_left e)
  | Cast _ _ _ _ _ _ | CastFormat _ _ _ _ _ _ _ _ | Extract _ _ _ _ _ _ | ExtractAt _ _ _ _ _ _ _ _ _ _ => 1
  | _ => 0
  end.
Fixpoint loosest_right (e : expr) : N :=
  match e with
  | Infix _ b r => N.max (level_of (infix_level b)) (loosest_right r)
  | Prefix b r => N.max (level_of (prefix_level b)) (loosest_right r)
  | IsNot _ _ _ r | IsDistinct _ _ _ _ _ r | NotLike _ _ _ r | LikeSome _ _ _ _ r | Between _ _ _ _ _ r => N.max 9 (loosest_right r)
  | InUnnest _ _ _ _ => 2
  | Field _ _ _ | Typed _ _ | TypedRaw _ _ _ => 1
  | AllOf _ _ _ => 101
  | _ => 0
  end.
(* [l] can be the left operand of an operator of level [q], [r] the right one *)
Definition fits_left (l : expr) (q : N) : Prop := (loosest_right l <= q)%N.
Definition fits_right (r : expr) (q : N) : Prop := (loosest_left r < q)%N.

Fixpoint dotted (e : expr) : Prop :=
  match e with
  | Atom b => name b
  | Field e d b => dotted e /\ is_word d "." /\ field_name b
  | _ => False
  end.
(* In the name of a table, tokens written without a space in between are one name: my-project. So are
   a token that ends with a dot and the one after it: in my-project-1.x there is a token 1. *)
Definition glued (a b : bundle) : Prop :=
  first_char (literal (b_tok a)) <> Some 96%N /\ ~ word_in b [","; "."; "("; ")"; ";"] /\ literal (b_tok b) <> [] /\
  (last_char (literal (b_tok a)) = Some 46%N \/
   line (b_tok a) = line (b_tok b) /\ (column (b_tok a) + N.of_nat (List.length (literal (b_tok a))) = column (b_tok b))%N).
Fixpoint all_glued (b : bundle) (bs : list bundle) : Prop :=
  match bs with [] => True | b' :: r => glued b b' /\ all_glued b' r end.
(* the name of a table *)
Fixpoint path (e : expr) : Prop :=
  match e with
  | Atom b => name b
  | Field e d b => path e /\ is_word d "." /\ field_name b
  | Dashed b bs => name b /\ bs <> [] /\ all_glued b bs
  | FieldDashed e d b bs => path e /\ is_word d "." /\ field_name b /\ bs <> [] /\ all_glued b bs
  | _ => False
  end.
Definition last_name (e : expr) : option bundle :=
  match e with
  | Atom b => Some b
  | Field _ _ b => Some b
  | Dashed b bs | FieldDashed _ _ b bs => Some (last bs b)
  | _ => None
  end.
(* functions whose arguments are not a list of expressions *)
Definition odd_functions : list string := ["CAST"; "SAFE_CAST"; "EXTRACT"; "WITH"].
(* reserved words that are written like functions *)
Definition function_words : list string := ["IF"; "EXISTS"; "LEFT"; "RIGHT"; "ARRAY"; "COLLATE"; "UNNEST"; "USING"].
Definition function_name (e : expr) (lp : bundle) : Prop :=
  match e with
  | Fn b => word_in b function_words /\ literally lp "("
  | _ => dotted e /\ exists b, last_name e = Some b /\ ~ word_in b odd_functions
  end.
(* [c] is a call of the function [w] *)
Definition call_of (w : string) (c : expr) : Prop :=
  match c with
  | Call (Fn b) _ None _ None NoBy NoClause _ NoOver => is_word b w
  | _ => False
  end.
Definition star (e : expr) : Prop :=
  match e with Star b | StarBut b _ _ _ _ => literally b "*" | _ => False end.

Fixpoint first (e : expr) : bundle :=
  match e with
  | Atom b | Fn b | Star b | StarBut b _ _ _ _ | Typed b _ | TypedRaw b _ _ | Interval b _ _ | IntervalTo b _ _ _ _ | Paren b _ _
  | Tuple b _ _ _ _ | EmptyTuple b _ | Prefix b _ | Cast b _ _ _ _ _ | CastFormat b _ _ _ _ _ _ _ | Extract b _ _ _ _ _
  | ExtractAt b _ _ _ _ _ _ _ _ _ | Dashed b _ | Array b _ _ | EmptyArray b _ | Case b _ _
  | CaseOf b _ _ _ | Sub b _ _ => b
  | TypedArray t _ _ _ | Struct t _ _ _ => match t with TName b | TParam b _ _ _ | TBare b | TArray b _ _ _ | TStruct b _ _ _ => b end
  | Field e _ _ | AllOf e _ _ | FieldDashed e _ _ _ | Infix e _ _ | IsNot e _ _ _ | IsDistinct e _ _ _ _ _ | NotLike e _ _ _ | LikeSome e _ _ _ _ | Between e _ _ _ _ _
  | InList e _ _ _ _ _ | InQuery e _ _ _ _ _ | InUnnest e _ _ _ | Call0 e _ _ _ | Call e _ _ _ _ _ _ _ _
  | CallMost e _ _ _ _ _ _ _ _ | CallQuery e _ _ _ | Index e _ _ _ => first e
  end.
Fixpoint first_query (q : query) : bundle :=
  match q with
  | Select b _ _ _ _ _ _ _ _ _ _ _ | Grouped b _ _ | With b _ _ _ => b
  | Combined q _ _ _ _ | Sorted q _ _ => first_query q
  end.
Definition first_type (t : type_) : bundle :=
  match t with TName b | TParam b _ _ _ | TBare b | TArray b _ _ _ | TStruct b _ _ _ => b end.
Definition first_place (b : place) : bundle :=
  match b with Path e | Unnest e => first e | SubTable b _ _ | GroupTable b _ _ => b end.
Fixpoint first_table (t : table) : bundle :=
  match t with Base (Source b _ _ _ _) | Base (Pivot b _ _ _ _ _ _ _ _ _ _ _ _ _) => first_place b | Join t _ _ _ => first_table t end.

(* SELECT ..., or a query in parentheses *)
Definition simple (q : query) : Prop := match q with Select _ _ _ _ _ _ _ _ _ _ _ _ | Grouped _ _ _ => True | _ => False end.
(* queries that can be combined further *)
Definition chain (q : query) : Prop := match q with Combined _ _ _ _ _ => True | _ => simple q end.
Fixpoint starts_grouped (q : query) : Prop := match q with Grouped _ _ _ => True | Combined l _ _ _ _ => starts_grouped l | _ => False end.
Definition ends_grouped (q : query) : Prop := match q with Grouped _ _ _ | Combined _ _ _ _ (Grouped _ _ _) => True | _ => False end.

(* A name in FROM is separated from the word after it: in FROM a-b, a-b is one name. (No name that
   is read from a text ends with a dot.) *)
Definition separated (p : expr) (next : bundle) : Prop :=
  match last_name p with
  | Some b => quoted_by 96 (b_tok b) = true \/ word_in next [","; "."; "("; ")"; ";"] \/
      last_char (literal (b_tok b)) <> Some 46%N /\
      (line (b_tok b) <> line (b_tok next) \/
       (column (b_tok b) + N.of_nat (List.length (literal (b_tok b))) <> column (b_tok next))%N)
  | None => False
  end.
(* a name for a table that is not the start of another clause *)
Definition table_clauses : list string := ["PIVOT"; "UNPIVOT"; "MATCH_RECOGNIZE"].
Definition wf_alias (a : alias) : Prop :=
  match a with
  | NoAlias => True
  | AliasAs k a => is_word k "AS" /\ name a
  | Alias a => name a /\ ~ word_in a table_clauses
  end.
Definition wf_offset (o : offset) : Prop :=
  match o with
  | NoOffset => True
  | WithOffset w o a => is_word w "WITH" /\ is_word o "OFFSET" /\ wf_alias a
  end.
Definition wf_joining (j : joining) : Prop :=
  match j with
  | Joined j => word_in j ["JOIN"; ","]
  | JoinedBy k j => word_in k ["LEFT"; "RIGHT"; "CROSS"; "INNER"; "FULL"] /\ is_word j "JOIN"
  | JoinedOuter k o j => word_in k ["LEFT"; "RIGHT"; "FULL"] /\ is_word o "OUTER" /\ is_word j "JOIN"
  end.

Fixpoint wf_columns (cs : columns) : Prop :=
  match cs with LastColumn b => name b | MoreColumns b c r => name b /\ is_word c "," /\ wf_columns r end.
Definition wf_matching (m : matching) : Prop :=
  match m with
  | InOrder => True
  | ByName b n => is_word b "BY" /\ is_word n "NAME"
  | ByNameOn b n o lp cs rp => is_word b "BY" /\ is_word n "NAME" /\ is_word o "ON" /\ is_word lp "(" /\ wf_columns cs /\ is_word rp ")"
  | Corresponding s c => perhaps s ["STRICT"] /\ is_word c "CORRESPONDING"
  | CorrespondingBy s c b lp cs rp =>
      perhaps s ["STRICT"] /\ is_word c "CORRESPONDING" /\ is_word b "BY" /\ is_word lp "(" /\ wf_columns cs /\ is_word rp ")"
  end.
Definition wf_sample (s : sample) : Prop :=
  match s with
  | NoSample => True
  | TableSample k s lp e p rp =>
      is_word k "TABLESAMPLE" /\ is_word s "SYSTEM" /\ is_word lp "(" /\ operand e /\ word_in p ["PERCENT"; "ROWS"] /\ is_word rp ")"
  end.
Fixpoint wf (e : expr) : Prop :=
  match e with
  | Atom b => operand b
  | Fn _ | Dashed _ _ | FieldDashed _ _ _ _ => False
  | Star b => is_word b "*"
  | StarBut b k lp es rp => is_word b "*" /\ word_in k ["EXCEPT"; "REPLACE"] /\ is_word lp "(" /\
      (is_word k "EXCEPT" -> wfs false true es) /\ (is_word k "REPLACE" -> wfs true true es) /\ is_word rp ")"
  | Typed k s => word_in k (literal_types ++ string_prefixes) /\ is_string (b_tok s) = true
  | TypedRaw k r s => word_in k literal_types /\ word_in r string_prefixes /\ is_string (b_tok s) = true
  | Interval k e p => is_word k "INTERVAL" /\ wf e /\ name p /\ apart_from (yield e) p
  | IntervalTo k e p t p' => is_word k "INTERVAL" /\ wf e /\ name p /\ apart_from (yield e) p /\ is_word t "TO" /\ name p'
  | Field e d b => wf e /\ fits_left e 2 /\ is_word d "." /\ field_name b
  | AllOf e d s => wf e /\ fits_left e 2 /\ is_word d "." /\ star s /\ wf s
  | Paren lp e rp => is_word lp "(" /\ wf e /\ is_word rp ")"
  | Tuple lp i c es rp => is_word lp "(" /\ wf_item true i /\ is_word c "," /\ wfs true false es /\ is_word rp ")"
  | EmptyTuple lp rp => is_word lp "(" /\ is_word rp ")"
  | Prefix b e => wf e /\ exists q, prefix_level b = Some q /\ fits_right e q
  | Infix l b r => wf l /\ wf r /\ (is_word b "IS" -> ~ is_word (first r) "NOT") /\
      exists q, infix_level b = Some q /\ fits_left l q /\ fits_right r q
  | IsNot l b n r => wf l /\ is_word b "IS" /\ is_word n "NOT" /\ wf r /\ fits_left l 9 /\ fits_right r 9
  | IsDistinct l b n d f r => wf l /\ is_word b "IS" /\ perhaps n ["NOT"] /\ is_word d "DISTINCT" /\ is_word f "FROM" /\ wf r /\
      fits_left l 9 /\ fits_right r 9
  | NotLike l n b r => wf l /\ is_word n "NOT" /\ is_word b "LIKE" /\ wf r /\ fits_left l 9 /\ fits_right r 9
  | LikeSome l n b k r => wf l /\ perhaps n ["NOT"] /\ is_word b "LIKE" /\ word_in k ["ANY"; "ALL"; "SOME"] /\ wf r /\
      fits_left l 9 /\ fits_right r 9
  | Between l n b lo a hi => wf l /\ perhaps n ["NOT"] /\ is_word b "BETWEEN" /\ wf lo /\ is_word a "AND" /\ wf hi /\
      fits_left l 9 /\ fits_right lo 9 /\ fits_left lo 11 /\ fits_right hi 9
  | InList l n b lp es rp =>
      wf l /\ perhaps n ["NOT"] /\ is_word b "IN" /\ is_word lp "(" /\ wfs false true es /\ is_word rp ")" /\ fits_left l 9
  | InQuery l n b lp q rp => wf l /\ perhaps n ["NOT"] /\ is_word b "IN" /\ is_word lp "(" /\ wf_query q rp /\ ~ is_word (first_query q) "(" /\
      is_word rp ")" /\ fits_left l 9
  | InUnnest l n b c => wf l /\ perhaps n ["NOT"] /\ is_word b "IN" /\ wf c /\ call_of "UNNEST" c /\ fits_left l 9
  | Call0 f lp rp ov => function_name f lp /\ is_word lp "(" /\ is_word rp ")" /\ wf_over ov
  | Call f lp d es ig o l rp ov => function_name f lp /\ is_word lp "(" /\ perhaps d ["DISTINCT"] /\ wfs false false es /\
      perhaps2 ig ["IGNORE"; "RESPECT"] ["NULLS"] /\ wf_by "ORDER" o /\ wf_clause "LIMIT" l /\ is_word rp ")" /\ wf_over ov
  | CallMost f lp d es h m e rp ov => function_name f lp /\ is_word lp "(" /\ perhaps d ["DISTINCT"] /\ wfs false false es /\
      is_word h "HAVING" /\ word_in m ["MAX"; "MIN"] /\ wf e /\ is_word rp ")" /\ wf_over ov
  | CallQuery f lp q rp => function_name f lp /\ is_word lp "(" /\ wf_query q rp /\ ~ is_word (first_query q) "(" /\ is_word rp ")"
  | Cast f lp e as_ t rp => word_in f ["CAST"; "SAFE_CAST"] /\ literally lp "(" /\ wf e /\ is_word as_ "AS" /\ wf_type t /\ is_word rp ")"
  | CastFormat f lp e as_ t k x rp => word_in f ["CAST"; "SAFE_CAST"] /\ literally lp "(" /\ wf e /\ is_word as_ "AS" /\ wf_type t /\
      is_word k "FORMAT" /\ wf x /\ is_word rp ")"
  | ExtractAt f lp p from_ e a t z x rp => is_word f "EXTRACT" /\ literally lp "(" /\ wf p /\ is_word from_ "FROM" /\ wf e /\
      is_word a "AT" /\ is_word t "TIME" /\ is_word z "ZONE" /\ wf x /\ is_word rp ")"
  | Extract f lp p from_ e rp => is_word f "EXTRACT" /\ literally lp "(" /\ wf p /\ is_word from_ "FROM" /\ wf e /\ is_word rp ")"
  | Index e lp i rp => wf e /\ is_word lp "[" /\ wf i /\ is_word rp "]" /\ fits_left e 1
  | Array lp es rp => is_word lp "[" /\ wfs false false es /\ is_word rp "]"
  | EmptyArray lp rp => is_word lp "[" /\ is_word rp "]"
  | TypedArray t lp es rp => is_word (first_type t) "ARRAY" /\ wf_type t /\ is_word lp "[" /\ wfs false false es /\ is_word rp "]"
  | Struct t lp es rp => is_word (first_type t) "STRUCT" /\ wf_type t /\ is_word lp "(" /\ wfs true false es /\ is_word rp ")"
  | Case c ws e => is_word c "CASE" /\ wf_arms ws /\ is_word e "END"
  | CaseOf c s ws e => is_word c "CASE" /\ wf s /\ wf_arms ws /\ is_word e "END"
  | Sub lp q rp => is_word lp "(" /\ wf_query q rp /\ ~ is_word (first_query q) "(" /\ is_word rp ")"
  end
(* [named]: whether the expressions can be given names *)
with wf_item (named : bool) (i : item) : Prop :=
  match i with
  | Plain e => wf e
  | Named e as_ a => named = true /\ wf e /\ is_word as_ "AS" /\ name a
  | Called e a => named = true /\ wf e /\ name a /\ apart_from (yield e) a
  | Ordered e d ns => wf e /\ loosest_right e = 0%N /\ perhaps d ["ASC"; "DESC"] /\ perhaps2 ns ["NULLS"] ["FIRST"; "LAST"]
  end
(* [trailing]: whether there can be a comma at the end *)
with wfs (named trailing : bool) (es : items) : Prop :=
  match es with
  | One i => wf_item named i
  | Trailing i c => trailing = true /\ wf_item named i /\ is_word c ","
  | More i c r => wf_item named i /\ is_word c "," /\ wfs named trailing r
  end
with wf_arms (ws : arms) : Prop :=
  match ws with
  | When w c t r ws => is_word w "WHEN" /\ wf c /\ is_word t "THEN" /\ wf r /\ wf_arms ws
  | LastWhen w c t r => is_word w "WHEN" /\ wf c /\ is_word t "THEN" /\ wf r
  | LastElse w c t r el x => is_word w "WHEN" /\ wf c /\ is_word t "THEN" /\ wf r /\ is_word el "ELSE" /\ wf x
  end
with wf_over (ov : over) : Prop :=
  match ov with
  | NoOver => True
  | OverName k b => is_word k "OVER" /\ name b
  | OverSpec k lp n p o f rp => is_word k "OVER" /\ is_word lp "(" /\ match n with Some b => name b | None => True end /\
      wf_by "PARTITION" p /\ wf_by "ORDER" o /\ wf_rows f /\ is_word rp ")"
  end
with wf_rows (f : rows) : Prop :=
  match f with
  | NoRows => True
  | Rows k => word_in k ["ROWS"; "RANGE"]
  | RowsFrom k s => word_in k ["ROWS"; "RANGE"] /\ wf_bound s
  | RowsBetween k b s a e => word_in k ["ROWS"; "RANGE"] /\ is_word b "BETWEEN" /\ wf_bound s /\ is_word a "AND" /\ wf_bound e
  end
with wf_bound (x : bound) : Prop :=
  match x with
  | Edge u p => word_in u ["UNBOUNDED"; "CURRENT"] /\ word_in p ["PRECEDING"; "FOLLOWING"; "ROW"]
  | Away e p => wf e /\ word_in p ["PRECEDING"; "FOLLOWING"]
  end
with wf_type (t : type_) : Prop :=
  match t with
  | TName b => name b /\ ~ is_word b "TYPE"
  | TParam b lp es rp => name b /\ ~ is_word b "TYPE" /\ is_word lp "(" /\ wfs false true es /\ is_word rp ")"
  | TBare b => word_in b ["ARRAY"; "STRUCT"]
  | TArray b lt t gt => is_word b "ARRAY" /\ literally lt "<" /\ wf_type t /\ is_word gt ">"
  | TStruct b lt fs gt => is_word b "STRUCT" /\ literally lt "<" /\ wf_fields fs /\ is_word gt ">"
  end
with wf_field (f : field) : Prop :=
  match f with
  | Unnamed t => wf_type t /\ match t with TParam _ _ _ _ => False | _ => True end
  | FieldOf b t => name b /\ wf_type t
  end
with wf_fields (fs : fields) : Prop :=
  match fs with
  | LastField f => wf_field f
  | MoreFields f c r => wf_field f /\ is_word c "," /\ wf_fields r
  end
(* [next]: the token after the query *)
with wf_query (q : query) (next : bundle) : Prop :=
  match q with
  | Select s d a es f w g h qf ws o l =>
      is_word s "SELECT" /\ perhaps d ["ALL"; "DISTINCT"] /\ perhaps2 a ["AS"] ["STRUCT"; "VALUE"] /\ wfs true true es /\
      wf_from f (hd next (yield_clause w ++ yield_by g ++ yield_clause h ++ yield_clause qf ++ yield_windows ws ++ yield_by o ++ yield_limit l)) /\
      wf_clause "WHERE" w /\ wf_by "GROUP" g /\ wf_clause "HAVING" h /\ wf_clause "QUALIFY" qf /\ wf_windows "WINDOW" ws /\ wf_by "ORDER" o /\ wf_limit l
  | Grouped lp q rp => is_word lp "(" /\ wf_query q rp /\ is_word rp ")"
  | Combined l k d m r => chain l /\ wf_query l k /\ apart_from (yield_query l) k /\ word_in k ["UNION"; "INTERSECT"; "EXCEPT"] /\
      word_in d ["ALL"; "DISTINCT"] /\ wf_matching m /\ simple r /\ wf_query r next
  | Sorted q o l => starts_grouped q /\ ends_grouped q /\ wf_query q (hd next (yield_by o ++ yield_limit l)) /\ wf_by "ORDER" o /\ wf_limit l
  | With w r cs q => is_word w "WITH" /\ perhaps r ["RECURSIVE"] /\ wf_ctes cs /\ wf_query q next /\
      (is_word (first_query q) "SELECT" \/ literally (first_query q) "(")
  end
with wf_windows (first : string) (ws : windows) : Prop :=
  match ws with
  | NoWindow => True
  | SameWindow k n as_ m r => is_word k first /\ name n /\ is_word as_ "AS" /\ name m /\ wf_windows "," r
  | NewWindow k n as_ lp m p o f rp r => is_word k first /\ name n /\ is_word as_ "AS" /\
      is_word lp "(" /\ match m with Some b => name b | None => True end /\
      wf_by "PARTITION" p /\ wf_by "ORDER" o /\ wf_rows f /\ is_word rp ")" /\ wf_windows "," r
  end
with wf_ctes (cs : ctes) : Prop :=
  match cs with
  | LastCte n as_ lp q rp => name n /\ is_word as_ "AS" /\ is_word lp "(" /\ wf_query q rp /\ is_word rp ")"
  | MoreCtes n as_ lp q rp c r => name n /\ is_word as_ "AS" /\ is_word lp "(" /\ wf_query q rp /\ is_word rp ")" /\ literally c "," /\ wf_ctes r
  end
with wf_from (f : from) (next : bundle) : Prop :=
  match f with
  | NoFrom => True
  | From f t => is_word f "FROM" /\ wf_table t next
  end
with wf_table (t : table) (next : bundle) : Prop :=
  match t with
  | Base s => wf_source s next
  | Join t j s c => wf_table t (hd next (yield_joining j)) /\ wf_joining j /\ wf_source s (hd next (yield_condition c)) /\ wf_condition c
  end
with wf_source (s : source) (next : bundle) : Prop :=
  match s with
  | Source b a t o s => wf_place b (hd next (yield_alias a ++ yield_as_of t ++ yield_offset o ++ yield_sample s)) /\
      wf_alias a /\ wf_as_of t /\ wf_offset o /\ wf_sample s
  | Pivot b a k lp es f n i lq vs rq rp a2 s =>
      wf_place b (hd k (yield_alias a)) /\ wf_alias a /\ is_word k "PIVOT" /\ is_word lp "(" /\ wfs true false es /\
      is_word f "FOR" /\ name n /\ is_word i "IN" /\ is_word lq "(" /\ wfs true true vs /\ is_word rq ")" /\ is_word rp ")" /\
      wf_alias a2 /\ wf_sample s
  end
with wf_as_of (t : as_of) : Prop :=
  match t with
  | Now => True
  | AsOf f s a o e => is_word f "FOR" /\ is_word s "SYSTEM_TIME" /\ is_word a "AS" /\ is_word o "OF" /\ wf e
  end
with wf_place (b : place) (next : bundle) : Prop :=
  match b with
  | Path p => path p /\ separated p next
  | Unnest c => wf c /\ call_of "UNNEST" c
  | SubTable lp q rp => is_word lp "(" /\ wf_query q rp /\ is_word rp ")" /\ ~ is_word next "|>"
  | GroupTable lp t rp => is_word lp "(" /\ wf_table t rp /\ ~ is_word (first_table t) "(" /\ is_word rp ")"
  end
with wf_condition (c : condition) : Prop :=
  match c with
  | NoCondition => True
  | On k e => is_word k "ON" /\ wf e
  | Using c => wf c /\ call_of "USING" c
  end
with wf_clause (k : string) (c : clause) : Prop :=
  match c with
  | NoClause => True
  | Clause b e => is_word b k /\ wf e
  end
with wf_by (k : string) (c : by_clause) : Prop :=
  match c with
  | NoBy => True
  | By b b' es => is_word b k /\ is_word b' "BY" /\ wfs false false es
  | ByEach b b' h es => is_word b k /\ k = "GROUP" /\ is_word b' "BY" /\ word_in h ["ROLLUP"; "CUBE"] /\ wfs false false es
  | BySets b b' h s es => is_word b k /\ k = "GROUP" /\ is_word b' "BY" /\ is_word h "GROUPING" /\ is_word s "SETS" /\ wfs false false es
  | ByAll b b' a => is_word b k /\ k = "GROUP" /\ is_word b' "BY" /\ is_word a "ALL"
  end
with wf_limit (c : limit) : Prop :=
  match c with
  | NoLimit => True
  | Limit k e => is_word k "LIMIT" /\ wf e
  | LimitOffset k e o x => is_word k "LIMIT" /\ wf e /\ is_word o "OFFSET" /\ wf x
  end.
(* [eof]: the end of the text *)
Fixpoint wf_script (sc : script) (eof : bundle) : Prop :=
  match sc with
  | Nothing => True
  | Last q => wf_query q eof
  | Then q semi r => wf_query q semi /\ is_word semi ";" /\ wf_script r eof
  end.

(* ----- the tree a phrase denotes ----- *)
(* The comments of a token are children of the node made from it. *)
Definition comment_list (k : string) (l : list token) : list (string * content) :=
  match l with [] => [] | _ => [(k, CVec (map (fun c => Node (Some c) N_Comment []) l))] end.
Definition made (ty : node_type) (b : bundle) (kids : list (string * content)) : node :=
  Node (Some (b_tok b)) ty
    (comment_list "leading_comments" (b_lead b) ++ comment_list "trailing_comments" (b_trail b) ++ kids).
Definition keyword_ (b : bundle) : node := made N_Keyword b [].
Definition keyword (b : bundle) : content := CNode (keyword_ b).
Definition symbol (b : bundle) : content := CNode (made N_Symbol b []).
Definition ident (b : bundle) : content := CNode (made N_Identifier b []).
Definition with_kid (k : string) (c : content) (n : node) : node :=
  match n with Node t ty m => Node t ty (map_insert k c m) end.
Definition retyped (ty : node_type) (n : node) : node := match n with Node t _ m => Node t ty m end.
Definition with_word (k : string) (o : option bundle) (n : node) : node :=
  match o with Some b => with_kid k (keyword b) n | None => n end.
Definition with_words (k : string) (o : option (bundle * bundle)) (n : node) : node :=
  match o with Some (a, b) => with_kid k (CVec [keyword_ a; keyword_ b]) n | None => n end.
Definition with_semi (semi : option bundle) (n : node) : node :=
  match semi with Some b => with_kid "semicolon" (symbol b) n | None => n end.
Definition with_alias (a : alias) (n : node) : node :=
  match a with
  | NoAlias => n
  | AliasAs k a => with_kid "alias" (ident a) (with_kid "as" (keyword k) n)
  | Alias a => with_kid "alias" (ident a) n
  end.
Definition with_offset (o : offset) (n : node) : node :=
  match o with
  | NoOffset => n
  | WithOffset w o a => with_kid "with_offset" (CNode (with_alias a (made N_WithOffsetClause w [("offset", keyword o)]))) n
  end.
Definition idents (b : bundle) (bs : list bundle) : node :=
  made N_MultiTokenIdentifier b [("trailing_idents", CVec (map (fun b => made N_Identifier b []) bs))].
(* a word with another one below it *)
Definition before (k : bundle) (n : node) : node := made N_KeywordSequence k [("next_keyword", CNode n)].
Definition with_before (s : option bundle) (n : node) : node := match s with Some b => before b n | None => n end.
Fixpoint tree_columns (cs : columns) : list node :=
  match cs with
  | LastColumn b => [made N_Identifier b []]
  | MoreColumns b c r => made N_Identifier b [("comma", symbol c)] :: tree_columns r
  end.
Definition kid_columns (k lp : bundle) (cs : columns) (rp : bundle) : node :=
  made N_KeywordWithGroupedXXX k [("group", CNode (made N_GroupedExprs lp [("exprs", CVec (tree_columns cs)); ("rparen", symbol rp)]))].
Definition kid_matching (m : matching) : list (string * content) :=
  match m with
  | InOrder => []
  | ByName b n => [("by", CNode (before b (keyword_ n)))]
  | ByNameOn b n o lp cs rp => [("by", CNode (before b (before n (kid_columns o lp cs rp))))]
  | Corresponding s c => [("corresponding", CNode (with_before s (keyword_ c)))]
  | CorrespondingBy s c b lp cs rp => [("corresponding", CNode (with_before s (before c (kid_columns b lp cs rp))))]
  end.
Definition with_sample (s : sample) (n : node) : node :=
  match s with
  | NoSample => n
  | TableSample k s lp e p rp => with_kid "tablesample" (CNode (made N_TableSampleClause k [("system", keyword s);
      ("group", CNode (made N_TableSampleRatio lp [("expr", CNode (made (match kind (b_tok e) with Some ty => ty | None => N_Unknown end) e [])); ("percent", keyword p); ("rparen", symbol rp)]))])) n
  end.
(* the comma before the next window belongs to the node of the window before it *)
Definition comma_of (ws : windows) : list (string * content) :=
  match ws with
  | NoWindow => []
  | SameWindow k _ _ _ _ | NewWindow k _ _ _ _ _ _ _ _ _ => [("comma", symbol k)]
  end.
Definition with_windows (ws : windows) (l : list node) (n : node) : node :=
  match ws with
  | NoWindow => n
  | SameWindow k _ _ _ _ | NewWindow k _ _ _ _ _ _ _ _ _ => with_kid "window" (CNode (made N_WindowClause k [("window_exprs", CVec l)])) n
  end.
Definition tree_joining (j : joining) : node :=
  match j with
  | Joined j => made N_JoinOperator j []
  | JoinedBy k j => made N_JoinOperator j [("join_type", keyword k)]
  | JoinedOuter k o j => made N_JoinOperator j [("join_type", keyword k); ("outer", keyword o)]
  end.

Fixpoint tree (e : expr) : node :=
  match e with
  | Atom b => made (match kind (b_tok b) with Some ty => ty | None => N_Unknown end) b []
  | Fn b => made N_Identifier b []
  | Star b => made N_Asterisk b []
  | StarBut b k lp es rp => made N_Asterisk b
      [(if str_eqb (word k) (s_ "REPLACE") then "replace" else "except",
        CNode (made N_KeywordWithGroupedXXX k [("group", CNode (made N_GroupedExprs lp [("exprs", CVec (trees es)); ("rparen", symbol rp)]))]))]
  | Typed k s => made N_UnaryOperator k [("right", CNode (made N_StringLiteral s []))]
  | TypedRaw k r s => made N_UnaryOperator k [("right", CNode (made N_UnaryOperator r [("right", CNode (made N_StringLiteral s []))]))]
  | Interval k e p => made N_IntervalLiteral k [("date_part", keyword p); ("expr", CNode (tree e))]
  | IntervalTo k e p t p' => made N_IntervalLiteral k
      [("date_part", keyword p); ("to", keyword t); ("to_date_part", keyword p'); ("expr", CNode (tree e))]
  | Field e d b => made N_DotOperator d [("left", CNode (tree e)); ("right", ident b)]
  | AllOf e d s => made N_DotOperator d [("left", CNode (tree e)); ("right", CNode (tree s))]
  | Dashed b bs => idents b bs
  | FieldDashed e d b bs => made N_DotOperator d [("left", CNode (tree e)); ("right", CNode (idents b bs))]
  | Paren lp e rp => made N_GroupedExpr lp [("expr", CNode (tree e)); ("rparen", symbol rp)]
  | Tuple lp i c es rp => made N_StructLiteral lp
      [("exprs", CVec (with_kid "comma" (symbol c) (tree_item i) :: trees es)); ("rparen", symbol rp)]
  | EmptyTuple lp rp => made N_EmptyStruct lp [("rparen", symbol rp)]
  | Prefix b e => made N_UnaryOperator b [("right", CNode (tree e))]
  | Infix l b r => made N_BinaryOperator b [("left", CNode (tree l)); ("right", CNode (tree r))]
  | IsNot l b n r => made N_BinaryOperator b [("not", keyword n); ("left", CNode (tree l)); ("right", CNode (tree r))]
  | IsDistinct l b n d f r =>
      with_kid "right" (CNode (tree r)) (with_kid "from" (keyword f) (with_kid "distinct" (keyword d) (with_word "not" n
        (made N_IsDistinctFromOperator b [("left", CNode (tree l))]))))
  | NotLike l n b r => made N_BinaryOperator b [("left", CNode (tree l)); ("right", CNode (tree r)); ("not", keyword n)]
  | LikeSome l n b k r => with_word "not" n (made N_BinaryOperator b
      [("quantifier", keyword k); ("left", CNode (tree l)); ("right", CNode (tree r))])
  | Between l n b lo a hi => with_word "not" n (made N_BetweenOperator b
      [("left", CNode (tree l)); ("right_min", CNode (tree lo)); ("and", keyword a); ("right_max", CNode (tree hi))])
  | InList l n b lp es rp => with_word "not" n (made N_InOperator b
      [("left", CNode (tree l));
       ("right", CNode (made N_GroupedExprs lp [("exprs", CVec (trees es)); ("rparen", symbol rp)]))])
  | InQuery l n b lp q rp => with_word "not" n (made N_InOperator b
      [("left", CNode (tree l));
       ("right", CNode (made N_GroupedStatement lp [("stmt", CNode (tree_query q None)); ("rparen", symbol rp)]))])
  | InUnnest l n b c => with_word "not" n (made N_InOperator b
      [("left", CNode (tree l)); ("right", CNode (retyped N_CallingUnnest (tree c)))])
  | Call0 f lp rp ov => with_over ov (made N_CallingFunction lp [("func", CNode (tree f)); ("rparen", symbol rp)])
  | Call f lp d es ig o l rp ov =>
      with_over ov (with_kid "rparen" (symbol rp)
        (with_clause N_KeywordWithExpr "limit" l (with_by N_XXXByExprs "orderby" o (with_words "ignore_nulls" ig
          (with_kid "args" (CVec (trees es)) (with_kid "func" (CNode (tree f)) (with_word "distinct" d (made N_CallingFunction lp []))))))))
  | CallMost f lp d es h m e rp ov =>
      with_over ov (with_kid "rparen" (symbol rp)
        (with_kid "having" (CNode (before h (made N_KeywordWithExpr m [("expr", CNode (tree e))])))
          (with_kid "args" (CVec (trees es)) (with_kid "func" (CNode (tree f)) (with_word "distinct" d (made N_CallingFunction lp []))))))
  | CallQuery f lp q rp =>
      made N_CallingFunction lp [("func", CNode (tree f)); ("args", CVec [tree_query q None]); ("rparen", symbol rp)]
  | Cast f lp e as_ t rp => made N_CallingFunction lp
      [("func", ident f); ("args", CVec [made N_CastArgument as_ [("cast_from", CNode (tree e)); ("cast_to", CNode (tree_type t))]]);
       ("rparen", symbol rp)]
  | CastFormat f lp e as_ t k x rp => made N_CallingFunction lp
      [("func", ident f);
       ("args", CVec [made N_CastArgument as_ [("cast_from", CNode (tree e)); ("cast_to", CNode (tree_type t));
          ("format", CNode (made N_KeywordWithExpr k [("expr", CNode (tree x))]))]]);
       ("rparen", symbol rp)]
  | ExtractAt f lp p from_ e a t z x rp => made N_CallingFunction lp
      [("func", ident f);
       ("args", CVec [made N_ExtractArgument from_ [("extract_datepart", CNode (tree p)); ("extract_from", CNode (tree e));
          ("at_time_zone", CVec [keyword_ a; keyword_ t; keyword_ z]); ("time_zone", CNode (tree x))]]);
       ("rparen", symbol rp)]
  | Extract f lp p from_ e rp => made N_CallingFunction lp
      [("func", ident f);
       ("args", CVec [made N_ExtractArgument from_ [("extract_datepart", CNode (tree p)); ("extract_from", CNode (tree e))]]);
       ("rparen", symbol rp)]
  | Index e lp i rp => made N_AccessOperator lp [("left", CNode (tree e)); ("right", CNode (tree i)); ("rparen", symbol rp)]
  | Array lp es rp => made N_ArrayLiteral lp [("exprs", CVec (trees es)); ("rparen", symbol rp)]
  | EmptyArray lp rp => made N_ArrayLiteral lp [("exprs", CVec []); ("rparen", symbol rp)]
  | TypedArray t lp es rp => made N_ArrayLiteral lp [("exprs", CVec (trees es)); ("rparen", symbol rp); ("type", CNode (tree_type t))]
  | Struct t lp es rp => made N_StructLiteral lp [("rparen", symbol rp); ("exprs", CVec (trees es)); ("type", CNode (tree_type t))]
  | Case c ws e => made N_CaseExpr c [("arms", CVec (tree_arms ws)); ("end", keyword e)]
  | CaseOf c s ws e => made N_CaseExpr c [("expr", CNode (tree s)); ("arms", CVec (tree_arms ws)); ("end", keyword e)]
  | Sub lp q rp => made N_GroupedStatement lp [("stmt", CNode (tree_query q None)); ("rparen", symbol rp)]
  end
with tree_item (i : item) : node :=
  match i with
  | Plain e => tree e
  | Named e as_ a => with_kid "alias" (ident a) (with_kid "as" (keyword as_) (tree e))
  | Called e a => with_kid "alias" (ident a) (tree e)
  | Ordered e d ns => with_words "null_order" ns (with_word "order" d (tree e))
  end
with trees (es : items) : list node :=
  match es with
  | One i => [tree_item i]
  | Trailing i c => [with_kid "comma" (symbol c) (tree_item i)]
  | More i c r => with_kid "comma" (symbol c) (tree_item i) :: trees r
  end
with tree_arms (ws : arms) : list node :=
  match ws with
  | When w c t r ws =>
      made N_CaseExprArm w [("expr", CNode (tree c)); ("then", keyword t); ("result", CNode (tree r))] :: tree_arms ws
  | LastWhen w c t r => [made N_CaseExprArm w [("expr", CNode (tree c)); ("then", keyword t); ("result", CNode (tree r))]]
  | LastElse w c t r el x =>
      [made N_CaseExprArm w [("expr", CNode (tree c)); ("then", keyword t); ("result", CNode (tree r))];
       made N_CaseExprArm el [("result", CNode (tree x))]]
  end
with with_over (ov : over) (n : node) : node :=
  match ov with
  | NoOver => n
  | OverName k b => with_kid "over" (CNode (made N_OverClause k [("window", ident b)])) n
  | OverSpec k lp w p o f rp =>
      with_kid "over" (CNode (made N_OverClause k [("window", CNode (
        with_kid "rparen" (symbol rp) (with_rows f (with_by N_XXXByExprs "orderby" o (with_by N_XXXByExprs "partitionby" p
          (match w with Some b => with_kid "name" (ident b) (made N_WindowSpecification lp []) | None => made N_WindowSpecification lp [] end))))))])) n
  end
with with_rows (f : rows) (n : node) : node :=
  match f with
  | NoRows => n
  | Rows k => with_kid "frame" (CNode (made N_WindowFrameClause k [])) n
  | RowsFrom k s => with_kid "frame" (CNode (made N_WindowFrameClause k [("start", CVec (tree_bound s))])) n
  | RowsBetween k b s a e => with_kid "frame" (CNode (made N_WindowFrameClause k
      [("between", keyword b); ("start", CVec (tree_bound s)); ("and", keyword a); ("end", CVec (tree_bound e))])) n
  end
with tree_bound (x : bound) : list node :=
  match x with
  | Edge u p => [keyword_ u; keyword_ p]
  | Away e p => [tree e; keyword_ p]
  end
with tree_type (t : type_) : node :=
  match t with
  | TName b | TBare b => made N_Type b []
  | TParam b lp es rp => made N_Type b
      [("parameter", CNode (made N_GroupedExprs lp [("exprs", CVec (trees es)); ("rparen", symbol rp)]))]
  | TArray b lt t gt => made N_Type b
      [("type_declaration", CNode (made N_GroupedType lt [("type", CNode (tree_type t)); ("rparen", symbol gt)]))]
  | TStruct b lt fs gt => made N_Type b
      [("type_declaration", CNode (made N_GroupedTypeDeclarationOrConstraints lt
          [("rparen", symbol gt); ("declarations", CVec (tree_fields fs))]))]
  end
with tree_field (f : field) : node :=
  match f with
  | Unnamed t => Node None N_TypeDeclaration [("type", CNode (tree_type t))]
  | FieldOf b t => made N_TypeDeclaration b [("type", CNode (tree_type t))]
  end
with tree_fields (fs : fields) : list node :=
  match fs with
  | LastField f => [tree_field f]
  | MoreFields f c r => with_kid "comma" (symbol c) (tree_field f) :: tree_fields r
  end
(* [semi]: the semicolon after the query *)
with tree_query (q : query) (semi : option bundle) : node :=
  match q with
  | Select s d a es f w g h qf ws o l =>
      with_semi semi (with_limit l (with_by N_XXXByExprs "orderby" o (with_windows ws (tree_windows ws) (with_clause N_KeywordWithExpr "qualify" qf
        (with_clause N_KeywordWithExpr "having" h (with_by N_GroupByExprs "groupby" g (with_clause N_KeywordWithExpr "where" w
          (with_from f (with_kid "exprs" (CVec (trees es)) (with_words "as_struct_or_value" a (with_word "distinct_or_all" d
            (made N_SelectStatement s []))))))))))))
  | Grouped lp q rp => with_semi semi (made N_GroupedStatement lp [("stmt", CNode (tree_query q None)); ("rparen", symbol rp)])
  | Combined l k d m r => with_semi semi (made N_SetOperator k
      (("distinct_or_all", keyword d) :: kid_matching m ++ [("left", CNode (tree_query l None)); ("right", CNode (tree_query r None))]))
  | Sorted q o l => with_semi semi (with_limit l (with_by N_XXXByExprs "orderby" o (tree_query q None)))
  | With w r cs q => with_kid "with" (CNode (
      with_kid "queries" (CVec (tree_ctes cs)) (with_word "recursive" r (made N_WithClause w [])))) (tree_query q semi)
  end
with tree_windows (ws : windows) : list node :=
  match ws with
  | NoWindow => []
  | SameWindow k n as_ m r =>
      made N_WindowExpr n ([("as", keyword as_); ("window", ident m)] ++ comma_of r) :: tree_windows r
  | NewWindow k n as_ lp m p o f rp r =>
      made N_WindowExpr n ([("as", keyword as_); ("window", CNode
        (with_kid "rparen" (symbol rp) (with_rows f (with_by N_XXXByExprs "orderby" o (with_by N_XXXByExprs "partitionby" p
          (match m with Some b => with_kid "name" (ident b) (made N_WindowSpecification lp []) | None => made N_WindowSpecification lp [] end))))))]
        ++ comma_of r) :: tree_windows r
  end
with tree_ctes (cs : ctes) : list node :=
  match cs with
  | LastCte n as_ lp q rp =>
      [made N_WithQuery n [("as", keyword as_);
         ("stmt", CNode (made N_GroupedStatement lp [("stmt", CNode (tree_query q None)); ("rparen", symbol rp)]))]]
  | MoreCtes n as_ lp q rp c r =>
      made N_WithQuery n [("as", keyword as_);
         ("stmt", CNode (made N_GroupedStatement lp [("stmt", CNode (tree_query q None)); ("rparen", symbol rp)])); ("comma", symbol c)] ::
      tree_ctes r
  end
with with_from (f : from) (n : node) : node :=
  match f with
  | NoFrom => n
  | From f t => with_kid "from" (CNode (made N_KeywordWithExpr f [("expr", CNode (tree_table t))])) n
  end
with tree_table (t : table) : node :=
  match t with
  | Base s => tree_source s
  | Join t j s c => with_kid "right" (CNode (tree_source s)) (with_kid "left" (CNode (tree_table t)) (with_condition c (tree_joining j)))
  end
with tree_source (s : source) : node :=
  match s with
  | Source b a t o s => with_sample s (with_offset o (with_as_of t (with_alias a (tree_place b))))
  | Pivot b a k lp es f n i lq vs rq rp a2 s => with_sample s (with_kid "pivot" (CNode (with_alias a2 (made N_PivotOperator k
      [("config", CNode (made N_PivotConfig lp
         [("exprs", CVec (trees es)); ("for", CNode (made N_KeywordWithExpr f [("expr", ident n)]));
          ("in", CNode (made N_KeywordWithGroupedXXX i
             [("group", CNode (made N_GroupedExprs lq [("exprs", CVec (trees vs)); ("rparen", symbol rq)]))])); ("rparen", symbol rp)]))])))
      (with_alias a (tree_place b)))
  end
with with_as_of (t : as_of) (n : node) : node :=
  match t with
  | Now => n
  | AsOf f s a o e => with_kid "for_system_time_as_of" (CNode (made N_ForSystemTimeAsOfClause f
      [("system_time_as_of", CVec [keyword_ s; keyword_ a; keyword_ o]); ("expr", CNode (tree e))])) n
  end
with tree_place (b : place) : node :=
  match b with
  | Path p => tree p
  | Unnest c => retyped N_CallingUnnest (tree c)
  | SubTable lp q rp => made N_GroupedStatement lp [("stmt", CNode (tree_query q None)); ("rparen", symbol rp)]
  | GroupTable lp t rp => made N_GroupedExpr lp [("expr", CNode (tree_table t)); ("rparen", symbol rp)]
  end
with with_condition (c : condition) (n : node) : node :=
  match c with
  | NoCondition => n
  | On k e => with_kid "on" (CNode (made N_KeywordWithExpr k [("expr", CNode (tree e))])) n
  | Using c => with_kid "using" (CNode (tree c)) n
  end
with with_clause (ty : node_type) (k : string) (c : clause) (n : node) : node :=
  match c with
  | NoClause => n
  | Clause b e => with_kid k (CNode (made ty b [("expr", CNode (tree e))])) n
  end
with with_by (ty : node_type) (k : string) (c : by_clause) (n : node) : node :=
  match c with
  | NoBy => n
  | By b b' es => with_kid k (CNode (made ty b [("by", keyword b'); ("exprs", CVec (trees es))])) n
  | ByEach b b' h es => with_kid k (CNode (made ty b [("by", keyword b'); ("how", CVec [keyword_ h]); ("exprs", CVec (trees es))])) n
  | BySets b b' h s es =>
      with_kid k (CNode (made ty b [("by", keyword b'); ("how", CVec [keyword_ h; keyword_ s]); ("exprs", CVec (trees es))])) n
  | ByAll b b' a => with_kid k (CNode (made ty b [("by", keyword b'); ("how", CVec [keyword_ a])])) n
  end
with with_limit (c : limit) (n : node) : node :=
  match c with
  | NoLimit => n
  | Limit k e => with_kid "limit" (CNode (made N_LimitClause k [("expr", CNode (tree e))])) n
  | LimitOffset k e o x => with_kid "limit" (CNode (made N_LimitClause k
      [("expr", CNode (tree e)); ("offset", CNode (made N_KeywordWithExpr o [("expr", CNode (tree x))]))])) n
  end.
Fixpoint tree_script (sc : script) : list node :=
  match sc with
  | Nothing => []
  | Last q => [tree_query q None]
  | Then q semi r => tree_query q (Some semi) :: tree_script r
  end.
End WithUnicode.
(* After the statements comes a node for the end of the text, which has the comments there. *)
Definition eof_tree (eof : bundle) : node := Node None N_EOF (comment_list "leading_comments" (b_lead eof)).
