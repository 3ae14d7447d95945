(* Specification vocabulary for pipe syntax: FROM t |> WHERE a |> SELECT b. The operators, the token
   sequence each is written as, and the tree each denotes. It builds on the queries and expressions of
   GrammarSpec.v; nothing here refers to the parser. *)
From Verif Require Import Chars Token Cst Bundles GroupingSpec GrammarSpec.
Local Open Scope string_scope.
Local Open Scope list_scope.

Inductive side :=
| BothSides
| OneSide (k : bundle)                                                      (* FULL *)
| OuterSide (k o : bundle).                                                 (* FULL OUTER *)
Inductive grouping :=
| NoGrouping
| GroupBy (k b : bundle) (es : items).                                      (* GROUP BY a, b AS c *)
Inductive operator :=
| Apply (k : bundle) (es : items)                                           (* EXTEND, SET, DROP, RENAME, AS, WHERE, CALL es *)
| Arrange (k b : bundle) (es : items)                                       (* ORDER BY es *)
| Project (k : bundle) (d : option bundle) (a : option (bundle * bundle)) (es : items) (* SELECT DISTINCT AS STRUCT es *)
| Take (k : bundle) (e : expr) (o : option (bundle * expr))                 (* LIMIT e OFFSET x *)
| Aggregate (k : bundle) (es : items) (g : grouping)                        (* AGGREGATE es GROUP BY es' *)
| Unite (s : side) (k d : bundle) (m : matching) (es : items)               (* FULL UNION ALL BY NAME (q), (q') *)
| Attach (j : joining) (s : source) (c : condition)                         (* LEFT JOIN s ON e *)
| Sample (k s lp : bundle) (e : expr) (p rp : bundle)                       (* TABLESAMPLE SYSTEM (10 PERCENT) *)
| PivotOn (k lp : bundle) (es : items) (f n i lq : bundle) (vs : items) (rq rp : bundle) (a : alias)
                                                                            (* PIVOT (SUM(x) FOR y IN ('a', 'b')) AS p *)
| Common (w : bundle) (r : option bundle) (cs : ctes)                       (* WITH RECURSIVE cs *)
| Dedup (k : bundle).                                                       (* DISTINCT *)
(* what comes after the table, each operator with the symbol |> before it *)
Definition operators := list (bundle * operator).

(* ----- the tokens ----- *)
Definition yield_side (s : side) : list bundle :=
  match s with BothSides => [] | OneSide k => [k] | OuterSide k o => [k; o] end.
Definition yield_grouping (g : grouping) : list bundle :=
  match g with NoGrouping => [] | GroupBy k b es => k :: b :: yields es end.
Definition yield_operator (o : operator) : list bundle :=
  match o with
  | Apply k es => k :: yields es
  | Arrange k b es => k :: b :: yields es
  | Project k d a es => k :: opt d ++ opt2 a ++ yields es
  | Take k e o => k :: yield e ++ match o with Some (o, x) => o :: yield x | None => [] end
  | Aggregate k es g => k :: yields es ++ yield_grouping g
  | Unite s k d m es => yield_side s ++ k :: d :: yield_matching m ++ yields es
  | Attach j s c => yield_joining j ++ yield_source s ++ yield_condition c
  | Sample k s lp e p rp => k :: s :: lp :: yield e ++ [p; rp]
  | PivotOn k lp es f n i lq vs rq rp a => k :: lp :: yields es ++ f :: n :: i :: lq :: yields vs ++ rq :: rp :: yield_alias a
  | Common w r cs => w :: opt r ++ yield_ctes cs
  | Dedup k => [k]
  end.
Fixpoint yield_operators (os : operators) : list bundle :=
  match os with [] => [] | (b, o) :: r => b :: yield_operator o ++ yield_operators r end.

(* ----- well-formed operators ----- *)
Section WithUnicode.
Context (U : unicode).
Local Notation is_word := (is_word U).
Local Notation word_in := (word_in U).
Local Notation wf := (wf U).
Local Notation wfs := (wfs U).
Local Notation tree := (tree U).
Local Notation trees := (trees U).
Definition wf_side (s : side) : Prop :=
  match s with
  | BothSides => True
  | OneSide k => word_in k ["INNER"; "FULL"; "LEFT"; "OUTER"]
  | OuterSide k o => word_in k ["FULL"; "LEFT"] /\ is_word o "OUTER"
  end.
Definition wf_grouping (g : grouping) : Prop :=
  match g with NoGrouping => True | GroupBy k b es => is_word k "GROUP" /\ is_word b "BY" /\ wfs true false es end.
(* [next]: the token after the operator *)
Definition wf_operator (o : operator) (next : bundle) : Prop :=
  match o with
  | Apply k es => word_in k ["EXTEND"; "SET"; "DROP"; "RENAME"; "AS"; "WHERE"; "CALL"] /\ wfs true false es
  | Arrange k b es => is_word k "ORDER" /\ is_word b "BY" /\ wfs true false es
  | Project k d a es => is_word k "SELECT" /\ perhaps U d ["ALL"; "DISTINCT"] /\ perhaps2 U a ["AS"] ["STRUCT"; "VALUE"] /\ wfs true false es
  | Take k e o => is_word k "LIMIT" /\ wf e /\ match o with Some (o, x) => is_word o "OFFSET" /\ wf x | None => True end
  | Aggregate k es g => is_word k "AGGREGATE" /\ wfs true false es /\ wf_grouping g
  | Unite s k d m es =>
      wf_side s /\ word_in k ["UNION"; "INTERSECT"; "EXCEPT"] /\ word_in d ["ALL"; "DISTINCT"] /\ wf_matching U m /\ wfs true false es /\
      (* the queries are in parentheses *)
      is_word (hd next (yields es)) "("
  | Attach j s c => wf_joining U j /\ ~ is_word (hd next (yield_joining j)) "," /\ wf_source U s (hd next (yield_condition c)) /\ wf_condition U c
  | Sample k s lp e p rp =>
      is_word k "TABLESAMPLE" /\ is_word s "SYSTEM" /\ is_word lp "(" /\ wf e /\ word_in p ["PERCENT"; "ROWS"] /\ is_word rp ")"
  | PivotOn k lp es f n i lq vs rq rp a =>
      is_word k "PIVOT" /\ is_word lp "(" /\ wfs true false es /\ is_word f "FOR" /\ name U n /\ is_word i "IN" /\
      is_word lq "(" /\ wfs true true vs /\ is_word rq ")" /\ is_word rp ")" /\ wf_alias U a
  | Common w r cs => is_word w "WITH" /\ perhaps U r ["RECURSIVE"] /\ wf_ctes U cs /\ literally next "|>"
  | Dedup k => is_word k "DISTINCT"
  end.
Fixpoint wf_operators (os : operators) (next : bundle) : Prop :=
  match os with
  | [] => True
  | (b, o) :: r => literally b "|>" /\ wf_operator o (hd next (yield_operators r)) /\ wf_operators r next
  end.

(* ----- the trees ----- *)
Definition in_parentheses (lp : bundle) (es : items) (rp : bundle) : node := made N_GroupedExprs lp [("exprs", CVec (trees es)); ("rparen", symbol rp)].
Definition kid_side (s : side) : list (string * content) :=
  match s with
  | BothSides => []
  | OneSide k => [("method", keyword k)]
  | OuterSide k o => [("method", CNode (before k (keyword_ o)))]
  end.
Definition kid_grouping (g : grouping) : list (string * content) :=
  match g with
  | NoGrouping => []
  | GroupBy k b es => [("groupby", CNode (made N_GroupByExprs k [("by", keyword b); ("exprs", CVec (trees es))]))]
  end.
(* SELECT DISTINCT AS STRUCT: the words after SELECT *)
Definition kid_words (d : option bundle) (a : option (bundle * bundle)) : list (string * content) :=
  match d, a with
  | None, None => []
  | Some d, None => [("keywords", keyword d)]
  | None, Some (a, s) => [("keywords", CNode (before a (keyword_ s)))]
  | Some d, Some (a, s) => [("keywords", CNode (before d (before a (keyword_ s))))]
  end.
Definition tree_operator (o : operator) : node :=
  match o with
  | Apply k es => made N_BasePipeOperator k [("exprs", CVec (trees es))]
  | Arrange k b es => made N_BasePipeOperator k [("keywords", keyword b); ("exprs", CVec (trees es))]
  | Project k d a es => made N_SelectPipeOperator k (kid_words d a ++ [("exprs", CVec (trees es))])
  | Take k e o => made N_LimitPipeOperator k (("exprs", CVec [tree e]) ::
      match o with Some (o, x) => [("offset", CNode (made N_KeywordWithExpr o [("expr", CNode (tree x))]))] | None => [] end)
  | Aggregate k es g => made N_AggregatePipeOperator k (("exprs", CVec (trees es)) :: kid_grouping g)
  | Unite s k d m es => made N_UnionPipeOperator k (kid_side s ++ ("keywords", keyword d) :: kid_matching m ++ [("exprs", CVec (trees es))])
  | Attach j s c =>
      let exprs := ("exprs", CVec [tree_source U s]) in
      with_condition U c (match j with
        | Joined j => made N_JoinPipeOperator j [exprs]
        | JoinedBy k j => made N_JoinPipeOperator j [("method", keyword k); exprs]
        | JoinedOuter k o j => made N_JoinPipeOperator j [("method", CNode (before k (keyword_ o))); exprs]
        end)
  | Sample k s lp e p rp => made N_TableSamplePipeOperator k [("keywords", keyword s);
      ("group", CNode (made N_TableSampleRatio lp [("expr", CNode (tree e)); ("percent", keyword p); ("rparen", symbol rp)]))]
  | PivotOn k lp es f n i lq vs rq rp a => with_alias a (made N_PivotPipeOperator k [("config", CNode (made N_PivotConfig lp
      [("exprs", CVec (trees es)); ("for", CNode (made N_KeywordWithExpr f [("expr", ident n)]));
       ("in", CNode (made N_KeywordWithGroupedXXX i [("group", CNode (in_parentheses lq vs rq))])); ("rparen", symbol rp)]))])
  | Common w r cs => with_kid "queries" (CVec (tree_ctes U cs)) (with_word "recursive" r (made N_WithPipeOperator w []))
  | Dedup k => keyword_ k
  end.
(* [left]: the tree of what comes before the operators *)
Fixpoint tree_operators (left : node) (os : operators) : node :=
  match os with
  | [] => left
  | (b, o) :: r => tree_operators (made N_PipeStatement b [("left", CNode left); ("right", CNode (tree_operator o))]) r
  end.
End WithUnicode.
