(* Specification vocabulary for operator precedence: what it means for the operators of a
   tree to be grouped by their precedence. *)
From Verif Require Import Chars Token Cst.
Local Open Scope string_scope.
Local Open Scope list_scope.

Section WithUnicode.
Context (U : unicode).

(* The levels of
   https://cloud.google.com/bigquery/docs/reference/standard-sql/operators#operator_precedence
   from the tightest, 1, to the loosest, 12, for the operators written between two operands.
   The arrow of a named argument, which is not in that list, is looser than all of them. *)
Definition binary_levels : list (N * list string) :=
  [(3%N, ["*"; "/"; "||"]); (4%N, ["+"; "-"]); (5%N, ["<<"; ">>"]); (6%N, ["&"]); (7%N, ["^"]);
   (8%N, ["|"]); (9%N, ["="; "<"; ">"; "<="; ">="; "!="; "<>"; "LIKE"; "IS"]);
   (11%N, ["AND"]); (12%N, ["OR"]); (100%N, ["=>"])].
(* those written before their operand; other words that the parser makes a UnaryOperator,
   such as DATE in DATE '2000-01-01', are parts of a literal or of a name *)
Definition prefix_levels : list (N * list string) := [(2%N, ["-"; "+"; "~"]); (10%N, ["NOT"])].

Fixpoint find_level (w : str) (l : list (N * list string)) : option N :=
  match l with
  | [] => None
  | (q, ws) :: l' => if existsb (fun x => str_eqb w (s_ x)) ws then Some q else find_level w l'
  end.
Definition token_level (levels : list (N * list string)) (n : node) : option N :=
  match n_token n with Some t => find_level (upper_literal U t) levels | None => None end.

(* An operator with an operand on its left: its level, and the key of that operand. A call
   and a subscript are at level 1. So is field access in the documentation; this parser
   puts it at 2. *)
Definition left_operand (n : node) : option (N * string) :=
  match n_type n with
  | N_BinaryOperator => option_map (fun q => (q, "left")) (token_level binary_levels n)
  | N_InOperator | N_BetweenOperator | N_IsDistinctFromOperator => Some (9%N, "left")
  | N_CallingFunction => Some (1%N, "func")
  | N_AccessOperator => Some (1%N, "left")
  | N_DotOperator | N_FunctionChain => Some (2%N, "left")
  | _ => None
  end.
(* An operator with operands on its right: its level, and their keys, the last of which is
   where the operator ends. *)
Definition right_operands (n : node) : option (N * list string) :=
  match n_type n with
  | N_BinaryOperator => option_map (fun q => (q, ["right"])) (token_level binary_levels n)
  | N_UnaryOperator => option_map (fun q => (q, ["right"])) (token_level prefix_levels n)
  | N_IsDistinctFromOperator => Some (9%N, ["right"])
  | N_BetweenOperator => Some (9%N, ["right_min"; "right_max"])
  | _ => None
  end.
Definition last_operand (n : node) : option (N * string) :=
  match right_operands n with Some (q, ks) => Some (q, last ks "") | None => None end.

(* The expression ends with ASC, DESC or NULLS FIRST/LAST, after which no operator is
   expected. *)
Inductive suffixed : node -> Prop :=
| suffixed_here n k c : In k ["order"; "null_order"] -> child k n = Some c -> suffixed n
| suffixed_last n q k r : last_operand n = Some (q, k) -> child k n = Some (CNode r) -> suffixed r -> suffixed n.

(* The operators that end where [n] ends are at level [q] or tighter. *)
Inductive ends_by (q : N) : node -> Prop :=
| ends_none n : last_operand n = None -> ends_by q n
| ends_last n p k r : last_operand n = Some (p, k) -> (p <= q)%N -> child k n = Some (CNode r) -> ends_by q r ->
    ends_by q n.

(* What precedence demands of one node: on the left, an operand whose operators bind at
   least as tightly; on the right, one that is not itself an operator, with a left operand,
   that binds as loosely or more loosely. *)
Record well_grouped (n : node) : Prop := {
  grouped_left q k l : left_operand n = Some (q, k) -> child k n = Some (CNode l) -> suffixed l \/ ends_by q l;
  grouped_right q ks k r : right_operands n = Some (q, ks) -> In k ks -> child k n = Some (CNode r) ->
    forall q' k', left_operand r = Some (q', k') -> (q' < q)%N
}.
End WithUnicode.
