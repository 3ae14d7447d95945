(* Specification vocabulary for the parser theorems: relations between trees. *)
From Verif Require Import Chars Token Cst Core Lexer Bundles.
Local Open Scope list_scope.

(* The two keys under which a node's comments are found (types.rs:167-174). *)
Definition comment_key (k : string) : bool :=
  String.eqb k "leading_comments" || String.eqb k "trailing_comments".
Definition code_children (m : list (string * content)) : list (string * content) :=
  filter (fun kc => negb (comment_key (fst kc))) m.

Inductive opt_rel {A} (R : A -> A -> Prop) : option A -> option A -> Prop :=
| opt_none : opt_rel R None None
| opt_some a b : R a b -> opt_rel R (Some a) (Some b).

(* Two trees that are the same apart from comments, with corresponding tokens
   related by R: same node types, same keys, same lists. *)
Inductive same_tree (R : token -> token -> Prop) : node -> node -> Prop :=
| same_node t1 t2 ty m1 m2 :
    opt_rel R t1 t2 ->
    same_children R (code_children m1) (code_children m2) ->
    same_tree R (Node t1 ty m1) (Node t2 ty m2)
with same_children (R : token -> token -> Prop)
  : list (string * content) -> list (string * content) -> Prop :=
| same_children_nil : same_children R [] []
| same_children_node k n1 n2 m1 m2 :
    same_tree R n1 n2 -> same_children R m1 m2 ->
    same_children R ((k, CNode n1) :: m1) ((k, CNode n2) :: m2)
| same_children_vec k l1 l2 m1 m2 :
    same_trees R l1 l2 -> same_children R m1 m2 ->
    same_children R ((k, CVec l1) :: m1) ((k, CVec l2) :: m2)
with same_trees (R : token -> token -> Prop) : list node -> list node -> Prop :=
| same_trees_nil : same_trees R [] []
| same_trees_cons n1 n2 l1 l2 :
    same_tree R n1 n2 -> same_trees R l1 l2 -> same_trees R (n1 :: l1) (n2 :: l2).

Scheme same_tree_mind := Induction for same_tree Sort Prop
  with same_children_mind := Induction for same_children Sort Prop
  with same_trees_mind := Induction for same_trees Sort Prop.
Combined Scheme same_mind from same_tree_mind, same_children_mind, same_trees_mind.

(* Two errors with the same message at related tokens, quoting related tokens. *)
Definition same_error (R : token -> token -> Prop) (e1 e2 : error) : Prop :=
  exists t1 t2 msg d1 d2,
    R t1 t2 /\ opt_rel R d1 d2 /\
    e1 = from_token t1 msg d1 /\ e2 = from_token t2 msg d2.

(* t1 starts exactly where t0 ends *)
Definition touch (t0 t1 : token) : bool :=
  N.eqb (line t0) (line t1) &&
  N.eqb (column t0 + N.of_nat (List.length (literal t0))) (column t1).

(* A token without letters: the texts the parser compares case-sensitively. *)
Definition caseless (s : str) : bool := forallb (fun c => negb (is_letter_ascii c)) s.

(* What the parser can see of a token. *)
Section WithUnicode.
Context (U : unicode).
Record alike (t1 t2 : token) : Prop := {
  alike_upper : upper_literal U t1 = upper_literal U t2;
  alike_identifier : is_identifier U t1 = is_identifier U t2;
  alike_string : is_string t1 = is_string t2;
  alike_numeric : is_numeric t1 = is_numeric t2;
  alike_parameter : is_parameter t1 = is_parameter t2;
  alike_template : is_template t1 = is_template t2;
  alike_literal : forall s, caseless s = true -> (literal t1 = s <-> literal t2 = s);
  alike_first : forall c, is_letter_ascii c = false ->
                (first_char (literal t1) = Some c <-> first_char (literal t2) = Some c);
  alike_last : forall c, is_letter_ascii c = false ->
               (last_char (literal t1) = Some c <-> last_char (literal t2) = Some c);
  alike_empty : literal t1 = [] <-> literal t2 = []
}.
End WithUnicode.

(* For each two consecutive tokens of the list, whether they touch. *)
Fixpoint touches (l : list token) : list bool :=
  match l with
  | a :: r => match r with [] => [] | b :: _ => touch a b :: touches r end
  | [] => []
  end.

(* The tokens at the same place of two lists. *)
Definition paired (l1 l2 : list token) (t1 t2 : token) : Prop :=
  exists i, nth_error l1 i = Some t1 /\ nth_error l2 i = Some t2.

(* Two outcomes of parse that agree up to comments, with corresponding tokens
   related by R. *)
Definition same_outcome (R : token -> token -> Prop) (o1 o2 : outcome (list node)) : Prop :=
  match o1, o2 with
  | Success ns1, Success ns2 => same_trees R ns1 ns2
  | Failure e1, Failure e2 => same_error R e1 e2
  | Panicked, Panicked => True
  | NoFuel, NoFuel => True
  | _, _ => False
  end.
