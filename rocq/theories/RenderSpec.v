(* Specification vocabulary for the textual rendering of nodes (Display, cst.rs:192-245). *)
From Verif Require Import Chars Token Cst TreeSpec.
Local Open Scope string_scope.
Local Open Scope list_scope.

(* Two trees agree: same node types, the same children under the same keys, in whatever order
   the keys are stored, and tokens related by R. *)
Section Agree.
Variable R : option token -> option token -> Prop.
Inductive agree : node -> node -> Prop :=
| agree_intro n n' : R (n_token n) (n_token n') -> n_type n = n_type n' ->
    (forall k, agree_child (child k n) (child k n')) -> agree n n'
with agree_child : option content -> option content -> Prop :=
| agree_absent : agree_child None None
| agree_node c c' : agree c c' -> agree_child (Some (CNode c)) (Some (CNode c'))
| agree_list l l' : agree_nodes l l' -> agree_child (Some (CVec l)) (Some (CVec l'))
with agree_nodes : list node -> list node -> Prop :=
| agree_nil : agree_nodes [] []
| agree_cons n n' l l' : agree n n' -> agree_nodes l l' -> agree_nodes (n :: l) (n' :: l').
End Agree.

(* the same tree, whatever the order in which the hash maps hold their entries *)
Definition same_contents : node -> node -> Prop := agree eq.

(* what is shown of a node's token: its text, and "None" if there is none *)
Definition shown (t : option token) : str := match t with Some t => literal t | None => s_ "None" end.
(* the same tree except for the positions of tokens (and for a missing token, which reads as
   a token with the text None) *)
Definition reads_alike : node -> node -> Prop := agree (fun t t' => shown t = shown t').

(* no key occurs twice in a node: what a hash map guarantees *)
Definition distinct_keys (n : node) : Prop := forall x, within x n -> NoDup (map fst (n_children x)).
(* no token of the tree contains a line break *)
Definition single_lines (n : node) : Prop := forall t, In t (tree_tokens n) -> ~ In 10%N (literal t).
