(* The properties C32, C33 and C37 of properties.jsonl: the children of a node as a map, and the
   textual rendering of nodes. The words used are defined in RenderSpec.v. *)
From Verif Require Import Chars Token Cst Core MiniRust Lexer Program Api TreeSpec LexSpec ParserSpec
  RenderSpec RenderProofs RenderTheorems ShapeSound Properties_Lexer Properties_Parser Properties_Tree.
Local Open Scope string_scope.
Local Open Scope list_scope.

(* C33: pushing a child replaces what was under its key and leaves the rest alone *)
Theorem c33_push_node k c n :
  n_token (push_node k c n) = n_token n /\ n_type (push_node k c n) = n_type n /\
  child k (push_node k c n) = Some (CNode c) /\ forall k', k' <> k -> child k' (push_node k c n) = child k' n.
Proof.
  destruct n as [t ty m]. unfold child. cbn [push_node n_token n_type n_children]. split; [reflexivity|]. split; [reflexivity|].
  split; [now rewrite map_get_insert, String.eqb_refl|]. intros k' N. rewrite map_get_insert.
  destruct (String.eqb_spec k' k); [contradiction|reflexivity].
Qed.
Theorem c33_push_node_vec k l n :
  n_token (push_node_vec k l n) = n_token n /\ n_type (push_node_vec k l n) = n_type n /\
  child k (push_node_vec k l n) = Some (CVec l) /\ forall k', k' <> k -> child k' (push_node_vec k l n) = child k' n.
Proof.
  destruct n as [t ty m]. unfold child. cbn [push_node_vec n_token n_type n_children]. split; [reflexivity|]. split; [reflexivity|].
  split; [now rewrite map_get_insert, String.eqb_refl|]. intros k' N. rewrite map_get_insert.
  destruct (String.eqb_spec k' k); [contradiction|reflexivity].
Qed.
(* a node under which nothing was pushed has no children *)
Theorem c33_new t ty k : child k (node_new t ty) = None /\ child k (node_empty ty) = None.
Proof. split; reflexivity. Qed.
Example c33_example : forall a b c, child "x" (push_node "y" a (push_node "x" b (push_node_vec "x" [c] (node_empty N_Type)))) = Some (CNode b).
Proof. reflexivity. Qed.

(* C32: trees with the same contents render the same, in whatever order the maps hold them *)
Theorem c32_order_irrelevant n n' : distinct_keys n -> distinct_keys n' -> same_contents n n' -> to_string n = to_string n'.
Proof. exact (same_contents_render n n'). Qed.
(* returned trees meet the condition *)
Theorem c32_distinct_keys U code ns n : ascii_faithful U -> parses U code (Success ns) -> In n ns -> distinct_keys n.
Proof. intros HU P I. exact (proj1 (parse_keys U HU code ns n P I)). Qed.
Definition two_orders : node * node :=
  let x := leaf N_Identifier 1 1 "x" in let y := leaf N_Identifier 1 5 "y" in
  (push_node "left" x (push_node "right" y (leaf N_BinaryOperator 1 3 "+")),
   push_node "right" y (push_node "left" x (leaf N_BinaryOperator 1 3 "+"))).
Example c32_example : fst two_orders <> snd two_orders /\ same_contents (fst two_orders) (snd two_orders) /\
  to_string (fst two_orders) = s_ "self: + (BinaryOperator)
left:
  self: x (Identifier)
right:
  self: y (Identifier)
" /\ to_string (snd two_orders) = to_string (fst two_orders).
Proof.
  split; [discriminate|]. split; [|split; vm_compute; reflexivity].
  assert (L : forall t ty, same_contents (Node t ty []) (Node t ty [])).
  { intros t ty. constructor; [reflexivity|reflexivity|]. intro k. constructor. }
  constructor; [reflexivity|reflexivity|]. intro k. unfold child, two_orders. cbn [fst snd push_node leaf n_children map_insert map_get].
  cbn [String.eqb Ascii.eqb Bool.eqb map_insert map_get].
  destruct (String.eqb_spec k "left") as [->|_]; [cbn; constructor; apply L|].
  destruct (String.eqb_spec k "right") as [->|_]; constructor; apply L.
Qed.

(* C37: the rendering of returned trees tells them apart, up to the positions of tokens, as long
   as no token contains a line break *)
Theorem c37_faithful U a b ns ns' n n' : ascii_faithful U ->
  parses U a (Success ns) -> parses U b (Success ns') -> In n ns -> In n' ns' ->
  single_lines n -> single_lines n' ->
  (to_string n = to_string n' <-> reads_alike n n').
Proof.
  intros HU P P' I I' S S'. destruct (parse_keys U HU a ns n P I) as (D & K). destruct (parse_keys U HU b ns' n' P' I') as (D' & K').
  split; [now apply render_alike|now apply alike_render].
Qed.
Lemma single_lines_by n : forallb (fun t => negb (existsb (N.eqb 10) (literal t))) (tree_tokens n) = true -> single_lines n.
Proof.
  intros H t I J. rewrite forallb_forall in H. specialize (H t I). apply negb_true_iff in H.
  assert (existsb (N.eqb 10) (literal t) = true) by (apply existsb_exists; exists 10%N; auto). congruence.
Qed.
Example c37_example : exists n, In n sample_trees /\ n_type n = N_SelectStatement /\ single_lines n.
Proof.
  exists (hd (node_empty N_EOF) sample_trees). split; [vm_compute; now left|]. split; [vm_compute; reflexivity|].
  apply single_lines_by. vm_compute. reflexivity.
Qed.
(* a missing token is shown as None: a field named None renders like a field without a name *)
Definition named : str := s_ "select cast(a as struct<None int64>)".
Definition unnamed : str := s_ "select cast(a as struct<int64>)".
Theorem c37_none_refuted : exists ns ns', parses ascii_tables named (Success ns) /\ parses ascii_tables unnamed (Success ns') /\
  map to_string ns = map to_string ns' /\
  List.length (trees_tokens ns) = 11 /\ List.length (trees_tokens ns') = 10.
Proof.
  exists (match parse ascii_tables 60 named with Success ns => ns | _ => [] end), (match parse ascii_tables 60 unnamed with Success ns => ns | _ => [] end).
  split; [apply (parses_by 60); [vm_compute; reflexivity|discriminate]|].
  split; [apply (parses_by 60); [vm_compute; reflexivity|discriminate]|].
  split; [vm_compute; reflexivity|]. split; vm_compute; reflexivity.
Qed.

Definition render_theorems :=
  (c33_push_node, c33_push_node_vec, c33_new, c32_order_irrelevant, c32_distinct_keys, c37_faithful, c37_none_refuted).
Print Assumptions render_theorems.
