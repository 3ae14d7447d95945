(* The parser's functions pass the shape checker. *)
From Verif Require Import Chars Token Cst Core MiniRust Program AbsInt NodeIndex Shape ShapeSound ShapeTable.
Local Open Scope string_scope.
Local Open Scope list_scope.
Local Notation length := List.length.

Definition masks (l : list node_type) : N := fold_left (fun m t => N.lor m (type_mask t)) l 0%N.
(* The children that can be overwritten by a second child of the same key:
   - a type's [NOT] ENFORCED, read after PRIMARY KEY and again after REFERENCES (parser.rs:1505-1520),
   - the semicolon of a statement inside another statement. *)
Definition rules : list rule := [
  Rule (masks [N_Type]) "enforced" (masks [N_Keyword; N_KeywordSequence]) ["NOT"; "ENFORCED"];
  Rule (masks [N_MergeStatement; N_FromStatement; N_PipeStatement]) "semicolon" (masks [N_Symbol]) [";"]].

Lemma program_shapes : all (fun f => all (fun c => check_body schema rules table c (prog f)) (table f)) all_fns = true.
Proof. vm_compute. reflexivity. Qed.
Lemma all_fns_complete f : In f all_fns.
Proof. destruct f; cbn; tauto. Qed.
Lemma program_shape f c : In c (table f) -> check_body schema rules table c (prog f) = true.
Proof.
  intro I. pose proof program_shapes as H. rewrite all_spec in H. specialize (H f (all_fns_complete f)). rewrite all_spec in H. auto.
Qed.

