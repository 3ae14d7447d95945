(* Rendering and the trees the parser returns. *)
From Verif Require Import Chars Token Cst Core MiniRust Lexer Program Api Bundles TreeSpec ParserView
  NodeIndex Shape ShapeSound ShapeTable TreeTheorems RenderSpec RenderProofs.
Local Open Scope string_scope.
Local Open Scope list_scope.

Definition plain_keyb (k : string) : bool :=
  match s_ k with [] => false | l => forallb plain_key_char l end.
Lemma plain_keyb_spec k : plain_keyb k = true -> plain_key k.
Proof.
  unfold plain_keyb, plain_key. destruct (s_ k) as [|c l]; [discriminate|]. intro H. split; [discriminate|].
  apply Forall_forall. intros x I. rewrite forallb_forall in H. auto.
Qed.
Lemma schema_keys t : forallb (fun kd => plain_keyb (fst kd)) (en_may (schema t)) = true.
Proof. destruct t; vm_compute; reflexivity. Qed.

Section WithUnicode.
Context (U : unicode) (HU : ascii_faithful U).

Theorem parse_keys code ns n : parses U code (Success ns) -> In n ns -> distinct_keys n /\ plain_keys n.
Proof.
  intros P I. destruct (parse_nodes U HU code ns P) as (bs & stmts & lst & G & T & -> & Il & H).
  assert (C : forall c, NoDup (map fst (n_children (comment_node c))) /\ Forall plain_key (map fst (n_children (comment_node c))))
    by (intro c; split; constructor).
  assert (K : forall x, within x n -> NoDup (map fst (n_children x)) /\ Forall plain_key (map fst (n_children x))).
  { intros x W. apply in_app_iff in I as [I|[<-|[]]].
    - destruct (H n x I W) as [[D N (S1 & _ & _ & _ & S5) _ _]|(p & k & l & b & c & _ & _ & _ & _ & _ & -> & _)]; [|apply C].
      split; [exact N|]. apply Forall_forall. intros k J. apply in_map_iff in J as ([k' c] & <- & J). cbn [fst].
      apply plain_keyb_spec. destruct (comment_key k') eqn:Ck.
      + destruct (comment_key_cases _ Ck) as [->| ->]; reflexivity.
      + destruct (S5 k' c J Ck) as (d & M & _). apply map_get_In in M.
        pose proof (schema_keys (n_type x)) as Sk. rewrite forallb_forall in Sk. exact (Sk _ M).
    - destruct (within_eof _ _ W) as [->|(c & _ & -> & _)]; [|apply C].
      unfold eof_node_with. cbn [n_children]. destruct (b_lead lst); cbn [map fst]; [split; constructor|].
      split; [constructor; [intros []|constructor]|]. constructor; [now apply plain_keyb_spec|constructor]. }
  split; intros x W; now apply K.
Qed.
End WithUnicode.
