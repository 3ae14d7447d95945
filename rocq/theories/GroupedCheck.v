(* A decision procedure for [grouped], used to show that sample texts meet the hypotheses of theorems. *)
From Verif Require Import Chars Token Bundles.
Local Open Scope list_scope.

Definition groups_before (t : token) (bs : list bundle) : bool :=
  match bs with b :: _ => match b_lead b with c :: _ => negb (N.eqb (line c) (line t)) | [] => true end | [] => true end.
Fixpoint grouped_b (bs : list bundle) : bool :=
  match bs with
  | [] => false
  | b :: r => forallb is_comment (b_lead b) && negb (is_comment (b_tok b)) && forallb is_comment (b_trail b) &&
      forallb (fun c => N.eqb (line c) (line (b_tok b))) (b_trail b) && groups_before (b_tok b) r &&
      match r with [] => match b_trail b with [] => true | _ => false end | _ => grouped_b r end
  end.
Lemma comments_b l : forallb is_comment l = true -> comments l.
Proof. intro E. unfold comments. now apply forallb_forall in E || (apply Forall_forall; now apply forallb_forall). Qed.
Lemma grouped_b_sound bs : grouped_b bs = true -> grouped bs.
Proof.
  induction bs as [|[lead t trail] r IH]; cbn [grouped_b b_lead b_tok b_trail]; [discriminate|]. intro E.
  repeat (apply Bool.andb_true_iff in E; destruct E as [E ?]). apply Bool.negb_true_iff in H3.
  destruct r as [|b r].
  - destruct trail; [|discriminate]. constructor; [now apply comments_b|assumption].
  - constructor; try (now apply comments_b); auto.
    + clear - H1. induction trail; cbn [forallb] in H1; [constructor|]. apply Bool.andb_true_iff in H1 as [E1 E2]. constructor; [now apply N.eqb_eq|auto].
    + intros c r' L. cbn [groups_before] in H0. rewrite L in H0. now apply Bool.negb_true_iff, N.eqb_neq in H0.
Qed.
