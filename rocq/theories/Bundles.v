(* Specification vocabulary for the parser theorems: a token list as a sequence of
   tokens that are not comments, each with the comments that belong to it. *)
From Verif Require Import Chars Token Cst.
Local Open Scope list_scope.

(* A token with the comments attached to it: those before it and those after it. *)
Record bundle := Bundle { b_lead : list token; b_tok : token; b_trail : list token }.

Definition flat (b : bundle) : list token := b_lead b ++ b_tok b :: b_trail b.
Definition flats (bs : list bundle) : list token := List.concat (map flat bs).

Definition comments (l : list token) : Prop := Forall (fun c => is_comment c = true) l.

(* The grouping: a comment belongs to the token before it if it starts on that
   token's line and only such comments lie between them, and to the next token
   otherwise. The last token has nothing after it. *)
Inductive grouped : list bundle -> Prop :=
| grouped_last lead t :
    comments lead -> is_comment t = false -> grouped [Bundle lead t []]
| grouped_cons lead t trail b bs :
    comments lead -> is_comment t = false -> comments trail ->
    Forall (fun c => line c = line t) trail ->
    (forall c r, b_lead b = c :: r -> line c <> line t) ->
    grouped (b :: bs) ->
    grouped (Bundle lead t trail :: b :: bs).

(* The tokens of a list that are not comments. *)
Definition code_tokens (ts : list token) : list token := filter (fun t => negb (is_comment t)) ts.

Lemma comments_filter l : comments l -> code_tokens l = [].
Proof. induction 1; [reflexivity|]. unfold code_tokens. cbn [filter]. rewrite H. exact IHForall. Qed.

Lemma code_tokens_app a b : code_tokens (a ++ b) = code_tokens a ++ code_tokens b.
Proof. apply filter_app. Qed.

Lemma flats_cons b bs : flats (b :: bs) = flat b ++ flats bs.
Proof. reflexivity. Qed.

Lemma grouped_code_tokens bs : grouped bs -> code_tokens (flats bs) = map b_tok bs.
Proof.
  induction 1; rewrite flats_cons; unfold flat; cbn [b_lead b_tok b_trail map].
  - unfold flats. cbn. rewrite app_nil_r, code_tokens_app, comments_filter by assumption.
    cbn [app]. unfold code_tokens. cbn [filter]. rewrite H0. reflexivity.
  - rewrite !code_tokens_app, (comments_filter lead) by assumption. cbn [app].
    change (t :: trail) with ([t] ++ trail).
    rewrite code_tokens_app, (comments_filter trail) by assumption.
    unfold code_tokens at 1. cbn [filter]. rewrite H0. cbn [negb app].
    f_equal. exact IHgrouped.
Qed.

(* Every token list that ends with a token that is not a comment can be grouped. *)
Lemma group_comment c bs b0 bs0 :
  bs = b0 :: bs0 -> is_comment c = true -> grouped bs ->
  grouped (Bundle (c :: b_lead b0) (b_tok b0) (b_trail b0) :: bs0).
Proof.
  intros -> Hc H. inversion H; subst; cbn [b_lead b_tok b_trail].
  - constructor; [constructor|]; assumption.
  - constructor; try assumption. constructor; assumption.
Qed.

(* [take_lead l t]: move the longest prefix of comments on line of t *)
Fixpoint span_line (t : token) (l : list token) : list token * list token :=
  match l with
  | [] => ([], [])
  | c :: r => if N.eqb (line c) (line t) then let (a, b) := span_line t r in (c :: a, b) else ([], l)
  end.

Lemma span_line_spec t l a b : span_line t l = (a, b) ->
  l = a ++ b /\ Forall (fun c => line c = line t) a /\ (forall c r, b = c :: r -> line c <> line t).
Proof.
  revert a b. induction l as [|c l IH]; cbn [span_line]; intros a b.
  - intros [= <- <-]. repeat split; [constructor|discriminate].
  - destruct (N.eqb_spec (line c) (line t)) as [E|E].
    + destruct (span_line t l) as [a' b'] eqn:E'. intros [= <- <-].
      destruct (IH _ _ eq_refl) as (-> & Hf & Hr).
      repeat split; [constructor|]; assumption.
    + intros [= <- <-]. repeat split; [constructor|]. intros ? ? [= <- <-]. exact E.
Qed.

Lemma grouped_exists ts t : is_comment t = false ->
  exists bs, grouped bs /\ flats bs = ts ++ [t].
Proof.
  intro Ht. induction ts as [|x ts (bs & Hg & Hf)].
  - exists [Bundle [] t []]. split; [constructor; [constructor|assumption]|reflexivity].
  - destruct (is_comment x) eqn:Hx.
    + destruct bs as [|b0 bs0]; [inversion Hg|].
      exists (Bundle (x :: b_lead b0) (b_tok b0) (b_trail b0) :: bs0). split.
      * eapply group_comment; eauto.
      * rewrite <- app_comm_cons, <- Hf. reflexivity.
    + destruct bs as [|b0 bs0]; [inversion Hg|].
      destruct (span_line x (b_lead b0)) as [a b] eqn:E.
      destruct (span_line_spec _ _ _ _ E) as (El & Ha & Hb).
      exists (Bundle [] x a :: Bundle b (b_tok b0) (b_trail b0) :: bs0). split.
      * assert (Hc : comments (a ++ b)) by (rewrite <- El; inversion Hg; assumption).
        apply Forall_app in Hc. destruct Hc as [Hca Hcb].
        constructor; try assumption; [constructor|].
        inversion Hg; subst; cbn [b_lead b_tok b_trail]; constructor; assumption.
      * rewrite <- app_comm_cons, <- Hf. rewrite !flats_cons. unfold flat.
        cbn [b_lead b_tok b_trail app]. rewrite El, <- !app_assoc. reflexivity.
Qed.

(* ... in only one way. *)
Lemma comments_app_inj l1 t1 r1 l2 t2 r2 :
  comments l1 -> comments l2 -> is_comment t1 = false -> is_comment t2 = false ->
  l1 ++ t1 :: r1 = l2 ++ t2 :: r2 -> l1 = l2 /\ t1 = t2 /\ r1 = r2.
Proof.
  intros H1. revert l2. induction H1 as [|x l1 Hx H1 IH]; intros l2 H2 Ht1 Ht2 E.
  - destruct H2 as [|y l2 Hy H2]; cbn in E; injection E as E1 E2.
    + auto.
    + subst. congruence.
  - destruct H2 as [|y l2 Hy H2]; cbn in E; injection E as E1 E2.
    + subst. congruence.
    + subst. destruct (IH _ H2 Ht1 Ht2 E2) as (-> & -> & ->). auto.
Qed.

Lemma grouped_head_comments b bs : grouped (b :: bs) ->
  comments (b_lead b) /\ is_comment (b_tok b) = false /\ comments (b_trail b).
Proof. inversion 1; subst; cbn; repeat split; try assumption; constructor. Qed.

Lemma grouped_unique bs1 bs2 : grouped bs1 -> grouped bs2 -> flats bs1 = flats bs2 -> bs1 = bs2.
Proof.
  intro H1. revert bs2. induction H1 as [l1 t1 Hl1 Ht1 | l1 t1 tr1 b1 bs1 Hl1 Ht1 Hc1 Hs1 Hn1 H1 IH];
    intros bs2 H2 E.
  - destruct H2 as [l2 t2 Hl2 Ht2 | l2 t2 tr2 b2 bs2 Hl2 Ht2 Hc2 Hs2 Hn2 H2].
    + unfold flats, flat in E. cbn in E. rewrite !app_nil_r in E.
      apply comments_app_inj in E; auto. destruct E as (-> & -> & _). reflexivity.
    + exfalso. apply (f_equal code_tokens) in E. rewrite !grouped_code_tokens in E.
      * discriminate E.
      * constructor; assumption.
      * constructor; assumption.
  - destruct H2 as [l2 t2 Hl2 Ht2 | l2 t2 tr2 b2 bs2 Hl2 Ht2 Hc2 Hs2 Hn2 H2].
    + exfalso. apply (f_equal code_tokens) in E. rewrite !grouped_code_tokens in E.
      * discriminate E.
      * constructor; assumption.
      * constructor; assumption.
    + rewrite !(flats_cons (Bundle _ _ _)) in E. unfold flat in E.
      cbn [b_lead b_tok b_trail] in E. rewrite <- !app_assoc, <- !app_comm_cons in E.
      apply comments_app_inj in E; auto. destruct E as (-> & -> & E).
      assert (T : tr1 = tr2 /\ flats (b1 :: bs1) = flats (b2 :: bs2)).
      { destruct (grouped_head_comments _ _ H1) as (Ha1 & Hb1 & _).
        destruct (grouped_head_comments _ _ H2) as (Ha2 & Hb2 & _).
        clear IH. revert tr2 Hc2 Hs2 E.
        induction Hs1 as [|x tr1 Hx Hs1 IHs]; intros tr2 Hc2 Hs2 E.
        - destruct Hs2 as [|y tr2 Hy Hs2]; [auto|]. exfalso.
          rewrite flats_cons in E. unfold flat in E.
          cbn [app] in E. destruct (b_lead b1) as [|z r] eqn:Ez.
          + cbn in E. injection E as E1 E2. inversion Hc2; subst. congruence.
          + cbn in E. injection E as E1 E2. subst. eapply Hn1; eauto.
        - destruct Hs2 as [|y tr2 Hy Hs2].
          + exfalso. rewrite (flats_cons b2) in E. unfold flat in E.
            destruct (b_lead b2) as [|z r] eqn:Ez.
            * cbn in E. injection E as E1 E2. inversion Hc1; subst. congruence.
            * cbn in E. injection E as E1 E2. subst. eapply Hn2; eauto.
          + cbn [app] in E. injection E as -> E. inversion Hc1; subst. inversion Hc2; subst.
            destruct (IHs H4 tr2 H6 Hs2 E) as [-> ->]. auto. }
      destruct T as [-> T]. rewrite (IH _ H2 T). reflexivity.
Qed.
