(* A minimal regular-expression library: just enough to transcribe the one
   regex of token.rs literally, with its declarative meaning. *)
From Verif Require Import Chars.

Inductive re :=
| REmpty                       (* matches nothing *)
| REps                         (* matches "" *)
| RSet (p : char -> bool)      (* one character of a class *)
| RSeq (a b : re)
| RAlt (a b : re)
| RStar (a : re).

Definition RPlus a := RSeq a (RStar a).
Definition ROpt a := RAlt REps a.

(* Declarative meaning. *)
Inductive re_matches : re -> str -> Prop :=
| m_eps : re_matches REps []
| m_set p c : p c = true -> re_matches (RSet p) [c]
| m_seq a b s1 s2 : re_matches a s1 -> re_matches b s2 -> re_matches (RSeq a b) (s1 ++ s2)
| m_altl a b s : re_matches a s -> re_matches (RAlt a b) s
| m_altr a b s : re_matches b s -> re_matches (RAlt a b) s
| m_star0 a : re_matches (RStar a) []
| m_star1 a s1 s2 : re_matches a s1 -> re_matches (RStar a) s2 -> re_matches (RStar a) (s1 ++ s2).

(* Executable matcher (Brzozowski derivatives). *)
Fixpoint nullable (r : re) : bool :=
  match r with
  | REmpty => false | REps => true | RSet _ => false
  | RSeq a b => nullable a && nullable b
  | RAlt a b => nullable a || nullable b
  | RStar _ => true
  end.

Fixpoint deriv (c : char) (r : re) : re :=
  match r with
  | REmpty => REmpty | REps => REmpty
  | RSet p => if p c then REps else REmpty
  | RSeq a b => if nullable a then RAlt (RSeq (deriv c a) b) (deriv c b) else RSeq (deriv c a) b
  | RAlt a b => RAlt (deriv c a) (deriv c b)
  | RStar a => RSeq (deriv c a) (RStar a)
  end.

Fixpoint re_matchb (r : re) (s : str) : bool :=
  match s with
  | [] => nullable r
  | c :: s' => re_matchb (deriv c r) s'
  end.

Lemma nullable_spec r : nullable r = true <-> re_matches r [].
Proof.
  split.
  - induction r as [| |p|a IHa b IHb|a IHa b IHb|a IHa]; cbn; intro H; try discriminate.
    + constructor.
    + apply andb_true_iff in H as [H1 H2]. apply (m_seq a b [] []); auto.
    + apply orb_true_iff in H as [H|H]; [apply m_altl|apply m_altr]; auto.
    + constructor.
  - remember [] as e eqn:E. intro H. revert E.
    induction H as [|p c Hp|a b s1 s2 H1 IH1 H2 IH2|a b s H IH|a b s H IH|a|a s1 s2 H1 IH1 H2 IH2];
      intro E; cbn; try reflexivity; try discriminate.
    + apply app_eq_nil in E as [-> ->]. rewrite IH1, IH2 by reflexivity. reflexivity.
    + rewrite IH by exact E. reflexivity.
    + rewrite IH by exact E. apply orb_true_r.
Qed.

Lemma star_cons a c s : re_matches (RStar a) (c :: s) ->
  exists s1 s2, s = s1 ++ s2 /\ re_matches a (c :: s1) /\ re_matches (RStar a) s2.
Proof.
  remember (RStar a) as r eqn:Er. remember (c :: s) as t eqn:Et. intro H. revert Er Et.
  induction H as [|p c' Hp|a' b s1 s2 H1 IH1 H2 IH2|a' b s' H IH|a' b s' H IH|a'|a' s1 s2 H1 IH1 H2 IH2];
    intros Er Et; try discriminate.
  injection Er as ->. destruct s1 as [|x s1].
  - cbn in Et. apply IH2; auto.
  - cbn in Et. injection Et as -> <-. exists s1, s2. auto.
Qed.

Lemma deriv_spec r : forall c s, re_matches (deriv c r) s <-> re_matches r (c :: s).
Proof.
  induction r as [| |p|a IHa b IHb|a IHa b IHb|a IHa]; intros c s; cbn.
  - split; intro H; inversion H.
  - split; intro H; inversion H.
  - destruct (p c) eqn:E; split; intro H; inversion H; subst.
    + now constructor.
    + constructor.
    + congruence.
  - assert (Hseq : re_matches (RSeq (deriv c a) b) s -> re_matches (RSeq a b) (c :: s)).
    { intro H. inversion H; subst. change (c :: s1 ++ s2) with ((c :: s1) ++ s2).
      constructor; [now apply IHa|assumption]. }
    assert (Hinv : re_matches (RSeq a b) (c :: s) ->
                   re_matches (RSeq (deriv c a) b) s \/ (re_matches a [] /\ re_matches b (c :: s))).
    { intro H. inversion H as [| |a' b' s1 s2 H1 H2 Ha Hs| | | |]; subst.
      destruct s1 as [|x s1]; cbn in Hs.
      - right. subst. auto.
      - injection Hs as -> <-. left. constructor; [now apply IHa|assumption]. }
    destruct (nullable a) eqn:E; split; intro H.
    + inversion H; subst; [now apply Hseq|]. apply (m_seq a b [] (c :: s)).
      * now apply nullable_spec. * now apply IHb.
    + destruct (Hinv H) as [H1|[_ H1]]; [now apply m_altl|apply m_altr; now apply IHb].
    + now apply Hseq.
    + destruct (Hinv H) as [H1|[H1 _]]; [assumption|]. apply nullable_spec in H1. congruence.
  - split; intro H; inversion H; subst.
    + apply m_altl; now apply IHa. + apply m_altr; now apply IHb.
    + apply m_altl; now apply IHa. + apply m_altr; now apply IHb.
  - split; intro H.
    + inversion H; subst. change (c :: s1 ++ s2) with ((c :: s1) ++ s2).
      apply m_star1; [now apply IHa|assumption].
    + apply star_cons in H as (s1 & s2 & -> & H1 & H2). constructor; [now apply IHa|assumption].
Qed.

Theorem re_matchb_spec r s : re_matchb r s = true <-> re_matches r s.
Proof.
  revert r; induction s as [|c s IH]; intro r; cbn.
  - apply nullable_spec.
  - rewrite IH. apply deriv_spec.
Qed.
