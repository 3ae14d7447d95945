(* The tokenizer theorems, from the facts about one token. *)
From Verif Require Import Chars Token Core Lexer LexSpec LexFun LexProofs LexGrammar.
From Coq Require Import Sorted.
Local Open Scope string_scope.
Local Open Scope list_scope.

Section WithUnicode.
Context (U : unicode).

Lemma scan_depth d prev c r lit sk rest d' :
  is_whitespace_char c = false ->
  scan U d prev c r = LexOk lit sk rest d' -> d' = depth_step d prev lit.
Proof.
  intros Hws H. destruct (scan_app _ _ _ _ _ _ _ _ _ Hws H) as [E [[l ->] _]].
  assert (Hnot : c <> 60%N -> c <> 62%N -> depth_step d prev (c :: l) = d).
  { intros H1 H2. unfold depth_step. cbn [str_eqb s_]. 
    destruct (N.eqb_spec c (N_of_ascii "<")) as [->|_]; [now elim H1|].
    destruct (N.eqb_spec c (N_of_ascii ">")) as [->|_]; [now elim H2|]. reflexivity. }
  destruct (N.eq_dec c 60) as [->|N60]; [|destruct (N.eq_dec c 62) as [->|N62]].
  - unfold scan in H. cbn [N.eqb Pos.eqb orb] in H.
    destruct (hd_is 60 r); [injection H as <- _ _ <-; reflexivity|].
    destruct (hd_is 61 r); [injection H as <- _ _ <-; reflexivity|].
    destruct (hd_is 62 r); [injection H as <- _ _ <-; reflexivity|].
    destruct prev as [u|]; [|discriminate]. injection H as <- _ _ <-. reflexivity.
  - unfold scan in H. cbn [N.eqb Pos.eqb orb] in H. destruct (N.ltb_spec 0 d).
    + injection H as <- _ _ <-. reflexivity.
    + destruct (hd_is 62 r); [injection H as <- _ _ <-; reflexivity|].
      destruct (hd_is 61 r); [injection H as <- _ _ <-; reflexivity|].
      injection H as <- _ _ <-. cbn. lia.
  - rewrite Hnot by assumption. revert H. unfold scan.
    rewrite (proj2 (N.eqb_neq _ _) N60), (proj2 (N.eqb_neq _ _) N62).
    destruct (N.eqb c 123) eqn:E123; [intros H|].
    { repeat match type of H with (if ?b then _ else _) = _ => destruct b eqn:?; try (apply N.eqb_eq in E123; subst c; discriminate) end.
      now destruct (scan_brace_app _ _ _ _ _ _ _ E123 H) as (_ & _ & -> & _). }
    destruct (N.eqb c 64) eqn:E64; [intros H|].
    { repeat match type of H with (if ?b then _ else _) = _ => destruct b eqn:?; try (apply N.eqb_eq in E64; subst c; discriminate) end.
      now destruct (scan_param_app _ _ _ _ _ _ _ H) as (_ & _ & ->). }
    repeat match goal with
    | |- (if ?b then _ else _) = LexOk _ _ _ _ -> _ => destruct b
    | |- match ?b with _ => _ end = LexOk _ _ _ _ -> _ => destruct b; try discriminate
    | |- (let (_, _) := ?b in _) = LexOk _ _ _ _ -> _ => destruct b
    end; intros H; now inversion H.
Qed.

(* [is_]: the keywords compared against are their own upper case *)
Lemma is_upper s t : ascii_faithful U -> s = "ARRAY" \/ s = "STRUCT" ->
  is_ U s t = str_eqb (upper_literal U t) (s_ s).
Proof.
  intros [_ Hu] Hs. unfold is_. f_equal. destruct Hs as [->| ->]; cbn [s_ to_uppercase flat_map];
  rewrite !Hu by reflexivity; reflexivity.
Qed.

Lemma open_types_step prev n t : ascii_faithful U ->
  open_types U prev n [t] = depth_step n (option_map (upper_literal U) prev) (literal t).
Proof.
  intros HU. cbn [open_types]. unfold opens_type, depth_step.
  destruct (str_eqb (literal t) (s_ "<")) eqn:E1; cbn [andb].
  - destruct prev as [p|]; cbn [option_map].
    + rewrite !is_upper by auto. destruct (_ || _); [reflexivity|].
      apply str_eqb_eq in E1. rewrite E1. reflexivity.
    + apply str_eqb_eq in E1. rewrite E1. reflexivity.
  - reflexivity.
Qed.

Lemma tokenization_white pre w r n prev ts :
  white w -> tokenization U (pre ++ w) r n prev ts -> tokenization U pre (w ++ r) n prev ts.
Proof.
  intros W H. inversion H as [p w' n' v' W'|p w' n' v' t rest ts' W' A L H']; subst.
  - constructor. now apply white_app.
  - rewrite app_assoc. constructor; [now apply white_app|now rewrite app_assoc|exact L|].
    now rewrite <- app_assoc in *.
Qed.

Lemma tokenization_unwhite pre w r n prev ts :
  white w -> tokenization U pre (w ++ r) n prev ts ->
  (forall t, In t ts -> exists c l, literal t = c :: l /\ is_whitespace_char c = false) ->
  tokenization U (pre ++ w) r n prev ts.
Proof.
  intros W H Ht. inversion H as [p w' n' v' W'|p w' n' v' t rest ts' W' A L H']; subst.
  - constructor. now apply Forall_app in W' as [_ W'].
  - destruct (Ht t (or_introl eq_refl)) as (c & l & El & Ec).
    assert (exists v, w' = w ++ v /\ r = v ++ literal t ++ rest) as (v & -> & ->).
    { match goal with E : w' ++ _ = w ++ _ |- _ => rename E into E0 | E : w ++ r = _ |- _ => symmetry in E; rename E into E0 end.
      clear A H H'. revert w' W' E0. clear -W El Ec. induction W as [|x w Hx _ IH]; intros w' W' E.
      - exists w'. auto.
      - destruct W' as [|y w' Hy W'].
        + rewrite El in E. cbn in E. injection E as E _. congruence.
        + cbn in E. injection E as -> E. destruct (IH w' W' E) as (v & -> & ->). exists v. auto. }
    apply Forall_app in W' as [_ W'].
    apply tk_tok; auto.
    + now rewrite <- app_assoc in *.
    + now rewrite <- !app_assoc in *.
Qed.

Context (HU : tables_ok U).

Lemma lex_tokenization n : forall pre r d prev ts,
  lex U n pre r d (option_map (upper_literal U) prev) = Lexed ts -> tokenization U pre r d prev ts.
Proof.
  induction n as [|n IH]; intros pre r d prev ts H; [discriminate|].
  destruct (lex_inv _ _ _ _ _ _ _ H) as [[-> W]|(n' & w & c & r2 & lit & sk & rest & d' & t & ts' & En & -> & W & Hc & Hs & -> & <- & Ha & Hl)].
  - now constructor.
  - injection En as <-. destruct (scan_app _ _ _ _ _ _ _ _ _ Hc Hs) as [E [_ Wk]]. rewrite E.
    constructor; [exact W|now rewrite line_col_pos_after|now apply (scan_sound U HU _ _ _ _ _ _ _ _ Hc Hs)|].
    rewrite open_types_step by apply HU. rewrite <- (scan_depth _ _ _ _ _ _ _ _ Hc Hs).
    apply tokenization_white; [exact Wk|]. apply (IH _ _ _ (Some t)) in Hl. now rewrite <- !app_assoc in *.
Qed.

Lemma lexeme_hd n prev lit post : lexeme U n prev lit post ->
  exists c l, lit = c :: l /\ is_whitespace_char c = false.
Proof.
  intros H. destruct (scan_complete U HU _ _ _ _ H) as (c & r & sk & rest & d' & E & Hc & Hp & Hs).
  destruct (scan_app _ _ _ _ _ _ _ _ _ Hc Hs) as [_ [[l ->] _]]. eauto.
Qed.

Lemma tokenization_hd pre r n prev ts : tokenization U pre r n prev ts ->
  forall t, In t ts -> exists c l, literal t = c :: l /\ is_whitespace_char c = false.
Proof.
  induction 1 as [|pre w n prev t post ts W A L H IH]; intros u Hu; [contradiction|].
  destruct Hu as [<-|Hu]; [now apply lexeme_hd in L|auto].
Qed.

Lemma tokenization_lex n : forall pre r d prev ts, List.length r < n ->
  tokenization U pre r d prev ts -> lex U n pre r d (option_map (upper_literal U) prev) = Lexed ts.
Proof.
  induction n as [|n IH]; intros pre r d prev ts Hn H; [lia|]. cbn [lex].
  inversion H as [p w n' v' W|p w n' v' t post ts' W A L H']; subst.
  - pose proof (span_unique is_whitespace_char r [] W I) as E. rewrite app_nil_r in E. now rewrite E.
  - pose proof (tokenization_hd _ _ _ _ _ H') as Hhd.
    destruct (scan_complete U HU _ _ _ _ L) as (c & r2 & sk & rest & d' & E & Hc & -> & Hs).
    rewrite E. rewrite (span_unique is_whitespace_char w (c :: r2) W Hc). rewrite Hs.
    destruct (scan_app _ _ _ _ _ _ _ _ _ Hc Hs) as [E2 [[l El] Wk]].
    rewrite (scan_depth _ _ _ _ _ _ _ _ Hc Hs).
    assert (Et : t = {| line := fst (pos_after (pre ++ w)); column := snd (pos_after (pre ++ w)); literal := literal t |}).
    { rewrite line_col_pos_after in A. rewrite <- A. now destruct t. }
    rewrite <- Et. rewrite open_types_step in H' by apply HU.
    apply tokenization_unwhite in H'; [|exact Wk|exact Hhd].
    apply IH in H'.
    + cbn [option_map] in H'. rewrite <- !app_assoc in H'. now rewrite H'.
    + rewrite !app_length in Hn. rewrite El in Hn. cbn [List.length] in Hn. lia.
Qed.
End WithUnicode.

Theorem tokenize_grammar U code ts : tables_ok U ->
  tokenize U code = Success ts <->
  exists ts0, ts = ts0 ++ [eof_token] /\ tokenization U [] code 0 None ts0.
Proof.
  intros HU. rewrite tokenize_lex. split.
  - destruct (lex _ _ _ _ _ _) as [ts0|e| |] eqn:E; try discriminate. intros H. injection H as <-.
    exists ts0. split; [reflexivity|]. exact (lex_tokenization U HU _ _ _ _ None _ E).
  - intros (ts0 & -> & H). apply (tokenization_lex U HU (S (List.length code))) in H; [|lia].
    cbn [option_map] in H. now rewrite H.
Qed.

Lemma tokenize_success U code ts : tokenize U code = Success ts ->
  exists ts0, ts = ts0 ++ [eof_token] /\ lex U (S (List.length code)) [] code 0 None = Lexed ts0.
Proof.
  rewrite tokenize_lex. destruct (lex _ _ _ _ _ _) as [ts0|e| |] eqn:E; try discriminate.
  intros H. injection H as <-. eauto.
Qed.

(* ---------- C01, C02 ---------- *)
Theorem tokenize_interleaved U code ts : tokenize U code = Success ts ->
  exists ts0, ts = ts0 ++ [eof_token] /\ interleaved code (map literal ts0).
Proof.
  intros H. apply tokenize_success in H as (ts0 & -> & H). exists ts0. split; [reflexivity|].
  eapply located_interleaved, lex_located, H.
Qed.
Theorem tokenize_located U code ts : tokenize U code = Success ts ->
  exists ts0, ts = ts0 ++ [eof_token] /\ located [] code ts0.
Proof.
  intros H. apply tokenize_success in H as (ts0 & -> & H). exists ts0. split; [reflexivity|].
  eapply lex_located, H.
Qed.

(* ---------- C03 ---------- *)
Lemma lex_literal U n : forall pre r d prev ts, lex U n pre r d prev = Lexed ts ->
  forall t, In t ts -> exists c l, literal t = c :: l /\ is_whitespace_char c = false.
Proof.
  induction n as [|n IH]; intros pre r d prev ts H; [discriminate|].
  destruct (lex_inv _ _ _ _ _ _ _ H) as [[-> W]|(n' & w & c & r2 & lit & sk & rest & d' & t & ts' & En & -> & W & Hc & Hs & -> & <- & Ha & Hl)].
  - contradiction.
  - injection En as <-. destruct (scan_app _ _ _ _ _ _ _ _ _ Hc Hs) as [_ [[l El] _]].
    intros u [<-|Hu]; eauto.
Qed.

Lemma located_sorted pre r ts : located pre r ts ->
  (forall t, In t ts -> literal t <> []) ->
  (forall t, In t ts -> ~ pos_lt (at_ t) (line_col pre)) /\
  StronglySorted (fun t u => pos_lt (at_ t) (at_ u)) ts.
Proof.
  induction 1 as [|pre w t rest ts W A H IH]; intros Hne; [split; [contradiction|constructor]|].
  destruct IH as [IH1 IH2]; [intros u Hu; apply Hne; now right|].
  assert (Ht : literal t <> []) by (apply Hne; now left).
  assert (L1 : pos_lt (line_col (pre ++ w)) (line_col (pre ++ w ++ literal t))).
  { rewrite !line_col_pos_after, app_assoc. now apply pos_after_lt. }
  assert (L2 : ~ pos_lt (line_col (pre ++ w)) (line_col pre)).
  { rewrite !line_col_pos_after. destruct w as [|c w]; [rewrite app_nil_r; apply pos_lt_irrefl|].
    assert (pos_lt (pos_after pre) (pos_after (pre ++ c :: w))) by (apply pos_after_lt; discriminate).
    unfold pos_lt in *. lia. }
  split.
  - intros u [<-|Hu]; [now rewrite A|]. specialize (IH1 u Hu). unfold pos_lt in *. lia.
  - constructor; [exact IH2|]. apply Forall_forall. intros u Hu. specialize (IH1 u Hu). rewrite A.
    unfold pos_lt in *. lia.
Qed.

Theorem tokenize_sorted U code ts : tokenize U code = Success ts ->
  exists ts0, ts = ts0 ++ [eof_token] /\ StronglySorted (fun t u => pos_lt (at_ t) (at_ u)) ts0.
Proof.
  intros H. apply tokenize_success in H as (ts0 & -> & H). exists ts0. split; [reflexivity|].
  pose proof (lex_literal _ _ _ _ _ _ _ H) as Hl. apply lex_located in H.
  apply (located_sorted _ _ _ H). intros t Ht. destruct (Hl t Ht) as (c & l & -> & _). discriminate.
Qed.

(* ---------- C04 ---------- *)
Lemma last_char_snoc a c : last_char (a ++ [c]) = Some c.
Proof. unfold last_char. now rewrite rev_app_distr. Qed.

Lemma last_forall (P : char -> Prop) s c : Forall P s -> last_char s = Some c -> P c.
Proof.
  intros F H. unfold last_char in H. destruct (rev s) as [|x l] eqn:E; [discriminate|]. injection H as ->.
  rewrite Forall_forall in F. apply F. apply in_rev. rewrite E. now left.
Qed.

Lemma word_char_ws U c : tables_ok U -> word_char U c = true -> is_whitespace_char c = false.
Proof.
  intros HU H. destruct (is_whitespace_char c) eqn:E; [|reflexivity]. unfold word_char in H.
  destruct HU as [_ Hw]. rewrite (Hw c E) in H. cbn in H. apply orb_true_iff in H as [H|H].
  - apply digit_ws in H. congruence.
  - apply N.eqb_eq in H as ->. discriminate.
Qed.
Lemma word_last U lit c : tables_ok U -> word U lit -> last_char lit = Some c -> is_whitespace_char c = false.
Proof.
  intros HU Hw Hl. destruct lit as [|x r]; [contradiction|]. destruct Hw as [Hx Hr].
  apply (word_char_ws U c HU). apply (last_forall (fun c => word_char U c = true) (x :: r)); [|exact Hl].
  constructor; [|exact Hr]. unfold word_start in Hx. unfold word_char.
  apply orb_true_iff in Hx as [-> | ->]; rewrite ?orb_true_r; reflexivity.
Qed.

Lemma lexeme_last U n prev lit post c : tables_ok U -> lexeme U n prev lit post ->
  last_char lit = Some c -> is_whitespace_char c = false.
Proof.
  intros HU H Hl.
  destruct H as [lit post Hw Hp|i f e post Hi Hf He Hst H1 H2 H3 H4|q lit post Hq Hlit Hp|q lit post Hq Hlit
    |lit post Hlit|lit w post Hlit Hw Hnw Hp|lit post Hlit|s post Hs Hn|k lit post Hlit Hp|k lit post Hlit|x post Hc
    |k x body post Hc Hk Hb|x post Hws Hd Hst Hsp H46 H45 H47 H124 H60 H62 H61 H33].
  - eapply word_last; eauto.
  - assert (F : Forall (fun x => is_whitespace_char x = false) (i ++ f ++ e)).
    { assert (D : forall s, opt_digits s -> Forall (fun x => is_whitespace_char x = false) s).
      { intros s. apply Forall_impl. apply digit_ws. }
      repeat (apply Forall_app; split); auto.
      - destruct Hf as [-> | (d & Hd & ->)]; [constructor|]. constructor; auto.
      - destruct He as [-> | (x & sg & d & Hx & Hsg & Hd & ->)]; [constructor|]. constructor.
        + destruct Hx as [-> |  ->]; reflexivity.
        + apply Forall_app. split; auto. destruct Hsg as [-> | [-> |  ->]]; repeat constructor. }
    exact (last_forall _ _ _ F Hl).
  - destruct Hlit as (b & _ & ->). change (q :: b ++ [q]) with ((q :: b) ++ [q]) in Hl.
    rewrite last_char_snoc in Hl. injection Hl as <-. destruct Hq as [-> |  ->]; reflexivity.
  - destruct Hlit as (b & _ & ->). 
    replace (q :: q :: q :: b ++ [q; q; q]) with ((q :: q :: q :: b ++ [q; q]) ++ [q]) in Hl
      by (cbn; now rewrite <- app_assoc).
    rewrite last_char_snoc in Hl. injection Hl as <-. destruct Hq as [-> |  ->]; reflexivity.
  - destruct Hlit as (b & _ & ->). change (96%N :: b ++ [96%N]) with ((96%N :: b) ++ [96%N]) in Hl.
    rewrite last_char_snoc in Hl. injection Hl as <-. reflexivity.
  - destruct Hlit as (_ & _ & H). auto.
  - destruct Hlit as (_ & [a ->] & _). change (s_ "*/") with ([42%N] ++ [47%N]) in Hl.
    rewrite app_assoc, last_char_snoc in Hl. injection Hl as <-. reflexivity.
  - cbn in Hs. repeat (destruct Hs as [<-|Hs]; [cbn in Hl; injection Hl as <-; reflexivity|]). contradiction.
  - rewrite (last_char_app (repeat 64%N (S k)) lit) in Hl by (destruct lit; [contradiction|discriminate]).
    eapply word_last; eauto.
  - destruct Hlit as (b & _ & ->). change (96%N :: b ++ [96%N]) with ((96%N :: b) ++ [96%N]) in Hl.
    rewrite app_assoc, last_char_snoc in Hl. injection Hl as <-. reflexivity.
  - cbn in Hl. injection Hl as <-. reflexivity.
  - rewrite (last_char_app (repeat 123%N (S k))) in Hl by discriminate.
    rewrite (repeat_cons k 125%N : repeat 125%N (S k) = repeat 125%N k ++ [125%N]) in Hl || 
    replace (repeat 125%N (S k)) with (repeat 125%N k ++ [125%N]) in Hl by (symmetry; apply (repeat_cons k 125%N)).
    change (x :: body ++ repeat 125%N k ++ [125%N]) with ((x :: body) ++ repeat 125%N k ++ [125%N]) in Hl.
    rewrite app_assoc, last_char_snoc in Hl. injection Hl as <-. reflexivity.
  - cbn in Hl. injection Hl as <-. exact Hws.
Qed.

Lemma tokenization_tokens U pre r n prev ts : tokenization U pre r n prev ts ->
  forall t, In t ts -> exists n' prev' post, lexeme U n' prev' (literal t) post /\
    exists pre' w, at_ t = line_col (pre ++ pre') /\ r = pre' ++ w /\ w <> [] \/ literal t = [].
Proof.
  induction 1 as [|pre w n prev t post ts W A L H IH]; intros u Hu; [contradiction|].
  destruct Hu as [<-|Hu].
  - exists n, prev, post. split; [exact L|]. exists w, (literal t ++ post). destruct (literal t) eqn:E.
    + now right.
    + left. rewrite A. repeat split. discriminate.
  - destruct (IH u Hu) as (n' & p' & post' & L' & pre' & w' & [(A' & -> & Hw)|Hn]).
    + exists n', p', post'. split; [exact L'|]. exists (w ++ literal t ++ pre'), w'. left.
      rewrite A'. repeat split; auto; now rewrite <- !app_assoc.
    + exists n', p', post'. split; [exact L'|]. exists [], []. now right.
Qed.
