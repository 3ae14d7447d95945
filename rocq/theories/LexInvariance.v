(* Tokenizing does not depend on the amount of white space (C15) nor on letter case (C16). *)
From Verif Require Import Chars Token Core Lexer LexSpec LexFun LexProofs LexGrammar LexTheorems LexProps.
Local Open Scope string_scope.
Local Open Scope list_scope.

(* ---------- C15 ---------- *)
(* the texts after a token start alike: with the same character, or with white space or not at all *)
Definition blank (s : str) : bool := match s with c :: _ => is_whitespace_char c | [] => true end.
Definition same_follow (a b : str) : Prop :=
  (exists c a' b', a = c :: a' /\ b = c :: b') \/ (blank a = true /\ blank b = true).

Lemma not_followed_same p a b : (forall c, is_whitespace_char c = true -> p c = false) ->
  same_follow a b -> not_followed p a -> not_followed p b.
Proof.
  intros Hp [(c & a' & b' & -> & ->)|[_ Hb]] H; [exact H|].
  destruct b as [|c b]; [exact I|]. cbn in *. auto.
Qed.

Lemma char_ws l c : forallb (fun x => negb (is_whitespace_char x)) l = true ->
  is_whitespace_char c = true -> is_char l c = false.
Proof.
  intros H Hc. unfold is_char. induction l as [|x l IH]; [reflexivity|]. cbn in *.
  apply andb_true_iff in H as [H1 H2]. rewrite IH by exact H2. rewrite orb_false_r.
  destruct (N.eqb_spec c x) as [->|]; [now rewrite Hc in H1|reflexivity].
Qed.

Section WithUnicode.
Context (U : unicode) (HU : tables_ok U).

Lemma lexeme_follow n prev lit post post' :
  lexeme U n prev lit post -> same_follow post post' -> is_line_comment lit = false ->
  lexeme U n prev lit post'.
Proof.
  intros H S Hl.
  assert (NF : forall p, (forall c, is_whitespace_char c = true -> p c = false) ->
    not_followed p post -> not_followed p post') by (intros; eapply not_followed_same; eauto).
  assert (ND : not_followed is_digit_char post -> not_followed is_digit_char post').
  { apply NF. intros c Hc. destruct (is_digit_char c) eqn:E; [|reflexivity]. apply digit_ws in E. congruence. }
  assert (NW : not_followed (word_char U) post -> not_followed (word_char U) post').
  { apply NF. intros c Hc. destruct (word_char U c) eqn:E; [|reflexivity]. apply word_char_ws in E; [congruence|exact HU]. }
  assert (NC : forall l, forallb (fun x => negb (is_whitespace_char x)) l = true ->
     not_followed (is_char l) post -> not_followed (is_char l) post').
  { intros l Hl'. apply NF. intros c. now apply char_ws. }
  destruct H as [lit post Hw Hp'|i f e post Hi Hf He Hst H1 H2 H3 H4|q lit post Hq Hlit Hp'|q lit post Hq Hlit
    |lit post Hlit|lit w post Hlit Hw Hnw Hp'|lit post Hlit|s post Hs Hn|k lit post Hlit Hp'|k lit post Hlit|x post Hx
    |k x body post Hx Hk Hb|x post Hws Hd Hst Hsp H46 H45 H47 H124 H60 H62 H61 H33].
  - apply lx_word; auto.
  - apply lx_number; auto.
  - apply lx_quoted with q; auto. intros E. apply NC; auto. destruct Hq as [->| ->]; reflexivity.
  - now apply lx_triple with q.
  - now apply lx_back.
  - destruct Hlit as [[[r ->]|[r ->]] _]; discriminate.
  - now apply lx_block.
  - now apply lx_op.
  - apply lx_param; auto.
  - now apply lx_param_quoted.
  - destruct S as [(c & a' & b' & E & ->)|[Hb _]].
    + injection E as <- _. now apply lx_open_brace.
    + cbn in Hb. exfalso. apply orb_true_iff in Hx as [Hx|Hx].
      * apply digit_ws in Hx. congruence.
      * rewrite char_ws in Hx; [discriminate|reflexivity|exact Hb].
  - now apply lx_template.
  - apply lx_single; auto. intros Hc. destruct (H60 Hc). auto.
Qed.

Lemma is_line_comment_spec lit : is_line_comment lit = true ->
  (exists l, lit = 35%N :: l) \/ (exists l, lit = 45%N :: 45%N :: l).
Proof.
  destruct lit as [|c lit]; cbn; [discriminate|]. intros H.
  destruct (N.eq_dec c 35) as [->|N1]; [left; eauto|]. destruct (N.eq_dec c 45) as [->|N2].
  - destruct lit as [|c2 lit]; [discriminate|]. destruct (N.eq_dec c2 45) as [->|N3]; [right; eauto|].
    exfalso. revert H. clear -N3.
    destruct c2 as [|p]; [discriminate|]. do 6 (destruct p as [p|p|]; try discriminate). congruence.
  - exfalso. revert H. clear -N1 N2. destruct c as [|p]; [discriminate|].
    do 6 (destruct p as [p|p|]; try discriminate); congruence.
Qed.

Lemma lexeme_line n prev lit post : lexeme U n prev lit post -> is_line_comment lit = true -> line_comment lit.
Proof.
  intros H Hl. apply is_line_comment_spec in Hl as [[l ->]|[l ->]].
  - destruct (lexeme_start U HU _ _ _ _ _ H) as [[? _]|[[? _]|[_ ?]]]; try lia. assumption.
  - eapply lexeme_dash; eauto.
Qed.

(* a line comment may be followed by any white space that starts a new line *)
Lemma line_newline n prev lit w rest : line_comment lit -> white w ->
  (In newline w \/ rest = []) -> lexeme U n prev lit (w ++ rest).
Proof.
  intros Hl Hw Hn.
  assert (exists a b, w = a ++ b /\ ~ In newline a /\ (exists b', b = newline :: b' \/ b = [] /\ rest = [])) as (a & b & -> & Ha & b' & Hb).
  { destruct (in_dec N.eq_dec newline w) as [Hi|Hi].
    - clear -Hi. induction w as [|c w IH]; [contradiction|]. destruct (N.eq_dec c newline) as [->|Nc].
      + exists [], (newline :: w). repeat split; auto. exists w. now left.
      + destruct Hi as [Hi|Hi]; [congruence|]. destruct (IH Hi) as (a & b & -> & Ha & Hb).
        exists (c :: a), b. repeat split; auto. intros [E|E]; auto.
    - destruct Hn as [Hn|Hn]; [contradiction|]. exists w, []. rewrite app_nil_r. repeat split; auto.
      exists []. now right. }
  rewrite <- app_assoc. apply Forall_app in Hw as [Hw _].
  apply lx_line; auto. destruct Hb as [->|[-> ->]]; reflexivity || exact I.
Qed.

Lemma white_split w1 lit r1 w2 r2 : white w1 -> white w2 ->
  (exists c l, lit = c :: l /\ is_whitespace_char c = false) ->
  w1 ++ lit ++ r1 = w2 ++ lit ++ r2 -> w1 = w2 /\ r1 = r2.
Proof.
  intros W1 W2 (c & l & -> & Hc). revert w2 W2. induction W1 as [|x w1 Hx _ IH]; intros w2 W2 E.
  - destruct W2 as [|y w2 Hy _]; [split; [reflexivity|]; cbn in E; injection E as E; now apply app_inv_head in E|].
    cbn in E. injection E as E _. congruence.
  - destruct W2 as [|y w2 Hy W2]; cbn in E.
    + injection E as E _. congruence.
    + injection E as -> E. destruct (IH w2 W2 E) as [-> ->]. auto.
Qed.

Lemma blank_white w r : white w -> w <> [] -> blank (w ++ r) = true.
Proof. intros [|c w' Hc _] H; [congruence|exact Hc]. Qed.
Lemma blank_white_nil w : white w -> blank w = true.
Proof. intros [|c w' Hc _]; [reflexivity|exact Hc]. Qed.

Lemma relaid_forget lit a b lits : relaid_after lit a b lits -> relaid a b lits.
Proof. intros [l w w' W W'|l w w' lit2 a' b' lits' W W' _ _ R]; now constructor. Qed.

Lemma tokenization_relaid pre a n prev ts b :
  tokenization U pre a n prev ts -> relaid a b (map literal ts) ->
  forall pre' prev', kind_of U prev = kind_of U prev' ->
  exists ts', map literal ts' = map literal ts /\ tokenization U pre' b n prev' ts'.
Proof.
  intros H. revert b.
  induction H as [pre w n prev W|pre w n prev t post ts W A L H IH]; intros b R pre' prev' Hk.
  - inversion R; subst. exists []. split; [reflexivity|]. now constructor.
  - cbn [map] in R. inversion R as [|w1 w2 lit2 a1 b1 lits W1 W2 R' E2 E3 E4]; subst.
    pose proof (lexeme_hd U HU _ _ _ _ L) as Hhd.
    destruct (white_split _ _ _ _ _ W1 W Hhd E2) as [-> ->].
    set (t' := {| line := fst (line_col (pre' ++ w2)); column := snd (line_col (pre' ++ w2)); literal := literal t |}).
    destruct (IH _ (relaid_forget _ _ _ _ R') (pre' ++ w2 ++ literal t) (Some t')) as (ts' & E & T); [reflexivity|].
    exists (t' :: ts'). split; [cbn; now rewrite E|].
    change (literal t) with (literal t') at 1.
    constructor; [exact W2|cbn; symmetry; apply surjective_pairing| |].
    + cbn [literal t']. apply (lexeme_prev U n prev); [exact Hk|].
      destruct (is_line_comment (literal t)) eqn:El.
      * pose proof (lexeme_line _ _ _ _ L El) as Lc.
        inversion R' as [l1 v v' V V' X1 X2 X3 X4|l1 v v' lit3 a2 b2 lits2 V V' Hv Hn' R2 X1 X2 X3 X4]; subst.
        -- rewrite <- (app_nil_r b1). apply line_newline; auto.
        -- destruct (Hn' El). apply line_newline; auto.
      * apply (lexeme_follow _ _ _ _ _ L); [|exact El].
        inversion R' as [l1 v v' V V' X1 X2 X3 X4|l1 v v' lit3 a2 b2 lits2 V V' Hv Hn' R2 X1 X2 X3 X4]; subst.
        -- right. split; now apply blank_white_nil.
        -- destruct v as [|x v].
           ++ rewrite (proj1 Hv eq_refl). left. destruct ts as [|u ts]; [discriminate|].
              cbn in X4. injection X4 as -> _.
              destruct (tokenization_hd U HU _ _ _ _ _ H u (or_introl eq_refl)) as (c & l & -> & _).
              cbn. eauto.
           ++ right. split; [now apply blank_white|]. apply blank_white; [exact V'|]. intros ->. discriminate (proj2 Hv eq_refl).
    + replace (open_types U prev' n [t']) with (open_types U prev n [t]); [exact T|].
      cbn [open_types]. rewrite !opens_type_kind, Hk. reflexivity.
Qed.
End WithUnicode.

Theorem tokenize_relaid U a b ts : tables_ok U ->
  tokenize U a = Success (ts ++ [eof_token]) -> relaid a b (map literal ts) ->
  exists ts', tokenize U b = Success (ts' ++ [eof_token]) /\ map literal ts' = map literal ts.
Proof.
  intros HU H R. apply tokenize_grammar in H as (ts0 & E & G); [|exact HU]. apply app_inj_tail in E as [<- _].
  destruct (tokenization_relaid U HU _ _ _ _ _ _ G R [] None eq_refl) as (ts' & E & T).
  exists ts'. split; [|exact E]. apply tokenize_grammar; [exact HU|]. eauto.
Qed.

(* ---------- C16 ---------- *)
Notation up := upper_ascii.
Definition ups : str -> str := map upper_ascii.

Lemma up_cases c : (up c = c /\ is_lower_ascii c = false) \/ (97 <= c <= 122 /\ up c = c - 32)%N.
Proof.
  unfold upper_ascii. destruct (is_lower_ascii c) eqn:E; [right|left; auto].
  apply in_range_true in E. auto.
Qed.
Lemma up_eqb k c : is_letter_ascii k = false -> N.eqb (up c) k = N.eqb c k.
Proof.
  intros Hk. unfold is_letter_ascii in Hk. apply orb_false_iff in Hk as [H1 H2].
  apply in_range_false in H1, H2. destruct (up_cases c) as [[-> _]|[H ->]]; [reflexivity|].
  destruct (N.eqb_spec (c - 32) k), (N.eqb_spec c k); lia.
Qed.
Lemma up_in_range lo hi c : (hi < 65 \/ 122 < lo)%N -> in_range lo hi (up c) = in_range lo hi c.
Proof.
  intros H. destruct (up_cases c) as [[-> _]|[H1 ->]]; [reflexivity|].
  destruct (in_range lo hi c) eqn:E, (in_range lo hi (c - 32)) eqn:E2; try reflexivity;
  rewrite ?in_range_true, ?in_range_false in *; lia.
Qed.
Lemma up_digit c : is_digit_char (up c) = is_digit_char c.
Proof. apply up_in_range. lia. Qed.
Lemma up_ws c : is_whitespace_char (up c) = is_whitespace_char c.
Proof.
  unfold is_whitespace_char. rewrite !up_in_range by lia. now rewrite !up_eqb by reflexivity.
Qed.
Lemma up_e c : N.eqb (up c) 69 || N.eqb (up c) 101 = N.eqb c 69 || N.eqb c 101.
Proof.
  destruct (up_cases c) as [[-> _]|[H ->]]; [reflexivity|].
  destruct (N.eqb_spec (c - 32) 69), (N.eqb_spec (c - 32) 101), (N.eqb_spec c 69), (N.eqb_spec c 101); try reflexivity; lia.
Qed.

Lemma same_case_up a b : same_case a b <-> up a = up b.
Proof.
  split.
  - intros [->|(_ & _ & E)]; auto.
  - intros E. destruct (N.eq_dec a b) as [->|N]; [now left|]. right.
    assert (H : (is_letter_ascii a = true /\ is_letter_ascii b = true)).
    { unfold is_letter_ascii, is_upper_ascii. unfold upper_ascii in E.
      destruct (is_lower_ascii a) eqn:Ea, (is_lower_ascii b) eqn:Eb; cbn [orb]; 
      rewrite ?in_range_true; unfold is_lower_ascii in *; rewrite ?in_range_true, ?in_range_false in *; lia. }
    destruct H. auto.
Qed.
Lemma recased_ups a b : recased a b <-> ups a = ups b.
Proof.
  unfold recased. split.
  - induction 1 as [|x y a b H _ IH]; [reflexivity|]. cbn. f_equal; [now apply same_case_up|exact IH].
  - revert b. induction a as [|x a IH]; intros [|y b] E; try discriminate; constructor.
    + apply same_case_up. now injection E.
    + apply IH. now injection E.
Qed.

Lemma span_up p r : (forall c, p (up c) = p c) ->
  span p (ups r) = (ups (fst (span p r)), ups (snd (span p r))).
Proof.
  intros Hp. induction r as [|c r IH]; [reflexivity|]. cbn [ups map span]. rewrite Hp. destruct (p c); [|reflexivity].
  fold (ups r). rewrite IH. now destruct (span p r).
Qed.
Definition ups2 (x : str * str) : str * str := (ups (fst x), ups (snd x)).
Lemma hd_is_up k r : is_letter_ascii k = false -> hd_is k (ups r) = hd_is k r.
Proof. intros H. destruct r as [|c r]; [reflexivity|]. now apply up_eqb. Qed.
Lemma hd_digit_up r : hd_digit (ups r) = hd_digit r.
Proof. destruct r as [|c r]; [reflexivity|]. apply up_digit. Qed.

Lemma to_star_slash_up r : to_star_slash (ups r) = option_map ups2 (to_star_slash r).
Proof.
  induction r as [|c r IH]; [reflexivity|]. cbn [ups map to_star_slash]. fold (ups r).
  rewrite up_eqb, hd_is_up by reflexivity. destruct (N.eqb c 42 && hd_is 47 r); [reflexivity|].
  rewrite IH. now destruct (to_star_slash r) as [[a b]|].
Qed.
Lemma to_quote_up stop stop' : (forall r, stop' (ups r) = stop r) ->
  forall r odd, to_quote stop' odd (ups r) = option_map ups2 (to_quote stop odd r).
Proof.
  intros Hs. induction r as [|c r IH]; intros odd; cbn [to_quote ups map].
  - rewrite (Hs [] : stop' [] = stop []). now destruct (_ && _).
  - rewrite (Hs (c :: r) : stop' (up c :: ups r) = stop (c :: r)). destruct (_ && _); [reflexivity|].
    rewrite up_eqb by reflexivity. fold (ups r). rewrite IH. now destruct (to_quote _ _ r) as [[a b]|].
Qed.
Lemma starts_braces_up n r : starts_braces n (ups r) = starts_braces n r.
Proof.
  revert r. induction n as [|n IH]; intros r; [reflexivity|]. destruct r as [|c r]; [reflexivity|].
  cbn [starts_braces ups map]. fold (ups r). now rewrite up_eqb, IH.
Qed.
Lemma to_braces_up n r : to_braces n (ups r) = option_map ups2 (to_braces n r).
Proof.
  induction r as [|c r IH]; [reflexivity|]. cbn [ups map to_braces]. fold (ups r).
  rewrite starts_braces_up. destruct (starts_braces n r); [reflexivity|]. rewrite IH.
  now destruct (to_braces n r) as [[a b]|].
Qed.
Lemma scan_fraction_up r : scan_fraction (ups r) = ups2 (scan_fraction r).
Proof.
  destruct r as [|c r]; [reflexivity|]. cbn [scan_fraction ups map]. fold (ups r). rewrite up_eqb by reflexivity.
  destruct (N.eqb c 46); [|reflexivity]. rewrite span_up by apply up_digit. now destruct (span is_digit_char r).
Qed.
Lemma scan_exponent_up r : scan_exponent (ups r) = ups2 (scan_exponent r).
Proof.
  destruct r as [|c r]; [reflexivity|]. cbn [scan_exponent ups map]. rewrite up_e.
  destruct (_ || _); [|reflexivity]. destruct r as [|sg r]; [reflexivity|]. cbn [ups map]. rewrite !up_eqb by reflexivity.
  destruct (_ || _).
  - fold (ups r). rewrite span_up by apply up_digit. now destruct (span is_digit_char r).
  - change (up sg :: ups r) with (ups (sg :: r)). rewrite span_up by apply up_digit. now destruct (span is_digit_char (sg :: r)).
Qed.
Lemma scan_number_up r : scan_number (ups r) = ups2 (scan_number r).
Proof.
  unfold scan_number. rewrite span_up by apply up_digit. destruct (span is_digit_char r) as [a r1]. cbn [fst snd].
  rewrite scan_fraction_up. destruct (scan_fraction r1) as [b r2]. cbn [ups2 fst snd].
  rewrite scan_exponent_up. destruct (scan_exponent r2) as [c r3]. unfold ups2, ups. cbn [fst snd]. now rewrite !map_app.
Qed.
Lemma drop_while_up p s : (forall c, p (up c) = p c) -> drop_while p (ups s) = ups (drop_while p s).
Proof.
  intros Hp. induction s as [|c s IH]; [reflexivity|]. cbn [ups map drop_while]. rewrite Hp. now destruct (p c).
Qed.
Lemma split_trim_up s : split_trim (ups s) = ups2 (split_trim s).
Proof.
  unfold split_trim, trim_end, ups2. cbn [fst snd].
  assert (E : rev (drop_while is_whitespace_char (rev (ups s))) = ups (rev (drop_while is_whitespace_char (rev s)))).
  { unfold ups at 1. rewrite <- map_rev. fold (ups (rev s)). rewrite drop_while_up by apply up_ws.
    unfold ups. now rewrite map_rev. }
  rewrite E. f_equal. unfold ups. now rewrite map_length, skipn_map.
Qed.

Definition lexres_up (x : lexres) : lexres :=
  match x with
  | LexOk lit sk rest d => LexOk (ups lit) (ups sk) (ups rest) d
  | LexBad a => LexBad (ups a)
  | x => x
  end.

Section WithUnicode2.
Context (U : unicode) (HU : ascii_faithful U).

Lemma up_alpha c : u_alphabetic U (up c) = u_alphabetic U c.
Proof.
  destruct (up_cases c) as [[-> _]|[H E]]; [reflexivity|]. rewrite E. destruct HU as [Ha _].
  rewrite !Ha by (unfold is_ascii; apply N.ltb_lt; lia).
  unfold is_letter_ascii, is_lower_ascii, is_upper_ascii.
  rewrite (proj2 (in_range_true 97 122 c)) by lia. rewrite (proj2 (in_range_true 65 90 (c - 32))) by lia. apply orb_true_r.
Qed.
Lemma up_istart c : is_istart U (up c) = is_istart U c.
Proof. unfold is_istart. cbn. now rewrite up_alpha, up_eqb. Qed.
Lemma up_ichar c : is_ichar U (up c) = is_ichar U c.
Proof. unfold is_ichar. cbn. now rewrite up_alpha, up_eqb, up_digit. Qed.

Lemma up_upper c : u_upper U (up c) = u_upper U c.
Proof.
  destruct (up_cases c) as [[-> _]|[H E]]; [reflexivity|]. destruct HU as [_ Hu].
  rewrite !Hu by (unfold is_ascii; apply N.ltb_lt; lia). f_equal. rewrite E.
  unfold upper_ascii, is_lower_ascii. now rewrite (proj2 (in_range_false 97 122 (c - 32))) by lia.
Qed.
Lemma upper_ups s : to_uppercase U (ups s) = to_uppercase U s.
Proof. induction s as [|c s IH]; [reflexivity|]. cbn [ups map to_uppercase flat_map]. rewrite up_upper. f_equal. exact IH. Qed.

Lemma scan_back_quoted_up q r : is_letter_ascii q = false ->
  scan_back_quoted (ups (q :: r)) = option_map ups2 (scan_back_quoted (q :: r)).
Proof.
  intros Hq. assert (Eq : up q = q).
  { unfold is_letter_ascii in Hq. apply orb_false_iff in Hq as [Hq _]. unfold upper_ascii. now rewrite Hq. }
  cbn [scan_back_quoted ups map]. rewrite Eq. fold (ups r). rewrite span_up by (intros; now rewrite up_eqb).
  destruct (span _ r) as [a [|b0 b]]; [reflexivity|]. cbn. unfold ups2, ups. cbn. now rewrite Eq, map_app.
Qed.

Lemma scan_param_up d r : scan_param U d (ups r) = lexres_up (scan_param U d r).
Proof.
  unfold scan_param. rewrite span_up by (intros; now apply up_eqb). destruct (span _ r) as [a [|x b]]; [reflexivity|].
  cbn [fst snd ups map]. rewrite up_eqb by reflexivity. destruct (N.eqb_spec x 96) as [->|_].
  - change (up 96 :: ups b) with (ups (96%N :: b)). rewrite scan_back_quoted_up by reflexivity.
    destruct (scan_back_quoted _) as [[e f]|]; [|reflexivity]. cbn. unfold ups. now rewrite map_app.
  - rewrite up_istart. destruct (is_istart U x); [|reflexivity]. fold (ups b). rewrite span_up by apply up_ichar.
    destruct (span _ b) as [e f]. cbn. unfold ups. now rewrite map_app.
Qed.
Lemma scan_brace_up d c r : scan_brace d (up c) (ups r) = lexres_up (scan_brace d c r).
Proof.
  unfold scan_brace. change (up c :: ups r) with (ups (c :: r)). rewrite span_up by (intros; now apply up_eqb).
  destruct (span _ (c :: r)) as [a b]. cbn [fst snd].
  replace (List.length (ups a)) with (List.length a) by (symmetry; apply map_length).
  rewrite !hd_is_up, hd_digit_up by reflexivity.
  destruct (_ && _); [reflexivity|]. rewrite to_braces_up.
  destruct (to_braces _ b) as [[e f]|]; [|reflexivity]. cbn. unfold ups. now rewrite !map_app, firstn_map, skipn_map.
Qed.

Lemma up_id c : is_letter_ascii c = false -> up c = c.
Proof. intros H. unfold is_letter_ascii in H. apply orb_false_iff in H as [H _]. unfold upper_ascii. now rewrite H. Qed.
Lemma tl_up r : tl (ups r) = ups (tl r).
Proof. now destruct r. Qed.
Lemma starts3_up q r : is_letter_ascii q = false -> starts3 q (ups r) = starts3 q r.
Proof.
  intros H. destruct r as [|a [|b [|c r]]]; try reflexivity. cbn. now rewrite !up_eqb.
Qed.

Lemma scan_up d prev c r : scan U d prev (up c) (ups r) = lexres_up (scan U d prev c r).
Proof.
  unfold scan. rewrite !up_eqb by reflexivity. rewrite up_digit, up_istart, hd_digit_up.
  rewrite !(hd_is_up 45 r), !(hd_is_up 42 r), !(hd_is_up 124 r), !(hd_is_up 62 r), !(hd_is_up 60 r), !(hd_is_up 61 r) by reflexivity.
  assert (Hnum : (let (a, b) := scan_number (up c :: ups r) in LexOk a [] b d) =
    lexres_up (let (a, b) := scan_number (c :: r) in LexOk a [] b d)).
  { change (up c :: ups r) with (ups (c :: r)). rewrite scan_number_up. now destruct (scan_number (c :: r)). }
  assert (Hcom : (let (a, b) := span (fun x => negb (N.eqb x 10)) (up c :: ups r) in
      let (t, w) := split_trim a in LexOk t w b d) =
    lexres_up (let (a, b) := span (fun x => negb (N.eqb x 10)) (c :: r) in
      let (t, w) := split_trim a in LexOk t w b d)).
  { change (up c :: ups r) with (ups (c :: r)). rewrite span_up by (intros; now rewrite up_eqb).
    destruct (span _ (c :: r)) as [a b]. cbn [fst snd]. rewrite split_trim_up. now destruct (split_trim a). }
  assert (Hdbl : forall s, ups (s_ s) = s_ s -> LexOk (s_ s) [] (tl (ups r)) d = lexres_up (LexOk (s_ s) [] (tl r) d)).
  { intros s Hs. cbn. now rewrite Hs, tl_up. }
  rewrite Hnum, Hcom. clear Hnum Hcom.
  destruct (N.eqb c 46); [now destruct (hd_digit r)|].
  destruct (N.eqb c 35); [reflexivity|].
  destruct (N.eqb_spec c 96) as [->|_].
  { change (up 96 :: ups r) with (ups (96%N :: r)). rewrite scan_back_quoted_up by reflexivity.
    now destruct (scan_back_quoted _) as [[a b]|]. }
  destruct (N.eqb c 34 || N.eqb c 39) eqn:Eq.
  { assert (Hc : is_letter_ascii c = false) by (apply orb_true_iff in Eq as [Eq|Eq]; apply N.eqb_eq in Eq as ->; reflexivity).
    rewrite (up_id c Hc). rewrite !tl_up, !hd_is_up by exact Hc. destruct (_ && _).
    - rewrite (to_quote_up (starts3 c)) by (intros; now apply starts3_up).
      destruct (to_quote _ _ _) as [[a b]|]; [|reflexivity]. cbn [option_map ups2 fst snd lexres_up]. unfold ups.
      cbn [map]. rewrite skipn_map, map_app. cbn [map]. now rewrite (up_id c Hc).
    - rewrite (to_quote_up (hd_is c)) by (intros; now apply hd_is_up).
      destruct (to_quote _ _ _) as [[a b]|]; [|reflexivity]. cbn [option_map ups2 fst snd lexres_up]. unfold ups.
      cbn [map]. rewrite map_app. cbn [map]. rewrite (up_id c Hc). now destruct b. }
  destruct (N.eqb c 45); [now destruct (hd_is 45 r)|].
  destruct (N.eqb c 47).
  { destruct (hd_is 42 r); [|reflexivity]. change (up c :: ups r) with (ups (c :: r)). rewrite to_star_slash_up.
    destruct (to_star_slash _) as [[a b]|]; [|reflexivity]. cbn [option_map ups2 fst snd lexres_up]. unfold ups.
    now rewrite map_app, skipn_map. }
  rewrite !Hdbl by reflexivity. 
  destruct (N.eqb c 124); [destruct (hd_is 124 r), (hd_is 62 r); reflexivity|].
  destruct (N.eqb c 60); [destruct (hd_is 60 r), (hd_is 61 r), (hd_is 62 r), prev; reflexivity|].
  destruct (N.eqb c 62); [destruct (N.ltb 0 d), (hd_is 62 r), (hd_is 61 r); reflexivity|].
  destruct (N.eqb c 61); [destruct (hd_is 62 r); reflexivity|].
  destruct (N.eqb c 33); [destruct (hd_is 61 r); reflexivity|].
  destruct (N.eqb c 64); [change (up c :: ups r) with (ups (c :: r)); apply scan_param_up|].
  destruct (N.eqb c 123); [apply scan_brace_up|].
  destruct (is_digit_char c); [reflexivity|].
  destruct (is_istart U c); [|reflexivity].
  rewrite span_up by apply up_ichar. now destruct (span _ r).
Qed.

Definition token_up (t : token) : token := {| line := line t; column := column t; literal := ups (literal t) |}.
Definition lexed_up (x : lexed) : lexed := match x with Lexed ts => Lexed (map token_up ts) | x => x end.

Lemma pos_after_up pre : pos_after (ups pre) = pos_after pre.
Proof.
  unfold pos_after. generalize (1%N, 1%N) as p. induction pre as [|c pre IH]; intros p; [reflexivity|]. cbn.
  unfold step at 2 4. rewrite up_eqb by reflexivity. apply IH.
Qed.

Lemma lex_up n : forall pre r d prev, lex U n (ups pre) (ups r) d prev = lexed_up (lex U n pre r d prev).
Proof.
  induction n as [|n IH]; intros pre r d prev; [reflexivity|]. cbn [lex].
  rewrite span_up by apply up_ws. pose proof (span_app is_whitespace_char r) as E0.
  destruct (span is_whitespace_char r) as [w [|c r2]]; [reflexivity|].
  cbn [fst snd] in *. change (ups (c :: r2)) with (up c :: ups r2). cbv iota beta. rewrite scan_up.
  assert (EU : forall a b, ups a ++ ups b = ups (a ++ b)) by (intros; unfold ups; now rewrite map_app).
  destruct (scan U d prev c r2) as [lit sk rest d'| |a|]; cbn [lexres_up].
  - rewrite !EU, !pos_after_up, IH. 
    assert (Eu : forall l1 c1, upper_literal U {| line := l1; column := c1; literal := ups lit |} =
      upper_literal U {| line := l1; column := c1; literal := lit |}) by (intros; apply upper_ups).
    rewrite Eu. now destruct (lex _ n _ rest _ _).
  - unfold eof_err. rewrite <- (pos_after_up (pre ++ r)). rewrite EU. reflexivity.
  - unfold ident_err. rewrite !EU, pos_after_up. reflexivity.
  - reflexivity.
Qed.

Definition outcome_up (x : outcome (list token)) : outcome (list token) :=
  match x with Success ts => Success (map token_up ts) | x => x end.
Lemma tokenize_up code : tokenize U (ups code) = outcome_up (tokenize U code).
Proof.
  rewrite !tokenize_lex. replace (List.length (ups code)) with (List.length code) by (symmetry; apply map_length).
  rewrite (lex_up (S (List.length code)) [] code 0 None : lex U _ [] (ups code) 0 None = _). destruct (lex _ _ _ _ _ _); cbn; try reflexivity. now rewrite map_app.
Qed.

Lemma tokens_up ts ts' : map token_up ts = map token_up ts' -> Forall2 recased_token ts ts'.
Proof.
  revert ts'. induction ts as [|t ts IH]; intros [|t' ts'] E; try discriminate; constructor.
  - injection E as E1 E2 E3 _. split; [unfold at_; congruence|]. now apply recased_ups.
  - apply IH. now injection E.
Qed.

Theorem tokenize_recased a b : recased a b ->
  match tokenize U a, tokenize U b with
  | Success ts, Success ts' => Forall2 recased_token ts ts'
  | Failure e, Failure e' => e = e'
  | Panicked, Panicked => True
  | _, _ => False
  end.
Proof.
  intros H. apply recased_ups in H. pose proof (tokenize_up a) as Ea. pose proof (tokenize_up b) as Eb.
  rewrite H, Eb in Ea. clear Eb. pose proof (tokenize_total U a). pose proof (tokenize_total U b).
  destruct (tokenize U a), (tokenize U b); cbn in Ea; try discriminate; try congruence; auto.
  injection Ea as Ea. now apply tokens_up.
Qed.
End WithUnicode2.
