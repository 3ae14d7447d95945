(* Proofs about the tokenizer: coverage, positions, termination, panics, errors. *)
From Verif Require Import Chars Token Core Lexer LexSpec LexFun.
From Coq Require Import Sorted.
Local Open Scope string_scope.
Local Open Scope list_scope.

(* ---------- positions ---------- *)
Lemma in_range_true lo hi c : in_range lo hi c = true <-> (lo <= c <= hi)%N.
Proof. unfold in_range. rewrite andb_true_iff, !N.leb_le. reflexivity. Qed.
Lemma in_range_false lo hi c : in_range lo hi c = false <-> ~ (lo <= c <= hi)%N.
Proof. rewrite <- in_range_true. now destruct (in_range lo hi c). Qed.

Lemma newlines_app a b : newlines (a ++ b) = (newlines a + newlines b)%N.
Proof. induction a as [|c a IH]; cbn [newlines app]; [lia|]. rewrite IH. lia. Qed.

Lemma current_line_none s : existsb (N.eqb newline) s = false -> current_line s = s.
Proof. destruct s as [|c s]; cbn [current_line]; [reflexivity|]. now intros ->. Qed.

Lemma current_line_snoc s c :
  current_line (s ++ [c]) = if N.eqb c newline then [] else current_line s ++ [c].
Proof.
  induction s as [|x s IH].
  - cbn [app current_line existsb]. rewrite (N.eqb_sym newline c). now destruct (N.eqb c newline).
  - cbn [app current_line]. rewrite IH. clear IH.
    change (x :: s ++ [c]) with ((x :: s) ++ [c]). rewrite existsb_app. cbn [existsb].
    rewrite orb_false_r, (N.eqb_sym newline c).
    destruct (N.eqb c newline); [now rewrite orb_true_r|]. rewrite orb_false_r.
    destruct (N.eqb newline x), (existsb (N.eqb newline) s); reflexivity.
Qed.

Lemma line_col_pos_after pre : line_col pre = pos_after pre.
Proof.
  induction pre as [|c pre IH] using rev_ind; [reflexivity|].
  rewrite pos_after_snoc, <- IH. unfold line_col, step. cbn [fst snd].
  rewrite newlines_app, current_line_snoc. cbn [newlines].
  change (N.eqb c 10) with (N.eqb c newline).
  destruct (N.eqb c newline).
  - cbn [List.length]. f_equal. lia.
  - rewrite app_length. cbn [List.length]. f_equal; lia.
Qed.

Lemma pos_lt_trans p q r : pos_lt p q -> pos_lt q r -> pos_lt p r.
Proof. unfold pos_lt. lia. Qed.

Lemma pos_after_lt_snoc pre c : pos_lt (pos_after pre) (pos_after (pre ++ [c])).
Proof.
  rewrite pos_after_snoc. unfold step, pos_lt. destruct (N.eqb c 10); cbn; lia.
Qed.

Lemma pos_after_lt pre a : a <> [] -> pos_lt (pos_after pre) (pos_after (pre ++ a)).
Proof.
  destruct a as [|c a]; [congruence|]. intros _. revert pre c.
  induction a as [|c' a IH]; intros pre c.
  - apply pos_after_lt_snoc.
  - replace (pre ++ c :: c' :: a) with ((pre ++ [c]) ++ c' :: a) by (now rewrite <- app_assoc).
    eapply pos_lt_trans; [apply pos_after_lt_snoc|apply IH].
Qed.

Lemma pos_lt_irrefl p : ~ pos_lt p p.
Proof. unfold pos_lt. lia. Qed.

(* a position determines the prefix *)
Lemma pos_after_inj a b a' b' :
  a ++ b = a' ++ b' -> pos_after a = pos_after a' -> a = a' /\ b = b'.
Proof.
  revert a a' b b'.
  assert (H : forall a a' x b b', a ++ b = a' ++ b' -> pos_after (x ++ a) = pos_after (x ++ a') -> a = a' /\ b = b').
  { induction a as [|c a IH]; intros a' x b b' E P.
    - destruct a' as [|c' a']; [auto|]. exfalso. rewrite app_nil_r in P.
      apply (pos_lt_irrefl (pos_after x)). rewrite P at 2. now apply pos_after_lt.
    - destruct a' as [|c' a'].
      + exfalso. rewrite app_nil_r in P.
        apply (pos_lt_irrefl (pos_after x)). rewrite <- P at 2. now apply pos_after_lt.
      + cbn in E. injection E as -> E.
        destruct (IH a' (x ++ [c']) b b' E) as [-> ->]; [|auto].
        now rewrite <- !app_assoc. }
  intros a a' b b' E P. exact (H a a' [] b b' E P).
Qed.

Lemma pos_after_le pre : (fst (pos_after pre) <= 1 + N.of_nat (List.length pre) /\
                         snd (pos_after pre) <= 1 + N.of_nat (List.length pre))%N.
Proof.
  induction pre as [|c pre IH] using rev_ind; [cbn; lia|].
  rewrite pos_after_snoc, app_length. unfold step. cbn [List.length].
  destruct (N.eqb c 10); cbn [fst snd]; lia.
Qed.

(* ---------- scan ---------- *)
Lemma span_white r : white (fst (span is_whitespace_char r)).
Proof.
  induction r as [|c r IH]; cbn [span]; [constructor|].
  destruct (is_whitespace_char c) eqn:E; [|constructor].
  destruct (span is_whitespace_char r) as [a b]. constructor; assumption.
Qed.

Lemma span_all p r : Forall (fun c => p c = true) (fst (span p r)).
Proof.
  induction r as [|c r IH]; cbn [span]; [constructor|].
  destruct (p c) eqn:E; [|constructor]. destruct (span p r) as [a b]. constructor; assumption.
Qed.
Lemma span_stop p r : not_followed p (snd (span p r)).
Proof.
  induction r as [|c r IH]; cbn [span]; [exact I|].
  destruct (p c) eqn:E; [|exact E]. destruct (span p r) as [a b]. exact IH.
Qed.
Lemma span_unique p a b : Forall (fun c => p c = true) a -> not_followed p b -> span p (a ++ b) = (a, b).
Proof.
  intros Ha Hb. induction Ha as [|c a Hc _ IH].
  - cbn. destruct b as [|c b]; [reflexivity|]. cbn in *. now rewrite Hb.
  - cbn. now rewrite Hc, IH.
Qed.

Lemma drop_while_suffix p s : exists a, s = a ++ drop_while p s /\ Forall (fun c => p c = true) a.
Proof.
  induction s as [|c s [a [E F]]]; [exists []; auto|]. cbn [drop_while].
  destruct (p c) eqn:Ec.
  - exists (c :: a). split; [cbn; congruence|now constructor].
  - exists []. auto.
Qed.

Lemma split_trim_spec s t w : split_trim s = (t, w) ->
  s = t ++ w /\ white w /\ (forall c, last_char t = Some c -> is_whitespace_char c = false).
Proof.
  intros H. pose proof (split_trim_app s) as E. rewrite H in E. cbn in E.
  unfold split_trim in H. injection H as Ht _.
  destruct (drop_while_suffix is_whitespace_char (rev s)) as [a [Ea Fa]].
  split; [congruence|]. split.
  - assert (s = t ++ rev a) as E2.
    { rewrite <- (rev_involutive s), Ea, rev_app_distr. unfold trim_end in Ht. now rewrite Ht. }
    assert (w = rev a) as -> by (apply (app_inv_head t); congruence).
    unfold white. apply Forall_rev. exact Fa.
  - intros c. unfold last_char. rewrite <- Ht. unfold trim_end. rewrite rev_involutive.
    generalize (rev s) as l. induction l as [|x l IH]; cbn [drop_while]; [discriminate|].
    destruct (is_whitespace_char x) eqn:Ex; [exact IH|]. cbn. congruence.
Qed.

Lemma trim_end_keep c r : is_whitespace_char c = false -> exists r', trim_end (c :: r) = c :: r'.
Proof.
  intros H. unfold trim_end. cbn [rev].
  assert (G : forall l, exists l', drop_while is_whitespace_char (l ++ [c]) = l' ++ [c]).
  { induction l as [|x l [l' IH]]; cbn.
    - rewrite H. now exists [].
    - destruct (is_whitespace_char x); [eauto|]. now exists (x :: l). }
  destruct (G (rev r)) as [l' ->]. rewrite rev_app_distr. cbn. eauto.
Qed.

Lemma split_trim_keep c r : is_whitespace_char c = false ->
  exists r', fst (split_trim (c :: r)) = c :: r'.
Proof. intros H. unfold split_trim. cbn [fst]. now apply trim_end_keep. Qed.

Lemma scan_fraction_app r : fst (scan_fraction r) ++ snd (scan_fraction r) = r.
Proof.
  destruct r as [|p r]; [reflexivity|]. cbn [scan_fraction]. destruct (N.eqb p 46); [|reflexivity].
  pose proof (span_app is_digit_char r). destruct (span is_digit_char r). cbn in *. congruence.
Qed.
Lemma scan_exponent_app r : fst (scan_exponent r) ++ snd (scan_exponent r) = r.
Proof.
  destruct r as [|e r]; [reflexivity|]. cbn [scan_exponent]. destruct (N.eqb e 69 || N.eqb e 101); [|reflexivity].
  destruct r as [|sg r]; [reflexivity|]. destruct (N.eqb sg 43 || N.eqb sg 45).
  - pose proof (span_app is_digit_char r). destruct (span is_digit_char r). cbn in *. congruence.
  - pose proof (span_app is_digit_char (sg :: r)). destruct (span is_digit_char (sg :: r)). cbn in *. congruence.
Qed.
Lemma scan_number_app r : fst (scan_number r) ++ snd (scan_number r) = r.
Proof.
  unfold scan_number. pose proof (span_app is_digit_char r) as H1.
  destruct (span is_digit_char r) as [a r1]. pose proof (scan_fraction_app r1) as H2.
  destruct (scan_fraction r1) as [b r2]. pose proof (scan_exponent_app r2) as H3.
  destruct (scan_exponent r2) as [c r3]. cbn [fst snd] in *.
  rewrite <- !app_assoc. congruence.
Qed.

Lemma scan_back_quoted_inv r a b : scan_back_quoted r = Some (a, b) ->
  r = a ++ b /\ exists q body, a = q :: body ++ [q] /\ ~ In q body.
Proof.
  destruct r as [|q r]; cbn [scan_back_quoted]; [discriminate|].
  pose proof (span_app (fun c => negb (N.eqb c q)) r) as H1.
  pose proof (span_all (fun c => negb (N.eqb c q)) r) as H2.
  pose proof (span_stop (fun c => negb (N.eqb c q)) r) as H3.
  destruct (span _ r) as [x [|y z]]; [discriminate|]. cbn [fst snd not_followed] in *.
  intros E. injection E as <- <-. apply negb_false_iff, N.eqb_eq in H3 as ->.
  split; [rewrite <- H1; cbn; now rewrite <- app_assoc|].
  exists q, x. split; [reflexivity|]. intros Hin.
  rewrite Forall_forall in H2. specialize (H2 q Hin). cbn in H2. now rewrite N.eqb_refl in H2.
Qed.

Lemma starts_braces_firstn n r : starts_braces n r = true -> firstn n r = repeat 125%N n.
Proof.
  revert r. induction n as [|n IH]; intros r H; [reflexivity|].
  destruct r as [|c r]; [discriminate|]. cbn in *. apply andb_true_iff in H as [Hc H].
  apply N.eqb_eq in Hc as ->. f_equal. now apply IH.
Qed.

Section WithUnicode.
Context (U : unicode).

Lemma scan_param_app d r lit sk rest d' :
  scan_param U d r = LexOk lit sk rest d' -> r = lit ++ rest /\ sk = [] /\ d' = d.
Proof.
  unfold scan_param. pose proof (span_app (fun x => N.eqb x 64) r) as H1.
  destruct (span _ r) as [a [|x b]]; [discriminate|]. cbn [fst snd] in H1.
  destruct (N.eqb x 96).
  - destruct (scan_back_quoted (x :: b)) as [[e f]|] eqn:E; [|discriminate].
    intros H. injection H as <- <- <- <-. destruct (scan_back_quoted_inv _ _ _ E) as [Ef _].
    rewrite <- H1, Ef, app_assoc. auto.
  - destruct (is_istart U x); [|discriminate].
    pose proof (span_app (is_ichar U) b) as H2. destruct (span (is_ichar U) b) as [e f].
    intros H. injection H as <- <- <- <-. cbn [fst snd] in H2. rewrite <- H1, <- H2.
    rewrite <- app_assoc. auto.
Qed.

Lemma scan_param_hd d c r lit sk rest d' :
  N.eqb c 64 = true -> scan_param U d (c :: r) = LexOk lit sk rest d' -> exists l, lit = c :: l.
Proof.
  intros Hc. unfold scan_param. rewrite (span_cons_hd (fun x => N.eqb x 64) c r Hc).
  destruct (span _ r) as [a [|x b]]; cbn [fst snd]; [discriminate|].
  destruct (N.eqb x 96).
  - destruct (scan_back_quoted (x :: b)) as [[e f]|]; [|discriminate].
    intros H. injection H as <- _ _ _. cbn. eauto.
  - destruct (is_istart U x); [|discriminate]. destruct (span (is_ichar U) b) as [e f].
    intros H. injection H as <- _ _ _. cbn. eauto.
Qed.

Lemma scan_brace_app d c r lit sk rest d' :
  N.eqb c 123 = true -> scan_brace d c r = LexOk lit sk rest d' ->
  c :: r = lit ++ rest /\ sk = [] /\ d' = d /\ exists l, lit = c :: l.
Proof.
  intros Hc. unfold scan_brace. pose proof (span_app (fun x => N.eqb x 123) (c :: r)) as H1.
  rewrite (span_cons_hd (fun x => N.eqb x 123) c r Hc) in *.
  destruct (span _ r) as [a b]. cbn [fst snd] in *.
  remember (List.length (c :: a)) as k eqn:Ek.
  destruct (Nat.eqb k 1 && _) eqn:E.
  - intros H. injection H as <- <- <- <-. apply andb_true_iff in E as [E _]. apply Nat.eqb_eq in E.
    rewrite Ek in E. destruct a; [|discriminate]. cbn in *. split; [congruence|]. eauto.
  - destruct (to_braces _ b) as [[e f]|] eqn:Eb; [|discriminate].
    intros H. injection H as <- <- <- <-. destruct (to_braces_starts _ _ _ _ Eb) as [_ Ef].
    split; [|split; [reflexivity|split; [reflexivity|cbn; eauto]]].
    rewrite <- H1, Ef. cbn [app]. rewrite <- !app_assoc. do 3 f_equal. symmetry. apply firstn_skipn.
Qed.

Lemma hd_is_eq c r : hd_is c r = true -> r = c :: tl r.
Proof. intros H. destruct (hd_is_inv _ _ H) as [r' ->]. reflexivity. Qed.

(* the token read starts at the first character, and nothing but white space after it
   is skipped *)
Theorem scan_app d prev c r lit sk rest d' :
  is_whitespace_char c = false ->
  scan U d prev c r = LexOk lit sk rest d' ->
  c :: r = lit ++ sk ++ rest /\ (exists l, lit = c :: l) /\ white sk.
Proof.
  intros Hws. unfold scan.
  assert (Hnil : white []) by constructor.
  assert (Hone : LexOk [c] [] r d = LexOk lit sk rest d' ->
     c :: r = lit ++ sk ++ rest /\ (exists l, lit = c :: l) /\ white sk).
  { intros H. injection H as <- <- <- <-. eauto. }
  assert (Hnum : (let (a, b) := scan_number (c :: r) in LexOk a [] b d) = LexOk lit sk rest d' ->
     (is_digit_char c = true \/ N.eqb c 46 = true) ->
     c :: r = lit ++ sk ++ rest /\ (exists l, lit = c :: l) /\ white sk).
  { pose proof (scan_number_app (c :: r)) as E. intros H Hc.
    destruct (scan_number (c :: r)) as [a b] eqn:En. injection H as <- <- <- <-.
    cbn [fst snd] in E. split; [now symmetry|]. split; [|exact Hnil].
    unfold scan_number in En. cbn [span] in En.
    destruct (is_digit_char c) eqn:Ed.
    - destruct (span is_digit_char r) as [x y]. destruct (scan_fraction y) as [f y'].
      destruct (scan_exponent y') as [g y'']. injection En as <- _. cbn. eauto.
    - destruct Hc as [Hc|Hc]; [discriminate|].
      cbn [scan_fraction] in En. rewrite Hc in En.
      destruct (span is_digit_char r) as [x y].
      destruct (scan_exponent y) as [g y'']. injection En as <- _. cbn. eauto. }
  assert (Hcom : (let (a, b) := span (fun x => negb (N.eqb x 10)) (c :: r) in
             let (t, w) := split_trim a in LexOk t w b d) = LexOk lit sk rest d' ->
     c :: r = lit ++ sk ++ rest /\ (exists l, lit = c :: l) /\ white sk).
  { pose proof (span_app (fun x => negb (N.eqb x 10)) (c :: r)) as E.
    assert (Hn : negb (N.eqb c 10) = true).
    { destruct (N.eqb_spec c 10) as [->|]; [discriminate|reflexivity]. }
    rewrite (span_cons_hd (fun x => negb (N.eqb x 10)) c r Hn) in *.
    destruct (span _ r) as [a b]. cbn [fst snd] in *.
    destruct (split_trim (c :: a)) as [t w] eqn:Et.
    intros H. injection H as <- <- <- <-.
    destruct (split_trim_spec _ _ _ Et) as [E1 [E2 _]].
    destruct (split_trim_keep c a Hws) as [l El]. rewrite Et in El. cbn in El.
    rewrite app_assoc, <- E1. split; [now symmetry|]. eauto. }
  assert (Htwo : forall s x, s_ s = [c; x] -> hd_is x r = true ->
     LexOk (s_ s) [] (tl r) d = LexOk lit sk rest d' ->
     c :: r = lit ++ sk ++ rest /\ (exists l, lit = c :: l) /\ white sk).
  { intros s x Hs Hx H. injection H as <- <- <- <-. rewrite Hs. rewrite (hd_is_eq _ _ Hx) at 1.
    cbn. eauto. }
  destruct (N.eqb c 46) eqn:E46. { destruct (hd_digit r); auto. }
  destruct (N.eqb c 35); [exact Hcom|].
  destruct (N.eqb c 96).
  { destruct (scan_back_quoted (c :: r)) as [[a b]|] eqn:E; [|discriminate].
    intros H. injection H as <- <- <- <-. cbn [scan_back_quoted] in E.
    pose proof (span_app (fun x => negb (N.eqb x c)) r) as E2.
    destruct (span _ r) as [x [|y z]]; [discriminate|]. injection E as <- <-. cbn [fst snd] in E2.
    cbn. rewrite <- app_assoc. cbn. rewrite E2. eauto. }
  destruct (N.eqb c 34 || N.eqb c 39).
  { destruct (hd_is c r) eqn:E1; cbn [andb]; [destruct (hd_is c (tl r)) eqn:E2|].
    - destruct (to_quote _ _ _) as [[a b]|] eqn:E; [|discriminate].
      intros H. injection H as <- <- <- <-. destruct (to_quote_app _ _ _ _ _ E) as [E3 E4].
      destruct b as [|x [|y [|z b]]]; try discriminate. cbn in E4.
      apply andb_true_iff in E4 as [E4 E7]. apply andb_true_iff in E4 as [E5 E6].
      apply N.eqb_eq in E5 as ->. apply N.eqb_eq in E6 as ->. apply N.eqb_eq in E7 as ->.
      rewrite (hd_is_eq _ _ E1), (hd_is_eq _ _ E2), E3. cbn [skipn app]. rewrite <- app_assoc. cbn. eauto.
    - destruct (to_quote _ _ _) as [[a b]|] eqn:E; [|discriminate].
      intros H. injection H as <- <- <- <-. destruct (to_quote_app _ _ _ _ _ E) as [E3 E4].
      rewrite (hd_is_eq _ _ E4) in E3. rewrite E3. cbn. rewrite <- app_assoc. cbn. eauto.
    - destruct (to_quote _ _ _) as [[a b]|] eqn:E; [|discriminate].
      intros H. injection H as <- <- <- <-. destruct (to_quote_app _ _ _ _ _ E) as [E3 E4].
      rewrite (hd_is_eq _ _ E4) in E3. rewrite E3. cbn. rewrite <- app_assoc. cbn. eauto. }
  destruct (N.eqb_spec c 45) as [->|_]. { destruct (hd_is 45 r); auto. }
  destruct (N.eqb_spec c 47) as [->|_].
  { destruct (hd_is 42 r); [|exact Hone].
    destruct (to_star_slash _) as [[a b]|] eqn:E; [|discriminate].
    intros H. injection H as <- <- <- <-. destruct (to_star_slash_app _ _ _ E) as [E1 [b' ->]].
    cbn [skipn]. split; [rewrite E1; now rewrite <- app_assoc|]. split; [|exact Hnil].
    destruct a; [discriminate|]. injection E1 as -> _. cbn. eauto. }
  destruct (N.eqb_spec c 124) as [->|_].
  { destruct (hd_is 124 r) eqn:E1; [exact (Htwo "||" _ eq_refl E1)|].
    destruct (hd_is 62 r) eqn:E2; [exact (Htwo "|>" _ eq_refl E2)|exact Hone]. }
  destruct (N.eqb_spec c 60) as [->|_].
  { destruct (hd_is 60 r) eqn:E1; [exact (Htwo "<<" _ eq_refl E1)|].
    destruct (hd_is 61 r) eqn:E2; [exact (Htwo "<=" _ eq_refl E2)|].
    destruct (hd_is 62 r) eqn:E3; [exact (Htwo "<>" _ eq_refl E3)|].
    destruct prev as [u|]; [|discriminate]. intros H. injection H as <- <- <- <-. eauto. }
  destruct (N.eqb_spec c 62) as [->|_].
  { destruct (N.ltb 0 d). { intros H. injection H as <- <- <- <-. eauto. }
    destruct (hd_is 62 r) eqn:E1; [exact (Htwo ">>" _ eq_refl E1)|].
    destruct (hd_is 61 r) eqn:E2; [exact (Htwo ">=" _ eq_refl E2)|exact Hone]. }
  destruct (N.eqb_spec c 61) as [->|_].
  { destruct (hd_is 62 r) eqn:E1; [exact (Htwo "=>" _ eq_refl E1)|exact Hone]. }
  destruct (N.eqb_spec c 33) as [->|_].
  { destruct (hd_is 61 r) eqn:E1; [exact (Htwo "!=" _ eq_refl E1)|exact Hone]. }
  destruct (N.eqb c 64) eqn:E64.
  { intros H. pose proof (scan_param_hd _ _ _ _ _ _ _ E64 H) as Hl.
    destruct (scan_param_app _ _ _ _ _ _ H) as [E [-> _]]. auto. }
  destruct (N.eqb c 123) eqn:E123.
  { intros H. destruct (scan_brace_app _ _ _ _ _ _ _ E123 H) as [E [-> [_ Hl]]]. auto. }
  destruct (is_digit_char c); [auto|].
  destruct (is_istart U c); [|exact Hone].
  pose proof (span_app (is_ichar U) r) as E. destruct (span (is_ichar U) r) as [a b].
  intros H. injection H as <- <- <- <-. cbn in *. rewrite E. eauto.
Qed.

(* ---------- the loop ---------- *)
(* the step that produced a token *)
Definition depth_step (d : N) (prev : option str) (lit : str) : N :=
  if str_eqb lit (s_ "<") then
    match prev with
    | Some u => if str_eqb u (s_ "ARRAY") || str_eqb u (s_ "STRUCT") then d + 1 else d
    | None => d
    end
  else if str_eqb lit (s_ ">") then d - 1 else d.

Lemma lex_inv n pre r d prev ts :
  lex U n pre r d prev = Lexed ts ->
  (ts = [] /\ white r) \/
  exists n' w c r2 lit sk rest d' t ts',
    n = S n' /\ r = w ++ c :: r2 /\ white w /\ is_whitespace_char c = false /\
    scan U d prev c r2 = LexOk lit sk rest d' /\
    ts = t :: ts' /\ literal t = lit /\ at_ t = pos_after (pre ++ w) /\
    lex U n' (pre ++ w ++ lit ++ sk) rest d' (Some (upper_literal U t)) = Lexed ts'.
Proof.
  destruct n as [|n]; cbn [lex]; [discriminate|].
  pose proof (span_app is_whitespace_char r) as E. pose proof (span_white r) as W.
  pose proof (span_stop is_whitespace_char r) as S0.
  destruct (span is_whitespace_char r) as [w [|c r2]]; cbn [fst snd not_followed] in *.
  - rewrite app_nil_r in E. subst w. intros H. injection H as <-. auto.
  - destruct (scan U d prev c r2) as [lit sk rest d'| |a|] eqn:Es; try discriminate.
    match goal with |- context [upper_literal U ?t] => set (tok := t) end.
    destruct (lex U n _ rest d' _) as [ts'|e| |] eqn:El; try discriminate.
    intros H. injection H as <-. right.
    exists n, w, c, r2, lit, sk, rest, d', tok, ts'. repeat split; auto.
    unfold at_. cbn. now destruct (pos_after (pre ++ w)).
Qed.

Lemma white_app a b : white a -> white b -> white (a ++ b).
Proof. intros. apply Forall_app. auto. Qed.

Lemma located_white pre w r ts : white w -> located (pre ++ w) r ts -> located pre (w ++ r) ts.
Proof.
  intros W H. inversion H as [p w' W'|p w' t rest ts' W' A H']; subst.
  - constructor. now apply white_app.
  - rewrite app_assoc. constructor; [now apply white_app|now rewrite app_assoc|].
    now rewrite <- app_assoc in *.
Qed.

Lemma lex_located n : forall pre r d prev ts,
  lex U n pre r d prev = Lexed ts -> located pre r ts.
Proof.
  induction n as [|n IH]; intros pre r d prev ts H; [discriminate|].
  destruct (lex_inv _ _ _ _ _ _ H) as [[-> W]|(n' & w & c & r2 & lit & sk & rest & d' & t & ts' & En & -> & W & Hc & Hs & -> & <- & Ha & Hl)].
  - now constructor.
  - injection En as <-. destruct (scan_app _ _ _ _ _ _ _ _ Hc Hs) as [E [_ Wk]]. rewrite E.
    constructor; [exact W|now rewrite line_col_pos_after|].
    apply located_white; [exact Wk|]. apply IH in Hl. now rewrite <- !app_assoc in *.
Qed.

Lemma located_interleaved pre r ts : located pre r ts -> interleaved r (map literal ts).
Proof. induction 1; cbn; now constructor. Qed.

(* ---------- termination ---------- *)
Lemma lex_fuel n : forall pre r d prev, List.length r < n -> lex U n pre r d prev <> LexedFuel.
Proof.
  induction n as [|n IH]; intros pre r d prev Hn; [lia|]. cbn [lex].
  pose proof (span_app is_whitespace_char r) as E.
  pose proof (span_stop is_whitespace_char r) as S0.
  destruct (span is_whitespace_char r) as [w [|c r2]]; cbn [fst snd not_followed] in *; [discriminate|].
  destruct (scan U d prev c r2) as [lit sk rest d'| |a|] eqn:Es; try discriminate.
  match goal with |- context [lex U n ?p rest d' ?q] => specialize (IH p rest d' q);
    destruct (lex U n p rest d' q); try discriminate end.
  destruct (scan_app _ _ _ _ _ _ _ _ S0 Es) as [E2 [[l ->] _]].
  intros _. apply IH; [|reflexivity].
  apply (f_equal (@List.length _)) in E. apply (f_equal (@List.length _)) in E2.
  cbn [app] in E2. rewrite ?app_length in *. cbn [List.length] in *. rewrite ?app_length in *. lia.
Qed.

(* ---------- panics ---------- *)
Lemma scan_panic d prev c r :
  scan U d prev c r = LexPanic <->
  prev = None /\ c = 60%N /\ hd_is 60 r = false /\ hd_is 61 r = false /\ hd_is 62 r = false.
Proof.
  split.
  - unfold scan, scan_param, scan_brace.
    repeat match goal with
    | |- (if ?b then _ else _) = LexPanic -> _ => destruct b eqn:?; try discriminate
    | |- match ?b with _ => _ end = LexPanic -> _ => destruct b eqn:?; try discriminate
    | |- (let (_, _) := ?b in _) = LexPanic -> _ => destruct b eqn:?; try discriminate
    end.
    match goal with H : N.eqb c 60 = true |- _ => apply N.eqb_eq in H end. auto.
  - intros (-> & -> & H1 & H2 & H3). cbn. now rewrite H1, H2, H3.
Qed.

Lemma lex_no_panic n : forall pre r d u, lex U n pre r d (Some u) <> LexedPanic.
Proof.
  induction n as [|n IH]; intros pre r d u; cbn [lex]; [discriminate|].
  destruct (span is_whitespace_char r) as [w [|c r2]]; [discriminate|].
  destruct (scan U d (Some u) c r2) as [lit sk rest d'| |a|] eqn:Es; try discriminate.
  - match goal with |- context [lex U n ?p rest d' (Some ?q)] => specialize (IH p rest d' q);
      destruct (lex U n p rest d' (Some q)); congruence end.
  - apply scan_panic in Es as [? _]. discriminate.
Qed.

Lemma lex_panic n pre r d : 0 < n ->
  lex U n pre r d None = LexedPanic <->
  exists w r2, r = w ++ 60%N :: r2 /\ white w /\
    hd_is 60 r2 = false /\ hd_is 61 r2 = false /\ hd_is 62 r2 = false.
Proof.
  intros Hn. destruct n as [|n]; [lia|]. split.
  - cbn [lex]. pose proof (span_app is_whitespace_char r) as E. pose proof (span_white r) as W.
    destruct (span is_whitespace_char r) as [w [|c r2]]; cbn [fst snd] in *; [discriminate|].
    destruct (scan U d None c r2) as [lit sk rest d'| |a|] eqn:Es; try discriminate.
    + match goal with |- context [lex U n ?p rest d' (Some ?q)] => pose proof (lex_no_panic n p rest d' q);
        destruct (lex U n p rest d' (Some q)); congruence end.
    + apply scan_panic in Es as (_ & -> & H1 & H2 & H3). intros _. exists w, r2. auto.
  - intros (w & r2 & -> & W & H1 & H2 & H3). cbn [lex].
    rewrite (span_unique is_whitespace_char w (60%N :: r2) W eq_refl).
    now rewrite (proj2 (scan_panic d None 60%N r2)) by auto.
Qed.

(* ---------- errors ---------- *)
Lemma scan_bad d prev c r a :
  scan U d prev c r = LexBad a ->
  exists k b, a = repeat 64%N (S k) /\ c :: r = a ++ b /\ not_followed (fun x => N.eqb x 96 || is_istart U x || N.eqb x 64) b.
Proof.
  unfold scan, scan_brace.
  repeat match goal with
    | |- (if ?b then _ else _) = LexBad _ -> _ => destruct b eqn:?; try discriminate
    | |- match ?b with _ => _ end = LexBad _ -> _ =>
        lazymatch b with scan_param _ _ _ => fail | _ => destruct b eqn:?; try discriminate end
    | |- (let (_, _) := ?b in _) = LexBad _ -> _ => destruct b eqn:?; try discriminate
    end.
  match goal with H : N.eqb c 64 = true |- _ => rename H into Hc end.
  unfold scan_param. pose proof (span_app (fun x => N.eqb x 64) (c :: r)) as E.
  pose proof (span_all (fun x => N.eqb x 64) (c :: r)) as F.
  pose proof (span_stop (fun x => N.eqb x 64) (c :: r)) as St.
  rewrite (span_cons_hd (fun x => N.eqb x 64) c r Hc) in *.
  destruct (span _ r) as [y b]. cbn [fst snd] in *.
  assert (G : c :: y = repeat 64%N (S (List.length y))).
  { clear -F. change (c :: y) with ([c] ++ y) in *. 
    assert (forall l, Forall (fun x => N.eqb x 64 = true) l -> l = repeat 64%N (List.length l)) as K.
    { induction 1 as [|x l Hx _ IH]; [reflexivity|]. cbn. apply N.eqb_eq in Hx as ->. now f_equal. }
    rewrite (K _ F) at 1. reflexivity. }
  destruct b as [|x b].
  - intros H. injection H as <-. exists (List.length y), []. auto.
  - cbn [not_followed] in St. destruct (N.eqb x 96) eqn:E96.
    + destruct (scan_back_quoted (x :: b)) as [[? ?]|]; discriminate.
    + destruct (is_istart U x) eqn:Ei; [destruct (span (is_ichar U) b); discriminate|].
      intros H. injection H as <-. exists (List.length y), (x :: b).
      split; [exact G|]. split; [now symmetry|]. cbn [not_followed]. now rewrite E96, Ei, St.
Qed.

Lemma lex_err n : forall pre r d prev e,
  lex U n pre r d prev = LexedErr e ->
  e = eof_err (pre ++ r) \/
  exists p k b, pre ++ r = p ++ repeat 64%N (S k) ++ b /\
    e = ident_err (p ++ repeat 64%N (S k)) /\
    not_followed (fun x => N.eqb x 96 || is_istart U x || N.eqb x 64) b.
Proof.
  induction n as [|n IH]; intros pre r d prev e; cbn [lex]; [discriminate|].
  pose proof (span_app is_whitespace_char r) as E.
  pose proof (span_stop is_whitespace_char r) as S0.
  destruct (span is_whitespace_char r) as [w [|c r2]]; cbn [fst snd not_followed] in *; [discriminate|].
  destruct (scan U d prev c r2) as [lit sk rest d'| |a|] eqn:Es; try discriminate.
  - destruct (scan_app _ _ _ _ _ _ _ _ S0 Es) as [E2 _].
    match goal with |- context [lex U n ?p rest d' ?q] => specialize (IH p rest d' q);
      destruct (lex U n p rest d' q) as [|e'| |] eqn:El; try discriminate end.
    intros H. injection H as <-. specialize (IH e' eq_refl).
    replace ((pre ++ w ++ lit ++ sk) ++ rest) with (pre ++ r) in IH; [exact IH|].
    rewrite <- E, E2, <- !app_assoc. reflexivity.
  - intros H. injection H as <-. auto.
  - intros H. injection H as <-. destruct (scan_bad _ _ _ _ _ Es) as (k & b & -> & Eb & Hb).
    right. exists (pre ++ w), k, b. split; [|split; [now rewrite <- app_assoc|exact Hb]].
    now rewrite <- E, Eb, <- !app_assoc.
Qed.

(* ---------- token by token ---------- *)
Definition prev_of (prev : option str) (ts : list token) : option str :=
  match last (map Some ts) None with Some t => Some (upper_literal U t) | None => prev end.
Fixpoint depth_of (d : N) (prev : option str) (ts : list token) : N :=
  match ts with
  | [] => d
  | t :: ts' => depth_of (depth_step d prev (literal t)) (Some (upper_literal U t)) ts'
  end.
End WithUnicode.
