(* The tokenizer reads exactly the lexical grammar of LexSpec.v. *)
From Verif Require Import Chars Token Core Lexer LexSpec LexFun LexProofs.
Local Open Scope string_scope.
Local Open Scope list_scope.

Definition tables_ok (U : unicode) : Prop := ascii_faithful U /\ ws_not_alphabetic U.

(* ---------- strings ---------- *)
Lemma to_quote_hd q : forall r a b, q <> 92%N ->
  to_quote (hd_is q) false r = Some (a, b) <-> escaped_body q a /\ hd_is q b = true /\ r = a ++ b.
Proof.
  intros r a b Hq. split.
  - intros H. destruct (to_quote_app _ _ _ _ _ H) as [E1 E2]. split; [|auto]. clear E1 E2.
    assert (G : forall n r a b, List.length r <= n -> to_quote (hd_is q) false r = Some (a, b) -> escaped_body q a).
    { clear r a b H. induction n as [|n IH]; intros r a b Hn H.
      - destruct r; [|cbn in Hn; lia]. cbn in H. discriminate.
      - destruct r as [|c r]; [discriminate|]. cbn [to_quote negb andb] in H. cbn [hd_is] in H.
        destruct (N.eqb_spec c q) as [->|Hc]. { injection H as <- _. constructor. }
        destruct (N.eqb_spec c 92) as [->|Hb]; cbn [negb] in H.
        + destruct r as [|c2 r]; [discriminate|]. cbn [to_quote negb andb] in H.
          replace (if N.eqb c2 92 then false else false) with false in H by (now destruct (N.eqb c2 92)).
          destruct (to_quote (hd_is q) false r) as [[a' b']|] eqn:E; [|discriminate].
          injection H as <- <-. apply eb_esc. apply (IH r a' b'); [cbn in Hn; lia|exact E].
        + destruct (to_quote (hd_is q) false r) as [[a' b']|] eqn:E; [|discriminate].
          injection H as <- <-. apply eb_char; auto. apply (IH r a' b'); [cbn in Hn; lia|exact E]. }
    exact (G _ r a b (le_n _) H).
  - intros (H1 & H2 & ->). induction H1 as [|c a Hc Hb _ IH|c a _ IH].
    + cbn [app]. destruct b as [|x b]; [discriminate|]. cbn [to_quote]. now rewrite H2.
    + cbn [app to_quote hd_is]. rewrite (proj2 (N.eqb_neq _ _) Hc), (proj2 (N.eqb_neq _ _) Hb).
      cbn [negb andb]. now rewrite IH.
    + cbn [app to_quote hd_is]. rewrite (proj2 (N.eqb_neq 92 q)) by auto. cbn [negb andb N.eqb Pos.eqb].
      replace (if N.eqb c 92 then false else false) with false by (now destruct (N.eqb c 92)).
      now rewrite IH.
Qed.

Lemma starts3_spec q r : starts3 q r = true <-> begins_with [q; q; q] r.
Proof.
  unfold begins_with. split.
  - destruct r as [|a [|b [|c r]]]; try discriminate. cbn. intros H.
    apply andb_true_iff in H as [H H3]. apply andb_true_iff in H as [H1 H2].
    apply N.eqb_eq in H1 as ->. apply N.eqb_eq in H2 as ->. apply N.eqb_eq in H3 as ->. eauto.
  - intros [r' ->]. cbn. now rewrite N.eqb_refl.
Qed.

Lemma starts3_ext q b x y : starts3 q (b ++ [q; q; q] ++ x) = starts3 q (b ++ [q; q; q] ++ y).
Proof. destruct b as [|b0 [|b1 [|b2 b]]]; reflexivity. Qed.

Lemma to_quote_3 q : forall r a b, q <> 92%N ->
  to_quote (starts3 q) false r = Some (a, b) <->
  triple_body q a /\ exists b', b = [q; q; q] ++ b' /\ r = a ++ b.
Proof.
  intros r a b Hq. split.
  - intros H. destruct (to_quote_app _ _ _ _ _ H) as [E1 E2]. apply starts3_spec in E2 as [b0 E2].
    split; [|eauto].
    assert (G : forall n r a, List.length r <= n -> to_quote (starts3 q) false r = Some (a, b) -> triple_body q a).
    { clear r a H E1. induction n as [|n IH]; intros r a Hn H.
      - destruct r; [|cbn in Hn; lia]. cbn in H. discriminate.
      - destruct r as [|c r]; [discriminate|]. cbn [to_quote negb andb] in H.
        destruct (starts3 q (c :: r)) eqn:Es. { injection H as <- _. constructor. }
        destruct (N.eqb_spec c 92) as [->|Hb]; cbn [negb] in H.
        + destruct r as [|c2 r]; [discriminate|]. cbn [to_quote negb andb] in H.
          replace (if N.eqb c2 92 then false else false) with false in H by (now destruct (N.eqb c2 92)).
          destruct (to_quote (starts3 q) false r) as [[a' b']|] eqn:E; [|discriminate].
          injection H as <- <-. apply tb_esc. apply (IH r a'); [cbn in Hn; lia|exact E].
        + destruct (to_quote (starts3 q) false r) as [[a' b']|] eqn:E; [|discriminate].
          injection H as <- <-. apply tb_char; auto.
          * destruct (to_quote_app _ _ _ _ _ E) as [-> _]. rewrite E2 in Es.
            intros Hs. apply starts3_spec in Hs.
            pose proof (starts3_ext q (c :: a') [] b0) as X.
            cbn [app] in X, Es. rewrite app_nil_r in X || idtac. cbn [app] in Hs. congruence.
          * apply (IH r a'); [cbn in Hn; lia|exact E]. }
    exact (G _ r a (le_n _) H).
  - intros (H1 & b0 & -> & ->). induction H1 as [|c a Hc Hb _ IH|c a _ IH].
    + cbn [app]. cbn [to_quote starts3]. now rewrite N.eqb_refl.
    + cbn [app to_quote]. cbn [negb andb].
      assert (starts3 q (c :: a ++ q :: q :: q :: b0) = false) as ->.
      { destruct (starts3 q (c :: a ++ q :: q :: q :: b0)) eqn:E; [|reflexivity]. exfalso. apply Hb.
        apply starts3_spec. rewrite <- E. exact (starts3_ext q (c :: a) [] b0). }
      rewrite (proj2 (N.eqb_neq _ _) Hc). cbn [app] in IH. now rewrite IH.
    + cbn [app to_quote]. cbn [negb andb].
      assert (starts3 q (92%N :: c :: a ++ q :: q :: q :: b0) = false) as ->.
      { destruct (starts3 q _) eqn:E; [|reflexivity]. apply starts3_spec in E as [x E].
        injection E as E _. congruence. }
      cbn [N.eqb Pos.eqb negb andb].
      replace (if N.eqb c 92 then false else false) with false by (now destruct (N.eqb c 92)).
      cbn [app] in IH. now rewrite IH.
Qed.

(* ---------- block comments ---------- *)
Lemma to_star_slash_spec r a b : to_star_slash r = Some (a, b) <->
  (exists b', b = s_ "*/" ++ b' /\ r = a ++ b) /\
  (forall x y, a ++ s_ "*/" = x ++ s_ "*/" ++ y -> y = []).
Proof.
  split.
  - intros H. destruct (to_star_slash_app _ _ _ H) as [E [b' Eb]]. split; [exists b'; auto|].
    subst b. revert a E H. induction r as [|c r IH]; intros a E H; cbn [to_star_slash] in H; [discriminate|].
    destruct (N.eqb c 42 && hd_is 47 r) eqn:Ec.
    + injection H as <- _ _. intros [|x0 x] y Hy; cbn in Hy; [congruence|].
      injection Hy as _ Hy. destruct x as [|? x]; [discriminate|]. destruct x; discriminate.
    + destruct (to_star_slash r) as [[a' b'']|] eqn:E2; [|discriminate]. injection H as <- ->.
      cbn in E. injection E as E. intros [|x0 x] y Hy; cbn in Hy.
      * exfalso. injection Hy as -> Hy. rewrite E in Ec.
        destruct a' as [|a0 a']; cbn in Hy, Ec; [discriminate|]. injection Hy as -> _.
        cbn in Ec. discriminate.
      * injection Hy as -> Hy. exact (IH a' E eq_refl x y Hy).
  - intros [[b' [-> ->]] H]. induction a as [|c a IH].
    + reflexivity.
    + cbn [app to_star_slash]. destruct (N.eqb c 42 && hd_is 47 (a ++ s_ "*/" ++ b')) eqn:Ec.
      * exfalso. apply andb_true_iff in Ec as [E1 E2]. apply N.eqb_eq in E1 as ->.
        destruct a as [|a0 a]; cbn in E2; [discriminate|]. apply N.eqb_eq in E2 as ->.
        specialize (H [] (a ++ s_ "*/") eq_refl). destruct a; discriminate.
      * rewrite IH; [reflexivity|]. intros x y Hy. apply (H (c :: x) y). exact (f_equal (cons c) Hy).
Qed.

(* ---------- templates ---------- *)
Lemma starts_braces_spec' n r : starts_braces n r = true <-> begins_with (repeat 125%N n) r.
Proof.
  revert r. induction n as [|n IH]; intros r.
  - split; [intros _; exists r; reflexivity|reflexivity].
  - cbn [starts_braces repeat]. destruct r as [|c r].
    + split; [discriminate|intros [x Hx]; discriminate].
    + rewrite andb_true_iff, IH, N.eqb_eq. split.
      * intros [-> [x ->]]. exists x. reflexivity.
      * intros [x Hx]. injection Hx as -> ->. split; [reflexivity|exists x; reflexivity].
Qed.

Lemma begins_ext n (b x : str) :
  begins_with (repeat 125%N n) (b ++ repeat 125%N n ++ x) -> begins_with (repeat 125%N n) (b ++ repeat 125%N n).
Proof.
  intros [y Hy]. exists (skipn n (b ++ repeat 125%N n)).
  assert (E : firstn n (b ++ repeat 125%N n) = repeat 125%N n).
  { apply (f_equal (firstn n)) in Hy. rewrite app_assoc in Hy.
    rewrite firstn_app, repeat_length in Hy || idtac.
    rewrite (firstn_app n (b ++ repeat 125%N n) x) in Hy.
    rewrite app_length, repeat_length in Hy.
    replace (n - (List.length b + n)) with 0 in Hy by lia. cbn [firstn] in Hy. rewrite app_nil_r in Hy.
    rewrite Hy. rewrite firstn_app, repeat_length, Nat.sub_diag. cbn. rewrite app_nil_r.
    rewrite <- (repeat_length 125%N n) at 1. apply firstn_all. }
  rewrite <- (firstn_skipn n (b ++ repeat 125%N n)) at 1. now rewrite E.
Qed.

Lemma to_braces_cons n c r : to_braces n (c :: r) =
  if starts_braces n r then Some ([c], r)
  else match to_braces n r with Some (a, b) => Some (c :: a, b) | None => None end.
Proof. reflexivity. Qed.

Lemma to_braces_spec n r a b : to_braces n r = Some (a, b) <->
  exists c body b', a = c :: body /\ b = repeat 125%N n ++ b' /\ r = a ++ b /\
    (forall x y, body = x ++ y -> y <> [] -> ~ begins_with (repeat 125%N n) (y ++ repeat 125%N n)).
Proof.
  split.
  - revert a. induction r as [|c r IH]; intros a H; cbn [to_braces] in H; [discriminate|].
    destruct (starts_braces n r) eqn:Es.
    + injection H as <- <-. apply starts_braces_spec' in Es as [b' ->].
      exists c, [], b'. repeat split. intros [|] [|] Hxy; try discriminate. congruence.
    + destruct (to_braces n r) as [[a' b'']|] eqn:E; [|discriminate]. injection H as <- ->.
      destruct (IH a' eq_refl) as (c' & body & b' & -> & -> & -> & Hb).
      exists c, (c' :: body), b'. repeat split.
      intros [|x0 x] y Hxy Hy.
      * cbn in Hxy. subst y. intros Hbw.
        assert (starts_braces n ((c' :: body) ++ repeat 125%N n ++ b') = true); [|congruence].
        apply starts_braces_spec'. destruct Hbw as [z Hz]. exists (z ++ b').
        rewrite app_assoc, Hz. now rewrite <- app_assoc.
      * injection Hxy as -> Hxy. eauto.
  - intros (c & body & b' & -> & -> & -> & H). revert c. induction body as [|x body IH]; intros c.
    + cbn [app to_braces]. rewrite (proj2 (starts_braces_spec' n (repeat 125%N n ++ b'))); [reflexivity|].
      exists b'. reflexivity.
    + cbn [app]. rewrite to_braces_cons.
      destruct (starts_braces n (x :: body ++ repeat 125%N n ++ b')) eqn:E.
      * exfalso. apply starts_braces_spec' in E. apply (H [] (x :: body) eq_refl); [discriminate|].
        apply (begins_ext n (x :: body) b'). exact E.
      * cbn [app] in IH. rewrite IH; [reflexivity|]. intros u v Huv. apply (H (x :: u) v). cbn. now f_equal.
Qed.

(* ---------- numbers ---------- *)
Lemma scan_number_sound r a b :
  scan_number r = (a, b) ->
  exists i f e, a = i ++ f ++ e /\ opt_digits i /\ loose_fraction f /\ loose_exponent e /\
    not_followed is_digit_char b /\
    (e = [] -> not_followed (is_char [69; 101]%N) b) /\
    (f = [] -> e = [] -> not_followed (is_char [46]%N) b) /\
    (List.length e = 1 -> not_followed (is_char [43; 45]%N) b) /\
    i = fst (span is_digit_char r) /\ f = fst (scan_fraction (snd (span is_digit_char r))).
Proof.
  unfold scan_number. pose proof (span_all is_digit_char r) as F1. pose proof (span_stop is_digit_char r) as S1.
  destruct (span is_digit_char r) as [i r1]. cbn [fst snd] in *.
  assert (Hf : forall f r2, scan_fraction r1 = (f, r2) -> loose_fraction f /\ not_followed is_digit_char r2 /\
     (f = [] -> not_followed (is_char [46]%N) r2)).
  { intros f r2 H. destruct r1 as [|p r1]; cbn [scan_fraction] in H.
    - injection H as <- <-. repeat split. now left.
    - destruct (N.eqb_spec p 46) as [->|Hp].
      + pose proof (span_all is_digit_char r1) as F2. pose proof (span_stop is_digit_char r1) as S2.
        destruct (span is_digit_char r1) as [x y]. injection H as <- <-. cbn [fst snd] in *.
        repeat split; [right; eauto|assumption|discriminate].
      + injection H as <- <-. split; [now left|]. split; [exact S1|]. intros _. cbn.
        now rewrite (proj2 (N.eqb_neq _ _) Hp). }
  destruct (scan_fraction r1) as [f r2] eqn:Ef. destruct (Hf f r2 eq_refl) as (L2 & S2 & N2). clear Hf.
  destruct (scan_exponent r2) as [e r3] eqn:Ee. intros H. injection H as <- <-.
  exists i, f, e. cbn [fst].
  assert (He : loose_exponent e /\ not_followed is_digit_char r3 /\
    (e = [] -> not_followed (is_char [69; 101]%N) r3 /\ (f = [] -> not_followed (is_char [46]%N) r3)) /\
    (List.length e = 1 -> not_followed (is_char [43; 45]%N) r3)).
  { destruct r2 as [|x r2]; cbn [scan_exponent] in Ee.
    - injection Ee as <- <-. split; [now left|]. repeat split.
    - destruct (N.eqb x 69 || N.eqb x 101) eqn:Ex.
      + assert (Hx : x = 69%N \/ x = 101%N).
        { apply orb_true_iff in Ex as [Ex|Ex]; apply N.eqb_eq in Ex; auto. }
        destruct r2 as [|sg r2].
        * injection Ee as <- <-. split; [right; exists x, [], []; repeat split; auto; constructor|].
          repeat split.
        * destruct (N.eqb sg 43 || N.eqb sg 45) eqn:Es.
          -- pose proof (span_all is_digit_char r2) as F3. pose proof (span_stop is_digit_char r2) as S3.
             destruct (span is_digit_char r2) as [y z]. injection Ee as <- <-. cbn [fst snd] in *.
             split; [|split; [exact S3|split; [discriminate|cbn; lia]]].
             right. exists x, [sg], y. repeat split; auto.
             apply orb_true_iff in Es as [Es|Es]; apply N.eqb_eq in Es as ->; auto.
          -- pose proof (span_all is_digit_char (sg :: r2)) as F3. pose proof (span_stop is_digit_char (sg :: r2)) as S3.
             pose proof (span_app is_digit_char (sg :: r2)) as A3.
             destruct (span is_digit_char (sg :: r2)) as [y z]. injection Ee as <- <-. cbn [fst snd] in *.
             split; [right; exists x, [], y; repeat split; auto|].
             split; [exact S3|split; [discriminate|]]. intros Hl. cbn in Hl.
             destruct y; [|discriminate]. cbn in A3. subst z. cbn. rewrite orb_false_r. exact Es.
      + injection Ee as <- <-. split; [now left|]. split; [exact S2|]. split; [|discriminate].
        intros _. split; [|exact N2]. cbn. rewrite orb_false_r. exact Ex. }
  destruct He as (L3 & S3 & N3 & P3). repeat split; auto.
  - intros ->. now apply N3.
  - intros -> ->. now apply N3.
Qed.

Lemma nf_app p a b : not_followed p a -> (a = [] -> not_followed p b) -> not_followed p (a ++ b).
Proof. destruct a; cbn; auto. Qed.

Lemma loose_exponent_nf_digit e : loose_exponent e -> not_followed is_digit_char e.
Proof. intros [->|(x & sg & d & [->| ->] & _ & _ & ->)]; exact I || reflexivity. Qed.

Lemma scan_number_complete i f e post :
  opt_digits i -> loose_fraction f -> loose_exponent e ->
  not_followed is_digit_char post ->
  (e = [] -> not_followed (is_char [69; 101]%N) post) ->
  (f = [] -> e = [] -> not_followed (is_char [46]%N) post) ->
  (List.length e = 1 -> not_followed (is_char [43; 45]%N) post) ->
  scan_number ((i ++ f ++ e) ++ post) = (i ++ f ++ e, post).
Proof.
  intros Hi Hf He Hd H1 H2 H3. unfold scan_number. rewrite <- !app_assoc.
  assert (De : not_followed is_digit_char (e ++ post)).
  { apply nf_app; [now apply loose_exponent_nf_digit|auto]. }
  assert (Df : not_followed is_digit_char (f ++ e ++ post)).
  { destruct Hf as [->|(d & _ & ->)]; [exact De|reflexivity]. }
  rewrite (span_unique _ _ _ Hi Df).
  assert (Ef : scan_fraction (f ++ e ++ post) = (f, e ++ post)).
  { destruct Hf as [->|(d & Hdd & ->)].
    - cbn [app]. destruct He as [->|(x & sg & d & Hx & _ & _ & ->)].
      + cbn [app]. specialize (H2 eq_refl eq_refl). destruct post as [|c post]; [reflexivity|].
        cbn in H2. rewrite orb_false_r in H2. cbn [scan_fraction]. now rewrite H2.
      + cbn [app scan_fraction]. destruct Hx as [->| ->]; reflexivity.
    - cbn [app scan_fraction]. change (N.eqb 46 46) with true. cbv iota.
      now rewrite (span_unique _ _ _ Hdd De). }
  rewrite Ef.
  assert (Ee : scan_exponent (e ++ post) = (e, post)).
  { destruct He as [->|(x & sg & d & Hx & Hsg & Hdd & ->)].
    - cbn [app]. specialize (H1 eq_refl). destruct post as [|c post]; [reflexivity|].
      cbn in H1. rewrite orb_false_r in H1. cbn [scan_exponent]. now rewrite H1.
    - cbn [app scan_exponent].
      assert ((N.eqb x 69 || N.eqb x 101) = true) as -> by (destruct Hx as [->| ->]; reflexivity).
      destruct Hsg as [->|Hsg].
      + cbn [app]. destruct d as [|d0 d].
        * cbn [app]. specialize (H3 eq_refl). destruct post as [|c post]; [reflexivity|].
          cbn in H3. rewrite orb_false_r in H3. rewrite H3.
          pose proof (span_unique is_digit_char [] (c :: post) Hdd Hd) as X. cbn [app] in X. now rewrite X.
        * cbn [app]. inversion Hdd as [|? ? Hd0 _]; subst.
          assert ((N.eqb d0 43 || N.eqb d0 45) = false) as ->.
          { destruct (N.eqb_spec d0 43) as [->|_]; [discriminate|].
            destruct (N.eqb_spec d0 45) as [->|_]; [discriminate|reflexivity]. }
          change (d0 :: d ++ post) with ((d0 :: d) ++ post).
          now rewrite (span_unique _ _ _ Hdd Hd).
      + destruct Hsg as [->| ->]; cbn [app]; change (N.eqb 43 43) with true; change (N.eqb 45 43) with false;
        change (N.eqb 45 45) with true; cbn [orb]; now rewrite (span_unique _ _ _ Hdd Hd). }
  rewrite Ee. reflexivity.
Qed.

(* ---------- soundness ---------- *)
Section Grammar.
Context (U : unicode) (HU : tables_ok U).

Lemma word_start_ascii c : is_ascii c = true -> word_start U c = is_letter_ascii c || N.eqb c 95.
Proof. intros H. unfold word_start. destruct HU as [[Ha _] _]. now rewrite Ha. Qed.
Lemma word_char_ascii c : is_ascii c = true -> word_char U c = is_letter_ascii c || is_digit_char c || N.eqb c 95.
Proof. intros H. unfold word_char. destruct HU as [[Ha _] _]. now rewrite Ha. Qed.

Lemma word_start_ws c : word_start U c = true -> is_whitespace_char c = false.
Proof.
  unfold word_start. intros H. destruct (is_whitespace_char c) eqn:E; [|reflexivity].
  destruct HU as [_ Hw]. rewrite (Hw c E) in H. cbn in H. apply N.eqb_eq in H. subst c. discriminate.
Qed.
Lemma digit_range c : is_digit_char c = true -> (48 <= c <= 57)%N.
Proof.
  unfold is_digit_char, in_range. intros H. apply andb_true_iff in H as [H1 H2].
  apply N.leb_le in H1. apply N.leb_le in H2. lia.
Qed.
Lemma word_start_digit c : word_start U c = true -> is_digit_char c = false.
Proof.
  intros H. destruct (is_digit_char c) eqn:E; [|reflexivity]. apply digit_range in E.
  rewrite word_start_ascii in H by (apply N.ltb_lt; lia).
  unfold is_letter_ascii, is_lower_ascii, is_upper_ascii, in_range in H.
  repeat (apply orb_true_iff in H as [H|H]); try (apply andb_true_iff in H as [H1 H2]; apply N.leb_le in H1; apply N.leb_le in H2; lia).
  apply N.eqb_eq in H. lia.
Qed.
Lemma digit_ws c : is_digit_char c = true -> is_whitespace_char c = false.
Proof.
  intros E. apply digit_range in E. unfold is_whitespace_char.
  rewrite !(proj2 (in_range_false _ _ _)) by lia.
  rewrite !(proj2 (N.eqb_neq _ _)) by lia. reflexivity.
Qed.

Lemma word_char_nf f : not_followed (is_ichar U) f -> not_followed (word_char U) f.
Proof. destruct f; auto. Qed.

Lemma hd_is_nf c r : hd_is c r = false -> not_followed (is_char [c]) r.
Proof. destruct r as [|x r]; cbn; [auto|]. now rewrite orb_false_r. Qed.
Lemma hd_is_nf2 c d r : hd_is c r = false -> hd_is d r = false -> not_followed (is_char [c; d]) r.
Proof. destruct r as [|x r]; cbn; [auto|]. intros -> ->. reflexivity. Qed.
Lemma hd_is_nf3 c d e r : hd_is c r = false -> hd_is d r = false -> hd_is e r = false ->
  not_followed (is_char [c; d; e]) r.
Proof. destruct r as [|x r]; cbn; [auto|]. intros -> -> ->. reflexivity. Qed.
Lemma hd_digit_nf r : hd_digit r = false -> not_followed is_digit_char r.
Proof. destruct r; cbn; auto. Qed.

Lemma back_quoted_of r a b : scan_back_quoted (96%N :: r) = Some (a, b) ->
  back_quoted_literal a /\ 96%N :: r = a ++ b.
Proof.
  intros H. destruct (scan_back_quoted_inv _ _ _ H) as [E (q & body & -> & Hb)].
  cbn [app] in E. injection E as <- E. split; [exists body; auto|]. cbn. now rewrite E.
Qed.

Theorem scan_sound n prev c r lit sk rest d' :
  is_whitespace_char c = false ->
  scan U n (option_map (upper_literal U) prev) c r = LexOk lit sk rest d' ->
  lexeme U n prev lit (sk ++ rest).
Proof.
  intros Hws. unfold scan.
  assert (Hcom : (let (a, b) := span (fun x => negb (N.eqb x 10)) (c :: r) in
             let (t, w) := split_trim a in LexOk t w b n) = LexOk lit sk rest d' ->
     begins_with (s_ "#") (c :: r) \/ begins_with (s_ "--") (c :: r) ->
     lexeme U n prev lit (sk ++ rest)).
  { pose proof (span_app (fun x => negb (N.eqb x 10)) (c :: r)) as E.
    pose proof (span_all (fun x => negb (N.eqb x 10)) (c :: r)) as F.
    pose proof (span_stop (fun x => negb (N.eqb x 10)) (c :: r)) as S0.
    destruct (span _ (c :: r)) as [a b]. cbn [fst snd] in *.
    destruct (split_trim a) as [t w] eqn:Et. intros H Hb. injection H as <- <- <- <-.
    destruct (split_trim_spec _ _ _ Et) as [E1 [E2 E3]]. rewrite E1 in F.
    apply Forall_app in F as [F1 F2].
    assert (NI : forall l, Forall (fun x => negb (N.eqb x 10) = true) l -> ~ In newline l).
    { intros l Fl Hin. rewrite Forall_forall in Fl. now specialize (Fl _ Hin). }
    apply lx_line; auto. split; [|auto].
    assert (Hs : c :: r = t ++ w ++ b) by (rewrite <- E, E1; now rewrite <- app_assoc).
    assert (Hws2 : forall x y, t = [] \/ t = [45%N] -> c :: r = x :: y -> is_whitespace_char x = false ->
             t <> []).
    { intros x y _ _ _ ->. destruct w as [|w0 w].
      - cbn in E1. subst a. cbn [app] in E. subst b. cbn in S0. cbn in Hs.
        apply negb_false_iff, N.eqb_eq in S0. subst c. discriminate.
      - cbn in Hs. injection Hs as -> _. inversion E2. congruence. }
    destruct Hb as [[y Hy]|[y Hy]]; rewrite Hs in Hy.
    - left. destruct t as [|t0 t]; [exfalso; refine (Hws2 c r _ eq_refl Hws eq_refl); auto|].
      cbn in Hy. injection Hy as -> _. exists t. reflexivity.
    - right. destruct t as [|t0 [|t1 t]].
      + exfalso; refine (Hws2 c r _ eq_refl Hws eq_refl); auto.
      + exfalso. cbn in Hy. injection Hy as -> Hy. destruct w as [|w0 w].
        * cbn in Hy. subst b. cbn in S0. discriminate.
        * cbn in Hy. injection Hy as -> _. inversion E2. discriminate.
      + cbn in Hy. injection Hy as -> -> _. exists t. reflexivity. }
  assert (Hnum : (let (a, b) := scan_number (c :: r) in LexOk a [] b n) = LexOk lit sk rest d' ->
     (is_digit_char c = true \/ c = 46%N /\ hd_digit r = true) ->
     lexeme U n prev lit (sk ++ rest)).
  { destruct (scan_number (c :: r)) as [a b] eqn:En. intros H Hc. injection H as <- <- <- <-.
    destruct (scan_number_sound _ _ _ En) as (i & f & e & -> & H1 & H2 & H3 & H4 & H5 & H6 & H7 & Hi & Hf).
    cbn [app]. apply lx_number; auto. destruct Hc as [Hc|[-> Hd]].
    - left. rewrite Hi. cbn [span]. rewrite Hc. destruct (span is_digit_char r). discriminate.
    - right. destruct r as [|x r]; [discriminate|]. cbn in Hd. cbn [span] in Hf.
      change (is_digit_char 46) with false in Hf. cbv iota in Hf. cbn [snd scan_fraction] in Hf.
      change (N.eqb 46 46) with true in Hf. cbv iota in Hf. cbn [span] in Hf. rewrite Hd in Hf.
      destruct (span is_digit_char r) as [y z]. cbn in Hf. exists x, y. auto. }
  assert (Htwo : forall s, In s two_char_operators -> (s = ">>" \/ s = ">=" -> n = 0%N) ->
     LexOk (s_ s) [] (tl r) n = LexOk lit sk rest d' -> lexeme U n prev lit (sk ++ rest)).
  { intros s Hs Hn H. injection H as <- <- <- <-. now apply lx_op. }
  assert (Ha : is_ascii c = true -> word_start U c = is_letter_ascii c || N.eqb c 95) by apply word_start_ascii.
  Ltac single Ha := intros H; injection H as <- <- <- <-; cbn [app];
    apply lx_single; try reflexivity; try discriminate; try (rewrite Ha; reflexivity);
    try (intros _ _); try (intros _).
  destruct (N.eqb_spec c 46) as [->|N46].
  { destruct (hd_digit r) eqn:Ed; [auto|]. single Ha. now apply hd_digit_nf. }
  destruct (N.eqb_spec c 35) as [->|N35].
  { intros H. apply Hcom; [exact H|]. left. exists r. reflexivity. }
  destruct (N.eqb_spec c 96) as [->|N96].
  { destruct (scan_back_quoted _) as [[a b]|] eqn:E; [|discriminate].
    intros H. injection H as <- <- <- <-. apply lx_back. now apply back_quoted_of in E. }
  destruct (N.eqb c 34 || N.eqb c 39) eqn:Eq.
  { assert (Hq : c = 34%N \/ c = 39%N) by (apply orb_true_iff in Eq as [Eq|Eq]; apply N.eqb_eq in Eq; auto).
    assert (Hq92 : c <> 92%N) by (destruct Hq as [->| ->]; discriminate).
    assert (Hsingle : forall a b, hd_is c r && hd_is c (tl r) = false ->
       to_quote (hd_is c) false r = Some (a, b) ->
       LexOk (c :: a ++ [c]) [] (tl b) n = LexOk lit sk rest d' -> lexeme U n prev lit (sk ++ rest)).
    { intros a b E0 E H. injection H as <- <- <- <-. apply to_quote_hd in E as (E1 & E2 & ->); [|exact Hq92].
      apply (lx_quoted _ _ _ c); [exact Hq|exists a; auto|]. intros Hl. injection Hl as Hl.
      destruct a as [|a0 [|a1 a]]; try discriminate.
      cbn [app] in *. rewrite E2 in E0. cbn in E0. now apply hd_is_nf. }
    destruct (hd_is c r && hd_is c (tl r)) eqn:E0.
    - destruct (to_quote (starts3 c) false (tl (tl r))) as [[a b]|] eqn:E; [|discriminate].
      intros H. injection H as <- <- <- <-. apply to_quote_3 in E as (E1 & b' & -> & E2); [|exact Hq92].
      apply (lx_triple _ _ _ c); [exact Hq|]. exists a. auto.
    - destruct (to_quote (hd_is c) false r) as [[a b]|] eqn:E; [|discriminate].
      eauto. }
  apply orb_false_iff in Eq as [N34 N39]. apply N.eqb_neq in N34. apply N.eqb_neq in N39.
  destruct (N.eqb_spec c 45) as [->|N45].
  { destruct (hd_is 45 r) eqn:E.
    - intros H. apply Hcom; [exact H|]. right. rewrite (hd_is_eq _ _ E). now exists (tl r).
    - single Ha. now apply hd_is_nf. }
  destruct (N.eqb_spec c 47) as [->|N47].
  { destruct (hd_is 42 r) eqn:E.
    - destruct (to_star_slash _) as [[a b]|] eqn:Es; [|discriminate].
      intros H. injection H as <- <- <- <-. apply to_star_slash_spec in Es as [(b' & -> & E1) E2].
      cbn [app]. apply lx_block. split; [|split; [eauto|exact E2]].
      rewrite (hd_is_eq _ _ E) in E1. destruct a as [|a0 [|a1 a]]; cbn in E1; [discriminate|..].
      + injection E1 as <- _. now exists (s_ "/").
      + injection E1 as <- <- _. now exists (a ++ s_ "*/").
    - single Ha. now apply hd_is_nf. }
  destruct (N.eqb_spec c 124) as [->|N124].
  { destruct (hd_is 124 r) eqn:E1; [apply Htwo; [cbn; auto 10|intros [|]; discriminate]|].
    destruct (hd_is 62 r) eqn:E2; [apply Htwo; [cbn; auto 10|intros [|]; discriminate]|].
    single Ha. now apply hd_is_nf2. }
  destruct (N.eqb_spec c 60) as [->|N60].
  { destruct (hd_is 60 r) eqn:E1; [apply Htwo; [cbn; auto 10|intros [|]; discriminate]|].
    destruct (hd_is 61 r) eqn:E2; [apply Htwo; [cbn; auto 10|intros [|]; discriminate]|].
    destruct (hd_is 62 r) eqn:E3; [apply Htwo; [cbn; auto 10|intros [|]; discriminate]|].
    destruct prev as [p|]; cbn [option_map]; [|discriminate].
    single Ha. split; [now apply hd_is_nf3|discriminate]. }
  destruct (N.eqb_spec c 62) as [->|N62].
  { destruct (N.ltb_spec 0 n) as [Hn|Hn].
    - intros H; injection H as <- <- <- <-; cbn [app].
      apply lx_single; try reflexivity; try discriminate; [rewrite Ha; reflexivity|intros; lia].
    - destruct (hd_is 62 r) eqn:E1; [apply Htwo; [cbn; auto 10|intros _; lia]|].
      destruct (hd_is 61 r) eqn:E2; [apply Htwo; [cbn; auto 10|intros _; lia]|].
      single Ha. now apply hd_is_nf2. }
  destruct (N.eqb_spec c 61) as [->|N61].
  { destruct (hd_is 62 r) eqn:E1; [apply Htwo; [cbn; auto 10|intros [|]; discriminate]|].
    single Ha. now apply hd_is_nf. }
  destruct (N.eqb_spec c 33) as [->|N33].
  { destruct (hd_is 61 r) eqn:E1; [apply Htwo; [cbn; auto 10|intros [|]; discriminate]|].
    single Ha. now apply hd_is_nf. }
  destruct (N.eqb c 64) eqn:N64.
  { unfold scan_param. pose proof (span_app (fun x => N.eqb x 64) (c :: r)) as E.
    pose proof (span_all (fun x => N.eqb x 64) (c :: r)) as F.
    rewrite (span_cons_hd (fun x => N.eqb x 64) c r N64) in *.
    destruct (span _ r) as [y b]. cbn [fst snd] in *.
    assert (G : c :: y = repeat 64%N (S (List.length y))).
    { assert (K : forall l, Forall (fun x => N.eqb x 64 = true) l -> l = repeat 64%N (List.length l)).
      { induction 1 as [|x l Hx _ IH]; [reflexivity|]. cbn. apply N.eqb_eq in Hx as ->. now f_equal. }
      exact (K _ F). }
    rewrite G. destruct b as [|x b]; [discriminate|].
    destruct (N.eqb_spec x 96) as [->|_].
    - destruct (scan_back_quoted _) as [[e f]|] eqn:Eb; [|discriminate].
      intros H. injection H as <- <- <- <-. apply (lx_param_quoted _ _ _ (List.length y)). now apply back_quoted_of in Eb.
    - destruct (is_istart U x) eqn:Ei; [|discriminate].
      pose proof (span_all (is_ichar U) b) as F2. pose proof (span_stop (is_ichar U) b) as S2.
      destruct (span (is_ichar U) b) as [e f]. intros H. injection H as <- <- <- <-.
      apply (lx_param _ _ _ (List.length y)); [|now apply word_char_nf]. split; [exact Ei|exact F2]. }
  destruct (N.eqb c 123) eqn:N123.
  { unfold scan_brace. pose proof (span_app (fun x => N.eqb x 123) (c :: r)) as E.
    pose proof (span_all (fun x => N.eqb x 123) (c :: r)) as F.
    pose proof (span_stop (fun x => N.eqb x 123) (c :: r)) as S0.
    rewrite (span_cons_hd (fun x => N.eqb x 123) c r N123) in *.
    destruct (span _ r) as [y b]. cbn [fst snd] in *.
    assert (G : c :: y = repeat 123%N (S (List.length y))).
    { assert (K : forall l, Forall (fun x => N.eqb x 123 = true) l -> l = repeat 123%N (List.length l)).
      { induction 1 as [|x l Hx _ IH]; [reflexivity|]. cbn. apply N.eqb_eq in Hx as ->. now f_equal. }
      exact (K _ F). }
    destruct (Nat.eqb (List.length (c :: y)) 1 && (hd_is 64 b || hd_digit b || hd_is 44 b)) eqn:Eb.
    - intros H. injection H as <- <- <- <-. apply andb_true_iff in Eb as [_ Eb].
      apply N.eqb_eq in N123 as ->. destruct b as [|b0 b]; [discriminate|]. apply lx_open_brace.
      cbn in Eb |- *. rewrite orb_false_r. destruct (N.eqb b0 64), (is_digit_char b0), (N.eqb b0 44); cbn in *; congruence.
    - remember (List.length (c :: y)) as k eqn:Ek.
      destruct (to_braces k b) as [[e f]|] eqn:Et; [|discriminate].
      intros H. injection H as <- <- <- <-.
      apply to_braces_spec in Et as (x & body & b' & -> & -> & -> & Hb).
      assert (firstn k (repeat 125%N k ++ b') = repeat 125%N k) as ->.
      { rewrite firstn_app, repeat_length, Nat.sub_diag. cbn [firstn]. rewrite app_nil_r.
        rewrite <- (repeat_length 125%N k) at 1. apply firstn_all. }
      change (c :: y ++ (x :: body) ++ repeat 125%N k) with ((c :: y) ++ x :: body ++ repeat 125%N k).
      rewrite G. subst k. cbn [List.length] in *.
      apply lx_template.
      + intros ->. cbn in S0. discriminate.
      + intros Hl. rewrite Hl in Eb. cbn in Eb |- *. rewrite orb_false_r.
        destruct (N.eqb x 64), (is_digit_char x), (N.eqb x 44); cbn in *; congruence.
      + exact Hb. }
  destruct (is_digit_char c) eqn:Ed; [auto|].
  destruct (is_istart U c) eqn:Ei.
  - pose proof (span_all (is_ichar U) r) as F2. pose proof (span_stop (is_ichar U) r) as S2.
    destruct (span (is_ichar U) r) as [e f]. intros H. injection H as <- <- <- <-.
    apply lx_word; [|now apply word_char_nf]. split; [exact Ei|exact F2].
  - intros H. injection H as <- <- <- <-. cbn [app].
    apply N.eqb_neq in N64. apply N.eqb_neq in N123.
    apply lx_single; auto; try congruence.
    cbn. repeat match goal with |- context [N.eqb c ?k] => destruct (N.eqb_spec c k); [congruence|] end. reflexivity.
Qed.

(* ---------- completeness ---------- *)
Definition special (c : char) : bool :=
  is_char [46; 35; 96; 34; 39; 45; 47; 124; 60; 62; 61; 33; 64; 123]%N c.

Lemma scan_other n prev c r : special c = false ->
  scan U n prev c r =
  if is_digit_char c then (let (a, b) := scan_number (c :: r) in LexOk a [] b n)
  else if is_istart U c then let (a, b) := span (is_ichar U) r in LexOk (c :: a) [] b n
  else LexOk [c] [] r n.
Proof.
  intros H. unfold special, is_char in H. cbn [existsb] in H.
  repeat (apply orb_false_iff in H as [?H H]).
  unfold scan.
  repeat match goal with E : N.eqb c ?k = false |- context [N.eqb c ?k] => rewrite E end.
  reflexivity.
Qed.

Lemma special_word c : special c = true -> word_start U c = false.
Proof.
  unfold special, is_char. cbn [existsb]. intros H.
  repeat (apply orb_true_iff in H as [H|H]); try discriminate;
    apply N.eqb_eq in H; subst c; rewrite word_start_ascii by reflexivity; reflexivity.
Qed.
Lemma special_digit c : special c = true -> is_digit_char c = false.
Proof.
  unfold special, is_char. cbn [existsb]. intros H.
  repeat (apply orb_true_iff in H as [H|H]); try discriminate;
    apply N.eqb_eq in H; subst c; reflexivity.
Qed.

Lemma last_char_app a b : b <> [] -> last_char (a ++ b) = last_char b.
Proof.
  intros H. unfold last_char. rewrite rev_app_distr. destruct (rev b) as [|x l] eqn:E; [|reflexivity].
  apply (f_equal (@rev N)) in E. rewrite rev_involutive in E. cbn in E. congruence.
Qed.

(* a text whose last character is not white, followed by white space, is trimmed to itself *)
Lemma drop_white w s : white w -> (forall c, first_char s = Some c -> is_whitespace_char c = false) ->
  drop_while is_whitespace_char (w ++ s) = s.
Proof.
  intros Hw Hs. induction Hw as [|c w Hc _ IH]; cbn [app drop_while].
  - destruct s as [|c s]; [reflexivity|]. cbn. now rewrite (Hs c eq_refl).
  - now rewrite Hc.
Qed.
Lemma split_trim_unique t w : white w -> (forall c, last_char t = Some c -> is_whitespace_char c = false) ->
  split_trim (t ++ w) = (t, w).
Proof.
  intros Hw Ht. unfold split_trim.
  assert (trim_end (t ++ w) = t) as ->.
  { unfold trim_end. rewrite rev_app_distr, drop_white; [apply rev_involutive|now apply Forall_rev|exact Ht]. }
  now rewrite skipn_app, skipn_all, Nat.sub_diag.
Qed.

Lemma nf_hd_is k r : not_followed (is_char [k]) r -> hd_is k r = false.
Proof. destruct r as [|x r]; cbn; [auto|]. now rewrite orb_false_r. Qed.
Lemma nf_hd_is2 k l r : not_followed (is_char [k; l]) r -> hd_is k r = false /\ hd_is l r = false.
Proof.
  destruct r as [|x r]; cbn; [auto|]. rewrite orb_false_r. intros H. now apply orb_false_iff in H.
Qed.
Lemma nf_hd_is3 k l m r : not_followed (is_char [k; l; m]) r ->
  hd_is k r = false /\ hd_is l r = false /\ hd_is m r = false.
Proof.
  destruct r as [|x r]; cbn; [auto|]. rewrite orb_false_r. intros H. apply orb_false_iff in H as [? H].
  apply orb_false_iff in H. tauto.
Qed.

Lemma comment_complete n c r lit w post :
  lit = c :: r -> line_comment lit -> white w -> ~ In newline w ->
  not_followed (fun c => negb (N.eqb c newline)) post ->
  (let (a, b) := span (fun x => negb (N.eqb x 10)) (lit ++ w ++ post) in
   let (t, w) := split_trim a in LexOk t w b n) = LexOk lit w post n.
Proof.
  intros _ (_ & H2 & H3) Hw Hnw Hp.
  assert (F : forall l, ~ In newline l -> Forall (fun x => negb (N.eqb x 10) = true) l).
  { intros l Hl. apply Forall_forall. intros x Hx. destruct (N.eqb_spec x 10) as [->|]; [|reflexivity].
    contradiction. }
  rewrite app_assoc, (span_unique _ (lit ++ w) post).
  - rewrite split_trim_unique; auto.
  - apply Forall_app. auto.
  - exact Hp.
Qed.

Lemma back_quoted_complete lit post : back_quoted_literal lit ->
  scan_back_quoted (lit ++ post) = Some (lit, post).
Proof.
  intros (body & Hb & ->). cbn [app scan_back_quoted]. rewrite <- app_assoc. cbn [app].
  rewrite (span_unique _ body (96%N :: post)).
  - reflexivity.
  - apply Forall_forall. intros x Hx. destruct (N.eqb_spec x 96) as [->|]; [contradiction|reflexivity].
  - reflexivity.
Qed.

Lemma span_repeat k (n : nat) r : not_followed (fun x => N.eqb x k) r ->
  span (fun x => N.eqb x k) (repeat k n ++ r) = (repeat k n, r).
Proof.
  intros H. apply span_unique; [|exact H]. induction n; cbn; constructor; [apply N.eqb_refl|assumption].
Qed.

Lemma firstn_repeat_app (x : char) n r : firstn n (repeat x n ++ r) = repeat x n.
Proof. induction n; cbn; congruence. Qed.
Lemma skipn_repeat_app (x : char) n r : skipn n (repeat x n ++ r) = r.
Proof. induction n; cbn; congruence. Qed.

Theorem scan_complete n prev lit post :
  lexeme U n prev lit post ->
  exists c r sk rest d', lit ++ post = c :: r /\ is_whitespace_char c = false /\ post = sk ++ rest /\
    scan U n (option_map (upper_literal U) prev) c r = LexOk lit sk rest d'.
Proof.
  intros H. destruct H as [lit post Hw Hp|i f e post Hi Hf He Hst H1 H2 H3 H4|q lit post Hq Hl Hp|q lit post Hq Hl
    |lit post Hl|lit w post Hl Hw Hnw Hp|lit post Hl|s post Hs Hn|k lit post Hl Hp|k lit post Hl|c post Hc
    |k c body post Hc Hk Hb|c post Hws Hd Hst Hsp H46 H45 H47 H124 H60 H62 H61 H33].
  - (* word *)
    destruct lit as [|c r]; [contradiction|]. destruct Hw as [Hc Hr].
    exists c, (r ++ post), [], post, n. repeat split; [now apply word_start_ws|].
    rewrite scan_other.
    2:{ destruct (special c) eqn:E; [|reflexivity]. apply special_word in E. congruence. }
    rewrite (word_start_digit c Hc). change (is_istart U c) with (word_start U c). rewrite Hc.
    rewrite (span_unique (is_ichar U) r post); [reflexivity|exact Hr|]. destruct post; auto.
  - (* number *)
    pose proof (scan_number_complete i f e post Hi Hf He H1 H2 H3 H4) as E.
    destruct i as [|c i].
    + destruct Hst as [Hst|(c & d & Hcd & ->)]; [congruence|]. cbn [app] in *.
      exists 46%N, (c :: d ++ e ++ post), [], post, n. repeat split.
      * cbn. now rewrite <- app_assoc.
      * unfold scan. change (N.eqb 46 46) with true. cbv iota. cbn [hd_digit]. rewrite Hcd.
        cbn [app] in E. rewrite <- app_assoc in E. now rewrite E.
    + inversion Hi as [|? ? Hc Hi2]; subst. cbn [app] in *.
      exists c, (i ++ f ++ e ++ post), [], post, n. repeat split.
      * now rewrite <- !app_assoc.
      * now apply digit_ws.
      * rewrite scan_other. 2:{ destruct (special c) eqn:E2; [|reflexivity]. apply special_digit in E2. congruence. }
        rewrite Hc. rewrite <- !app_assoc in E. now rewrite E.
  - (* quoted *)
    destruct Hl as (body & Hb & ->).
    assert (Hq92 : q <> 92%N) by (destruct Hq as [->| ->]; discriminate).
    exists q, (body ++ q :: post), [], post, n. cbn [app]. rewrite <- app_assoc. repeat split.
    + destruct Hq as [->| ->]; reflexivity.
    + assert (E : to_quote (hd_is q) false (body ++ q :: post) = Some (body, q :: post)).
      { apply to_quote_hd; [exact Hq92|]. repeat split; auto. cbn. apply N.eqb_refl. }
      assert (E2 : hd_is q (body ++ q :: post) && hd_is q (tl (body ++ q :: post)) = false).
      { destruct body as [|b0 body]; cbn [app hd_is tl].
        - rewrite N.eqb_refl. cbn [andb]. apply nf_hd_is. now apply Hp.
        - apply andb_false_iff. left. inversion Hb; subst; apply N.eqb_neq; congruence. }
      destruct Hq as [->| ->]; unfold scan; cbn [N.eqb Pos.eqb orb]; rewrite E2, E; reflexivity.
  - (* triple *)
    destruct Hl as (body & Hb & ->).
    assert (Hq92 : q <> 92%N) by (destruct Hq as [->| ->]; discriminate).
    exists q, (q :: q :: body ++ q :: q :: q :: post), [], post, n. cbn [app]. rewrite <- app_assoc. repeat split.
    + destruct Hq as [->| ->]; reflexivity.
    + assert (E : to_quote (starts3 q) false (body ++ q :: q :: q :: post) = Some (body, q :: q :: q :: post)).
      { apply to_quote_3; [exact Hq92|]. split; [exact Hb|]. exists post. auto. }
      destruct Hq as [->| ->]; unfold scan; cbn [N.eqb Pos.eqb orb hd_is tl andb]; rewrite E; reflexivity.
  - (* back quoted *)
    pose proof (back_quoted_complete lit post Hl) as E. destruct Hl as (body & Hb & ->).
    exists 96%N, (body ++ 96%N :: post), [], post, n. cbn [app] in *. rewrite <- app_assoc in *. repeat split.
    unfold scan. cbn [N.eqb Pos.eqb]. cbn [app] in E. now rewrite E.
  - (* line comment *)
    destruct lit as [|c r]. { destruct Hl as [[[x Hx]|[x Hx]] _]; discriminate. }
    pose proof (comment_complete n c r (c :: r) w post eq_refl Hl Hw Hnw Hp) as E.
    destruct Hl as [Hb _]. exists c, (r ++ w ++ post), w, post, n. cbn [app] in *.
    destruct Hb as [[x Hx]|[x Hx]].
    + injection Hx as -> ->. repeat split. unfold scan. cbn [N.eqb Pos.eqb]. exact E.
    + injection Hx as -> ->. repeat split. unfold scan. cbn [N.eqb Pos.eqb orb app hd_is]. exact E.
  - (* block comment *)
    destruct Hl as ([x Hx] & [a Ha] & Hu). destruct lit as [|c r]; [discriminate|].
    injection Hx as -> Hr.
    assert (E : to_star_slash ((47%N :: r) ++ post) = Some (a, s_ "*/" ++ post)).
    { apply to_star_slash_spec. split; [|rewrite <- Ha; exact Hu]. exists post. split; [reflexivity|].
      rewrite Ha. now rewrite <- app_assoc. }
    exists 47%N, (r ++ post), [], post, n. repeat split.
    unfold scan. cbn [N.eqb Pos.eqb orb].
    assert (hd_is 42 (r ++ post) = true) as -> by (rewrite Hr; reflexivity).
    cbn [app] in E. rewrite E. cbn [skipn s_ app]. rewrite Ha. reflexivity.
  - (* operators *)
    cbn in Hs.
    assert (N0 : s = ">>" \/ s = ">=" -> N.ltb 0 n = false) by (intros X; rewrite (Hn X); reflexivity).
    repeat (destruct Hs as [<-|Hs]; [eexists _, _, [], post, n; split; [reflexivity|]; split; [reflexivity|];
      split; [reflexivity|]; unfold scan; cbn [N.eqb Pos.eqb orb s_ hd_is tl app N_of_ascii N_of_digits N.add N.mul Pos.add Pos.mul];
      try (rewrite N0 by auto); reflexivity|]).
    contradiction.
  - (* parameter *)
    exists 64%N, (repeat 64%N k ++ lit ++ post), [], post, n. cbn [repeat app]. rewrite <- app_assoc. repeat split.
    unfold scan. cbn [N.eqb Pos.eqb orb]. unfold scan_param.
    destruct lit as [|c r]; [contradiction|]. destruct Hl as [Hc Hr].
    change (64%N :: repeat 64%N k ++ (c :: r) ++ post) with (repeat 64%N (S k) ++ (c :: r) ++ post).
    assert (Hsp : special c = false) by (destruct (special c) eqn:E; [apply special_word in E; congruence|reflexivity]).
    unfold special, is_char in Hsp. cbn [existsb] in Hsp. repeat (apply orb_false_iff in Hsp as [?H Hsp]).
    rewrite span_repeat by assumption. cbn [app].
    match goal with E : N.eqb c 96 = false |- _ => rewrite E end.
    change (is_istart U c) with (word_start U c). rewrite Hc.
    rewrite (span_unique (is_ichar U) r post); [reflexivity|exact Hr|]. destruct post; auto.
  - (* quoted parameter *)
    exists 64%N, (repeat 64%N k ++ lit ++ post), [], post, n. cbn [repeat app]. rewrite <- app_assoc. repeat split.
    unfold scan. cbn [N.eqb Pos.eqb orb]. unfold scan_param.
    change (64%N :: repeat 64%N k ++ lit ++ post) with (repeat 64%N (S k) ++ lit ++ post).
    pose proof (back_quoted_complete lit post Hl) as E. destruct Hl as (body & Hb & ->).
    rewrite span_repeat by reflexivity. cbn [app] in *. change (N.eqb 96 96) with true. cbv iota. now rewrite E.
  - (* open brace *)
    exists 123%N, (c :: post), [], (c :: post), n. repeat split.
    unfold scan. cbn [N.eqb Pos.eqb orb]. unfold scan_brace.
    assert (N.eqb c 123 = false) as Ec.
    { destruct (N.eqb_spec c 123) as [->|]; [discriminate|reflexivity]. }
    change (123%N :: c :: post) with (repeat 123%N 1 ++ c :: post). rewrite span_repeat by exact Ec.
    cbn [repeat List.length Nat.eqb andb hd_is hd_digit].
    cbn in Hc. rewrite orb_false_r in Hc.
    destruct (N.eqb c 64), (is_digit_char c), (N.eqb c 44); cbn in *; congruence.
  - (* template *)
    exists 123%N, (repeat 123%N k ++ c :: body ++ repeat 125%N (S k) ++ post), [], post, n.
    repeat split. { cbn [repeat app]. rewrite <- app_assoc. cbn [app]. now rewrite <- app_assoc. }
    unfold scan. cbn [N.eqb Pos.eqb orb]. unfold scan_brace.
    match goal with |- context [span _ (123%N :: ?x)] =>
      change (123%N :: x) with (repeat 123%N (S k) ++ c :: body ++ repeat 125%N (S k) ++ post) end.
    rewrite span_repeat by (cbn; now apply N.eqb_neq). rewrite repeat_length.
    assert (Nat.eqb (S k) 1 && (hd_is 64 (c :: body ++ repeat 125%N (S k) ++ post)
       || hd_digit (c :: body ++ repeat 125%N (S k) ++ post) || hd_is 44 (c :: body ++ repeat 125%N (S k) ++ post)) = false) as ->.
    { destruct k as [|k]; [|reflexivity]. specialize (Hk eq_refl). cbn in Hk |- *. rewrite orb_false_r in Hk.
      destruct (N.eqb c 64), (is_digit_char c), (N.eqb c 44); cbn in *; congruence. }
    assert (E : to_braces (S k) (c :: body ++ repeat 125%N (S k) ++ post) = Some (c :: body, repeat 125%N (S k) ++ post)).
    { apply to_braces_spec. exists c, body, post. repeat split; auto. }
    rewrite E.
    rewrite firstn_repeat_app, skipn_repeat_app.
    reflexivity.
  - (* single *)
    exists c, post, [], post. cbn [app].
    destruct (special c) eqn:Es.
    2:{ exists n. repeat split; auto. rewrite scan_other by exact Es. rewrite Hd.
        change (is_istart U c) with (word_start U c). now rewrite Hst. }
    unfold special, is_char in Es. cbn [existsb] in Es. cbn [is_char existsb] in Hsp.
    unfold is_char in Hsp. cbn [existsb] in Hsp. repeat (apply orb_false_iff in Hsp as [?H Hsp]).
    repeat match goal with E : N.eqb c ?k = false |- _ => rewrite E in Es; clear E end.
    cbn [orb] in Es. repeat (apply orb_true_iff in Es as [Es|Es]); try discriminate; apply N.eqb_eq in Es; subst c.
    + specialize (H46 eq_refl). eexists. repeat split. unfold scan. cbn [N.eqb Pos.eqb].
      destruct post as [|x post]; cbn [hd_digit]; [reflexivity|]. cbn in H46. now rewrite H46.
    + specialize (H45 eq_refl). apply nf_hd_is in H45. eexists. repeat split. unfold scan. cbn [N.eqb Pos.eqb orb]. now rewrite H45.
    + specialize (H47 eq_refl). apply nf_hd_is in H47. eexists. repeat split. unfold scan. cbn [N.eqb Pos.eqb orb]. now rewrite H47.
    + specialize (H124 eq_refl). apply nf_hd_is2 in H124 as [E1 E2]. eexists. repeat split. unfold scan. cbn [N.eqb Pos.eqb orb]. now rewrite E1, E2.
    + destruct (H60 eq_refl) as [E Hp]. apply nf_hd_is3 in E as (E1 & E2 & E3).
      destruct prev as [p|]; [|congruence]. eexists. repeat split. unfold scan. cbn [N.eqb Pos.eqb orb]. rewrite E1, E2, E3.
      cbn [option_map]. reflexivity.
    + specialize (H62 eq_refl). unfold scan. cbn [N.eqb Pos.eqb orb].
      destruct (N.ltb_spec 0 n) as [Hn|Hn]; [eexists; repeat split; reflexivity|].
      assert (n = 0%N) as Hn0 by lia. apply H62, nf_hd_is2 in Hn0 as [E1 E2].
      eexists. repeat split. now rewrite E1, E2.
    + specialize (H61 eq_refl). apply nf_hd_is in H61. eexists. repeat split. unfold scan. cbn [N.eqb Pos.eqb orb]. now rewrite H61.
    + specialize (H33 eq_refl). apply nf_hd_is in H33. eexists. repeat split. unfold scan. cbn [N.eqb Pos.eqb orb]. now rewrite H33.
Qed.
End Grammar.
