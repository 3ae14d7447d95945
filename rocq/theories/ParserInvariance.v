(* C28, C29, C30: comments, letter case and layout do not change the parse. *)
From Verif Require Import Chars Token Cst Core MiniRust Lexer Program Api Bundles ParserView ParserGeneric
  ParserSpec ParserSim LexSpec LexGrammar LexProofs LexTheorems LexProps LexInvariance.
Local Open Scope list_scope.
Local Notation length := List.length.

(* every word that the program compares a token with *)
Definition known_words : list string :=
  ["!="; "&"; "("; ")"; "*"; "+"; ","; "-"; "."; "/"; ";"; "<"; "<<"; "<="; "<>"; "="; "=>"; ">"; ">="; ">>"; "?"; "ADD";
   "AFTER"; "AGGREGATE"; "ALL"; "ALTER"; "AND"; "ANY"; "ARRAY"; "AS"; "ASC"; "ASSERT"; "ASSIGNMENT"; "AT"; "B";
   "BEGIN"; "BETWEEN"; "BIGDECIMAL"; "BIGNUMERIC"; "BI_CAPACITY"; "BR"; "BREAK"; "BY"; "CALL"; "CAPACITY";
   "CASCADE"; "CASE"; "CAST"; "CLONE"; "CLUSTER"; "COLLATE"; "COLUMN"; "COMMIT"; "CONNECTION"; "CONSTRAINT";
   "CONTINUE"; "COPY"; "CORRESPONDING"; "CREATE"; "CROSS"; "CUBE"; "CURRENT"; "DATA"; "DATE"; "DATETIME"; "DECIMAL";
   "DECLARE"; "DEFAULT"; "DEFINE"; "DELETE"; "DESC"; "DETERMINISTIC"; "DISTINCT"; "DROP"; "ELSE"; "ELSEIF"; "END";
   "ENFORCED"; "EXCEPT"; "EXCEPTION"; "EXCLUDE"; "EXECUTE"; "EXPORT"; "EXTEND"; "EXTERNAL"; "EXTRACT"; "FALSE";
   "FIRST"; "FOR"; "FOREIGN"; "FORMAT"; "FROM"; "FULL"; "FUNCTION"; "GRANT"; "GROUP"; "GROUPING"; "HAVING"; "IF";
   "IGNORE"; "IN"; "INCLUDE"; "INNER"; "INOUT"; "INPUT"; "INSERT"; "INTERSECT"; "INTERVAL"; "INTO"; "IS"; "ITERATE";
   "JOIN"; "JSON"; "KEY"; "LANGUAGE"; "LAST"; "LEAVE"; "LEFT"; "LIKE"; "LIMIT"; "LOAD"; "LOOP"; "MATCH_RECOGNIZE";
   "MATERIALIZED"; "MEASURES"; "MERGE"; "MODEL"; "NOT"; "NULL"; "NULLS"; "NUMERIC"; "OFFSET"; "ON"; "OPTIONS"; "OR";
   "ORDER"; "ORGANIZATION"; "OUT"; "OUTER"; "OUTPUT"; "OVERWRITE"; "PARTITION"; "PARTITIONS"; "PATTERN"; "PIVOT";
   "PRIMARY"; "PROCEDURE"; "PROJECT"; "QUALIFY"; "R"; "RAISE"; "RANGE"; "RB"; "RECURSIVE"; "REFERENCES"; "REMOTE";
   "RENAME"; "REPEAT"; "REPLACE"; "REPLICA"; "RESERVATION"; "RESPECT"; "RESTRICT"; "RETURN"; "RETURNS"; "REVOKE";
   "RIGHT"; "ROLLBACK"; "ROLLUP"; "ROW"; "ROWS"; "SAFE_CAST"; "SCHEMA"; "SEARCH"; "SELECT"; "SET"; "SNAPSHOT";
   "SOME"; "STORING"; "STRICT"; "STRUCT"; "TABLE"; "TABLESAMPLE"; "TEMP"; "TEMPORARY"; "TIME"; "TIMESTAMP"; "TO";
   "TRANSACTION"; "TRANSFORM"; "TRUE"; "TRUNCATE"; "TYPE"; "UNBOUNDED"; "UNDROP"; "UNION"; "UNNEST"; "UNPIVOT";
   "UNTIL"; "UPDATE"; "USING"; "VALUES"; "VECTOR"; "VIEW"; "WHEN"; "WHERE"; "WHILE"; "WINDOW"; "WITH"; "["; "]";
   "^"; "b"; "br"; "cross"; "default"; "distinct"; "exception"; "full"; "inner"; "join"; "left"; "on"; "over"; "r";
   "rb"; "right"; "tablesample"; "training_data"; "using"; "when"; "{"; "|"; "|>"; "||"; "~"]%string.
Lemma program_ok f : cmd_ok known_words (f_body (prog f)) = true.
Proof. destruct f; vm_compute; reflexivity. Qed.
Lemma base_known w : In w base_words -> In w known_words.
Proof.
  assert (H : forallb (fun w => existsb (String.eqb w) known_words) base_words = true) by (vm_compute; reflexivity).
  rewrite forallb_forall in H. intro I. apply H, existsb_exists in I. destruct I as (x & I & E). apply String.eqb_eq in E. now subst.
Qed.

Lemma nth_error_tl {A} (l : list A) i x : nth_error (tl l) i = Some x -> nth_error l (S i) = Some x.
Proof. destruct l; [destruct i; discriminate|auto]. Qed.

Section WithUnicode.
Context (U : unicode).

Lemma brels_intro (R : token -> token -> Prop) bs1 bs2 :
  Forall2 R (map b_tok bs1) (map b_tok bs2) ->
  touches (map b_tok bs1) = touches (map b_tok bs2) -> brels R bs1 bs2.
Proof.
  revert bs2. induction bs1 as [|b1 bs1 IH]; intros [|b2 bs2] H T; cbn [map] in H; inversion H; subst.
  - constructor.
  - constructor; [assumption| |].
    + intros c1 q1 c2 q2 -> ->. cbn in T. injection T as T _. exact T.
    + apply IH; [assumption|]. destruct bs1, bs2; cbn in T |- *; try reflexivity; try discriminate.
      injection T as _ T. exact T.
Qed.

Lemma ends_code ts t : is_comment t = false -> exists bs, grouped bs /\ flats bs = ts ++ [t].
Proof. apply grouped_exists. Qed.

Theorem parse_tokens_like fuel ts1 e1 ts2 e2 :
  is_comment e1 = false -> is_comment e2 = false ->
  let l1 := code_tokens (ts1 ++ [e1]) in
  let l2 := code_tokens (ts2 ++ [e2]) in
  Forall2 (like U known_words) l1 l2 -> touches l1 = touches l2 ->
  same_outcome (paired l1 l2) (parse_tokens U fuel (ts1 ++ [e1])) (parse_tokens U fuel (ts2 ++ [e2])).
Proof.
  intros He1 He2 l1 l2 HA HT.
  destruct (grouped_exists ts1 e1 He1) as (bs1 & G1 & F1).
  destruct (grouped_exists ts2 e2 He2) as (bs2 & G2 & F2).
  assert (E1 : map b_tok bs1 = l1) by (unfold l1; rewrite <- F1; symmetry; now apply grouped_code_tokens).
  assert (E2 : map b_tok bs2 = l2) by (unfold l2; rewrite <- F2; symmetry; now apply grouped_code_tokens).
  assert (HP : Forall2 (paired l1 l2) l1 l2).
  { clear -HA. assert (K : forall a b, Forall2 (like U known_words) a b -> (forall i, nth_error a i <> None -> exists x y,
        nth_error a i = Some x /\ nth_error b i = Some y)).
    { induction 1 as [|x y a b Hxy H IH]; intros [|i] Hi; cbn in *; try contradiction; eauto. }
    assert (L : length l1 = length l2) by (clear -HA; induction HA; cbn; congruence).
    assert (G : forall n a b, skipn n l1 = a -> skipn n l2 = b -> Forall2 (paired l1 l2) a b).
    { intros n a. revert n. induction a as [|x a IH]; intros n b Ha Hb.
      - assert (b = []) as ->; [|constructor]. rewrite <- Hb. apply skipn_all2. rewrite <- L.
        apply (f_equal (@List.length _)) in Ha. rewrite skipn_length in Ha. cbn in Ha. lia.
      - destruct b as [|y b].
        + apply (f_equal (@List.length _)) in Ha, Hb. rewrite skipn_length in Ha, Hb. cbn in *. lia.
        + assert (S1 : forall (l : list token) m x r, skipn m l = x :: r -> nth_error l m = Some x /\ skipn (S m) l = r).
          { clear. induction l as [|z l IH]; intros [|m] x r; cbn; try discriminate.
            - intros [= -> ->]. auto.
            - intros E. apply IH in E. exact E. }
          destruct (S1 _ _ _ _ Ha) as [A1 A2]. destruct (S1 _ _ _ _ Hb) as [B1 B2].
          constructor; [exists n; auto|]. now apply (IH (S n)). }
    exact (G 0 l1 l2 eq_refl eq_refl). }
  unfold parse_tokens.
  destruct (parser_new_view _ G1) as (s1 & N1 & V1 & _).
  destruct (parser_new_view _ G2) as (s2 & N2 & V2 & _).
  rewrite <- F1, <- F2, N1, N2.
  assert (RA : forall t1 t2, paired l1 l2 t1 t2 -> like U known_words t1 t2).
  { clear -HA. induction HA as [|x y l1 l2 Hxy H IH]; intros t1 t2 (i & H1 & H2).
    - destruct i; discriminate.
    - destruct i as [|i]; cbn in H1, H2; [congruence|]. apply IH. exists i. auto. }
  pose proof (run_rel U known_words base_known (paired l1 l2) RA prog program_ok fuel F_parse_code [] [] (Forall2_nil _) s1 s2) as K.
  assert (S : srel (paired l1 l2) s1 s2).
  { exists bs1, bs2. split; [exact V1|]. split; [exact V2|].
    apply brels_intro; rewrite E1, E2; assumption. }
  specialize (K S). unfold rrel in K.
  destruct (run U prog fuel F_parse_code [] s1) as [v1 a1|x1 a1|a1| |],
           (run U prog fuel F_parse_code [] s2) as [v2 a2|x2 a2|a2| |]; try contradiction; try exact I; try exact K.
  destruct K as [K _]. destruct K; try exact I. exact H.
Qed.

Lemma alike_like t1 t2 : alike U t1 t2 -> like U known_words t1 t2.
Proof.
  intros [A1 A2 A3 A4 A5 A6 A7 A8 A9 A10]. constructor; try assumption.
  - intros w _. now rewrite A1.
  - intros w _. unfold is_. now rewrite A1.
  - intros w I. apply A7. revert w I. apply Forall_forall. repeat constructor.
  - apply A8. reflexivity.
  - apply A9. reflexivity.
Qed.
Theorem parse_tokens_alike fuel ts1 e1 ts2 e2 :
  is_comment e1 = false -> is_comment e2 = false ->
  let l1 := code_tokens (ts1 ++ [e1]) in
  let l2 := code_tokens (ts2 ++ [e2]) in
  Forall2 (alike U) l1 l2 -> touches l1 = touches l2 ->
  same_outcome (paired l1 l2) (parse_tokens U fuel (ts1 ++ [e1])) (parse_tokens U fuel (ts2 ++ [e2])).
Proof.
  intros He1 He2 l1 l2 HA HT. apply parse_tokens_like; try assumption.
  fold l1 l2. clear -HA. generalize dependent l2. generalize l1. clear. intros a b H. induction H; constructor; [now apply alike_like|assumption].
Qed.

Lemma alike_same t1 t2 : literal t1 = literal t2 -> alike U t1 t2.
Proof.
  intro H. assert (forall (A : Type) (f : token -> A), (forall a b, literal a = literal b -> f a = f b) -> f t1 = f t2) as K by auto.
  constructor; try (rewrite H; reflexivity).
  - unfold upper_literal. now rewrite H.
  - unfold is_identifier, quoted_by, is_reserved_keyword, upper_literal. now rewrite H.
  - unfold is_string, quoted_by. now rewrite H.
  - unfold is_numeric. now rewrite H.
  - unfold is_parameter. now rewrite H.
  - unfold is_template. now rewrite H.
Qed.

Lemma eof_not_comment : is_comment eof_token = false. Proof. reflexivity. Qed.

Lemma alike_literals l1 l2 : map literal l1 = map literal l2 -> Forall2 (alike U) l1 l2.
Proof.
  revert l2. induction l1 as [|t1 l1 IH]; intros [|t2 l2] H; try discriminate; [constructor|].
  cbn in H. injection H as H1 H2. constructor; [now apply alike_same|auto].
Qed.

(* C28 *)
Theorem comments_irrelevant fuel ts1 e1 ts2 e2 :
  is_comment e1 = false -> is_comment e2 = false ->
  let l1 := code_tokens (ts1 ++ [e1]) in
  let l2 := code_tokens (ts2 ++ [e2]) in
  map literal l1 = map literal l2 -> touches l1 = touches l2 ->
  same_outcome (paired l1 l2) (parse_tokens U fuel (ts1 ++ [e1])) (parse_tokens U fuel (ts2 ++ [e2])).
Proof. intros. apply parse_tokens_alike; try assumption. now apply alike_literals. Qed.

Lemma same_weaken (R R' : token -> token -> Prop) : (forall a b, R a b -> R' a b) ->
  (forall n1 n2, same_tree R n1 n2 -> same_tree R' n1 n2) /\
  (forall m1 m2, same_children R m1 m2 -> same_children R' m1 m2) /\
  (forall l1 l2, same_trees R l1 l2 -> same_trees R' l1 l2).
Proof.
  intro W. apply same_mind; intros; constructor; try assumption.
  destruct o; constructor; auto.
Qed.
Lemma same_outcome_weaken (R R' : token -> token -> Prop) o1 o2 :
  (forall a b, R a b -> R' a b) -> same_outcome R o1 o2 -> same_outcome R' o1 o2.
Proof.
  intro W. destruct o1, o2; cbn; auto.
  - apply (same_weaken R R' W).
  - intros (t1 & t2 & m & d1 & d2 & H1 & H2 & E1 & E2). exists t1, t2, m, d1, d2.
    repeat split; auto. destruct H2; constructor; auto.
Qed.

(* C28, when the other tokens are literally the same *)
Theorem comments_irrelevant_eq fuel ts1 e1 ts2 e2 :
  is_comment e1 = false -> is_comment e2 = false ->
  code_tokens (ts1 ++ [e1]) = code_tokens (ts2 ++ [e2]) ->
  same_outcome eq (parse_tokens U fuel (ts1 ++ [e1])) (parse_tokens U fuel (ts2 ++ [e2])).
Proof.
  intros H1 H2 E.
  eapply same_outcome_weaken; [|apply comments_irrelevant; try assumption; now rewrite E].
  cbv zeta. rewrite E. intros a b (i & Ha & Hb). congruence.
Qed.

(* ----- C29 ----- *)
Lemma recased_utf8 a b : same_case a b -> utf8_len a = utf8_len b.
Proof.
  intros [->|(Ha & Hb & _)]; [reflexivity|].
  assert (K : forall c, is_letter_ascii c = true -> (c < 128)%N).
  { intros c H. unfold is_letter_ascii, is_lower_ascii, is_upper_ascii, in_range in H.
    apply orb_true_iff in H as [H|H]; apply andb_true_iff in H as [H1 H2]; apply N.leb_le in H1, H2; lia. }
  apply K in Ha, Hb. unfold utf8_len. apply N.ltb_lt in Ha, Hb. now rewrite Ha, Hb.
Qed.
Lemma recased_byte_len a b : recased a b -> byte_len a = byte_len b.
Proof.
  induction 1 as [|x y a b Hxy H IH]; [reflexivity|]. cbn [byte_len fold_right].
  rewrite (recased_utf8 _ _ Hxy). unfold byte_len in IH. now rewrite IH.
Qed.
Lemma same_case_nonletter a b c : same_case a b -> is_letter_ascii c = false -> (a = c <-> b = c).
Proof. intros [->|(Ha & Hb & _)] Hc; [tauto|]. split; intros ->; congruence. Qed.
Lemma same_case_sym a b : same_case a b -> same_case b a.
Proof. intros [->|(Ha & Hb & E)]; [now left|right; auto]. Qed.
Lemma same_case_eqb a b c : same_case a b -> is_letter_ascii c = false -> N.eqb a c = N.eqb b c.
Proof.
  intros H Hc. pose proof (same_case_nonletter _ _ _ H Hc).
  destruct (N.eqb_spec a c) as [E|E], (N.eqb_spec b c) as [E'|E']; tauto.
Qed.
Lemma recased_first a b c : recased a b -> is_letter_ascii c = false ->
  (first_char a = Some c <-> first_char b = Some c).
Proof.
  intros [|x y a' b' Hxy H] Hc; [tauto|]. cbn [first_char].
  pose proof (same_case_nonletter _ _ _ Hxy Hc). split; intros [= E]; f_equal; tauto.
Qed.
Lemma recased_rev a b : recased a b -> recased (rev a) (rev b).
Proof.
  induction 1; cbn [rev]; [constructor|]. apply Forall2_app; [assumption|]. constructor; [assumption|constructor].
Qed.
Lemma recased_opt_first a b c : recased a b -> is_letter_ascii c = false ->
  opt_is (first_char a) c = opt_is (first_char b) c.
Proof.
  intros [|x y a' b' Hxy H] Hc; [reflexivity|]. cbn [first_char opt_is]. now apply same_case_eqb.
Qed.
Lemma recased_quoted q t1 t2 : recased (literal t1) (literal t2) -> is_letter_ascii q = false ->
  quoted_by q t1 = quoted_by q t2.
Proof.
  intros H Hq. unfold quoted_by. rewrite (recased_byte_len _ _ H).
  destruct (Nat.ltb _ _); [reflexivity|]. f_equal.
  - now apply recased_opt_first.
  - unfold last_char. apply recased_opt_first; [now apply recased_rev|assumption].
Qed.
Lemma recased_caseless a b s : recased a b -> caseless s = true -> (a = s <-> b = s).
Proof.
  intros H. revert s. induction H as [|x y a b Hxy H IH]; intros s Hs; [tauto|].
  destruct s as [|c s]; [split; discriminate|]. cbn [caseless forallb] in Hs.
  apply andb_true_iff in Hs as [Hc Hs]. apply negb_true_iff in Hc.
  pose proof (same_case_nonletter _ _ _ Hxy Hc). specialize (IH s Hs).
  split; intros [= -> ->]; f_equal; tauto.
Qed.

Lemma same_case_letter a b : same_case a b -> is_letter_ascii a = is_letter_ascii b.
Proof. intros [->|(-> & -> & _)]; reflexivity. Qed.
Lemma letter_digit c : is_letter_ascii c = true -> is_digit_char c = false.
Proof.
  unfold is_letter_ascii, is_lower_ascii, is_upper_ascii, is_digit_char. intro H.
  apply orb_true_iff in H as [H|H]; apply andb_true_iff in H as [H1 H2]; apply N.leb_le in H1, H2;
    unfold in_range; apply andb_false_iff; right; apply N.leb_gt; lia.
Qed.
Lemma same_case_digit a b : same_case a b -> is_digit_char a = is_digit_char b.
Proof. intros [->|(Ha & Hb & _)]; [reflexivity|]. now rewrite !letter_digit. Qed.
Lemma same_case_start a b : same_case a b -> ident_start a = ident_start b.
Proof.
  intro H. unfold ident_start. rewrite (same_case_letter _ _ H). f_equal. now apply same_case_eqb.
Qed.
Lemma same_case_part a b : same_case a b -> ident_part a = ident_part b.
Proof.
  intro H. unfold ident_part. rewrite (same_case_letter _ _ H), (same_case_digit _ _ H). f_equal.
  now apply same_case_eqb.
Qed.
Lemma recased_ident_part a b : recased a b -> forallb ident_part a = forallb ident_part b.
Proof.
  induction 1 as [|x y a b Hxy H IH]; [reflexivity|]. cbn [forallb]. now rewrite (same_case_part _ _ Hxy), IH.
Qed.
Lemma recased_comment a b : recased a b -> is_comment_lit a = is_comment_lit b.
Proof.
  intros [|x y a' b' Hxy H]; [reflexivity|]. cbn [is_comment_lit].
  rewrite (same_case_eqb _ _ 35 Hxy) by reflexivity. destruct (N.eqb y 35); [reflexivity|].
  destruct H as [|x2 y2 a2 b2 H2 _]; [reflexivity|].
  rewrite (same_case_eqb _ _ 45 Hxy), (same_case_eqb _ _ 45 H2), (same_case_eqb _ _ 47 Hxy),
    (same_case_eqb _ _ 42 H2) by reflexivity. reflexivity.
Qed.

(* numbers: the regular expression does not distinguish e and E *)
Definition re_stable (r : Regex.re) : Prop :=
  forall a b, recased a b -> Regex.re_matches r a -> Regex.re_matches r b.
Lemma stable_seq r1 r2 : re_stable r1 -> re_stable r2 -> re_stable (Regex.RSeq r1 r2).
Proof.
  intros H1 H2 a b H M. inversion M; subst. apply Forall2_app_inv_l in H as (b1 & b2 & Ha & Hb & ->).
  constructor; eauto.
Qed.
Lemma stable_alt r1 r2 : re_stable r1 -> re_stable r2 -> re_stable (Regex.RAlt r1 r2).
Proof. intros H1 H2 a b H M. inversion M; subst; [apply Regex.m_altl|apply Regex.m_altr]; eauto. Qed.
Lemma stable_star r : re_stable r -> re_stable (Regex.RStar r).
Proof.
  intros H1 a b H M. revert b H. remember (Regex.RStar r) as q eqn:Eq.
  induction M; inversion Eq; subst; intros b' H.
  - inversion H. constructor.
  - apply Forall2_app_inv_l in H as (b1 & b2 & Ha & Hb & ->). constructor; eauto.
Qed.
Lemma stable_set p : (forall a b, same_case a b -> p a = p b) -> re_stable (Regex.RSet p).
Proof.
  intros Hp a b H M. inversion M; subst. inversion H as [|x y ? ? Hxy Hr]; subst. inversion Hr; subst.
  constructor. now rewrite <- (Hp _ _ Hxy).
Qed.
Lemma stable_eps : re_stable Regex.REps.
Proof. intros a b H M. inversion M; subst. inversion H; subst. constructor. Qed.
Lemma stable_char c : is_letter_ascii c = false -> re_stable (re_char c).
Proof.
  intro Hc. apply stable_set. intros a b H. rewrite !(N.eqb_sym c). now apply same_case_eqb.
Qed.
Lemma stable_digit : re_stable re_digit.
Proof. apply stable_set. intros. now apply same_case_digit. Qed.
Lemma stable_e : re_stable (Regex.RAlt (re_char 101%N) (re_char 69%N)).
Proof.
  intros a b H M.
  assert (K : forall x, Regex.re_matches (Regex.RAlt (re_char 101%N) (re_char 69%N)) [x] <-> up x = 69%N).
  { intro x. split.
    - intro E. inversion E as [| | |r1 r2 q Hq|r1 r2 q Hq| |]; subst; inversion Hq as [|p c Hp| | | | |]; subst;
        apply N.eqb_eq in Hp; subst; reflexivity.
    - intro E. destruct (up_cases x) as [[E' _]|[L E']].
      + apply Regex.m_altr. constructor. apply N.eqb_eq. congruence.
      + apply Regex.m_altl. constructor. apply N.eqb_eq. lia. }
  assert (exists x, a = [x]) as (x & ->).
  { inversion M as [| | |r1 r2 q Hq|r1 r2 q Hq| |]; subst; inversion Hq; eauto. }
  inversion H as [|x' y ? ? Hxy Hr]; subst. inversion Hr; subst. apply K. apply K in M.
  apply same_case_up in Hxy. congruence.
Qed.
Lemma recased_numeric t1 t2 : recased (literal t1) (literal t2) -> is_numeric t1 = is_numeric t2.
Proof.
  intro H. assert (St : re_stable numeric_re).
  { unfold numeric_re, Regex.RPlus, Regex.ROpt.
    repeat first [apply stable_e|apply stable_seq|apply stable_alt|apply stable_star|apply stable_digit
      |apply stable_eps|apply stable_char; reflexivity]. }
  unfold is_numeric.
  destruct (Regex.re_matchb numeric_re (literal t1)) eqn:E1, (Regex.re_matchb numeric_re (literal t2)) eqn:E2;
    try reflexivity.
  - apply Regex.re_matchb_spec in E1. apply (St _ _ H), Regex.re_matchb_spec in E1. congruence.
  - apply Regex.re_matchb_spec in E2.
    assert (H' : recased (literal t2) (literal t1)).
    { clear -H. induction H; constructor; [now apply same_case_sym|assumption]. }
    apply (St _ _ H'), Regex.re_matchb_spec in E2. congruence.
Qed.

Lemma recased_alike t1 t2 : ascii_faithful U -> recased (literal t1) (literal t2) -> alike U t1 t2.
Proof.
  intros HU H.
  assert (Hu : upper_literal U t1 = upper_literal U t2).
  { unfold upper_literal. rewrite <- (upper_ups U HU (literal t1)), <- (upper_ups U HU (literal t2)).
    f_equal. now apply recased_ups. }
  constructor.
  - exact Hu.
  - unfold is_identifier. rewrite (recased_quoted 96 _ _ H) by reflexivity.
    unfold is_reserved_keyword. rewrite Hu. destruct (quoted_by _ _); [reflexivity|].
    destruct (existsb _ _); [reflexivity|].
    destruct H as [|x y a b Hxy H]; [reflexivity|].
    now rewrite (same_case_start _ _ Hxy), (recased_ident_part _ _ H).
  - unfold is_string. now rewrite (recased_quoted 34 _ _ H), (recased_quoted 39 _ _ H) by reflexivity.
  - now apply recased_numeric.
  - unfold is_parameter. destruct H as [|x y a b Hxy H]; [reflexivity|].
    now rewrite (same_case_eqb _ _ 63 Hxy), (same_case_eqb _ _ 64 Hxy) by reflexivity.
  - unfold is_template. destruct H as [|x y a b Hxy H]; [reflexivity|].
    now rewrite (same_case_eqb _ _ 123 Hxy) by reflexivity.
  - intros s Hs. now apply recased_caseless.
  - intros c Hc. now apply recased_first.
  - intros c Hc. unfold last_char. apply recased_first; [now apply recased_rev|assumption].
  - destruct H; split; try reflexivity; discriminate.
Qed.

Lemma recased_code l1 l2 : Forall2 recased_token l1 l2 ->
  Forall2 recased_token (code_tokens l1) (code_tokens l2).
Proof.
  induction 1 as [|t1 t2 l1 l2 [Ha Hr] H IH]; [constructor|]. unfold code_tokens. cbn [filter].
  unfold is_comment. rewrite (recased_comment _ _ Hr). destruct (negb _); [|exact IH].
  constructor; [now split|exact IH].
Qed.
Lemma recased_touch a a' b b' : recased_token a a' -> recased_token b b' -> touch a b = touch a' b'.
Proof.
  intros [Ha Ra] [Hb Rb]. unfold at_ in *. injection Ha as H1 H2. injection Hb as H3 H4.
  unfold touch. rewrite H1, H2, H3, H4.
  assert (L : length (literal a) = length (literal a')) by (clear -Ra; induction Ra; cbn; congruence).
  now rewrite L.
Qed.
Lemma recased_touches l1 l2 : Forall2 recased_token l1 l2 -> touches l1 = touches l2.
Proof.
  induction 1 as [|t1 t2 l1 l2 H1 H IH]; [reflexivity|]. cbn [touches].
  destruct H as [|u1 u2 l1 l2 H2 H]; [reflexivity|]. f_equal; [now apply recased_touch|exact IH].
Qed.

Lemma tokenize_ends ts code : tokenize U code = Success ts -> exists ts0, ts = ts0 ++ [eof_token].
Proof. intro H. destruct (tokenize_interleaved _ _ _ H) as (ts0 & E & _). eauto. Qed.

Lemma Forall2_paired {R : token -> token -> Prop} l1 l2 : Forall2 R l1 l2 ->
  forall t1 t2, paired l1 l2 t1 t2 -> R t1 t2.
Proof.
  induction 1 as [|x y l1 l2 Hxy H IH]; intros t1 t2 (i & H1 & H2).
  - destruct i; discriminate.
  - destruct i as [|i]; cbn in H1, H2; [congruence|]. apply IH. exists i. auto.
Qed.

Theorem case_irrelevant fuel a b : ascii_faithful U -> recased a b ->
  match tokenize U a with
  | Success _ => same_outcome recased_token (parse U fuel a) (parse U fuel b)
  | _ => parse U fuel a = parse U fuel b
  end.
Proof.
  intros HU H. pose proof (tokenize_recased U HU a b H) as K. unfold parse.
  destruct (tokenize U a) as [ts1|e1| |] eqn:E1, (tokenize U b) as [ts2|e2| |] eqn:E2;
    try contradiction; try reflexivity; [|now rewrite K].
  destruct (tokenize_ends _ _ E1) as (l1 & ->). destruct (tokenize_ends _ _ E2) as (l2 & ->).
  pose proof (recased_code _ _ K) as C.
  eapply same_outcome_weaken; [|apply parse_tokens_alike; try reflexivity].
  - intros t1 t2. apply Forall2_paired, C.
  - clear -C HU. induction C as [|? ? ? ? [_ Hr] ? ?]; constructor; [now apply recased_alike|assumption].
  - now apply recased_touches.
Qed.
End WithUnicode.

(* ----- C30 ----- *)
Lemma newlines_app a b : newlines (a ++ b) = (newlines a + newlines b)%N.
Proof. induction a as [|c a IH]; [reflexivity|]. cbn [app newlines]. rewrite IH. lia. Qed.
Lemma newlines_none b : newlines b = 0%N -> existsb (N.eqb newline) b = false.
Proof.
  induction b as [|c b IH]; [reflexivity|]. cbn [newlines existsb]. rewrite (N.eqb_sym newline c).
  destruct (N.eqb c newline); [lia|]. intro. apply IH. lia.
Qed.
Lemma current_line_app a b : newlines b = 0%N -> current_line (a ++ b) = current_line a ++ b.
Proof.
  intro Hb. apply newlines_none in Hb. induction a as [|c a IH].
  - cbn [app]. destruct b as [|x b]; [reflexivity|]. cbn [current_line]. now rewrite Hb.
  - assert (K : existsb (N.eqb newline) (c :: a ++ b) = existsb (N.eqb newline) (c :: a)).
    { change (c :: a ++ b) with ((c :: a) ++ b). rewrite existsb_app, Hb. apply orb_false_r. }
    cbn [app current_line]. rewrite K. clear K Hb; destruct (existsb _ _); [exact IH|reflexivity].
Qed.

Lemma touch_gap p t g u : at_ t = line_col p -> at_ u = line_col (p ++ literal t ++ g) ->
  touch t u = (N.eqb (newlines (literal t)) 0 && match g with [] => true | _ => false end)%bool.
Proof.
  unfold at_, line_col, touch. intros E1 E2. apply pair_equal_spec in E1 as [L1 C1], E2 as [L2 C2].
  rewrite L1, C1, L2, C2. rewrite !newlines_app.
  destruct (N.eqb_spec (newlines (literal t)) 0) as [H0|H0]; cbn [andb].
  - destruct (N.eqb_spec (newlines g) 0) as [Hg|Hg].
    + rewrite current_line_app by (rewrite newlines_app; lia). rewrite !app_length.
      destruct g as [|c g].
      * rewrite (proj2 (N.eqb_eq _ _)) by (cbn [newlines]; lia). cbn [andb length]. apply N.eqb_eq. lia.
      * apply andb_false_intro2, N.eqb_neq. cbn [length]. lia.
    + rewrite (proj2 (N.eqb_neq _ _)) by lia. cbn [andb]. destruct g; [exfalso; apply Hg; reflexivity|reflexivity].
  - rewrite (proj2 (N.eqb_neq _ _)) by lia. reflexivity.
Qed.

Definition visible (t : token) : Prop := exists c l, literal t = c :: l /\ is_whitespace_char c = false.

Lemma located_inv pre r t ts : LexSpec.located pre r (t :: ts) -> exists w rest,
  r = w ++ literal t ++ rest /\ white w /\ at_ t = line_col (pre ++ w) /\ LexSpec.located (pre ++ w ++ literal t) rest ts.
Proof. inversion 1; subst. do 2 eexists. eauto. Qed.

Lemma is_comment_literal t t' : literal t = literal t' -> is_comment t = is_comment t'.
Proof. unfold is_comment. now intros ->. Qed.

Lemma code_tokens_eof ts : code_tokens (ts ++ [eof_token]) = code_tokens ts ++ [eof_token].
Proof. unfold code_tokens. now rewrite filter_app. Qed.

Lemma relaid_touches lit a b lits : relaid_after lit a b lits ->
  forall p t g p' t' g' ts ts',
  at_ t = line_col p -> at_ t' = line_col p' -> literal t = literal t' ->
  LexSpec.located (p ++ literal t ++ g) a ts -> LexSpec.located (p' ++ literal t' ++ g') b ts' ->
  (g = [] <-> g' = []) -> map literal ts = lits -> map literal ts' = lits ->
  Forall visible ts -> Forall visible ts' ->
  Forall (fun t => touch t eof_token = false) (t :: ts) ->
  Forall (fun t => touch t eof_token = false) (t' :: ts') ->
  touches (t :: code_tokens ts ++ [eof_token]) = touches (t' :: code_tokens ts' ++ [eof_token]).
Proof.
  induction 1 as [lit w w' W W'|lit w w' lit2 a b lits W W' Hw _ R IH];
    intros p t g p' t' g' ts ts' At At' El L L' Hg E E' V V' N1 N2.
  - destruct ts; [|discriminate]. destruct ts'; [|discriminate]. cbn [code_tokens filter app touches].
    f_equal. inversion N1; inversion N2; congruence.
  - destruct ts as [|u ts]; [discriminate|]. destruct ts' as [|u' ts']; [discriminate|].
    cbn in E, E'. injection E as Eu E. injection E' as Eu' E'.
    destruct (located_inv _ _ _ _ L) as (v & rest & Ea & Wv & Au & Lu).
    destruct (located_inv _ _ _ _ L') as (v' & rest' & Eb & Wv' & Au' & Lu').
    inversion V as [|? ? Vu V2]; subst. inversion V' as [|? ? Vu' V2']; subst.
    rewrite Eu' in *.
    destruct (white_split _ _ _ _ _ W Wv Vu Ea) as [-> ->].
    assert (Vu2 : exists c l, literal u = c :: l /\ is_whitespace_char c = false) by exact Vu.
    destruct (white_split _ _ _ _ _ W' Wv' Vu2 Eb) as [-> ->].
    unfold code_tokens. cbn [filter]. rewrite <- (is_comment_literal u u') by congruence.
    fold (code_tokens ts) (code_tokens ts').
    inversion N1 as [|? ? N1t N1r]; subst. inversion N2 as [|? ? N2t N2r]; subst.
    destruct (is_comment u) eqn:Hc; cbn [negb].
    + inversion N1r; subst. inversion N2r; subst.
      apply (IH p t (g ++ v ++ literal u) p' t' (g' ++ v' ++ literal u)); auto.
      * rewrite <- !app_assoc in *. exact Lu.
      * rewrite <- !app_assoc in *. exact Lu'.
      * destruct Vu as (c & l & -> & _). split; intro F; repeat apply app_eq_nil in F as [_ F]; discriminate.
    + change (touch t u :: touches (u :: code_tokens ts ++ [eof_token]) =
        touch t' u' :: touches (u' :: code_tokens ts' ++ [eof_token])). f_equal.
      * rewrite (touch_gap p t (g ++ v) u At) by (rewrite <- !app_assoc in *; exact Au).
        rewrite (touch_gap p' t' (g' ++ v') u' At') by (rewrite <- !app_assoc in *; exact Au').
        rewrite El. f_equal. destruct (g ++ v) eqn:X, (g' ++ v') eqn:Y; try reflexivity; exfalso.
        -- apply app_eq_nil in X as [-> ->]. rewrite (proj1 Hg eq_refl), (proj1 Hw eq_refl) in Y. discriminate.
        -- apply app_eq_nil in Y as [-> ->]. rewrite (proj2 Hg eq_refl), (proj2 Hw eq_refl) in X. discriminate.
      * eapply (IH _ u [] _ u' []); try eassumption; try congruence; try tauto.
        -- rewrite app_nil_r, <- !app_assoc in *. exact Lu.
        -- rewrite Eu', app_nil_r, <- !app_assoc in *. exact Lu'.
Qed.

Lemma relaid_code a b ts ts' : relaid a b (map literal ts) ->
  LexSpec.located [] a ts -> LexSpec.located [] b ts' -> map literal ts' = map literal ts ->
  Forall visible ts -> Forall visible ts' ->
  Forall (fun t => touch t eof_token = false) ts -> Forall (fun t => touch t eof_token = false) ts' ->
  touches (code_tokens ts ++ [eof_token]) = touches (code_tokens ts' ++ [eof_token]).
Proof.
  intros R L L' E V V' N1 N2. remember (map literal ts) as lits eqn:El. symmetry in El.
  destruct R as [w w' W W'|w w' lit a b lits W W' R].
  - destruct ts; [|discriminate]. destruct ts'; [|discriminate]. reflexivity.
  - destruct ts as [|u ts]; [discriminate|]. destruct ts' as [|u' ts']; [discriminate|].
    cbn in El, E. injection El as Eu Er. injection E as Eu' E.
    destruct (located_inv _ _ _ _ L) as (v & rest & Ea & Wv & Au & Lu).
    destruct (located_inv _ _ _ _ L') as (v' & rest' & Eb & Wv' & Au' & Lu').
    inversion V as [|? ? Vu V2]; subst. inversion V' as [|? ? Vu' V2']; subst.
    rewrite Eu' in *.
    destruct (white_split _ _ _ _ _ W Wv Vu Ea) as [-> ->].
    assert (Vu2 : exists c l, literal u = c :: l /\ is_whitespace_char c = false) by exact Vu.
    destruct (white_split _ _ _ _ _ W' Wv' Vu2 Eb) as [-> ->].
    pose proof (relaid_touches _ _ _ _ R v u [] v' u' [] ts ts' Au Au' (eq_sym Eu')) as K.
    rewrite !app_nil_r in K. rewrite Eu' in K.
    specialize (K Lu Lu' (conj (fun _ => eq_refl) (fun _ => eq_refl)) eq_refl E V2 V2' N1 N2).
    unfold code_tokens. cbn [filter]. rewrite <- (is_comment_literal u u') by congruence.
    fold (code_tokens ts) (code_tokens ts').
    destruct (is_comment u) eqn:Hc; cbn [negb]; [|exact K].
    destruct (code_tokens ts) as [|x l] eqn:X, (code_tokens ts') as [|x' l'] eqn:Y; try reflexivity;
      cbn [app touches] in *; injection K as _ K; exact K.
Qed.

(* a text shorter than usize::MAX has its tokens before the place given to the end of input *)
Lemma newlines_le s : (newlines s <= N.of_nat (length s))%N.
Proof. induction s as [|c s IH]; [cbn; lia|]. cbn [newlines length]. destruct (N.eqb c newline); lia. Qed.
Lemma located_before_eof pre r ts : LexSpec.located pre r ts ->
  (N.of_nat (length (pre ++ r)) < usize_max - 1)%N ->
  Forall (fun t => touch t eof_token = false) ts.
Proof.
  induction 1 as [|pre w t rest ts W A L IH]; intro B; constructor.
  - unfold touch, at_, line_col in *. apply pair_equal_spec in A as [A1 A2]. rewrite A1.
    rewrite (proj2 (N.eqb_neq _ _)); [reflexivity|]. pose proof (newlines_le (pre ++ w)) as K.
    rewrite !app_length in *. change (line eof_token) with usize_max. lia.
  - apply IH. rewrite !app_length in *. lia.
Qed.
Lemma tokenize_visible U code ts : tokenize U code = Success (ts ++ [eof_token]) -> Forall visible ts.
Proof.
  intro H. apply tokenize_success in H as (ts0 & E & H). apply app_inj_tail in E as [<- _].
  apply Forall_forall. intros t Ht. exact (lex_literal _ _ _ _ _ _ _ H t Ht).
Qed.

Theorem layout_irrelevant U fuel a b ts : tables_ok U ->
  tokenize U a = Success (ts ++ [eof_token]) -> relaid a b (map literal ts) ->
  (N.of_nat (length a) < usize_max - 1)%N -> (N.of_nat (length b) < usize_max - 1)%N ->
  same_outcome (fun t1 t2 => literal t1 = literal t2) (parse U fuel a) (parse U fuel b).
Proof.
  intros HU Ha R La Lb. destruct (tokenize_relaid U a b ts HU Ha R) as (ts' & Hb & E).
  destruct (tokenize_located _ _ _ Ha) as (x & Ex & L1). apply app_inj_tail in Ex as [<- _].
  destruct (tokenize_located _ _ _ Hb) as (x & Ex & L2). apply app_inj_tail in Ex as [<- _].
  unfold parse. rewrite Ha, Hb.
  assert (M : map literal (code_tokens (ts ++ [eof_token])) = map literal (code_tokens (ts' ++ [eof_token]))).
  { rewrite !code_tokens_eof, !map_app. f_equal. clear -E. revert ts' E.
    induction ts as [|t ts IH]; intros [|t' ts'] E; try discriminate; [reflexivity|].
    cbn in E. injection E as E1 E2. unfold code_tokens. cbn [filter].
    rewrite (is_comment_literal t t') by congruence. destruct (negb _); cbn [map]; [f_equal; [congruence|]|]; now apply IH. }
  eapply same_outcome_weaken; [|apply parse_tokens_alike; try reflexivity].
  - assert (F : Forall2 (fun t1 t2 => literal t1 = literal t2) (code_tokens (ts ++ [eof_token])) (code_tokens (ts' ++ [eof_token]))).
    { clear -M. revert M. generalize (code_tokens (ts ++ [eof_token])) (code_tokens (ts' ++ [eof_token])).
      induction l as [|x l IH]; intros [|y l'] M; try discriminate; constructor; cbn in M; injection M; auto. }
    intros t1 t2. exact (Forall2_paired _ _ F t1 t2).
  - now apply alike_literals.
  - rewrite !code_tokens_eof. eapply relaid_code; eauto using tokenize_visible, located_before_eof.
Qed.
