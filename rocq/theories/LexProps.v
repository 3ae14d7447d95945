(* Consequences of [tokenize_grammar] at the level of the API: C04 to C14. *)
From Verif Require Import Chars Regex Token Core Lexer LexSpec LexFun LexProofs LexGrammar LexTheorems.
From Coq Require Import Sorted.
Local Open Scope string_scope.
Local Open Scope list_scope.

(* ---------- C04 ---------- *)
Lemma located_bounds pre r ts : located pre r ts -> (forall t, In t ts -> literal t <> []) ->
  forall t, In t ts ->
  (line t <= N.of_nat (List.length (pre ++ r)) /\ column t <= N.of_nat (List.length (pre ++ r)))%N.
Proof.
  induction 1 as [|pre w t rest ts W A H IH]; intros Hl u Hu; [contradiction|].
  destruct Hu as [<-|Hu].
  - rewrite line_col_pos_after in A. pose proof (pos_after_le (pre ++ w)) as [P1 P2]. rewrite <- A in P1, P2.
    unfold at_ in P1, P2; cbn [fst snd] in P1, P2. pose proof (Hl t (or_introl eq_refl)) as Hne. rewrite !app_length in *.
    destruct (literal t); [congruence|]. cbn [List.length]. lia.
  - replace (pre ++ w ++ literal t ++ rest) with ((pre ++ w ++ literal t) ++ rest) by now rewrite <- !app_assoc.
    apply IH; [|exact Hu]. intros v Hv. apply Hl. now right.
Qed.

Theorem tokenize_eof U code ts : tables_ok U -> tokenize U code = Success ts ->
  exists ts0, ts = ts0 ++ [eof_token] /\
    forall t, In t ts0 ->
      (exists c l, literal t = c :: l /\ is_whitespace_char c = false) /\
      (forall c, last_char (literal t) = Some c -> is_whitespace_char c = false) /\
      (1 <= line t <= N.of_nat (List.length code))%N /\ (1 <= column t <= N.of_nat (List.length code))%N.
Proof.
  intros HU H. pose proof H as H'. apply tokenize_success in H as (ts0 & -> & H).
  apply tokenize_grammar in H' as (ts0' & E & G); [|exact HU]. apply app_inj_tail in E as [<- _].
  exists ts0. split; [reflexivity|]. intros t Ht.
  pose proof (lex_literal _ _ _ _ _ _ _ H) as Hl. destruct (Hl t Ht) as (c & l & El & Ec).
  split; [eauto|]. split.
  - destruct (tokenization_tokens _ _ _ _ _ _ G t Ht) as (n & p & post & L & _).
    intros x. eapply lexeme_last; eauto.
  - apply lex_located in H.
    pose proof (located_bounds [] code ts0 H) as B. cbn [app] in B.
    assert (B' : (line t <= N.of_nat (List.length code) /\ column t <= N.of_nat (List.length code))%N).
    { apply B; [|exact Ht]. intros u Hu. destruct (Hl u Hu) as (c' & l' & -> & _). discriminate. }
    assert (A : (1 <= line t)%N /\ (1 <= column t)%N).
    { clear -H Ht. induction H as [|pre w u rest ts W A H IH]; [contradiction|].
      destruct Ht as [<-|Ht]; [|auto]. unfold at_, line_col in A.
      pose proof (f_equal fst A) as A1. pose proof (f_equal snd A) as A2. cbn [fst snd] in A1, A2.
      rewrite A1, A2. split; apply N.le_add_r. }
    lia.
Qed.

(* ---------- C05 ---------- *)
Theorem tokenize_total U code : tokenize U code <> NoFuel.
Proof.
  rewrite tokenize_lex. pose proof (lex_fuel U (S (List.length code)) [] code 0 None) as H.
  destruct (lex _ _ _ _ _ _); try discriminate. intros _. apply H; [lia|reflexivity].
Qed.

(* ---------- C06 ---------- *)
Lemma hd_is_not a r : hd_is a r = false <-> not_followed (is_char [a]) r.
Proof. destruct r as [|x r]; cbn; [easy|]. now rewrite orb_false_r. Qed.

Theorem tokenize_panics U code : tokenize U code = Panicked <->
  exists w rest, code = w ++ s_ "<" ++ rest /\ white w /\ not_followed (is_char (s_ "<=>")) rest.
Proof.
  rewrite tokenize_lex.
  transitivity (lex U (S (List.length code)) [] code 0 None = LexedPanic).
  - destruct (lex _ _ _ _ _ _); split; congruence.
  - rewrite lex_panic by lia. split.
    + intros (w & r & -> & W & H1 & H2 & H3). exists w, r. split; [reflexivity|]. split; [exact W|].
      destruct r as [|x r]; [exact I|]. cbn in *. now rewrite H1, H2, H3.
    + intros (w & r & -> & W & H). exists w, r. split; [reflexivity|]. split; [exact W|].
      destruct r as [|x r]; [auto|]. cbn in *.
      apply orb_false_iff in H as [-> H]. apply orb_false_iff in H as [-> H]. apply orb_false_iff in H as [-> H]. auto.
Qed.

(* ---------- C07 ---------- *)
Theorem tokenize_error U code e : tokenize U code = Failure e ->
  (e_message e = "Unexpected EOF." /\ (e_line e, e_column e) = line_col code) \/
  (e_message e = "Invalid character as an identifier." /\
   exists pre post, code = pre ++ post /\ last_char pre = Some 64%N /\
     (e_line e, e_column e) = line_col pre /\
     not_followed (fun c => is_char (s_ "@`") c || word_start U c) post).
Proof.
  rewrite tokenize_lex. destruct (lex _ _ _ _ _ _) as [|e'| |] eqn:E; try discriminate.
  intros H. injection H as ->. destruct (lex_err _ _ _ _ _ _ _ E) as [-> |(p & k & b & Eb & -> & Hb)].
  - left. cbn. rewrite line_col_pos_after. split; [reflexivity|]. symmetry; apply surjective_pairing.
  - right. split; [reflexivity|]. exists (p ++ repeat 64%N (S k)), b.
    rewrite line_col_pos_after. cbn [ident_err e_line e_column].
    split; [cbn [app] in Eb; rewrite Eb; now rewrite <- app_assoc|]. split; [|split; [symmetry; apply surjective_pairing|]].
    + cbn [repeat]. rewrite (repeat_cons k 64%N), app_assoc. apply last_char_snoc.
    + destruct b as [|x b]; [exact I|]. cbn in *. unfold is_istart in Hb. unfold word_start.
      rewrite orb_false_r. destruct (N.eqb x 96), (N.eqb x 64); cbn in *; try discriminate;
      rewrite ?orb_true_r, ?orb_false_r in *; auto; discriminate.
Qed.

(* ---------- one token at a known place ---------- *)
Lemma lexeme_fun U n prev lit post lit' post' : tables_ok U ->
  lexeme U n prev lit post -> lexeme U n prev lit' post' -> lit ++ post = lit' ++ post' -> lit = lit'.
Proof.
  intros HU H H' E.
  destruct (scan_complete U HU _ _ _ _ H) as (c & r & sk & rest & d & Ec & Hc & Ep & Es).
  destruct (scan_complete U HU _ _ _ _ H') as (c' & r' & sk' & rest' & d' & Ec' & Hc' & Ep' & Es').
  rewrite E, Ec' in Ec. injection Ec as -> ->. rewrite Es in Es'. now injection Es'.
Qed.

(* the token before the tokens that follow ts *)
Definition last_token (prev : option token) (ts : list token) : option token :=
  last (map Some ts) prev.
Lemma last_token_cons prev t ts : last_token prev (t :: ts) = last_token (Some t) ts.
Proof.
  unfold last_token. cbn [map]. destruct ts as [|u ts]; [reflexivity|]. cbn [map].
  generalize (Some u) as x. generalize (map Some ts). clear.
  intros l x. change (last (Some t :: x :: l) prev) with (last (x :: l) prev).
  revert x. induction l as [|y l IH]; intros x; [reflexivity|].
  change (last (y :: l) prev = last (y :: l) (Some t)). apply IH.
Qed.

Lemma tokenization_split U pre r n prev ts1 t ts2 :
  tokenization U pre r n prev (ts1 ++ t :: ts2) ->
  exists a post, r = a ++ literal t ++ post /\ at_ t = line_col (pre ++ a) /\
    lexeme U (open_types U prev n ts1) (last_token prev ts1) (literal t) post /\
    tokenization U (pre ++ a ++ literal t) post (open_types U prev n (ts1 ++ [t])) (Some t) ts2.
Proof.
  revert pre r n prev. induction ts1 as [|u ts1 IH]; intros pre r n prev H; cbn [app] in H;
    inversion H as [|p w n' v' t' post ts' W A L H']; subst.
  - exists w, post. auto.
  - destruct (IH _ _ _ _ H') as (a & q & -> & A' & L' & T'). exists (w ++ literal u ++ a), q.
    rewrite last_token_cons. rewrite <- !app_assoc in *. repeat split; auto.
Qed.

Section At.
Context (U : unicode) (HU : tables_ok U).

(* the token of the source [pre ++ rest] at the position of rest *)
Theorem token_at code ts1 t ts2 pre rest :
  tokenize U code = Success (ts1 ++ t :: ts2 ++ [eof_token]) ->
  code = pre ++ rest -> at_ t = line_col pre ->
  exists post, rest = literal t ++ post /\
    lexeme U (open_types U None 0 ts1) (last_token None ts1) (literal t) post /\
    tokenization U (pre ++ literal t) post (open_types U None 0 (ts1 ++ [t])) (Some t) ts2.
Proof.
  intros H Ec A. apply tokenize_grammar in H as (ts0 & E & G); [|exact HU].
  change (t :: ts2 ++ [eof_token]) with ((t :: ts2) ++ [eof_token]) in E. rewrite app_assoc in E.
  apply app_inj_tail in E as [<- _].
  destruct (tokenization_split _ _ _ _ _ _ _ _ G) as (a & post & Ea & A' & L & T). cbn [app] in A', T.
  rewrite A, !line_col_pos_after in A'. rewrite Ec in Ea.
  destruct (pos_after_inj _ _ _ _ Ea A') as [<- ->]. eauto.
Qed.

Theorem token_at_lexeme code ts1 t ts2 pre lit post :
  tokenize U code = Success (ts1 ++ t :: ts2 ++ [eof_token]) ->
  code = pre ++ lit ++ post -> at_ t = line_col pre ->
  lexeme U (open_types U None 0 ts1) (last_token None ts1) lit post -> literal t = lit.
Proof.
  intros H Ec A L. destruct (token_at _ _ _ _ _ _ H Ec A) as (post' & E & L' & _).
  symmetry. eapply lexeme_fun; eauto.
Qed.

(* ---------- C08 ---------- *)
Theorem quoted_at code ts1 t ts2 pre q lit post :
  tokenize U code = Success (ts1 ++ t :: ts2 ++ [eof_token]) ->
  code = pre ++ lit ++ post -> at_ t = line_col pre ->
  (q = 34%N \/ q = 39%N) -> quoted_literal q lit -> (lit = [q; q] -> not_followed (is_char [q]) post) ->
  literal t = lit.
Proof. intros H Ec A Hq Hl Hp. eapply token_at_lexeme; eauto. eapply lx_quoted; eauto. Qed.

Theorem back_quoted_at code ts1 t ts2 pre lit post :
  tokenize U code = Success (ts1 ++ t :: ts2 ++ [eof_token]) ->
  code = pre ++ lit ++ post -> at_ t = line_col pre ->
  back_quoted_literal lit -> literal t = lit.
Proof. intros H Ec A Hl. eapply token_at_lexeme; eauto. now apply lx_back. Qed.

(* tokens that start with a quote or a number sign *)
Lemma lexeme_start n prev c l post : lexeme U n prev (c :: l) post ->
  c = 34%N \/ c = 39%N \/ c = 96%N \/ c = 35%N ->
  (c = 34%N \/ c = 39%N) /\ (quoted_literal c (c :: l) \/ triple_literal c (c :: l)) \/
  c = 96%N /\ back_quoted_literal (c :: l) \/
  c = 35%N /\ line_comment (c :: l).
Proof.
  intros H Hc. remember (c :: l) as lit eqn:El.
  assert (W : word_start U c = false).
  { destruct Hc as [->|[->|[->| ->]]]; unfold word_start; rewrite (proj1 (proj1 HU)); reflexivity. }
  assert (D : is_digit_char c = false) by (destruct Hc as [->|[->|[->| ->]]]; reflexivity).
  destruct H as [lit post Hw Hp|i f e post Hi Hf He Hst H1 H2 H3 H4|q lit post Hq Hlit Hp|q lit post Hq Hlit
    |lit post Hlit|lit w post Hlit Hw Hnw Hp|lit post Hlit|s post Hs Hn|k lit post Hlit Hp|k lit post Hlit|x post Hx
    |k x body post Hx Hk Hb|x post Hws Hd Hst Hsp H46 H45 H47 H124 H60 H62 H61 H33].
  - rewrite El in Hw. destruct Hw as [Hw _]. congruence.
  - destruct i as [|i0 i].
    + destruct Hst as [Hst|(c0 & d0 & _ & ->)]; [now elim Hst|]. cbn in El. injection El as <- _.
      destruct Hc as [Hc|[Hc|[Hc|Hc]]]; discriminate.
    + inversion Hi; subst. cbn in El. injection El as -> _. congruence.
  - left. destruct Hlit as (b & Hb & ->). injection El as <- <-. split; [exact Hq|]. left. exists b. auto.
  - left. destruct Hlit as (b & Hb & ->). injection El as <- <-. split; [exact Hq|]. right. exists b. auto.
  - right. left. destruct Hlit as (b & Hb & ->). injection El as <- <-. split; [reflexivity|]. exists b. auto.
  - right. right. destruct Hlit as [[[rr Er]|[rr Er]] Hr]; rewrite Er in El; injection El as <- _.
    + split; [reflexivity|]. split; [left; now exists rr|exact Hr].
    + destruct Hc as [Hc|[Hc|[Hc|Hc]]]; discriminate.
  - destruct Hlit as [[rr ->] _]. injection El as <- _. destruct Hc as [Hc|[Hc|[Hc|Hc]]]; discriminate.
  - exfalso. cbn in Hs. repeat (destruct Hs as [<-|Hs]; [injection El as <- _; destruct Hc as [Hc|[Hc|[Hc|Hc]]]; discriminate|]).
    contradiction.
  - injection El as <- _. destruct Hc as [Hc|[Hc|[Hc|Hc]]]; discriminate.
  - injection El as <- _. destruct Hc as [Hc|[Hc|[Hc|Hc]]]; discriminate.
  - injection El as <- _. destruct Hc as [Hc|[Hc|[Hc|Hc]]]; discriminate.
  - injection El as <- _. destruct Hc as [Hc|[Hc|[Hc|Hc]]]; discriminate.
  - injection El as -> _. destruct Hc as [->|[->|[->| ->]]]; discriminate.
Qed.

Lemma lexeme_dash n prev l post : lexeme U n prev (45%N :: 45%N :: l) post -> line_comment (45%N :: 45%N :: l).
Proof.
  intros H. remember (45%N :: 45%N :: l) as lit eqn:El.
  assert (W : word_start U 45 = false) by (unfold word_start; rewrite (proj1 (proj1 HU)); reflexivity).
  destruct H as [lit post Hw Hp|i f e post Hi Hf He Hst H1 H2 H3 H4|q lit post Hq Hlit Hp|q lit post Hq Hlit
    |lit post Hlit|lit w post Hlit Hw Hnw Hp|lit post Hlit|s post Hs Hn|k lit post Hlit Hp|k lit post Hlit|x post Hx
    |k x body post Hx Hk Hb|x post Hws Hd Hst Hsp H46 H45 H47 H124 H60 H62 H61 H33].
  - rewrite El in Hw. destruct Hw as [Hw _]. congruence.
  - destruct i as [|i0 i].
    + destruct Hst as [Hst|(c0 & d0 & _ & ->)]; [now elim Hst|]. discriminate.
    + inversion Hi; subst. injection El as -> _. discriminate.
  - destruct Hlit as (b & Hb & ->). injection El as -> _. destruct Hq; discriminate.
  - destruct Hlit as (b & Hb & ->). injection El as -> _. destruct Hq; discriminate.
  - destruct Hlit as (b & Hb & ->). discriminate.
  - now subst.
  - destruct Hlit as [[rr ->] _]. discriminate.
  - exfalso. cbn in Hs. repeat (destruct Hs as [<-|Hs]; [discriminate|]). contradiction.
  - discriminate.
  - discriminate.
  - discriminate.
  - discriminate.
  - discriminate.
Qed.

Lemma lexeme_slash n prev l post : lexeme U n prev (47%N :: 42%N :: l) post -> block_comment (47%N :: 42%N :: l).
Proof.
  intros H. remember (47%N :: 42%N :: l) as lit eqn:El.
  assert (W : word_start U 47 = false) by (unfold word_start; rewrite (proj1 (proj1 HU)); reflexivity).
  destruct H as [lit post Hw Hp|i f e post Hi Hf He Hst H1 H2 H3 H4|q lit post Hq Hlit Hp|q lit post Hq Hlit
    |lit post Hlit|lit w post Hlit Hw Hnw Hp|lit post Hlit|s post Hs Hn|k lit post Hlit Hp|k lit post Hlit|x post Hx
    |k x body post Hx Hk Hb|x post Hws Hd Hst Hsp H46 H45 H47 H124 H60 H62 H61 H33].
  - rewrite El in Hw. destruct Hw as [Hw _]. congruence.
  - destruct i as [|i0 i].
    + destruct Hst as [Hst|(c0 & d0 & _ & ->)]; [now elim Hst|]. discriminate.
    + inversion Hi; subst. injection El as -> _. discriminate.
  - destruct Hlit as (b & Hb & ->). injection El as -> _. destruct Hq; discriminate.
  - destruct Hlit as (b & Hb & ->). injection El as -> _. destruct Hq; discriminate.
  - destruct Hlit as (b & Hb & ->). discriminate.
  - destruct Hlit as [[[rr ->]|[rr ->]] Hr]; discriminate.
  - now subst.
  - exfalso. cbn in Hs. repeat (destruct Hs as [<-|Hs]; [discriminate|]). contradiction.
  - discriminate.
  - discriminate.
  - discriminate.
  - discriminate.
  - discriminate.
Qed.

Lemma in_app_snoc {A} (t : A) ts1 ts2 x : (ts1 ++ t :: ts2) ++ [x] = ts1 ++ t :: ts2 ++ [x].
Proof. now rewrite <- app_assoc. Qed.

Lemma token_lexeme code ts t : tokenize U code = Success (ts ++ [eof_token]) -> In t ts ->
  exists ts1 ts2 post, ts = ts1 ++ t :: ts2 /\    lexeme U (open_types U None 0 ts1) (last_token None ts1) (literal t) post.
Proof.
  intros H Ht. apply in_split in Ht as (ts1 & ts2 & ->). exists ts1, ts2.
  apply tokenize_grammar in H as (ts0 & E & G); [|exact HU]. apply app_inj_tail in E as [<- _].
  destruct (tokenization_split _ _ _ _ _ _ _ _ G) as (a & post & _ & _ & L & _). eauto.
Qed.

Theorem quoted_token code ts t c l :
  tokenize U code = Success (ts ++ [eof_token]) -> In t ts ->
  literal t = c :: l -> (c = 34%N \/ c = 39%N) ->
  quoted_literal c (literal t) \/ triple_literal c (literal t).
Proof.
  intros H Ht El Hc. destruct (token_lexeme _ _ _ H Ht) as (ts1 & ts2 & post & _ & L). rewrite El in *.
  destruct (lexeme_start _ _ _ _ _ L) as [[_ ?]|[[? _]|[? _]]]; try lia. assumption.
Qed.
Theorem back_quoted_token code ts t l :
  tokenize U code = Success (ts ++ [eof_token]) -> In t ts ->
  literal t = 96%N :: l -> back_quoted_literal (literal t).
Proof.
  intros H Ht El. destruct (token_lexeme _ _ _ H Ht) as (ts1 & ts2 & post & _ & L). rewrite El in *.
  destruct (lexeme_start _ _ _ _ _ L) as [[? _]|[[_ ?]|[? _]]]; try lia. assumption.
Qed.

(* the text after a token is tokenized independently of the text before it, apart from
   the number of type declarations that are open *)
Definition kind_of (prev : option token) : option bool :=
  match prev with Some p => Some (is_ U "ARRAY" p || is_ U "STRUCT" p) | None => None end.
Lemma opens_type_kind prev t :
  opens_type U prev t = str_eqb (literal t) (s_ "<") && match kind_of prev with Some b => b | None => false end.
Proof. unfold opens_type, kind_of. now destruct prev. Qed.
Lemma lexeme_prev n prev prev' lit post : kind_of prev = kind_of prev' ->
  lexeme U n prev lit post -> lexeme U n prev' lit post.
Proof.
  intros Hp H.
  assert (G : prev <> None -> prev' <> None) by (destruct prev, prev'; cbn in Hp; congruence).
  destruct H as [lit post Hw Hp'|i f e post Hi Hf He Hst H1 H2 H3 H4|q lit post Hq Hlit Hp'|q lit post Hq Hlit
    |lit post Hlit|lit w post Hlit Hw Hnw Hp'|lit post Hlit|s post Hs Hn|k lit post Hlit Hp'|k lit post Hlit|x post Hx
    |k x body post Hx Hk Hb|x post Hws Hd Hst Hsp H46 H45 H47 H124 H60 H62 H61 H33].
  - now apply lx_word.
  - now apply lx_number.
  - now apply lx_quoted with q.
  - now apply lx_triple with q.
  - now apply lx_back.
  - now apply lx_line.
  - now apply lx_block.
  - now apply lx_op.
  - now apply lx_param.
  - now apply lx_param_quoted.
  - now apply lx_open_brace.
  - now apply lx_template.
  - apply lx_single; auto. intros Hc. destruct (H60 Hc). auto.
Qed.

Lemma tokenization_move pre r n prev ts : tokenization U pre r n prev ts ->
  forall pre' prev', kind_of prev = kind_of prev' ->
  exists ts', map literal ts' = map literal ts /\ tokenization U pre' r n prev' ts'.
Proof.
  induction 1 as [pre w n prev W|pre w n prev t post ts W A L H IH]; intros pre' prev' Hk.
  - exists []. split; [reflexivity|]. now constructor.
  - set (t' := {| line := fst (line_col (pre' ++ w)); column := snd (line_col (pre' ++ w)); literal := literal t |}).
    destruct (IH (pre' ++ w ++ literal t) (Some t')) as (ts' & E & T); [reflexivity|].
    exists (t' :: ts'). split; [cbn; now rewrite E|].
    change (literal t) with (literal t').
    constructor; [exact W|reflexivity|now apply (lexeme_prev n prev)|].
    replace (open_types U prev' n [t']) with (open_types U prev n [t]); [exact T|].
    cbn [open_types]. rewrite !opens_type_kind, Hk. reflexivity.
Qed.

Lemma tokenization_fun pre r n prev ts ts' :
  tokenization U pre r n prev ts -> tokenization U pre r n prev ts' -> ts = ts'.
Proof.
  intros H H'. apply (tokenization_lex U HU (S (List.length r))) in H; [|lia].
  apply (tokenization_lex U HU (S (List.length r))) in H'; [|lia]. congruence.
Qed.

Theorem independent code code' ts1 t ts2 ts1' t' ts2' pre pre' post :
  tokenize U code = Success (ts1 ++ t :: ts2 ++ [eof_token]) ->
  tokenize U code' = Success (ts1' ++ t' :: ts2' ++ [eof_token]) ->
  code = pre ++ literal t ++ post -> at_ t = line_col pre ->
  code' = pre' ++ literal t' ++ post -> at_ t' = line_col pre' ->
  open_types U None 0 (ts1 ++ [t]) = open_types U None 0 (ts1' ++ [t']) ->
  in_ U ["ARRAY"; "STRUCT"] t = in_ U ["ARRAY"; "STRUCT"] t' ->
  map literal ts2 = map literal ts2'.
Proof.
  intros H H' Ec A Ec' A' Eo Ei.
  destruct (token_at _ _ _ _ _ _ H Ec A) as (q & E & _ & T). apply app_inv_head in E as <-.
  destruct (token_at _ _ _ _ _ _ H' Ec' A') as (q & E & _ & T'). apply app_inv_head in E as <-.
  destruct (tokenization_move _ _ _ _ _ T (pre' ++ literal t') (Some t')) as (ts & E & T2).
  - cbn [kind_of]. cbn in Ei. rewrite !orb_false_r in Ei. now rewrite Ei.
  - rewrite Eo in T2. rewrite (tokenization_fun _ _ _ _ _ _ T' T2). now symmetry.
Qed.

(* ---------- C09 ---------- *)
Theorem triple_at code ts1 t ts2 pre q lit post :
  tokenize U code = Success (ts1 ++ t :: ts2 ++ [eof_token]) ->
  code = pre ++ lit ++ post -> at_ t = line_col pre ->
  (q = 34%N \/ q = 39%N) -> triple_literal q lit -> literal t = lit.
Proof. intros H Ec A Hq Hl. eapply token_at_lexeme; eauto. eapply lx_triple; eauto. Qed.

(* a token that starts with three quotes is a triple-quoted string *)
Theorem triple_token code ts t c l :
  tokenize U code = Success (ts ++ [eof_token]) -> In t ts ->
  literal t = c :: c :: c :: l -> (c = 34%N \/ c = 39%N) -> triple_literal c (literal t).
Proof.
  intros H Ht El Hc. destruct (quoted_token _ _ _ _ _ H Ht El Hc) as [(b & Hb & E)|]; [|assumption].
  exfalso. rewrite El in E. injection E as E.
  destruct Hb as [|x b Hx Hx' Hb|x b Hb]; cbn in E.
  - discriminate.
  - injection E as E _. congruence.
  - injection E as E _. destruct Hc; congruence.
Qed.

(* ---------- C10 ---------- *)
Theorem line_comment_at code ts1 t ts2 pre lit w post :
  tokenize U code = Success (ts1 ++ t :: ts2 ++ [eof_token]) ->
  code = pre ++ lit ++ w ++ post -> at_ t = line_col pre ->
  line_comment lit -> white w -> ~ In newline w -> (post = [] \/ exists r, post = newline :: r) ->
  literal t = lit.
Proof.
  intros H Ec A Hl Hw Hn Hp. eapply token_at_lexeme; eauto. apply lx_line; auto.
  destruct Hp as [->|[r ->]]; reflexivity || exact I.
Qed.
Theorem block_comment_at code ts1 t ts2 pre lit post :
  tokenize U code = Success (ts1 ++ t :: ts2 ++ [eof_token]) ->
  code = pre ++ lit ++ post -> at_ t = line_col pre -> block_comment lit -> literal t = lit.
Proof. intros H Ec A Hl. eapply token_at_lexeme; eauto. now apply lx_block. Qed.
Theorem comment_token code ts t :
  tokenize U code = Success (ts ++ [eof_token]) -> In t ts ->
  is_comment t = true <-> line_comment (literal t) \/ block_comment (literal t).
Proof.
  intros H Ht. destruct (token_lexeme _ _ _ H Ht) as (ts1 & ts2 & post & _ & L). unfold is_comment. split.
  - intros Hc. destruct (literal t) as [|c l]; [discriminate|]. cbn in Hc. destruct (N.eqb_spec c 35) as [->|N].
    + destruct (lexeme_start _ _ _ _ _ L) as [[? _]|[[? _]|[_ ?]]]; try lia. now left.
    + destruct l as [|c2 l]; [discriminate|]. apply orb_true_iff in Hc as [Hc|Hc]; apply andb_true_iff in Hc as [E1 E2];
      apply N.eqb_eq in E1, E2; subst.
      * left. eapply lexeme_dash, L.
      * right. eapply lexeme_slash, L.
  - intros [[[[r ->]|[r ->]] _]|[[r ->] _]]; reflexivity.
Qed.

(* ---------- C11 ---------- *)
Theorem word_at code ts1 t ts2 pre lit post :
  tokenize U code = Success (ts1 ++ t :: ts2 ++ [eof_token]) ->
  code = pre ++ lit ++ post -> at_ t = line_col pre ->
  word U lit -> not_followed (word_char U) post -> literal t = lit.
Proof. intros H Ec A Hl Hp. eapply token_at_lexeme; eauto. now apply lx_word. Qed.

Lemma lexeme_word n prev c l post : lexeme U n prev (c :: l) post -> word_start U c = true ->
  word U (c :: l) /\ not_followed (word_char U) post.
Proof.
  intros H W. remember (c :: l) as lit eqn:El.
  assert (WA : forall x, is_ascii x = true -> is_letter_ascii x || N.eqb x 95 = false -> c <> x).
  { intros x A B ->. unfold word_start in W. rewrite (proj1 (proj1 HU)) in W by exact A. congruence. }
  destruct H as [lit post Hw Hp|i f e post Hi Hf He Hst H1 H2 H3 H4|q lit post Hq Hlit Hp|q lit post Hq Hlit
    |lit post Hlit|lit w post Hlit Hw Hnw Hp|lit post Hlit|s post Hs Hn|k lit post Hlit Hp|k lit post Hlit|x post Hx
    |k x body post Hx Hk Hb|x post Hws Hd Hst Hsp H46 H45 H47 H124 H60 H62 H61 H33].
  - auto.
  - exfalso. destruct i as [|i0 i].
    + destruct Hst as [Hst|(c0 & d0 & _ & ->)]; [now elim Hst|]. injection El as E _. now apply (WA 46%N).
    + inversion Hi; subst. injection El as -> _. apply (word_start_digit U HU) in W. congruence.
  - exfalso. destruct Hlit as (b & Hb & ->). injection El as E _. destruct Hq as [->| ->]; [now apply (WA 34%N)|now apply (WA 39%N)].
  - exfalso. destruct Hlit as (b & Hb & ->). injection El as E _. destruct Hq as [->| ->]; [now apply (WA 34%N)|now apply (WA 39%N)].
  - exfalso. destruct Hlit as (b & Hb & ->). injection El as E _. now apply (WA 96%N).
  - exfalso. destruct Hlit as [[[rr Er]|[rr Er]] Hr]; rewrite Er in El; injection El as E _; [now apply (WA 35%N)|now apply (WA 45%N)].
  - exfalso. destruct Hlit as [[rr ->] _]. injection El as E _. now apply (WA 47%N).
  - exfalso. cbn in Hs. repeat (destruct Hs as [<-|Hs]; [injection El as E _; eapply WA; [| |symmetry; exact E]; reflexivity|]). contradiction.
  - exfalso. injection El as E _. now apply (WA 64%N).
  - exfalso. injection El as E _. now apply (WA 64%N).
  - exfalso. injection El as E _. now apply (WA 123%N).
  - exfalso. injection El as E _. now apply (WA 123%N).
  - injection El as -> _. congruence.
Qed.
(* conversely: a token that starts with a letter or underscore is a maximal word *)
Theorem word_token code ts1 t ts2 pre post c l :
  tokenize U code = Success (ts1 ++ t :: ts2 ++ [eof_token]) ->
  code = pre ++ literal t ++ post -> at_ t = line_col pre ->
  literal t = c :: l -> word_start U c = true ->
  word U (literal t) /\ not_followed (word_char U) post.
Proof.
  intros H Ec A El W. destruct (token_at _ _ _ _ _ _ H Ec A) as (q & E & L & _). apply app_inv_head in E as <-.
  rewrite El in *. eapply lexeme_word; eauto.
Qed.

(* ---------- C12 ---------- *)
Theorem number_at code ts1 t ts2 pre lit post :
  tokenize U code = Success (ts1 ++ t :: ts2 ++ [eof_token]) ->
  code = pre ++ lit ++ post -> at_ t = line_col pre ->
  number lit -> not_followed (fun c => is_digit_char c || is_char (s_ ".eE") c) post ->
  literal t = lit.
Proof.
  intros H Ec A (i & f & e & [Hif He] & ->) Hp. eapply token_at_lexeme; eauto.
  assert (P : forall p, (forall c, p c = true -> is_digit_char c || is_char (s_ ".eE") c = true) -> not_followed p post).
  { intros p Hp'. destruct post as [|x post]; [exact I|]. cbn [not_followed] in *. specialize (Hp' x). destruct (p x); [|reflexivity].
    rewrite Hp' in Hp by reflexivity. discriminate. }
  apply lx_number.
  - destruct Hif as [[[_ Hi] _]|[Hi _]]; exact Hi.
  - destruct Hif as [[_ ->]|[_ (d & [_ Hd] & ->)]]; [now left|right; exists d; auto].
  - destruct He as [->|(x & sg & d & Hx & Hs & [_ Hd] & ->)]; [now left|right; exists x, sg, d; auto].
  - destruct Hif as [[[Hi _] _]|[_ (d & [Hd Hd'] & ->)]]; [now left|right].
    destruct d as [|c d]; [now elim Hd|]. inversion Hd'; subst. eauto.
  - apply P. intros c ->. reflexivity.
  - intros _. apply P. intros c Hc. cbn in *. rewrite orb_false_r in Hc. apply orb_true_iff in Hc as [->| ->];
    rewrite ?orb_true_r; reflexivity.
  - intros _ _. apply P. intros c Hc. cbn in *. rewrite orb_false_r in Hc. now rewrite Hc, orb_true_r.
  - intros L. destruct He as [->|(x & sg & d & Hx & Hs & [Hd _] & ->)]; [discriminate|].
    destruct d as [|y d]; [now elim Hd|]. cbn in L. rewrite app_length in L. cbn in L. lia.
Qed.
End At.

Lemma star_digits s : re_matches (RStar re_digit) s <-> opt_digits s.
Proof.
  split.
  - intros H. remember (RStar re_digit) as r eqn:Er. revert Er.
    induction H as [|p c Hp|a' b s1 s2 H1 IH1 H2 IH2|a' b s' H IH|a' b s' H IH|a'|a' s1 s2 H1 IH1 H2 IH2];
      intros Er; try discriminate; [constructor|].
    injection Er as ->. apply Forall_app. split; [|now apply IH2].
    inversion H1; subst. repeat constructor. assumption.
  - induction 1 as [|c s Hc _ IH]; [constructor|]. change (c :: s) with ([c] ++ s). constructor; [|exact IH].
    now constructor.
Qed.
Lemma plus_digits s : re_matches (RPlus re_digit) s <-> digits s.
Proof.
  unfold RPlus. split.
  - intros H. inversion H as [| |a b s1 s2 H1 H2| | | |]; subst. inversion H1; subst. apply star_digits in H2.
    split; [discriminate|]. cbn. constructor; assumption.
  - intros [Hn H]. destruct H as [|c s Hc H]; [now elim Hn|]. change (c :: s) with ([c] ++ s).
    constructor; [now constructor|now apply star_digits].
Qed.
Lemma matches_char c s : re_matches (re_char c) s <-> s = [c].
Proof.
  unfold re_char. split.
  - intros H. inversion H as [|p x Hx| | | | |]; subst. apply N.eqb_eq in Hx as ->. reflexivity.
  - intros ->. constructor. apply N.eqb_refl.
Qed.

Theorem is_numeric_spec t : is_numeric t = true <-> number (literal t).
Proof.
  unfold is_numeric. rewrite re_matchb_spec. generalize (literal t) as s. intros s. unfold numeric_re. split.
  - intros H. inversion H as [| |a b s1 s2 H1 H2| | | |]; subst.
    assert (He : s2 = [] \/ exponent s2).
    { inversion H2 as [| | |a b s H3|a b s H3| |]; subst; [inversion H3; now left|right].
      inversion H3 as [| |a b t1 t2 H4 H5| | | |]; subst. inversion H5 as [| |a b t3 t4 H6 H7| | | |]; subst.
      apply plus_digits in H7.
      assert (exists e, t1 = [e] /\ (e = 69%N \/ e = 101%N)) as (e & -> & Hee).
      { inversion H4 as [| | |a b s H8|a b s H8| |]; subst; apply matches_char in H8 as ->; eauto. }
      exists e, t3, t4. split; [exact Hee|]. split; [|auto].
      inversion H6 as [| | |a b s H8|a b s H8| |]; subst; [inversion H8; now left|right].
      inversion H8 as [| | |a b s H9|a b s H9| |]; subst; apply matches_char in H9 as ->; auto. }
    inversion H1 as [| | |a b s H3|a b s H3| |]; subst.
    + apply plus_digits in H3. exists s1, [], s2. split; [|reflexivity]. split; [now left|exact He].
    + inversion H3 as [| |a b t1 t2 H4 H5| | | |]; subst. inversion H5 as [| |a b t3 t4 H6 H7| | | |]; subst.
      apply star_digits in H4. apply matches_char in H6 as ->. apply plus_digits in H7.
      exists t1, ([46%N] ++ t4), s2. split; [|now rewrite <- !app_assoc].
      split; [|exact He]. right. split; [exact H4|]. exists t4. auto.
  - intros (i & f & e & [Hif He] & ->). rewrite app_assoc. constructor.
    + destruct Hif as [[Hi ->]|[Hi (d & Hd & ->)]].
      * apply m_altl. rewrite app_nil_r. now apply plus_digits.
      * apply m_altr. constructor; [now apply star_digits|]. change (46%N :: d) with ([46%N] ++ d).
        constructor; [now apply matches_char|now apply plus_digits].
    + destruct He as [->|(x & sg & d & Hx & Hs & Hd & ->)]; [apply m_altl; constructor|apply m_altr].
      change (x :: sg ++ d) with ([x] ++ sg ++ d). constructor; [|constructor; [|now apply plus_digits]].
      * destruct Hx as [->| ->]; [apply m_altr|apply m_altl]; now apply matches_char.
      * destruct Hs as [->|[->| ->]]; [apply m_altl; constructor|apply m_altr, m_altl|apply m_altr, m_altr]; now apply matches_char.
Qed.

Section At2.
Context (U : unicode) (HU : tables_ok U).
(* ---------- C13, C14 ---------- *)
Theorem operator_at code ts1 t ts2 pre op post :
  tokenize U code = Success (ts1 ++ t :: ts2 ++ [eof_token]) ->
  code = pre ++ s_ op ++ post -> at_ t = line_col pre ->
  In op two_char_operators ->
  (op = ">>" \/ op = ">=" -> open_types U None 0 ts1 = 0%N) ->
  literal t = s_ op.
Proof. intros H Ec A Hop Hd. eapply (token_at_lexeme U HU); eauto. now apply lx_op. Qed.

Theorem close_at code ts1 t ts2 pre post :
  tokenize U code = Success (ts1 ++ t :: ts2 ++ [eof_token]) ->
  code = pre ++ s_ ">" ++ post -> at_ t = line_col pre ->
  open_types U None 0 ts1 <> 0%N ->
  literal t = s_ ">".
Proof.
  intros H Ec A Hd. eapply (token_at_lexeme U HU); eauto. cbn [s_]. apply lx_single; try reflexivity; try discriminate.
  - unfold word_start. rewrite (proj1 (proj1 HU)); reflexivity.
  - intros _ E. now elim Hd.
Qed.
End At2.

(* ---------- nested type declarations (C13) ---------- *)
Section Nested.
Context (U : unicode) (HU : tables_ok U).

Lemma tokenization_close n : forall pre prev,
  prev <> None -> kind_of U prev = Some false ->
  exists ts, map literal ts = repeat (s_ ">") n /\
    tokenization U pre (repeat 62%N n) (N.of_nat n) prev ts.
Proof.
  induction n as [|n IH]; intros pre prev Hp Hk.
  - exists []. split; [reflexivity|]. apply tk_end; constructor.
  - set (t := {| line := fst (line_col pre); column := snd (line_col pre); literal := s_ ">" |}).
    destruct (IH (pre ++ literal t) (Some t)) as (ts & E & T).
    { discriminate. }
    { cbn [kind_of]. unfold is_, upper_literal. cbn [literal t s_ to_uppercase flat_map].
      rewrite !(proj2 (proj1 HU)) by reflexivity. reflexivity. }
    exists (t :: ts). split; [cbn; now rewrite E|].
    change (repeat 62%N (S n)) with ([] ++ literal t ++ repeat 62%N n).
    apply tk_tok; [constructor|cbn; rewrite app_nil_r; symmetry; apply surjective_pairing| |].
    + cbn [literal t s_]. apply lx_single; try reflexivity; try discriminate.
      unfold word_start. rewrite (proj1 (proj1 HU)); reflexivity.
    + replace (open_types U prev (N.of_nat (S n)) [t]) with (N.of_nat n); [exact T|].
      cbn [open_types]. rewrite opens_type_kind. cbn [literal t]. rewrite Nat2N.inj_succ. cbn. lia.
Qed.

Fixpoint opens (n : nat) : str := match n with 0 => [] | S n' => s_ "ARRAY<" ++ opens n' end.
Fixpoint opens_literals (n : nat) : list str :=
  match n with 0 => [] | S n' => s_ "ARRAY" :: s_ "<" :: opens_literals n' end.

Lemma word_array : word U (s_ "ARRAY").
Proof.
  split.
  - unfold word_start. rewrite (proj1 (proj1 HU)); reflexivity.
  - repeat constructor; unfold word_char; rewrite (proj1 (proj1 HU)); reflexivity.
Qed.
Lemma word_int64 : word U (s_ "INT64").
Proof.
  split.
  - unfold word_start. rewrite (proj1 (proj1 HU)); reflexivity.
  - repeat constructor; unfold word_char; rewrite (proj1 (proj1 HU)); reflexivity.
Qed.
Lemma word_char_not c : is_ascii c = true -> is_letter_ascii c || is_digit_char c || N.eqb c 95 = false -> word_char U c = false.
Proof. intros A H. unfold word_char. now rewrite (proj1 (proj1 HU)). Qed.

Lemma kind_word (w : string) l c : In w ["ARRAY"; "INT64"; "<"] ->
  kind_of U (Some {| line := l; column := c; literal := s_ w |}) = Some (String.eqb w "ARRAY").
Proof.
  intros H. cbn in H. destruct H as [<-|[<-|[<-|[]]]]; cbn [kind_of]; unfold is_, upper_literal;
  cbn [literal s_ to_uppercase flat_map]; rewrite !(proj2 (proj1 HU)) by reflexivity; reflexivity.
Qed.

Lemma tokenization_open n k : forall pre prev,
  kind_of U prev = Some false \/ prev = None ->
  exists ts, map literal ts = opens_literals n ++ s_ "INT64" :: repeat (s_ ">") (k + n) /\
    tokenization U pre (opens n ++ s_ "INT64" ++ repeat 62%N (k + n)) (N.of_nat k) prev ts.
Proof.
  revert k. induction n as [|n IH]; intros k pre prev Hk.
  - set (t := {| line := fst (line_col pre); column := snd (line_col pre); literal := s_ "INT64" |}).
    rewrite Nat.add_0_r.
    destruct (tokenization_close k (pre ++ literal t) (Some t)) as (ts & E & T).
    { discriminate. } { apply kind_word. cbn. auto. }
    exists (t :: ts). split; [cbn [map opens_literals app]; now rewrite E|].
    change (opens 0 ++ s_ "INT64" ++ repeat 62%N k) with ([] ++ literal t ++ repeat 62%N k).
    apply tk_tok; [constructor|cbn; rewrite app_nil_r; symmetry; apply surjective_pairing| |].
    + apply lx_word; [apply word_int64|]. destruct k as [|k]; [exact I|]. cbn [repeat not_followed]. now apply word_char_not.
    + replace (open_types U prev (N.of_nat k) [t]) with (N.of_nat k); [exact T|]. reflexivity.
  - set (t := {| line := fst (line_col pre); column := snd (line_col pre); literal := s_ "ARRAY" |}).
    set (u := {| line := fst (line_col (pre ++ literal t)); column := snd (line_col (pre ++ literal t)); literal := s_ "<" |}).
    destruct (IH (S k) ((pre ++ literal t) ++ literal u) (Some u)) as (ts & E & T).
    { left. apply kind_word. cbn. auto. }
    exists (t :: u :: ts). split.
    { cbn [map opens_literals app]. rewrite E. now replace (k + S n) with (S k + n) by lia. }
    replace (opens (S n) ++ s_ "INT64" ++ repeat 62%N (k + S n)) with
      ([] ++ literal t ++ [] ++ literal u ++ opens n ++ s_ "INT64" ++ repeat 62%N (S k + n))
      by (now replace (k + S n) with (S k + n) by lia).
    apply tk_tok; [constructor|cbn; rewrite app_nil_r; symmetry; apply surjective_pairing| |].
    { apply lx_word; [apply word_array|]. cbn [app literal u s_ not_followed]. now apply word_char_not. }
    apply tk_tok; [constructor|cbn; rewrite app_nil_r; symmetry; apply surjective_pairing| |].
    + cbn [literal u s_]. apply lx_single; try reflexivity; try discriminate.
      { unfold word_start. rewrite (proj1 (proj1 HU)); reflexivity. }
      intros _. split; [|discriminate]. destruct n; reflexivity.
    + replace (open_types U (Some t) (open_types U prev (N.of_nat k) [t]) [u]) with (N.of_nat (S k)); [exact T|].
      cbn [open_types]. rewrite !opens_type_kind. rewrite (kind_word "ARRAY" (line t) (column t) (or_introl eq_refl) : kind_of U (Some t) = _).
      rewrite Nat2N.inj_succ. cbn. lia.
Qed.

Theorem nested_types n : exists ts,
  tokenize U (opens n ++ s_ "INT64" ++ repeat 62%N n) = Success (ts ++ [eof_token]) /\
  map literal ts = opens_literals n ++ s_ "INT64" :: repeat (s_ ">") n.
Proof.
  destruct (tokenization_open n 0 [] None (or_intror eq_refl)) as (ts & E & T). cbn [N.of_nat plus] in *.
  exists ts. split; [|exact E]. apply tokenize_grammar; [exact HU|]. eauto.
Qed.
End Nested.
