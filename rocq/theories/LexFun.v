(* The tokenizer as a function on the remaining text, and the proof that the model of
   lexer.rs (Lexer.v) computes it. Everything proved about tokenize goes through
   [tokenize_lex] below. *)
From Verif Require Import Chars Token Core Lexer.
Local Open Scope string_scope.
Local Open Scope list_scope.

(* ---------- positions ---------- *)
Definition step (p : N * N) (c : char) : N * N :=
  if N.eqb c 10 then (fst p + 1, 1)%N else (fst p, snd p + 1)%N.
Definition pos_after (pre : str) : N * N := fold_left step pre (1, 1)%N.

Lemma pos_after_snoc pre c : pos_after (pre ++ [c]) = step (pos_after pre) c.
Proof. unfold pos_after. now rewrite fold_left_app. Qed.

(* ---------- states ---------- *)
Definition mk (pre r : str) (d : N) (ts : list token) : lstate :=
  {| l_input := pre ++ r; l_position := List.length pre;
     l_line := fst (pos_after pre); l_column := snd (pos_after pre);
     l_depth := d; l_tokens := ts |}.

Definition eof_err (pre : str) : error :=
  {| e_line := fst (pos_after pre); e_column := snd (pos_after pre);
     e_message := "Unexpected EOF."; e_detail := None |}.
Definition ident_err (pre : str) : error :=
  {| e_line := fst (pos_after pre); e_column := snd (pos_after pre);
     e_message := "Invalid character as an identifier."; e_detail := None |}.

Lemma mk_new code : lexer_new code = mk [] code 0 [].
Proof. reflexivity. Qed.

Lemma next_char_cons pre c r d ts :
  next_char (mk pre (c :: r) d ts) = LOk tt (mk (pre ++ [c]) r d ts).
Proof.
  unfold next_char, mk; cbn [l_input l_position l_line l_column l_depth l_tokens].
  rewrite app_length. cbn [List.length].
  replace (Nat.ltb _ _) with true by (symmetry; apply Nat.ltb_lt; lia).
  rewrite nth_error_app2 by lia. rewrite Nat.sub_diag. cbn [nth_error].
  rewrite pos_after_snoc, <- app_assoc, app_length. unfold step. cbn [app List.length].
  destruct (N.eqb c 10); reflexivity.
Qed.

Lemma next_char_nil pre d ts :
  next_char (mk pre [] d ts) = LErr (eof_err pre) (mk pre [] d ts).
Proof.
  unfold next_char, mk; cbn [l_input l_position l_line l_column l_depth l_tokens].
  rewrite app_nil_r, Nat.ltb_irrefl, Nat.eqb_refl. reflexivity.
Qed.

Lemma get_char_at_mk pre r d ts k : get_char_at (mk pre r d ts) k = nth_error r k.
Proof.
  unfold get_char_at, mk; cbn [l_input l_position].
  rewrite app_length, nth_error_app2 by lia.
  replace (List.length pre + k - List.length pre) with k by lia.
  destruct (Nat.ltb_spec (List.length pre + k) (List.length pre + List.length r)); [reflexivity|].
  symmetry. apply nth_error_None. lia.
Qed.

Lemma get_char_mk pre r d ts k : get_char k (mk pre r d ts) = LOk (nth_error r k) (mk pre r d ts).
Proof. unfold get_char. now rewrite get_char_at_mk. Qed.

Lemma slice_mk pre a r d ts : slice (mk (pre ++ a) r d ts) (List.length pre) = a.
Proof.
  unfold slice, mk; cbn [l_input l_position].
  rewrite <- app_assoc, app_length.
  replace (List.length pre + List.length a - List.length pre) with (List.length a) by lia.
  rewrite skipn_app, skipn_all, Nat.sub_diag. cbn [skipn app].
  rewrite firstn_app, Nat.sub_diag, firstn_all. cbn. apply app_nil_r.
Qed.

Lemma from_first_mk pre a r d ts :
  from_first (List.length pre) (mk (pre ++ a) r d ts) = LOk a (mk (pre ++ a) r d ts).
Proof. unfold from_first. now rewrite slice_mk. Qed.

Lemma position_mk pre r d ts : position_ (mk pre r d ts) = LOk (List.length pre) (mk pre r d ts).
Proof. reflexivity. Qed.

Lemma len_mk pre r d ts : List.length r < S (S (List.length (l_input (mk pre r d ts)))).
Proof. cbn [mk l_input]. rewrite app_length. lia. Qed.
Lemma depth_mk pre r d ts : depth_ (mk pre r d ts) = LOk d (mk pre r d ts).
Proof. reflexivity. Qed.
Lemma set_depth_mk pre r d d' ts : set_depth d' (mk pre r d ts) = LOk tt (mk pre r d' ts).
Proof. reflexivity. Qed.
Lemma lret_mk {A} (a : A) s : lret a s = LOk a s.
Proof. reflexivity. Qed.

Lemma lbind_ok {A B} (m : LM A) (f : A -> LM B) s a s' : m s = LOk a s' -> lbind m f s = f a s'.
Proof. unfold lbind. now intros ->. Qed.
Lemma lbind_err {A B} (m : LM A) (f : A -> LM B) s e s' : m s = LErr e s' -> lbind m f s = LErr e s'.
Proof. unfold lbind. now intros ->. Qed.

(* ---------- loops ---------- *)
Fixpoint span (p : char -> bool) (r : str) : str * str :=
  match r with
  | [] => ([], [])
  | c :: r' => if p c then let (a, b) := span p r' in (c :: a, b) else ([], r)
  end.

Lemma span_app p r : fst (span p r) ++ snd (span p r) = r.
Proof.
  induction r as [|c r IH]; [reflexivity|]. cbn [span].
  destruct (p c); [|reflexivity]. destruct (span p r) as [a b]. cbn in *. congruence.
Qed.

Lemma cond_mk (p : option char -> bool) pre r d ts :
  (c <~ get_char 0 ;; lret (p c)) (mk pre r d ts) = LOk (p (nth_error r 0)) (mk pre r d ts).
Proof. now rewrite (lbind_ok _ _ _ _ _ (get_char_mk _ _ _ _ 0)). Qed.

(* while the character here satisfies p, and stop at the end of the text *)
Lemma lwhile_span p pre r d ts n :
  p None = false -> List.length r < n ->
  lwhile n (c <~ get_char 0 ;; lret (p c)) next_char (mk pre r d ts) =
  let (a, b) := span (fun c => p (Some c)) r in LOk tt (mk (pre ++ a) b d ts).
Proof.
  intros Hn. revert pre n. induction r as [|c r IH]; intros pre n Hlt;
    (destruct n as [|n]; [cbn [List.length] in Hlt; lia|]); cbn [lwhile].
  - rewrite (lbind_ok _ _ _ _ _ (cond_mk _ _ _ _ _)).
    cbn [nth_error]. rewrite Hn. cbn. now rewrite app_nil_r.
  - rewrite (lbind_ok _ _ _ _ _ (cond_mk _ _ _ _ _)).
    cbn [nth_error span]. destruct (p (Some c)).
    + rewrite (lbind_ok _ _ _ _ _ (next_char_cons _ _ _ _ _)).
      rewrite IH by (cbn [List.length] in Hlt; lia).
      destruct (span _ r) as [a b]. now rewrite <- app_assoc.
    + cbn. now rewrite app_nil_r.
Qed.

Lemma while_span p pre r d ts :
  p None = false ->
  while_ (c <~ get_char 0 ;; lret (p c)) next_char (mk pre r d ts) =
  let (a, b) := span (fun c => p (Some c)) r in LOk tt (mk (pre ++ a) b d ts).
Proof.
  intros H. unfold while_. apply lwhile_span; [exact H|]. cbn [mk l_input].
  rewrite app_length. lia.
Qed.

(* while the character here satisfies p; the end of the text is an error *)
Lemma lwhile_must p pre r d ts n :
  p None = true -> List.length r < n ->
  lwhile n (c <~ get_char 0 ;; lret (p c)) next_char (mk pre r d ts) =
  match span (fun c => p (Some c)) r with
  | (a, []) => LErr (eof_err (pre ++ r)) (mk (pre ++ r) [] d ts)
  | (a, b) => LOk tt (mk (pre ++ a) b d ts)
  end.
Proof.
  intros Hn. revert pre n. induction r as [|c r IH]; intros pre n Hlt;
    (destruct n as [|n]; [cbn [List.length] in Hlt; lia|]); cbn [lwhile].
  - rewrite (lbind_ok _ _ _ _ _ (cond_mk _ _ _ _ _)).
    cbn [nth_error]. rewrite Hn. rewrite (lbind_err _ _ _ _ _ (next_char_nil _ _ _)). cbn.
    now rewrite app_nil_r.
  - rewrite (lbind_ok _ _ _ _ _ (cond_mk _ _ _ _ _)).
    cbn [nth_error span]. destruct (p (Some c)).
    + rewrite (lbind_ok _ _ _ _ _ (next_char_cons _ _ _ _ _)).
      rewrite IH by (cbn [List.length] in Hlt; lia).
      destruct (span _ r) as [a [|b0 b]]; now rewrite <- app_assoc.
    + cbn. now rewrite app_nil_r.
Qed.

Lemma while_must p pre r d ts :
  p None = true ->
  while_ (c <~ get_char 0 ;; lret (p c)) next_char (mk pre r d ts) =
  match span (fun c => p (Some c)) r with
  | (a, []) => LErr (eof_err (pre ++ r)) (mk (pre ++ r) [] d ts)
  | (a, b) => LOk tt (mk (pre ++ a) b d ts)
  end.
Proof.
  intros H. unfold while_. apply lwhile_must; [exact H|]. cbn [mk l_input].
  rewrite app_length. lia.
Qed.

Definition hd_is (c : char) (r : str) : bool := match r with x :: _ => N.eqb x c | [] => false end.
Arguments hd_is c%N_scope r.
Lemma opt_eqb_hd r c : opt_eqb (nth_error r 0) (Some c) = hd_is c r.
Proof. now destruct r. Qed.

Lemma opt_eqb_hd1 r c x : opt_eqb (nth_error (x :: r) 1) (Some c) = hd_is c r.
Proof. now destruct r. Qed.

(* text up to the first "*/" and the text from it on *)
Fixpoint to_star_slash (r : str) : option (str * str) :=
  match r with
  | [] => None
  | c :: r' =>
      if N.eqb c 42 && hd_is 47 r' then Some ([], r)
      else match to_star_slash r' with Some (a, b) => Some (c :: a, b) | None => None end
  end.

Lemma lwhile_comment pre r d ts n :
  List.length r < n ->
  lwhile n (c0 <~ get_char 0 ;; c1 <~ get_char 1 ;;
            lret (negb (opt_eqb c0 (Some 42%N) && opt_eqb c1 (Some 47%N)))) next_char (mk pre r d ts) =
  match to_star_slash r with
  | Some (a, b) => LOk tt (mk (pre ++ a) b d ts)
  | None => LErr (eof_err (pre ++ r)) (mk (pre ++ r) [] d ts)
  end.
Proof.
  revert pre n. induction r as [|c r IH]; intros pre n Hlt;
    (destruct n as [|n]; [cbn [List.length] in Hlt; lia|]); cbn [lwhile].
  - unfold lbind at 1. rewrite (lbind_ok _ _ _ _ _ (get_char_mk _ _ _ _ 0)).
    rewrite (lbind_ok _ _ _ _ _ (get_char_mk _ _ _ _ 1)). unfold lret. cbn [nth_error to_star_slash opt_eqb andb negb].
    rewrite (lbind_err _ _ _ _ _ (next_char_nil _ _ _)). rewrite ?app_nil_r. reflexivity.
  - unfold lbind at 1. rewrite (lbind_ok _ _ _ _ _ (get_char_mk _ _ _ _ 0)).
    rewrite (lbind_ok _ _ _ _ _ (get_char_mk _ _ _ _ 1)).
    unfold lret. rewrite opt_eqb_hd1, opt_eqb_hd. cbn [to_star_slash hd_is]. fold (hd_is 47 r).
    destruct (N.eqb c 42 && hd_is 47 r).
    + cbn. now rewrite app_nil_r.
    + cbn [negb]. rewrite (lbind_ok _ _ _ _ _ (next_char_cons _ _ _ _ _)).
      unfold lret in IH. rewrite IH by (cbn [List.length] in Hlt; lia).
      destruct (to_star_slash r) as [[a b]|]; now rewrite <- app_assoc.
Qed.

(* the text of a string up to its closing quote(s), recognised by [stop], at a place
   that is not escaped *)
Fixpoint to_quote (stop : str -> bool) (odd : bool) (r : str) : option (str * str) :=
  if negb odd && stop r then Some ([], r)
  else
    match r with
    | [] => None
    | c :: r' =>
        match to_quote stop (if N.eqb c 92 then negb odd else false) r' with
        | Some (a, b) => Some (c :: a, b)
        | None => None
        end
    end.

Lemma string_loop_spec (m : LM bool) (stop : str -> bool) d ts :
  (forall pre r, m (mk pre r d ts) = LOk (stop r) (mk pre r d ts)) ->
  forall r pre odd n, List.length r < n ->
  string_loop n m odd (mk pre r d ts) =
  match to_quote stop odd r with
  | Some (a, b) => LOk tt (mk (pre ++ a) b d ts)
  | None => LErr (eof_err (pre ++ r)) (mk (pre ++ r) [] d ts)
  end.
Proof.
  intros Hm. induction r as [|c r IH]; intros pre odd n Hlt;
    (destruct n as [|n]; [cbn [List.length] in Hlt; lia|]); cbn [string_loop to_quote].
  - rewrite (lbind_ok _ _ _ _ _ (Hm _ _)). destruct (negb odd && stop []).
    + cbn. now rewrite app_nil_r.
    + rewrite (lbind_ok _ _ _ _ _ (get_char_mk _ _ _ _ 0)).
      rewrite (lbind_err _ _ _ _ _ (next_char_nil _ _ _)). now rewrite app_nil_r.
  - rewrite (lbind_ok _ _ _ _ _ (Hm _ _)). destruct (negb odd && stop (c :: r)).
    + cbn. now rewrite app_nil_r.
    + rewrite (lbind_ok _ _ _ _ _ (get_char_mk _ _ _ _ 0)).
      rewrite (lbind_ok _ _ _ _ _ (next_char_cons _ _ _ _ _)).
      cbn [nth_error opt_eqb].
      rewrite IH by (cbn [List.length] in Hlt; lia).
      destruct (to_quote stop _ r) as [[a b]|]; now rewrite <- app_assoc.
Qed.

Lemma read_until_quote_spec (m : LM bool) (stop : str -> bool) pre r d ts :
  (forall pre r, m (mk pre r d ts) = LOk (stop r) (mk pre r d ts)) ->
  read_until_quote m (mk pre r d ts) =
  match to_quote stop false r with
  | Some (a, b) => LOk tt (mk (pre ++ a) b d ts)
  | None => LErr (eof_err (pre ++ r)) (mk (pre ++ r) [] d ts)
  end.
Proof.
  intros H. unfold read_until_quote. apply string_loop_spec; [exact H|].
  cbn [mk l_input]. rewrite app_length. lia.
Qed.

Lemma count_braces_spec r : forall pre d ts n k, List.length r < n ->
  count_braces n k (mk pre r d ts) =
  let (a, b) := span (fun c => N.eqb c 123) r in
  LOk (k + List.length a) (mk (pre ++ a) b d ts).
Proof.
  induction r as [|c r IH]; intros pre d ts n k Hlt;
    (destruct n as [|n]; [cbn [List.length] in Hlt; lia|]); cbn [count_braces].
  - rewrite (lbind_ok _ _ _ _ _ (get_char_mk _ _ _ _ 0)). cbn. now rewrite app_nil_r, Nat.add_0_r.
  - rewrite (lbind_ok _ _ _ _ _ (get_char_mk _ _ _ _ 0)). cbn [nth_error opt_eqb span].
    destruct (N.eqb c 123).
    + rewrite (lbind_ok _ _ _ _ _ (next_char_cons _ _ _ _ _)).
      rewrite IH by (cbn [List.length] in Hlt; lia).
      destruct (span _ r) as [a b]. rewrite <- app_assoc. cbn [List.length app].
      f_equal. lia.
    + cbn. now rewrite app_nil_r, Nat.add_0_r.
Qed.

Fixpoint starts_braces (n : nat) (r : str) : bool :=
  match n with
  | 0 => true
  | S n' => match r with c :: r' => N.eqb c 125 && starts_braces n' r' | [] => false end
  end.

Lemma forallb_shift (f g : nat -> bool) n a b :
  (forall i, i < n -> f (a + i) = g (b + i)) -> forallb f (seq a n) = forallb g (seq b n).
Proof.
  revert a b. induction n as [|n IH]; intros a b H; [reflexivity|]. cbn [seq forallb].
  f_equal.
  - specialize (H 0). rewrite !Nat.add_0_r in H. apply H. lia.
  - apply IH. intros i Hi. specialize (H (S i)).
    rewrite !Nat.add_succ_r in H. apply H. lia.
Qed.

Lemma starts_braces_spec n r :
  forallb (fun i => opt_eqb (nth_error r i) (Some 125%N)) (seq 0 n) = starts_braces n r.
Proof.
  revert r. induction n as [|n IH]; intros r; [reflexivity|].
  cbn [seq forallb starts_braces]. destruct r as [|c r].
  - reflexivity.
  - cbn [nth_error opt_eqb]. f_equal. rewrite <- IH.
    apply forallb_shift. intros i _. reflexivity.
Qed.

(* at least one character, then the rest starts with n closing braces *)
Fixpoint to_braces (n : nat) (r : str) : option (str * str) :=
  match r with
  | [] => None
  | c :: r' =>
      if starts_braces n r' then Some ([c], r')
      else match to_braces n r' with Some (a, b) => Some (c :: a, b) | None => None end
  end.

Lemma forallb_ext' {A} (f g : A -> bool) l : (forall x, f x = g x) -> forallb f l = forallb g l.
Proof. intros H. induction l; cbn; congruence. Qed.

Lemma to_closing_braces_spec k r : forall pre d ts n, List.length r < n ->
  to_closing_braces n k (mk pre r d ts) =
  match to_braces k r with
  | Some (a, b) => LOk tt (mk (pre ++ a) b d ts)
  | None => LErr (eof_err (pre ++ r)) (mk (pre ++ r) [] d ts)
  end.
Proof.
  induction r as [|c r IH]; intros pre d ts n Hlt;
    (destruct n as [|n]; [cbn [List.length] in Hlt; lia|]); cbn [to_closing_braces to_braces].
  - rewrite (lbind_err _ _ _ _ _ (next_char_nil _ _ _)). now rewrite app_nil_r.
  - rewrite (lbind_ok _ _ _ _ _ (next_char_cons _ _ _ _ _)).
    rewrite (forallb_ext' _ (fun i => opt_eqb (nth_error r i) (Some 125%N)))
      by (intros; now rewrite get_char_at_mk).
    rewrite starts_braces_spec. destruct (starts_braces k r); [reflexivity|].
    rewrite IH by (cbn [List.length] in Hlt; lia).
    destruct (to_braces k r) as [[a b]|]; now rewrite <- app_assoc.
Qed.

Lemma to_braces_starts k r a b : to_braces k r = Some (a, b) -> starts_braces k b = true /\ r = a ++ b.
Proof.
  revert a b. induction r as [|c r IH]; intros a b H; cbn [to_braces] in H; [discriminate|].
  destruct (starts_braces k r) eqn:E.
  - injection H as <- <-. auto.
  - destruct (to_braces k r) as [[a' b']|]; [|discriminate]. injection H as <- <-.
    destruct (IH _ _ eq_refl) as [H1 ->]. auto.
Qed.

Lemma ltimes_next k : forall r pre d ts, starts_braces k r = true ->
  ltimes k next_char (mk pre r d ts) = LOk tt (mk (pre ++ firstn k r) (skipn k r) d ts).
Proof.
  induction k as [|k IH]; intros r pre d ts H; cbn [ltimes firstn skipn].
  - now rewrite app_nil_r.
  - destruct r as [|c r]; [discriminate|]. cbn in H. apply andb_true_iff in H as [_ H].
    rewrite (lbind_ok _ _ _ _ _ (next_char_cons _ _ _ _ _)). rewrite IH by exact H.
    now rewrite <- app_assoc.
Qed.

(* ---------- one token ---------- *)
(* [LexOk lit sk rest d]: the token [lit], then [sk] (white space dropped from the end of
   a comment), then [rest]; [d] is the new type declaration depth. [LexBad pre]: a
   character that cannot start an identifier follows [pre]. *)
Inductive lexres := LexOk (lit sk rest : str) (d : N) | LexEof | LexBad (pre : str) | LexPanic.

Section WithUnicode.
Context (U : unicode).

Definition is_istart (c : char) : bool := is_valid_1st_char_of_ident U (Some c).
Definition is_ichar (c : char) : bool := is_valid_char_of_ident U (Some c).
Definition hd_digit (r : str) : bool := match r with x :: _ => is_digit_char x | [] => false end.

Definition scan_exponent (r : str) : str * str :=
  match r with
  | e :: r1 =>
      if N.eqb e 69 || N.eqb e 101 then
        match r1 with
        | sg :: r2 =>
            if N.eqb sg 43 || N.eqb sg 45 then
              let (a, b) := span is_digit_char r2 in (e :: sg :: a, b)
            else let (a, b) := span is_digit_char r1 in (e :: a, b)
        | [] => ([e], [])
        end
      else ([], r)
  | [] => ([], [])
  end.
Definition scan_fraction (r : str) : str * str :=
  match r with
  | p :: r1 => if N.eqb p 46 then let (a, b) := span is_digit_char r1 in (p :: a, b) else ([], r)
  | [] => ([], [])
  end.
Definition scan_number (r : str) : str * str :=
  let (a, r1) := span is_digit_char r in
  let (b, r2) := scan_fraction r1 in
  let (c, r3) := scan_exponent r2 in
  (a ++ b ++ c, r3).

Definition split_trim (s : str) : str * str :=
  let t := trim_end s in (t, skipn (List.length t) s).

Definition scan_back_quoted (r : str) : option (str * str) :=
  match r with
  | q :: r1 =>
      match span (fun c => negb (N.eqb c q)) r1 with
      | (a, b0 :: b) => Some (q :: a ++ [b0], b)
      | (_, []) => None
      end
  | [] => None
  end.

Definition starts3 (q : char) (r : str) : bool :=
  match r with a :: b :: c :: _ => N.eqb a q && N.eqb b q && N.eqb c q | _ => false end.

Definition scan_param (d : N) (r : str) : lexres :=
    let (a, b) := span (fun x => N.eqb x 64) r in
    match b with
    | [] => LexBad a
    | x :: b' =>
        if N.eqb x 96 then
          match scan_back_quoted b with Some (e, f) => LexOk (a ++ e) [] f d | None => LexEof end
        else if is_istart x then
          let (e, f) := span is_ichar b' in LexOk (a ++ x :: e) [] f d
        else LexBad a
    end.

Definition scan_brace (d : N) (c : char) (r : str) : lexres :=
    let (a, b) := span (fun x => N.eqb x 123) (c :: r) in
    if Nat.eqb (List.length a) 1 && (hd_is 64 b || hd_digit b || hd_is 44 b) then LexOk [c] [] b d
    else
      match to_braces (List.length a) b with
      | Some (e, f) => LexOk (a ++ e ++ firstn (List.length a) f) [] (skipn (List.length a) f) d
      | None => LexEof
      end.

Definition scan (d : N) (prev : option str) (c : char) (r : str) : lexres :=
  let single := LexOk [c] [] r d in
  let double (s : string) := LexOk (s_ s) [] (tl r) d in
  let number := let (a, b) := scan_number (c :: r) in LexOk a [] b d in
  let comment :=
    let (a, b) := span (fun x => negb (N.eqb x 10)) (c :: r) in
    let (t, w) := split_trim a in LexOk t w b d in
  if N.eqb c 46 then if hd_digit r then number else single
  else if N.eqb c 35 then comment
  else if N.eqb c 96 then
    match scan_back_quoted (c :: r) with Some (a, b) => LexOk a [] b d | None => LexEof end
  else if N.eqb c 34 || N.eqb c 39 then
    if hd_is c r && hd_is c (tl r) then
      match to_quote (starts3 c) false (tl (tl r)) with
      | Some (a, b) => LexOk (c :: c :: c :: a ++ [c; c; c]) [] (skipn 3 b) d
      | None => LexEof
      end
    else
      match to_quote (hd_is c) false r with
      | Some (a, b) => LexOk (c :: a ++ [c]) [] (tl b) d
      | None => LexEof
      end
  else if N.eqb c 45 then if hd_is 45 r then comment else single
  else if N.eqb c 47 then
    if hd_is 42 r then
      match to_star_slash (c :: r) with
      | Some (a, b) => LexOk (a ++ s_ "*/") [] (skipn 2 b) d
      | None => LexEof
      end
    else single
  else if N.eqb c 124 then
    if hd_is 124 r then double "||" else if hd_is 62 r then double "|>" else single
  else if N.eqb c 60 then
    if hd_is 60 r then double "<<" else if hd_is 61 r then double "<=" else if hd_is 62 r then double "<>"
    else match prev with
         | None => LexPanic
         | Some u => LexOk [c] [] r (if str_eqb u (s_ "ARRAY") || str_eqb u (s_ "STRUCT") then d + 1 else d)%N
         end
  else if N.eqb c 62 then
    if N.ltb 0 d then LexOk [c] [] r (d - 1)
    else if hd_is 62 r then double ">>" else if hd_is 61 r then double ">=" else single
  else if N.eqb c 61 then if hd_is 62 r then double "=>" else single
  else if N.eqb c 33 then if hd_is 61 r then double "!=" else single
  else if N.eqb c 64 then
    scan_param d (c :: r)
  else if N.eqb c 123 then
    scan_brace d c r
  else if is_digit_char c then number
  else if is_istart c then let (a, b) := span is_ichar r in LexOk (c :: a) [] b d
  else single.

Definition prev_upper (ts : list token) : option str :=
  option_map (upper_literal U) (last (map Some ts) None).

(* the outcome of a tokenizer function that reads one token *)
Definition lex_outcome (x : lexres) (pre : str) (r : str) (ts : list token) (res : lres unit)
    (p : N * N) : Prop :=
  match x with
  | LexOk lit sk rest d' =>
      res = LOk tt (mk (pre ++ lit ++ sk) rest d'
                       (ts ++ [{| line := fst p; column := snd p; literal := lit |}]))
  | LexEof => exists s', res = LErr (eof_err (pre ++ r)) s'
  | LexBad a => exists s', res = LErr (ident_err (pre ++ a)) s'
  | LexPanic => exists s', res = LPanic s'
  end.

Lemma construct_token_mk l c lit pre r d ts :
  construct_token l c lit (mk pre r d ts) =
  LOk tt (mk pre r d (ts ++ [{| line := l; column := c; literal := lit |}])).
Proof. reflexivity. Qed.

Lemma one_char_mk l cl c pre r d ts :
  one_char l cl c (mk pre (c :: r) d ts) =
  LOk tt (mk (pre ++ [c]) r d (ts ++ [{| line := l; column := cl; literal := [c] |}])).
Proof. unfold one_char. now rewrite (lbind_ok _ _ _ _ _ (next_char_cons _ _ _ _ _)). Qed.

Lemma two_chars_mk l cl s a b pre r d ts :
  s_ s = [a; b] ->
  two_chars l cl s (mk pre (a :: b :: r) d ts) =
  LOk tt (mk (pre ++ s_ s) r d (ts ++ [{| line := l; column := cl; literal := s_ s |}])).
Proof.
  intros H. unfold two_chars. rewrite (lbind_ok _ _ _ _ _ (next_char_cons _ _ _ _ _)).
  rewrite (lbind_ok _ _ _ _ _ (next_char_cons _ _ _ _ _)). rewrite construct_token_mk.
  now rewrite H, <- app_assoc.
Qed.

Lemma skip_digits_mk pre r d ts :
  skip_digits (mk pre r d ts) =
  let (a, b) := span is_digit_char r in LOk tt (mk (pre ++ a) b d ts).
Proof. unfold skip_digits. now rewrite while_span. Qed.

Lemma is_digit_hd r : is_digit (nth_error r 0) = hd_digit r.
Proof. now destruct r. Qed.

Lemma read_number_mk pre r d ts :
  read_number (mk pre r d ts) =
  let (a, b) := scan_number r in LOk a (mk (pre ++ a) b d ts).
Proof.
  unfold read_number, scan_number.
  rewrite (lbind_ok _ _ _ _ _ (position_mk _ _ _ _)).
  pose proof (skip_digits_mk pre r d ts) as H1.
  destruct (span is_digit_char r) as [a r1] eqn:E1.
  rewrite (lbind_ok _ _ _ _ _ H1). clear H1.
  rewrite (lbind_ok _ _ _ _ _ (get_char_mk _ _ _ _ 0)). rewrite opt_eqb_hd.
  assert (H2 : (if hd_is 46 r1 then (_ <~ next_char ;; skip_digits) else lret tt) (mk (pre ++ a) r1 d ts)
          = let (b, r2) := scan_fraction r1 in LOk tt (mk ((pre ++ a) ++ b) r2 d ts)).
  { destruct r1 as [|p r1]; cbn [hd_is scan_fraction].
    - cbn. now rewrite app_nil_r.
    - destruct (N.eqb p 46).
      + rewrite (lbind_ok _ _ _ _ _ (next_char_cons _ _ _ _ _)), skip_digits_mk.
        destruct (span is_digit_char r1) as [b r2]. now rewrite <- app_assoc.
      + cbn. now rewrite app_nil_r. }
  destruct (scan_fraction r1) as [b r2]. rewrite (lbind_ok _ _ _ _ _ H2). clear H2.
  rewrite (lbind_ok _ _ _ _ _ (get_char_mk _ _ _ _ 0)). rewrite !opt_eqb_hd.
  match goal with |- lbind ?m _ ?s = _ =>
    assert (H3 : m s = let (c, r3) := scan_exponent r2 in LOk tt (mk (((pre ++ a) ++ b) ++ c) r3 d ts)) end.
  { destruct r2 as [|e r2]; cbn [hd_is scan_exponent].
    - cbn. now rewrite app_nil_r.
    - destruct (N.eqb e 69 || N.eqb e 101).
      + rewrite (lbind_ok _ _ _ _ _ (next_char_cons _ _ _ _ _)).
        rewrite (lbind_ok _ _ _ _ _ (get_char_mk _ _ _ _ 0)). rewrite !opt_eqb_hd.
        destruct r2 as [|sg r2]; cbn [hd_is].
        * cbn [orb]. rewrite (lbind_ok _ _ _ _ _ eq_refl). rewrite skip_digits_mk. cbn [span].
          now rewrite app_nil_r.
        * destruct (N.eqb sg 43 || N.eqb sg 45).
          -- rewrite (lbind_ok _ _ _ _ _ (next_char_cons _ _ _ _ _)), skip_digits_mk.
             destruct (span is_digit_char r2) as [x y]. now rewrite <- !app_assoc.
          -- rewrite (lbind_ok _ _ _ _ _ eq_refl). rewrite skip_digits_mk.
             destruct (span is_digit_char (sg :: r2)) as [x y]. now rewrite <- !app_assoc.
      + cbn. now rewrite app_nil_r. }
  destruct (scan_exponent r2) as [c r3]. rewrite (lbind_ok _ _ _ _ _ H3).
  rewrite <- !app_assoc. apply from_first_mk.
Qed.

Lemma trim_end_app s : exists w, s = trim_end s ++ w.
Proof.
  unfold trim_end. exists (rev (firstn (List.length s - List.length (drop_while is_whitespace_char (rev s))) (rev s))).
  rewrite <- rev_app_distr. rewrite <- (rev_involutive s) at 1. f_equal.
  assert (H : forall l, l = firstn (List.length l - List.length (drop_while is_whitespace_char l)) l
              ++ drop_while is_whitespace_char l).
  { induction l as [|c l IH]; [reflexivity|]. cbn [drop_while].
    destruct (is_whitespace_char c).
    - assert (L : List.length (drop_while is_whitespace_char l) <= List.length l)
        by (rewrite IH at 2; rewrite app_length; lia).
      cbn [List.length]. rewrite Nat.sub_succ_l by exact L. cbn [firstn app]. now f_equal.
    - cbn [List.length]. now rewrite Nat.sub_diag. }
  specialize (H (rev s)). now rewrite rev_length in H.
Qed.

Lemma split_trim_app s : fst (split_trim s) ++ snd (split_trim s) = s.
Proof.
  unfold split_trim. cbn. destruct (trim_end_app s) as [w H].
  set (t := trim_end s) in *. clearbody t. subst s.
  now rewrite skipn_app, skipn_all, Nat.sub_diag.
Qed.

Lemma read_comment_mk pre r d ts :
  read_comment (mk pre r d ts) =
  let (a, b) := span (fun x => negb (N.eqb x 10)) r in
  let (t, w) := split_trim a in LOk t (mk (pre ++ t ++ w) b d ts).
Proof.
  unfold read_comment. rewrite (lbind_ok _ _ _ _ _ (position_mk _ _ _ _)).
  pose proof (while_span (fun c => negb (is_end_of_line c)) pre r d ts eq_refl) as H.
  cbn [is_end_of_line] in H.
  destruct (span _ r) as [a b]. rewrite (lbind_ok _ _ _ _ _ H).
  rewrite (lbind_ok _ _ _ _ _ (from_first_mk _ _ _ _ _)).
  pose proof (split_trim_app a) as E.
  destruct (split_trim a) as [t w] eqn:Et. cbn in E. rewrite E.
  unfold split_trim in Et. now injection Et as <- _.
Qed.

Lemma span_cons_hd p c r : p c = true -> span p (c :: r) = (c :: fst (span p r), snd (span p r)).
Proof. intros H. cbn [span]. rewrite H. now destruct (span p r). Qed.

Lemma read_back_quoted_mk pre q r d ts :
  match scan_back_quoted (q :: r) with
  | Some (a, b) => read_back_quoted (mk pre (q :: r) d ts) = LOk a (mk (pre ++ a) b d ts)
  | None => exists s', read_back_quoted (mk pre (q :: r) d ts) = LErr (eof_err (pre ++ q :: r)) s'
  end.
Proof.
  unfold read_back_quoted, scan_back_quoted.
  rewrite (lbind_ok _ _ _ _ _ (get_char_mk _ _ _ _ 0)). cbn [nth_error].
  rewrite (lbind_ok _ _ _ _ _ (position_mk _ _ _ _)).
  rewrite (lbind_ok _ _ _ _ _ (next_char_cons _ _ _ _ _)).
  pose proof (while_must (fun c => negb (opt_eqb c (Some q))) (pre ++ [q]) r d ts eq_refl) as H.
  cbn [opt_eqb] in H.
  destruct (span _ r) as [a [|b0 b]].
  - eexists. rewrite (lbind_err _ _ _ _ _ H). now rewrite <- app_assoc.
  - rewrite (lbind_ok _ _ _ _ _ H).
    rewrite (lbind_ok _ _ _ _ _ (next_char_cons _ _ _ _ _)).
    replace (((pre ++ [q]) ++ a) ++ [b0]) with (pre ++ (q :: a ++ [b0])) by (now rewrite <- !app_assoc).
    apply from_first_mk.
Qed.

Lemma read_identifier_mk pre r d ts :
  match r with
  | c :: r' =>
      if is_istart c then
        let (a, b) := span is_ichar r' in
        read_identifier U (mk pre r d ts) = LOk (c :: a) (mk (pre ++ c :: a) b d ts)
      else exists s', read_identifier U (mk pre r d ts) = LErr (ident_err pre) s'
  | [] => exists s', read_identifier U (mk pre r d ts) = LErr (ident_err pre) s'
  end.
Proof.
  unfold read_identifier. destruct r as [|c r'].
  - rewrite (lbind_ok _ _ _ _ _ (position_mk _ _ _ _)).
    rewrite (lbind_ok _ _ _ _ _ (get_char_mk _ _ _ _ 0)). cbn. eexists. reflexivity.
  - rewrite (lbind_ok _ _ _ _ _ (position_mk _ _ _ _)).
    rewrite (lbind_ok _ _ _ _ _ (get_char_mk _ _ _ _ 0)). cbn [nth_error].
    fold (is_istart c). destruct (is_istart c); cbn [negb].
    + rewrite (lbind_ok _ _ _ _ _ (next_char_cons _ _ _ _ _)).
      pose proof (while_span (is_valid_char_of_ident U) (pre ++ [c]) r' d ts eq_refl) as H.
      change (fun c => is_valid_char_of_ident U (Some c)) with is_ichar in H.
      destruct (span is_ichar r') as [a b]. rewrite (lbind_ok _ _ _ _ _ H).
      rewrite <- app_assoc. apply (from_first_mk pre (c :: a)).
    + eexists. reflexivity.
Qed.

Lemma to_star_slash_app r a b : to_star_slash r = Some (a, b) ->
  r = a ++ b /\ exists b', b = (42 :: 47 :: b')%N.
Proof.
  revert a b. induction r as [|c r IH]; intros a b H; cbn [to_star_slash] in H; [discriminate|].
  destruct (N.eqb c 42 && _) eqn:E.
  - injection H as <- <-. split; [reflexivity|]. apply andb_true_iff in E as [E1 E2].
    apply N.eqb_eq in E1 as ->. destruct r as [|c1 r]; [discriminate|].
    apply N.eqb_eq in E2 as ->. eauto.
  - destruct (to_star_slash r) as [[a' b']|]; [|discriminate]. injection H as <- <-.
    destruct (IH _ _ eq_refl) as [-> Hb]. split; [reflexivity|exact Hb].
Qed.

Lemma read_multiline_comment_mk pre r d ts :
  match to_star_slash r with
  | Some (a, b) => read_multiline_comment (mk pre r d ts) =
                   LOk (a ++ s_ "*/") (mk (pre ++ a ++ s_ "*/") (skipn 2 b) d ts)
  | None => exists s', read_multiline_comment (mk pre r d ts) = LErr (eof_err (pre ++ r)) s'
  end.
Proof.
  unfold read_multiline_comment. rewrite (lbind_ok _ _ _ _ _ (position_mk _ _ _ _)).
  assert (L : List.length r < S (S (List.length (l_input (mk pre r d ts)))))
    by (cbn [mk l_input]; rewrite app_length; lia).
  pose proof (lwhile_comment pre r d ts _ L) as H.
  destruct (to_star_slash r) as [[a b]|] eqn:E.
  - destruct (to_star_slash_app _ _ _ E) as [_ [b' ->]].
    rewrite (lbind_ok _ _ _ _ _ (H : while_ _ _ _ = _)).
    rewrite (lbind_ok _ _ _ _ _ (next_char_cons _ _ _ _ _)).
    rewrite (lbind_ok _ _ _ _ _ (next_char_cons _ _ _ _ _)).
    cbn [skipn]. rewrite <- !app_assoc. apply (from_first_mk pre (a ++ s_ "*/")).
  - eexists. now rewrite (lbind_err _ _ _ _ _ (H : while_ _ _ _ = _)).
Qed.

Lemma to_quote_app stop : forall r odd a b, to_quote stop odd r = Some (a, b) ->
  r = a ++ b /\ stop b = true.
Proof.
  induction r as [|c r IH]; intros odd a b H; cbn [to_quote] in H.
  - destruct (negb odd && stop []) eqn:E; [|discriminate]. injection H as <- <-.
    apply andb_true_iff in E as [_ E]. auto.
  - destruct (negb odd && stop (c :: r)) eqn:E.
    + injection H as <- <-. apply andb_true_iff in E as [_ E]. auto.
    + destruct (to_quote stop _ r) as [[a' b']|] eqn:E2; [|discriminate]. injection H as <- <-.
      destruct (IH _ _ _ E2) as [-> Hb]. auto.
Qed.

Lemma read_string_mk pre q r d ts :
  match to_quote (hd_is q) false r with
  | Some (a, b) => read_string (mk pre (q :: r) d ts) =
                   LOk (q :: a ++ [q]) (mk (pre ++ q :: a ++ [q]) (tl b) d ts)
  | None => exists s', read_string (mk pre (q :: r) d ts) = LErr (eof_err (pre ++ q :: r)) s'
  end.
Proof.
  unfold read_string. rewrite (lbind_ok _ _ _ _ _ (get_char_mk _ _ _ _ 0)). cbn [nth_error].
  rewrite (lbind_ok _ _ _ _ _ (position_mk _ _ _ _)).
  rewrite (lbind_ok _ _ _ _ _ (next_char_cons _ _ _ _ _)).
  assert (Hm : forall pre r, (c <~ get_char 0 ;; lret (opt_eqb c (Some q))) (mk pre r d ts)
                 = LOk (hd_is q r) (mk pre r d ts)).
  { intros p' r'. rewrite (lbind_ok _ _ _ _ _ (get_char_mk _ _ _ _ 0)). now rewrite opt_eqb_hd. }
  pose proof (read_until_quote_spec _ _ (pre ++ [q]) r d ts Hm) as H.
  destruct (to_quote (hd_is q) false r) as [[a b]|] eqn:E.
  - rewrite (lbind_ok _ _ _ _ _ H). destruct (to_quote_app _ _ _ _ _ E) as [_ Hb].
    destruct b as [|b0 b]; [discriminate|]. cbn in Hb. apply N.eqb_eq in Hb as ->.
    rewrite (lbind_ok _ _ _ _ _ (next_char_cons _ _ _ _ _)). cbn [tl].
    replace (((pre ++ [q]) ++ a) ++ [q]) with (pre ++ (q :: a ++ [q])) by (now rewrite <- !app_assoc).
    apply from_first_mk.
  - eexists. rewrite (lbind_err _ _ _ _ _ H). now rewrite <- app_assoc.
Qed.

Lemma read_multiline_string_mk pre q r d ts :
  match to_quote (starts3 q) false r with
  | Some (a, b) => read_multiline_string (mk pre (q :: q :: q :: r) d ts) =
                   LOk (q :: q :: q :: a ++ [q; q; q])
                     (mk (pre ++ q :: q :: q :: a ++ [q; q; q]) (skipn 3 b) d ts)
  | None => exists s', read_multiline_string (mk pre (q :: q :: q :: r) d ts) =
                       LErr (eof_err (pre ++ q :: q :: q :: r)) s'
  end.
Proof.
  unfold read_multiline_string. rewrite (lbind_ok _ _ _ _ _ (position_mk _ _ _ _)).
  rewrite (lbind_ok _ _ _ _ _ (get_char_mk _ _ _ _ 0)). cbn [nth_error].
  rewrite !(lbind_ok _ _ _ _ _ (next_char_cons _ _ _ _ _)).
  assert (Hm : forall pre r,
     (c0 <~ get_char 0 ;; c1 <~ get_char 1 ;; c2 <~ get_char 2 ;;
      lret (opt_eqb c0 (Some q) && opt_eqb c1 (Some q) && opt_eqb c2 (Some q))) (mk pre r d ts)
                 = LOk (starts3 q r) (mk pre r d ts)).
  { intros p' r'. rewrite (lbind_ok _ _ _ _ _ (get_char_mk _ _ _ _ 0)).
    rewrite (lbind_ok _ _ _ _ _ (get_char_mk _ _ _ _ 1)).
    rewrite (lbind_ok _ _ _ _ _ (get_char_mk _ _ _ _ 2)). unfold lret. f_equal.
    destruct r' as [|x [|y [|z r']]]; cbn; rewrite ?andb_false_r; reflexivity. }
  pose proof (read_until_quote_spec _ _ (((pre ++ [q]) ++ [q]) ++ [q]) r d ts Hm) as H.
  destruct (to_quote (starts3 q) false r) as [[a b]|] eqn:E.
  - rewrite (lbind_ok _ _ _ _ _ H). destruct (to_quote_app _ _ _ _ _ E) as [_ Hb].
    destruct b as [|x [|y [|z b]]]; try discriminate. cbn in Hb.
    apply andb_true_iff in Hb as [Hb H3]. apply andb_true_iff in Hb as [H1 H2].
    apply N.eqb_eq in H1 as ->. apply N.eqb_eq in H2 as ->. apply N.eqb_eq in H3 as ->.
    rewrite !(lbind_ok _ _ _ _ _ (next_char_cons _ _ _ _ _)). cbn [skipn].
    replace ((((((((pre ++ [q]) ++ [q]) ++ [q]) ++ a) ++ [q]) ++ [q]) ++ [q]))
      with (pre ++ (q :: q :: q :: a ++ [q; q; q])) by (now rewrite <- !app_assoc).
    apply from_first_mk.
  - eexists. rewrite (lbind_err _ _ _ _ _ H). now rewrite <- !app_assoc.
Qed.

Lemma token_of_ok l cl m s lit s' : m s = LOk lit s' -> token_of l cl m s = construct_token l cl lit s'.
Proof. intros H. unfold token_of. now rewrite (lbind_ok _ _ _ _ _ H). Qed.
Lemma token_of_err l cl m s e s' : m s = LErr e s' -> token_of l cl m s = LErr e s'.
Proof. intros H. unfold token_of. now rewrite (lbind_err _ _ _ _ _ H). Qed.

Lemma opt_hd c r k : (if k =? 0 then opt_eqb (nth_error r 0) (Some c) = hd_is c r else True)%nat.
Proof. destruct k; cbn; [now destruct r|exact I]. Qed.

Lemma nth1 (x : char) r : nth_error (x :: r) 1 = nth_error r 0.
Proof. reflexivity. Qed.
Lemma nth2 (x : char) r : opt_eqb (nth_error (x :: r) 2) (Some x) = hd_is x (tl r).
Proof. destruct r as [|y [|z r]]; reflexivity. Qed.

Lemma hd_is_inv c r : hd_is c r = true -> exists r', r = c :: r'.
Proof. destruct r as [|x r]; cbn; [discriminate|]. intros H. apply N.eqb_eq in H as ->. eauto. Qed.

Lemma read_parameter_mk pre r d ts :
  match scan_param d r with
        | LexOk lit sk rest d' =>
            sk = [] /\ d' = d /\ read_parameter U (mk pre r d ts) = LOk lit (mk (pre ++ lit) rest d ts)
        | LexEof => exists s', read_parameter U (mk pre r d ts) = LErr (eof_err (pre ++ r)) s'
        | LexBad a => exists s', read_parameter U (mk pre r d ts) = LErr (ident_err (pre ++ a)) s'
        | LexPanic => False
        end.
Proof.
unfold read_parameter, scan_param. rewrite (lbind_ok _ _ _ _ _ (position_mk _ _ _ _)).
      pose proof (while_span (fun c => opt_eqb c (Some 64%N)) pre r d ts eq_refl) as H.
      cbn [opt_eqb] in H. pose proof (span_app (fun x => N.eqb x 64) r) as Happ.
      destruct (span _ r) as [a b]. cbn [fst snd] in Happ.
      rewrite (lbind_ok _ _ _ _ _ H). clear H.
      rewrite (lbind_ok _ _ _ _ _ (get_char_mk _ _ _ _ 0)). rewrite opt_eqb_hd.
      destruct b as [|x b'].
      - cbn [hd_is]. destruct (read_identifier_mk (pre ++ a) [] d ts) as [s' H].
        eexists. apply (lbind_err _ _ _ _ _ H).
      - cbn [hd_is]. destruct (N.eqb_spec x 96) as [->|_].
        + pose proof (read_back_quoted_mk (pre ++ a) 96%N b' d ts) as H.
          destruct (scan_back_quoted _) as [[e f]|].
          * split; [reflexivity|split; [reflexivity|]]. rewrite (lbind_ok _ _ _ _ _ H). rewrite <- app_assoc. apply from_first_mk.
          * destruct H as [s' H]. eexists. rewrite (lbind_err _ _ _ _ _ H).
            now rewrite <- app_assoc, Happ.
        + pose proof (read_identifier_mk (pre ++ a) (x :: b') d ts) as H. cbn beta iota in H.
          destruct (is_istart x).
          * destruct (span is_ichar b') as [e f]. split; [reflexivity|split; [reflexivity|]].
            rewrite (lbind_ok _ _ _ _ _ H). rewrite <- app_assoc. apply from_first_mk.
          * destruct H as [s' H]. eexists. apply (lbind_err _ _ _ _ _ H). 
Qed.

Lemma read_brace_mk pre (c : char) r d ts p : N.eqb c 123 = true ->
  lex_outcome (scan_brace d c r) pre (c :: r) ts
    (read_brace (fst p) (snd p) c (mk pre (c :: r) d ts)) p.
Proof.
  intros Hc. unfold read_brace, scan_brace. rewrite (lbind_ok _ _ _ _ _ (position_mk _ _ _ _)).
  assert (L : List.length (c :: r) < S (S (List.length (l_input (mk pre (c :: r) d ts)))))
    by apply len_mk.
  pose proof (count_braces_spec (c :: r) pre d ts _ 0 L) as H.
  pose proof (span_app (fun x => N.eqb x 123) (c :: r)) as Happ.
  rewrite (span_cons_hd (fun x => N.eqb x 123) c r Hc) in *.
  destruct (span (fun x => N.eqb x 123) r) as [a0 b] eqn:Ea. cbn [fst snd] in *.
  set (a := c :: a0) in *. cbn [plus] in H.
  match goal with |- context [lbind ?m _ (mk pre (c :: r) d ts)] =>
    rewrite (lbind_ok m _ _ (List.length a) _ H) end.
  clear H.
  rewrite (lbind_ok _ _ _ _ _ (get_char_mk _ _ _ _ 0)). rewrite !opt_eqb_hd.
  replace (is_digit (nth_error b 0)) with (hd_digit b) by (now destruct b).
  destruct (Nat.eqb (List.length a) 1 && (hd_is 64 b || hd_digit b || hd_is 44 b)) eqn:E.
  - cbn [lex_outcome]. rewrite construct_token_mk.
    apply andb_true_iff in E as [E _]. apply Nat.eqb_eq in E. subst a. cbn in E.
    destruct a0; [|discriminate]. now rewrite app_nil_r.
  - assert (L2 : List.length b < S (S (List.length (l_input (mk (pre ++ a) b d ts)))))
      by apply len_mk.
    pose proof (to_closing_braces_spec (List.length a) b (pre ++ a) d ts _ L2) as H.
    destruct (to_braces (List.length a) b) as [[e f]|] eqn:Eb; cbn [lex_outcome].
    + match goal with |- context [lbind ?m _ (mk (pre ++ a) b d ts)] =>
        rewrite (lbind_ok m _ _ tt _ H) end.
      destruct (to_braces_starts _ _ _ _ Eb) as [Hst _].
      rewrite (lbind_ok _ _ _ _ _ (ltimes_next _ _ _ _ _ Hst)).
      replace (((pre ++ a) ++ e) ++ firstn (List.length a) f) with
        (pre ++ (a ++ e ++ firstn (List.length a) f)) by (now rewrite <- !app_assoc).
      rewrite (lbind_ok _ _ _ _ _ (from_first_mk _ _ _ _ _)).
      rewrite construct_token_mk. now rewrite app_nil_r.
    + eexists. match goal with |- context [lbind ?m _ (mk (pre ++ a) b d ts)] =>
        rewrite (lbind_err m _ _ _ _ H) end.
      now rewrite <- app_assoc, Happ.
Qed.

Theorem read_token_scan pre c r d ts p :
  lex_outcome (scan d (prev_upper ts) c r) pre (c :: r) ts
    (read_token U (fst p) (snd p) c (mk pre (c :: r) d ts)) p.
Proof.
  unfold read_token, scan.
  assert (Hnum : lex_outcome (let (a, b) := scan_number (c :: r) in LexOk a [] b d) pre (c :: r) ts
            (token_of (fst p) (snd p) read_number (mk pre (c :: r) d ts)) p).
  { pose proof (read_number_mk pre (c :: r) d ts) as H.
    destruct (scan_number (c :: r)) as [a b]. cbn [lex_outcome].
    rewrite (token_of_ok _ _ _ _ _ _ H), construct_token_mk. now rewrite app_nil_r. }
  assert (Hone : lex_outcome (LexOk [c] [] r d) pre (c :: r) ts
            (one_char (fst p) (snd p) c (mk pre (c :: r) d ts)) p).
  { cbn [lex_outcome]. rewrite one_char_mk. now rewrite app_nil_r. }
  assert (Hcom : lex_outcome
            (let (a, b) := span (fun x => negb (N.eqb x 10)) (c :: r) in
             let (t, w) := split_trim a in LexOk t w b d) pre (c :: r) ts
            (token_of (fst p) (snd p) read_comment (mk pre (c :: r) d ts)) p).
  { pose proof (read_comment_mk pre (c :: r) d ts) as H.
    destruct (span _ (c :: r)) as [a b]. destruct (split_trim a) as [t w].
    cbn [lex_outcome]. now rewrite (token_of_ok _ _ _ _ _ _ H), construct_token_mk. }
  assert (Htwo : forall s x, s_ s = [c; x] -> hd_is x r = true ->
            lex_outcome (LexOk (s_ s) [] (tl r) d) pre (c :: r) ts
              (two_chars (fst p) (snd p) s (mk pre (c :: r) d ts)) p).
  { intros s x Hs Hx. destruct (hd_is_inv _ _ Hx) as [r' ->]. cbn [lex_outcome tl].
    rewrite (two_chars_mk _ _ _ _ _ _ _ _ _ Hs). now rewrite app_nil_r. }
  destruct (N.eqb_spec c 46) as [->|_].
  { rewrite (lbind_ok _ _ _ _ _ (get_char_mk _ _ _ _ 1)). rewrite nth1, is_digit_hd.
    destruct (hd_digit r); assumption. }
  destruct (N.eqb_spec c 35) as [->|_]; [exact Hcom|].
  destruct (N.eqb_spec c 96) as [->|_].
  { pose proof (read_back_quoted_mk pre 96%N r d ts) as H.
    destruct (scan_back_quoted _) as [[a b]|]; cbn [lex_outcome].
    - rewrite (token_of_ok _ _ _ _ _ _ H), construct_token_mk. now rewrite app_nil_r.
    - destruct H as [s' H]. eexists. apply (token_of_err _ _ _ _ _ _ H). }
  destruct (N.eqb c 34 || N.eqb c 39).
  { rewrite (lbind_ok _ _ _ _ _ (get_char_mk _ _ _ _ 1)).
    rewrite (lbind_ok _ _ _ _ _ (get_char_mk _ _ _ _ 2)). rewrite nth1, opt_eqb_hd, nth2.
    destruct (hd_is c r) eqn:E1; cbn [andb]; [destruct (hd_is c (tl r)) eqn:E2|].
    - destruct (hd_is_inv _ _ E1) as [r1 ->]. cbn [tl] in *.
      destruct (hd_is_inv _ _ E2) as [r2 ->]. cbn [tl] in *.
      pose proof (read_multiline_string_mk pre c r2 d ts) as H.
      destruct (to_quote _ _ r2) as [[a b]|]; cbn [lex_outcome].
      + rewrite (token_of_ok _ _ _ _ _ _ H), construct_token_mk. now rewrite app_nil_r.
      + destruct H as [s' H]. eexists. apply (token_of_err _ _ _ _ _ _ H).
    - pose proof (read_string_mk pre c r d ts) as H.
      destruct (to_quote _ _ r) as [[a b]|]; cbn [lex_outcome].
      + rewrite (token_of_ok _ _ _ _ _ _ H), construct_token_mk. now rewrite app_nil_r.
      + destruct H as [s' H]. eexists. apply (token_of_err _ _ _ _ _ _ H).
    - pose proof (read_string_mk pre c r d ts) as H.
      destruct (to_quote _ _ r) as [[a b]|]; cbn [lex_outcome].
      + rewrite (token_of_ok _ _ _ _ _ _ H), construct_token_mk. now rewrite app_nil_r.
      + destruct H as [s' H]. eexists. apply (token_of_err _ _ _ _ _ _ H). }
  destruct (N.eqb_spec c 45) as [->|_].
  { rewrite (lbind_ok _ _ _ _ _ (get_char_mk _ _ _ _ 1)). rewrite nth1, opt_eqb_hd.
    destruct (hd_is 45 r); assumption. }
  destruct (N.eqb_spec c 47) as [->|_].
  { rewrite (lbind_ok _ _ _ _ _ (get_char_mk _ _ _ _ 1)). rewrite nth1, opt_eqb_hd.
    destruct (hd_is 42 r); [|exact Hone].
    pose proof (read_multiline_comment_mk pre (47%N :: r) d ts) as H.
    destruct (to_star_slash _) as [[a b]|]; cbn [lex_outcome].
    - rewrite (token_of_ok _ _ _ _ _ _ H), construct_token_mk. now rewrite app_nil_r.
    - destruct H as [s' H]. eexists. apply (token_of_err _ _ _ _ _ _ H). }
  destruct (N.eqb_spec c 124) as [->|_].
  { rewrite (lbind_ok _ _ _ _ _ (get_char_mk _ _ _ _ 1)). rewrite nth1, !opt_eqb_hd.
    destruct (hd_is 124 r) eqn:E; [exact (Htwo "||" _ eq_refl E)|].
    destruct (hd_is 62 r) eqn:E'; [exact (Htwo "|>" _ eq_refl E')|exact Hone]. }
  destruct (N.eqb_spec c 60) as [->|_].
  { rewrite (lbind_ok _ _ _ _ _ (get_char_mk _ _ _ _ 1)). rewrite nth1, !opt_eqb_hd.
    destruct (hd_is 60 r) eqn:E; [exact (Htwo "<<" _ eq_refl E)|].
    destruct (hd_is 61 r) eqn:E'; [exact (Htwo "<=" _ eq_refl E')|].
    destruct (hd_is 62 r) eqn:E''; [exact (Htwo "<>" _ eq_refl E'')|].
    unfold prev_upper.
    destruct (last (map Some ts) None) as [t|] eqn:Et; cbn [option_map lex_outcome].
    - assert (Hl : last_token_upper U (mk pre (60%N :: r) d ts)
                   = LOk (upper_literal U t) (mk pre (60%N :: r) d ts))
        by (unfold last_token_upper; cbn [mk l_tokens]; now rewrite Et).
      rewrite (lbind_ok _ _ _ _ _ Hl). rewrite (lbind_ok _ _ _ _ _ (depth_mk _ _ _ _)).
      destruct (str_eqb _ _ || str_eqb _ _).
      + rewrite (lbind_ok _ _ _ _ _ (set_depth_mk _ _ _ _ _)).
        rewrite one_char_mk. now rewrite app_nil_r.
      + rewrite (lbind_ok _ _ _ _ _ (lret_mk _ _)). rewrite one_char_mk. now rewrite app_nil_r.
    - eexists. unfold lbind at 1. unfold last_token_upper. cbn [mk l_tokens]. rewrite Et. reflexivity. }
  destruct (N.eqb_spec c 62) as [->|_].
  { rewrite (lbind_ok _ _ _ _ _ (depth_mk _ _ _ _)).
    rewrite (lbind_ok _ _ _ _ _ (get_char_mk _ _ _ _ 1)). rewrite nth1, !opt_eqb_hd.
    destruct (N.ltb 0 d).
    - rewrite (lbind_ok _ _ _ _ _ (set_depth_mk _ _ _ _ _)).
      cbn [lex_outcome]. rewrite one_char_mk. now rewrite app_nil_r.
    - destruct (hd_is 62 r) eqn:E; [exact (Htwo ">>" _ eq_refl E)|].
      destruct (hd_is 61 r) eqn:E'; [exact (Htwo ">=" _ eq_refl E')|exact Hone]. }
  destruct (N.eqb_spec c 61) as [->|_].
  { rewrite (lbind_ok _ _ _ _ _ (get_char_mk _ _ _ _ 1)). rewrite nth1, !opt_eqb_hd.
    destruct (hd_is 62 r) eqn:E; [exact (Htwo "=>" _ eq_refl E)|exact Hone]. }
  destruct (N.eqb_spec c 33) as [->|_].
  { rewrite (lbind_ok _ _ _ _ _ (get_char_mk _ _ _ _ 1)). rewrite nth1, !opt_eqb_hd.
    destruct (hd_is 61 r) eqn:E; [exact (Htwo "!=" _ eq_refl E)|exact Hone]. }
  destruct (N.eqb_spec c 64) as [->|_].
  { pose proof (read_parameter_mk pre (64%N :: r) d ts) as H.
    match type of H with match ?y with _ => _ end =>
      match goal with |- lex_outcome ?x _ _ _ _ _ => change x with y end;
      destruct y as [lit sk rest d'| |a|]; cbn [lex_outcome] end.
    - destruct H as [-> [-> H]]. rewrite (token_of_ok _ _ _ _ _ _ H), construct_token_mk. now rewrite app_nil_r.
    - destruct H as [s' H]. eexists. apply (token_of_err _ _ _ _ _ _ H).
    - destruct H as [s' H]. eexists. apply (token_of_err _ _ _ _ _ _ H).
    - contradiction. }
  destruct (N.eqb c 123) eqn:E123; [now apply read_brace_mk|].
  destruct (is_digit_char c); [exact Hnum|].
  fold (is_istart c). destruct (is_istart c) eqn:Ei; [|exact Hone].
  pose proof (read_identifier_mk pre (c :: r) d ts) as H. cbn beta iota in H. rewrite Ei in H.
  destruct (span is_ichar r) as [a b]. cbn [lex_outcome].
  rewrite (token_of_ok _ _ _ _ _ _ H), construct_token_mk. now rewrite app_nil_r.
Qed.

(* ---------- the whole text ---------- *)
Inductive lexed := Lexed (ts : list token) | LexedErr (e : error) | LexedPanic | LexedFuel.

Fixpoint lex (n : nat) (pre r : str) (d : N) (prev : option str) : lexed :=
  match n with
  | 0 => LexedFuel
  | S n' =>
      let (w, r1) := span is_whitespace_char r in
      match r1 with
      | [] => Lexed []
      | c :: r2 =>
          let p := pos_after (pre ++ w) in
          match scan d prev c r2 with
          | LexOk lit sk rest d' =>
              let t := {| line := fst p; column := snd p; literal := lit |} in
              match lex n' (pre ++ w ++ lit ++ sk) rest d' (Some (upper_literal U t)) with
              | Lexed ts => Lexed (t :: ts)
              | x => x
              end
          | LexEof => LexedErr (eof_err (pre ++ r))
          | LexBad a => LexedErr (ident_err (pre ++ w ++ a))
          | LexPanic => LexedPanic
          end
      end
  end.

Lemma prev_upper_snoc ts t : prev_upper (ts ++ [t]) = Some (upper_literal U t).
Proof. unfold prev_upper. rewrite map_app. cbn. rewrite last_last. reflexivity. Qed.

Lemma lex_all_lex n : forall pre r d ts,
  match lex n pre r d (prev_upper ts) with
  | Lexed new => exists s', lex_all U n (mk pre r d ts) = LOk tt s' /\ l_tokens s' = ts ++ new
  | LexedErr e => exists s', lex_all U n (mk pre r d ts) = LErr e s'
  | LexedPanic => exists s', lex_all U n (mk pre r d ts) = LPanic s'
  | LexedFuel => lex_all U n (mk pre r d ts) = LFuel
  end.
Proof.
  induction n as [|n IH]; intros pre r d ts; [reflexivity|]. cbn [lex lex_all].
  unfold lex_next_token.
  pose proof (while_span is_whitespace pre r d ts eq_refl) as Hw.
  change (fun c => is_whitespace (Some c)) with is_whitespace_char in Hw.
  pose proof (span_app is_whitespace_char r) as Happ.
  destruct (span is_whitespace_char r) as [w r1]. cbn [fst snd] in Happ.
  match goal with |- context [lbind (lbind skip_whitespace ?f) ?g ?s] =>
    assert (Hb : lbind (lbind skip_whitespace f) g s = lbind (f tt) g (mk (pre ++ w) r1 d ts)) end.
  { unfold lbind at 1 2. unfold skip_whitespace. rewrite Hw. reflexivity. }
  rewrite Hb. clear Hb Hw.
  match goal with |- context [lbind (lbind (get_char 0) ?f) ?g ?s] =>
    assert (Hb : lbind (lbind (get_char 0) f) g s = lbind (f (nth_error r1 0)) g s) end.
  { unfold lbind at 1 2. now rewrite get_char_mk. }
  rewrite Hb. clear Hb.
  destruct r1 as [|c r2]; cbn [nth_error].
  - eexists. split; [reflexivity|]. cbn. now rewrite app_nil_r.
  - pose proof (read_token_scan (pre ++ w) c r2 d ts (pos_after (pre ++ w))) as H.
    assert (E : forall g : bool -> LM unit,
      lbind (fun s => (_ <~ read_token U (l_line s) (l_column s) c ;; lret true) s) g
        (mk (pre ++ w) (c :: r2) d ts) =
      match read_token U (fst (pos_after (pre ++ w))) (snd (pos_after (pre ++ w))) c
              (mk (pre ++ w) (c :: r2) d ts) with
      | LOk _ s' => g true s' | LErr e s' => LErr e s' | LPanic s' => LPanic s' | LFuel => LFuel end).
    { intros g. unfold lbind, mk. cbn [l_line l_column]. destruct (read_token _ _ _ _ _); reflexivity. }
    rewrite E. clear E.
    destruct (scan d (prev_upper ts) c r2) as [lit sk rest d'| |a|]; cbn [lex_outcome] in H.
    + rewrite H.
      match goal with |- context [upper_literal U ?t] => set (tok := t) in * end.
      specialize (IH (pre ++ w ++ lit ++ sk) rest d' (ts ++ [tok])).
      rewrite prev_upper_snoc in IH.
      rewrite <- app_assoc.
      destruct (lex n _ rest d' (Some (upper_literal U tok))) as [new|e| |].
      * destruct IH as [s' [H1 H2]]. exists s'. split; [exact H1|]. rewrite H2. now rewrite <- app_assoc.
      * exact IH.
      * exact IH.
      * exact IH.
    + destruct H as [s' H]. rewrite H. rewrite <- app_assoc, Happ. eauto.
    + destruct H as [s' H]. rewrite H. rewrite <- app_assoc. eauto.
    + destruct H as [s' H]. rewrite H. eauto.
Qed.

Theorem tokenize_lex code :
  tokenize U code =
  match lex (S (List.length code)) [] code 0 None with
  | Lexed ts => Success (ts ++ [eof_token])
  | LexedErr e => Failure e
  | LexedPanic => Panicked
  | LexedFuel => NoFuel
  end.
Proof.
  unfold tokenize. rewrite mk_new.
  pose proof (lex_all_lex (S (List.length code)) [] code 0 []) as H. cbn [prev_upper map last option_map] in H.
  change (prev_upper []) with (@None str) in H.
  destruct (lex _ [] code 0 None) as [new|e| |].
  - destruct H as [s' [-> ->]]. reflexivity.
  - destruct H as [s' ->]. reflexivity.
  - destruct H as [s' ->]. reflexivity.
  - now rewrite H.
Qed.
End WithUnicode.
