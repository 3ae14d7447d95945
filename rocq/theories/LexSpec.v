(* Specification vocabulary for the tokenizer theorems: what the words of the English
   properties mean, without reference to lexer.rs or to its model. *)
From Verif Require Import Chars Token.
Local Open Scope string_scope.
Local Open Scope list_scope.

Definition white (w : str) : Prop := Forall (fun c => is_whitespace_char c = true) w.

Definition newline : char := 10%N.

(* The 1-based line and column of the character that follows the text [pre]: one line
   more than the newlines in it, one column more than the characters since the last. *)
Fixpoint newlines (pre : str) : N :=
  match pre with [] => 0 | c :: r => (if N.eqb c newline then 1 else 0) + newlines r end%N.
Fixpoint current_line (pre : str) : str :=
  match pre with
  | [] => []
  | c :: r => if existsb (N.eqb newline) pre then current_line r else c :: r
  end.
Definition line_col (pre : str) : N * N :=
  (1 + newlines pre, 1 + N.of_nat (List.length (current_line pre)))%N.

Definition pos_lt (p q : N * N) : Prop :=
  (fst p < fst q)%N \/ (fst p = fst q /\ (snd p < snd q)%N).
Definition at_ (t : token) : N * N := (line t, column t).

(* the source is white space, literal, white space, literal, ..., white space *)
Inductive interleaved : str -> list str -> Prop :=
| il_end w : white w -> interleaved w []
| il_lit w lit rest lits :
    white w -> interleaved rest lits -> interleaved (w ++ lit ++ rest) (lit :: lits).

(* the same, with the true position on each token; the first argument is the text
   that precedes the one being read *)
Inductive located : str -> str -> list token -> Prop :=
| loc_end pre w : white w -> located pre w []
| loc_tok pre w t rest ts :
    white w -> at_ t = line_col (pre ++ w) ->
    located (pre ++ w ++ literal t) rest ts ->
    located pre (w ++ literal t ++ rest) (t :: ts).

(* text without an unescaped quote q, in which every escape is complete *)
Inductive escaped_body (q : char) : str -> Prop :=
| eb_nil : escaped_body q []
| eb_char c b : c <> q -> c <> 92%N -> escaped_body q b -> escaped_body q (c :: b)
| eb_esc c b : escaped_body q b -> escaped_body q (92%N :: c :: b).
Definition quoted_literal (q : char) (lit : str) : Prop :=
  exists body, escaped_body q body /\ lit = q :: body ++ [q].

(* text that, followed by three quotes q, has no earlier unescaped run of three *)
Definition begins_with (p s : str) : Prop := exists r, s = p ++ r.
Inductive triple_body (q : char) : str -> Prop :=
| tb_nil : triple_body q []
| tb_char c b : c <> 92%N -> ~ begins_with [q; q; q] (c :: b ++ [q; q; q]) ->
    triple_body q b -> triple_body q (c :: b)
| tb_esc c b : triple_body q b -> triple_body q (92%N :: c :: b).
Definition triple_literal (q : char) (lit : str) : Prop :=
  exists body, triple_body q body /\ lit = q :: q :: q :: body ++ [q; q; q].

Definition back_quoted_literal (lit : str) : Prop :=
  exists body, ~ In 96%N body /\ lit = 96%N :: body ++ [96%N].

(* a line comment without the white space at its end *)
Definition line_comment (lit : str) : Prop :=
  (begins_with (s_ "#") lit \/ begins_with (s_ "--") lit) /\
  ~ In newline lit /\
  (forall c, last_char lit = Some c -> is_whitespace_char c = false).
(* a block comment: "*/" occurs in it at its end only *)
Definition block_comment (lit : str) : Prop :=
  begins_with (s_ "/*") lit /\
  (exists a, lit = a ++ s_ "*/") /\
  (forall a b, lit = a ++ s_ "*/" ++ b -> b = []).

(* the numeric grammar *)
Definition digits (s : str) : Prop := s <> [] /\ Forall (fun c => is_digit_char c = true) s.
Definition opt_digits (s : str) : Prop := Forall (fun c => is_digit_char c = true) s.
Definition exponent (s : str) : Prop :=
  exists e sign d, (e = 69%N \/ e = 101%N) /\ (sign = [] \/ sign = [43%N] \/ sign = [45%N]) /\
                   digits d /\ s = e :: sign ++ d.
Definition fraction (s : str) : Prop := exists d, digits d /\ s = 46%N :: d.
(* i: integer part, f: fraction, e: exponent *)
Definition number_parts (i f e : str) : Prop :=
  (digits i /\ f = [] \/ opt_digits i /\ fraction f) /\ (e = [] \/ exponent e).
Definition number (s : str) : Prop := exists i f e, number_parts i f e /\ s = i ++ f ++ e.

(* the text after a token does not start with a character satisfying p *)
Definition not_followed (p : char -> bool) (post : str) : Prop :=
  match post with c :: _ => p c = false | [] => True end.

Section WithUnicode.
Context (U : unicode).
Definition word_start (c : char) : bool := u_alphabetic U c || N.eqb c 95.
Definition word_char (c : char) : bool := u_alphabetic U c || is_digit_char c || N.eqb c 95.
Definition word (s : str) : Prop :=
  match s with
  | c :: r => word_start c = true /\ Forall (fun c => word_char c = true) r
  | [] => False
  end.

(* How many type declarations ARRAY< / STRUCT< are open after the tokens ts: an angle
   bracket opens one if it follows the keyword, and each single '>' closes one.
   [prev] is the token before. *)
Definition opens_type (prev : option token) (t : token) : bool :=
  str_eqb (literal t) (s_ "<") &&
  match prev with Some p => is_ U "ARRAY" p || is_ U "STRUCT" p | None => false end.
Fixpoint open_types (prev : option token) (n : N) (ts : list token) : N :=
  match ts with
  | [] => n
  | t :: r =>
      open_types (Some t)
        (if opens_type prev t then n + 1
         else if str_eqb (literal t) (s_ ">") then n - 1 else n)%N r
  end.
End WithUnicode.


(* ---------- the lexical grammar ---------- *)
Definition is_char (l : list char) (c : char) : bool := existsb (N.eqb c) l.
Definition two_char_operators : list string := ["||"; "|>"; "<<"; "<="; "<>"; ">>"; ">="; "=>"; "!="].

Section Grammar.
Context (U : unicode).

(* digits, fraction, exponent as the tokenizer reads them: unlike in [number] the digits
   of the fraction and of the exponent may be missing *)
Definition loose_fraction (f : str) : Prop := f = [] \/ exists d, opt_digits d /\ f = 46%N :: d.
Definition loose_exponent (e : str) : Prop :=
  e = [] \/ exists x sign d, (x = 69%N \/ x = 101%N) /\ (sign = [] \/ sign = [43%N] \/ sign = [45%N]) /\
                            opt_digits d /\ e = x :: sign ++ d.

(* [lexeme n prev lit post]: at a place where the remaining text is lit ++ post, with n type
   declarations open and prev the token before, the token is lit. *)
Inductive lexeme (n : N) (prev : option token) : str -> str -> Prop :=
| lx_word lit post : word U lit -> not_followed (word_char U) post -> lexeme n prev lit post
| lx_number i f e post :
    opt_digits i -> loose_fraction f -> loose_exponent e ->
    (i <> [] \/ exists c d, is_digit_char c = true /\ f = 46%N :: c :: d) ->
    not_followed is_digit_char post ->
    (e = [] -> not_followed (is_char [69; 101]%N) post) ->
    (f = [] -> e = [] -> not_followed (is_char [46]%N) post) ->
    (List.length e = 1 -> not_followed (is_char [43; 45]%N) post) ->
    lexeme n prev (i ++ f ++ e) post
| lx_quoted q lit post :
    (q = 34%N \/ q = 39%N) -> quoted_literal q lit ->
    (lit = [q; q] -> not_followed (is_char [q]) post) -> lexeme n prev lit post
| lx_triple q lit post :
    (q = 34%N \/ q = 39%N) -> triple_literal q lit -> lexeme n prev lit post
| lx_back lit post : back_quoted_literal lit -> lexeme n prev lit post
| lx_line lit w post :
    line_comment lit -> white w -> ~ In newline w -> not_followed (fun c => negb (N.eqb c newline)) post ->
    lexeme n prev lit (w ++ post)
| lx_block lit post : block_comment lit -> lexeme n prev lit post
| lx_op s post :
    In s two_char_operators -> (s = ">>" \/ s = ">=" -> n = 0%N) -> lexeme n prev (s_ s) post
| lx_param k lit post :
    word U lit -> not_followed (word_char U) post -> lexeme n prev (repeat 64%N (S k) ++ lit) post
| lx_param_quoted k lit post :
    back_quoted_literal lit -> lexeme n prev (repeat 64%N (S k) ++ lit) post
| lx_open_brace c post : (is_digit_char c || is_char [64; 44]%N c) = true -> lexeme n prev [123%N] (c :: post)
| lx_template k c body post :
    c <> 123%N ->
    (k = 0 -> (is_digit_char c || is_char [64; 44]%N c) = false) ->
    (forall a b, body = a ++ b -> b <> [] -> ~ begins_with (repeat 125%N (S k)) (b ++ repeat 125%N (S k))) ->
    lexeme n prev (repeat 123%N (S k) ++ c :: body ++ repeat 125%N (S k)) post
| lx_single c post :
    is_whitespace_char c = false -> is_digit_char c = false -> word_start U c = false ->
    is_char [34; 35; 39; 64; 96; 123]%N c = false ->
    (c = 46%N -> not_followed is_digit_char post) ->
    (c = 45%N -> not_followed (is_char [45]%N) post) ->
    (c = 47%N -> not_followed (is_char [42]%N) post) ->
    (c = 124%N -> not_followed (is_char [124; 62]%N) post) ->
    (c = 60%N -> not_followed (is_char [60; 61; 62]%N) post /\ prev <> None) ->
    (c = 62%N -> n = 0%N -> not_followed (is_char [62; 61]%N) post) ->
    (c = 61%N -> not_followed (is_char [62]%N) post) ->
    (c = 33%N -> not_followed (is_char [61]%N) post) ->
    lexeme n prev [c] post.

(* [tokenization pre rest n prev ts]: the text rest, which follows pre, consists of the
   tokens ts *)
Inductive tokenization : str -> str -> N -> option token -> list token -> Prop :=
| tk_end pre w n prev : white w -> tokenization pre w n prev []
| tk_tok pre w n prev t post ts :
    white w -> at_ t = line_col (pre ++ w) -> lexeme n prev (literal t) post ->
    tokenization (pre ++ w ++ literal t) post (open_types U prev n [t]) (Some t) ts ->
    tokenization pre (w ++ literal t ++ post) n prev (t :: ts).
End Grammar.

(* two texts that differ in white space only: [relaid w lits] ... *)
Definition is_line_comment (lit : str) : bool :=
  match lit with
  | 35%N :: _ => true
  | 45%N :: 45%N :: _ => true
  | _ => false
  end.
(* [relaid a b lits]: a and b both consist of the literals lits with white space in
   between; where the white space of one is empty between two literals so is that of
   the other, and line comments that are not last are followed by a newline in both.
   White space at the start and at the end is free. *)
Inductive relaid_after : str -> str -> str -> list str -> Prop :=
| ra_end lit w w' : white w -> white w' -> relaid_after lit w w' []
| ra_lit lit w w' lit2 a b lits :
    white w -> white w' -> (w = [] <-> w' = []) ->
    (is_line_comment lit = true -> In newline w /\ In newline w') ->
    relaid_after lit2 a b lits ->
    relaid_after lit (w ++ lit2 ++ a) (w' ++ lit2 ++ b) (lit2 :: lits).
Inductive relaid : str -> str -> list str -> Prop :=
| rl_end w w' : white w -> white w' -> relaid w w' []
| rl_lit w w' lit a b lits :
    white w -> white w' -> relaid_after lit a b lits ->
    relaid (w ++ lit ++ a) (w' ++ lit ++ b) (lit :: lits).

(* same character up to ASCII letter case *)
Definition same_case (a b : char) : Prop :=
  a = b \/ (is_letter_ascii a = true /\ is_letter_ascii b = true /\ upper_ascii a = upper_ascii b).
Definition recased (s t : str) : Prop := Forall2 same_case s t.
Definition recased_token (t u : token) : Prop := at_ t = at_ u /\ recased (literal t) (literal u).
