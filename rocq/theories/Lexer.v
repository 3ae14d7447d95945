(* The tokenizer: /repo/src/lexer.rs.
   Counters (position, line, column, depth) are unbounded numbers; the Rust `usize`
   could only overflow on sources of more than 2^32 - 1 characters. *)
From Verif Require Import Chars Token Core.
Local Open Scope string_scope.

(* lexer.rs:7-14 struct Lexer *)
Record lstate := {
  l_input : str;
  l_position : nat;
  l_line : N;
  l_column : N;
  l_depth : N;              (* type_declaration_depth *)
  l_tokens : list token
}.

(* Outcome of a tokenizer function: `Ok`, `Err` (propagated by `?`), a panic, or the
   model's loops running out of fuel (proved not to happen). *)
Inductive lres (A : Type) :=
| LOk (a : A) (s : lstate)
| LErr (e : error) (s : lstate)
| LPanic (s : lstate)
| LFuel.
Arguments LOk {A}. Arguments LErr {A}. Arguments LPanic {A}. Arguments LFuel {A}.

Definition LM (A : Type) := lstate -> lres A.
Definition lret {A} (a : A) : LM A := fun s => LOk a s.
Definition lbind {A B} (m : LM A) (f : A -> LM B) : LM B := fun s =>
  match m s with
  | LOk a s' => f a s'
  | LErr e s' => LErr e s'
  | LPanic s' => LPanic s'
  | LFuel => LFuel
  end.
Notation "x <~ m ;; f" := (lbind m (fun x => f)) (at level 61, m at next level, right associativity).

(* lexer.rs:18-28 Lexer::new *)
Definition lexer_new (input : str) : lstate :=
  {| l_input := input; l_position := 0; l_line := 1; l_column := 1; l_depth := 0; l_tokens := [] |}.

(* lexer.rs:38-42 construct_token (Token::new is the record itself) *)
Definition construct_token (ln cl : N) (lit : str) : LM unit := fun s =>
  LOk tt {| l_input := l_input s; l_position := l_position s; l_line := l_line s;
            l_column := l_column s; l_depth := l_depth s;
            l_tokens := (l_tokens s ++ [{| line := ln; column := cl; literal := lit |}])%list |}.

(* lexer.rs:43-49 get_char *)
Definition get_char_at (s : lstate) (offset : nat) : option char :=
  if Nat.ltb (l_position s + offset) (List.length (l_input s))
  then nth_error (l_input s) (l_position s + offset) else None.
Definition get_char (offset : nat) : LM (option char) := fun s => LOk (get_char_at s offset) s.

(* lexer.rs:50-69 next_char *)
Definition next_char : LM unit := fun s =>
  if Nat.ltb (l_position s) (List.length (l_input s)) then
    let nl := match nth_error (l_input s) (l_position s) with
              | Some c => N.eqb c 10 | None => false end in
    LOk tt {| l_input := l_input s;
              l_position := l_position s + 1;
              l_line := if nl then l_line s + 1 else l_line s;
              l_column := if nl then 1 else l_column s + 1;
              l_depth := l_depth s; l_tokens := l_tokens s |}
  else if Nat.eqb (l_position s) (List.length (l_input s)) then
    LErr {| e_line := l_line s; e_column := l_column s; e_message := "Unexpected EOF."; e_detail := None |} s
  else LPanic s.

(* a loop `while c { b }`, at most n iterations *)
Fixpoint lwhile (n : nat) (c : LM bool) (b : LM unit) : LM unit :=
  match n with
  | 0 => fun _ => LFuel
  | S n' => go <~ c ;; if go : bool then (_ <~ b ;; lwhile n' c b) else lret tt
  end.

(* Enough iterations for a loop that calls next_char in each one. *)
Definition while_ (c : LM bool) (b : LM unit) : LM unit := fun s =>
  lwhile (S (S (List.length (l_input s)))) c b s.

(* `self.input[first_position..self.position]` *)
Definition slice (s : lstate) (first : nat) : str :=
  firstn (l_position s - first) (skipn first (l_input s)).
Definition from_first (first : nat) : LM str := fun s => LOk (slice s first) s.
Definition position_ : LM nat := fun s => LOk (l_position s) s.

Section WithUnicode.
Context (U : unicode).

(* lexer.rs:420-425 is_digit *)
Definition is_digit (c : option char) : bool :=
  match c with Some c => is_digit_char c | None => false end.
(* lexer.rs:427-432 is_end_of_line *)
Definition is_end_of_line (c : option char) : bool :=
  match c with Some c => N.eqb c 10 | None => true end.
(* lexer.rs:434-439 is_valid_1st_char_of_ident *)
Definition is_valid_1st_char_of_ident (c : option char) : bool :=
  match c with Some c => u_alphabetic U c || N.eqb c 95 | None => false end.
(* lexer.rs:441-446 is_valid_char_of_ident *)
Definition is_valid_char_of_ident (c : option char) : bool :=
  match c with Some c => u_alphabetic U c || is_digit_char c || N.eqb c 95 | None => false end.
(* lexer.rs:448-453 is_whitespace *)
Definition is_whitespace (c : option char) : bool :=
  match c with Some c => is_whitespace_char c | None => false end.

Definition opt_eqb (a b : option char) : bool :=
  match a, b with
  | Some x, Some y => N.eqb x y
  | None, None => true
  | _, _ => false
  end.

(* lexer.rs:262-267 skip_whitespace *)
Definition skip_whitespace : LM unit :=
  while_ (c <~ get_char 0 ;; lret (is_whitespace c)) next_char.

(* lexer.rs:269-281 read_back_quoted *)
Definition read_back_quoted : LM str :=
  quote <~ get_char 0 ;;
  first_position <~ position_ ;;
  _ <~ next_char ;;
  _ <~ while_ (c <~ get_char 0 ;; lret (negb (opt_eqb c quote))) next_char ;;
  _ <~ next_char ;;
  from_first first_position.

(* str::trim_end *)
Fixpoint drop_while (p : char -> bool) (s : str) : str :=
  match s with
  | [] => []
  | c :: s' => if p c then drop_while p s' else s
  end.
Definition trim_end (s : str) : str := rev (drop_while is_whitespace_char (rev s)).

(* lexer.rs:282-293 read_comment *)
Definition read_comment : LM str :=
  first_position <~ position_ ;;
  _ <~ while_ (c <~ get_char 0 ;; lret (negb (is_end_of_line c))) next_char ;;
  res <~ from_first first_position ;;
  lret (trim_end res).

(* lexer.rs:294-312 read_identifier *)
Definition read_identifier : LM str :=
  first_position <~ position_ ;;
  first_char <~ get_char 0 ;;
  if negb (is_valid_1st_char_of_ident first_char) then
    fun s => LErr {| e_line := l_line s; e_column := l_column s;
                     e_message := "Invalid character as an identifier."; e_detail := None |} s
  else
    _ <~ next_char ;;
    _ <~ while_ (c <~ get_char 0 ;; lret (is_valid_char_of_ident c)) next_char ;;
    from_first first_position.

(* lexer.rs:313-324 read_multiline_comment *)
Definition read_multiline_comment : LM str :=
  first_position <~ position_ ;;
  _ <~ while_ (c0 <~ get_char 0 ;; c1 <~ get_char 1 ;;
               lret (negb (opt_eqb c0 (Some 42%N) && opt_eqb c1 (Some 47%N)))) next_char ;;
  _ <~ next_char ;;
  _ <~ next_char ;;
  from_first first_position.

(* lexer.rs:333-347 and 401-411: the loop that looks for the end of a string. [odd] is
   odd_backslashes, [stop] the test for the closing quote(s). *)
Fixpoint string_loop (n : nat) (stop : LM bool) (odd : bool) : LM unit :=
  match n with
  | 0 => fun _ => LFuel
  | S n' =>
      at_quote <~ stop ;;
      if negb odd && at_quote then lret tt
      else
        c <~ get_char 0 ;;
        let odd' := if opt_eqb c (Some 92%N) then negb odd else false in
        _ <~ next_char ;;
        string_loop n' stop odd'
  end.
Definition read_until_quote (stop : LM bool) : LM unit := fun s =>
  string_loop (S (S (List.length (l_input s)))) stop false s.

(* lexer.rs:325-355 read_multiline_string *)
Definition read_multiline_string : LM str :=
  first_position <~ position_ ;;
  ch <~ get_char 0 ;;
  _ <~ next_char ;; _ <~ next_char ;; _ <~ next_char ;;
  _ <~ read_until_quote
         (c0 <~ get_char 0 ;; c1 <~ get_char 1 ;; c2 <~ get_char 2 ;;
          lret (opt_eqb c0 ch && opt_eqb c1 ch && opt_eqb c2 ch)) ;;
  _ <~ next_char ;; _ <~ next_char ;; _ <~ next_char ;;
  from_first first_position.

Definition skip_digits : LM unit :=
  while_ (c <~ get_char 0 ;; lret (is_digit c)) next_char.

(* lexer.rs:356-380 read_number *)
Definition read_number : LM str :=
  first_position <~ position_ ;;
  _ <~ skip_digits ;;
  c <~ get_char 0 ;;
  _ <~ (if opt_eqb c (Some 46%N) then (_ <~ next_char ;; skip_digits) else lret tt) ;;
  c <~ get_char 0 ;;
  _ <~ (if opt_eqb c (Some 69%N) || opt_eqb c (Some 101%N) then
          _ <~ next_char ;;
          c <~ get_char 0 ;;
          _ <~ (if opt_eqb c (Some 43%N) || opt_eqb c (Some 45%N) then next_char else lret tt) ;;
          skip_digits
        else lret tt) ;;
  from_first first_position.

(* lexer.rs:381-395 read_parameter *)
Definition read_parameter : LM str :=
  first_position <~ position_ ;;
  _ <~ while_ (c <~ get_char 0 ;; lret (opt_eqb c (Some 64%N))) next_char ;;
  c <~ get_char 0 ;;
  _ <~ (if opt_eqb c (Some 96%N) then read_back_quoted else read_identifier) ;;
  from_first first_position.

(* lexer.rs:396-417 read_string *)
Definition read_string : LM str :=
  quote <~ get_char 0 ;;
  first_position <~ position_ ;;
  _ <~ next_char ;;
  _ <~ read_until_quote (c <~ get_char 0 ;; lret (opt_eqb c quote)) ;;
  _ <~ next_char ;;
  from_first first_position.

Fixpoint ltimes (n : nat) (m : LM unit) : LM unit :=
  match n with 0 => lret tt | S n' => _ <~ m ;; ltimes n' m end.

Definition set_depth (d : N) : LM unit := fun s =>
  LOk tt {| l_input := l_input s; l_position := l_position s; l_line := l_line s;
            l_column := l_column s; l_depth := d; l_tokens := l_tokens s |}.
Definition depth_ : LM N := fun s => LOk (l_depth s) s.

(* `self.tokens.last().unwrap().literal.to_uppercase()` *)
Definition last_token_upper : LM str := fun s =>
  match last (map Some (l_tokens s)) None with
  | Some t => LOk (upper_literal U t) s
  | None => LPanic s
  end.

(* lexer.rs:208-213 count the opening braces *)
Fixpoint count_braces (n count : nat) : LM nat :=
  match n with
  | 0 => fun _ => LFuel
  | S n' =>
      c <~ get_char 0 ;;
      if opt_eqb c (Some 123%N) then (_ <~ next_char ;; count_braces n' (S count))
      else lret count
  end.

(* lexer.rs:223-231: advance until [count] closing braces follow *)
Fixpoint to_closing_braces (n count : nat) : LM unit :=
  match n with
  | 0 => fun _ => LFuel
  | S n' =>
      _ <~ next_char ;;
      (fun s =>
         if forallb (fun i => opt_eqb (get_char_at s i) (Some 125%N)) (seq 0 count)
         then LOk tt s else to_closing_braces n' count s)
  end.

(* lexer.rs:206-240 the arm for '{' *)
Definition read_brace (ln cl : N) (ch : char) : LM unit :=
  first_position <~ position_ ;;
  count <~ (fun s => count_braces (S (S (List.length (l_input s)))) 0 s) ;;
  after_brace <~ get_char 0 ;;
  if Nat.eqb count 1 &&
     (opt_eqb after_brace (Some 64%N) || is_digit after_brace || opt_eqb after_brace (Some 44%N))
  then construct_token ln cl [ch]
  else
    _ <~ (fun s => to_closing_braces (S (S (List.length (l_input s)))) count s) ;;
    _ <~ ltimes count next_char ;;
    res <~ from_first first_position ;;
    construct_token ln cl res.

(* `self.next_char()?; self.construct_token(line, column, ch.to_string())` *)
Definition one_char (ln cl : N) (ch : char) : LM unit :=
  _ <~ next_char ;; construct_token ln cl [ch].
(* `self.next_char()?; self.next_char()?; self.construct_token(line, column, "..")` *)
Definition two_chars (ln cl : N) (s : string) : LM unit :=
  _ <~ next_char ;; _ <~ next_char ;; construct_token ln cl (s_ s).

Definition token_of (ln cl : N) (m : LM str) : LM unit :=
  lit <~ m ;; construct_token ln cl lit.

(* lexer.rs:79-253 the match on the first character of a token *)
Definition read_token (ln cl : N) (ch : char) : LM unit :=
  if N.eqb ch 46 (* . *) then
    c <~ get_char 1 ;;
    if is_digit c then token_of ln cl read_number else one_char ln cl ch
  else if N.eqb ch 35 (* # *) then token_of ln cl read_comment
  else if N.eqb ch 96 (* ` *) then token_of ln cl read_back_quoted
  else if N.eqb ch 34 || N.eqb ch 39 (* double quote, ' *) then
    c1 <~ get_char 1 ;; c2 <~ get_char 2 ;;
    if opt_eqb c1 (Some ch) && opt_eqb c2 (Some ch) then token_of ln cl read_multiline_string
    else token_of ln cl read_string
  else if N.eqb ch 45 (* - *) then
    c1 <~ get_char 1 ;;
    if opt_eqb c1 (Some 45%N) then token_of ln cl read_comment else one_char ln cl ch
  else if N.eqb ch 47 (* / *) then
    c1 <~ get_char 1 ;;
    if opt_eqb c1 (Some 42%N) then token_of ln cl read_multiline_comment else one_char ln cl ch
  else if N.eqb ch 124 (* | *) then
    c1 <~ get_char 1 ;;
    if opt_eqb c1 (Some 124%N) then two_chars ln cl "||"
    else if opt_eqb c1 (Some 62%N) then two_chars ln cl "|>"
    else one_char ln cl ch
  else if N.eqb ch 60 (* < *) then
    c1 <~ get_char 1 ;;
    if opt_eqb c1 (Some 60%N) then two_chars ln cl "<<"
    else if opt_eqb c1 (Some 61%N) then two_chars ln cl "<="
    else if opt_eqb c1 (Some 62%N) then two_chars ln cl "<>"
    else
      u <~ last_token_upper ;;
      d <~ depth_ ;;
      _ <~ (if str_eqb u (s_ "ARRAY") || str_eqb u (s_ "STRUCT") then set_depth (d + 1) else lret tt) ;;
      one_char ln cl ch
  else if N.eqb ch 62 (* > *) then
    d <~ depth_ ;;
    c1 <~ get_char 1 ;;
    if N.ltb 0 d then (_ <~ set_depth (d - 1) ;; one_char ln cl ch)
    else if opt_eqb c1 (Some 62%N) then two_chars ln cl ">>"
    else if opt_eqb c1 (Some 61%N) then two_chars ln cl ">="
    else one_char ln cl ch
  else if N.eqb ch 61 (* = *) then
    c1 <~ get_char 1 ;;
    if opt_eqb c1 (Some 62%N) then two_chars ln cl "=>" else one_char ln cl ch
  else if N.eqb ch 33 (* ! *) then
    c1 <~ get_char 1 ;;
    if opt_eqb c1 (Some 61%N) then two_chars ln cl "!=" else one_char ln cl ch
  else if N.eqb ch 64 (* @ *) then token_of ln cl read_parameter
  else if N.eqb ch 123 (* { *) then read_brace ln cl ch
  else if is_digit_char ch then token_of ln cl read_number
  else if is_valid_1st_char_of_ident (Some ch) then token_of ln cl read_identifier
  else one_char ln cl ch.

(* lexer.rs:70-255 next_token; the result says whether a token was read *)
Definition lex_next_token : LM bool :=
  _ <~ skip_whitespace ;;
  c <~ get_char 0 ;;
  match c with
  | None => lret false
  | Some ch => fun s =>
      (_ <~ read_token (l_line s) (l_column s) ch ;; lret true) s
  end.

(* lexer.rs:30-33 *)
Fixpoint lex_all (n : nat) : LM unit :=
  match n with
  | 0 => fun _ => LFuel
  | S n' => some <~ lex_next_token ;; if some : bool then lex_all n' else lret tt
  end.

(* What calling tokenize or parse gives. *)
Inductive outcome (A : Type) :=
| Success (a : A)
| Failure (e : error)
| Panicked
| NoFuel.       (* the model ran out of fuel: proved impossible *)
Arguments Success {A}. Arguments Failure {A}. Arguments Panicked {A}. Arguments NoFuel {A}.

(* lexer.rs:29-36 tokenize_code, lib.rs:44-59 tokenize (serialisation not modelled) *)
Definition tokenize (code : str) : outcome (list token) :=
  match lex_all (S (List.length code)) (lexer_new code) with
  | LOk _ s => Success (l_tokens s ++ [eof_token])%list
  | LErr e _ => Failure e
  | LPanic _ => Panicked
  | LFuel => NoFuel
  end.
End WithUnicode.
Arguments Success {A}. Arguments Failure {A}. Arguments Panicked {A}. Arguments NoFuel {A}.
