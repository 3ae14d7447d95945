(* Tokens and the predicates on them: /repo/src/token.rs, /repo/src/constants.rs *)
From Verif Require Import Chars Regex.
Local Open Scope string_scope.

(* token.rs:9-13 struct Token. `usize` fields are unbounded N; Theorem
   [token_positions_bounded] shows that they never exceed the input length + 1. *)
Record token := Token { line : N; column : N; literal : str }.

(* token.rs:23-31 Token::eof *)
Definition eof_token : token := {| line := usize_max; column := usize_max; literal := [] |}.

(* constants.rs:1-98 KEYWORDS, in the order of the source *)
Definition KEYWORDS : list string := [
  "ALL"; "AND"; "ANY"; "ARRAY"; "AS"; "ASC"; "ASSERT_ROWS_MODIFIED"; "AT"; "BETWEEN"; 
  "BY"; "CASE"; "CAST"; "COLLATE"; "CONTAINS"; "CREATE"; "CROSS"; "CUBE"; "CURRENT"; 
  "DEFAULT"; "DEFINE"; "DESC"; "DISTINCT"; "ELSE"; "END"; "ENUM"; "ESCAPE"; "EXCEPT"; 
  "EXCLUDE"; "EXISTS"; "EXTRACT"; "FALSE"; "FETCH"; "FOLLOWING"; "FOR"; "FROM"; "FULL"; 
  "GROUP"; "GROUPING"; "GROUPS"; "HASH"; "HAVING"; "IF"; "IGNORE"; "IN"; "INNER"; 
  "INTERSECT"; "INTERVAL"; "INTO"; "IS"; "JOIN"; "LATERAL"; "LEFT"; "LIKE"; "LIMIT"; 
  "LOOKUP"; "MERGE"; "NATURAL"; "NEW"; "NO"; "NOT"; "NULL"; "NULLS"; "OF"; "ON"; "OR"; 
  "ORDER"; "OUTER"; "OVER"; "PARTITION"; "PRECEDING"; "PROTO"; "QUALIFY"; "RANGE"; 
  "RECURSIVE"; "RESPECT"; "RIGHT"; "ROLLUP"; "ROWS"; "SELECT"; "SET"; "SOME"; "STRUCT"; 
  "TABLESAMPLE"; "THEN"; "TO"; "TREAT"; "TRUE"; "UNBOUNDED"; "UNION"; "UNNEST"; "USING"; 
  "WHEN"; "WHERE"; "WINDOW"; "WITH"; "WITHIN"
]%list.

Definition first_char (s : str) : option char := match s with [] => None | c :: _ => Some c end.
Definition last_char (s : str) : option char := first_char (rev s).

Definition opt_is (o : option char) (c : char) : bool :=
  match o with Some x => N.eqb x c | None => false end.

(* String::len: the number of UTF-8 bytes. *)
Definition utf8_len (c : char) : nat :=
  (if N.ltb c 128 then 1 else if N.ltb c 2048 then 2 else if N.ltb c 65536 then 3 else 4)%nat.
Definition byte_len (s : str) : nat := fold_right (fun c n => (utf8_len c + n)%nat) 0%nat s.

(* token.rs:128-134 quoted_by; the two unwraps cannot fail since byte_len >= 2 *)
Definition quoted_by (q : char) (t : token) : bool :=
  if Nat.ltb (byte_len (literal t)) 2 then false
  else opt_is (first_char (literal t)) q && opt_is (last_char (literal t)) q.

(* token.rs:32-40 is_string *)
Definition is_string (t : token) : bool :=
  if quoted_by 34%N t then true else if quoted_by 39%N t then true else false.

Section WithUnicode.
Context (U : unicode).

Definition upper_literal (t : token) : str := to_uppercase U (literal t).

(* token.rs:49-51 is *)
Definition is_ (s : string) (t : token) : bool :=
  str_eqb (upper_literal t) (to_uppercase U (s_ s)).

(* token.rs:41-48 in_ *)
Definition in_ (l : list string) (t : token) : bool := existsb (fun s => is_ s t) l.

(* token.rs:99-107 is_reserved_keyword (the KEYWORDS side is not upper-cased) *)
Definition is_reserved_keyword (t : token) : bool :=
  existsb (fun kw => str_eqb (upper_literal t) (s_ kw)) KEYWORDS.

Definition ident_start (c : char) : bool := is_letter_ascii c || N.eqb c 95.
Definition ident_part (c : char) : bool := is_letter_ascii c || is_digit_char c || N.eqb c 95.

(* token.rs:52-77 is_identifier. The second loop over KEYWORDS (59-64) repeats
   is_reserved_keyword and is merged with it. *)
Definition is_identifier (t : token) : bool :=
  if quoted_by 96%N t then true
  else if is_reserved_keyword t then false
  else match literal t with
       | [] => false
       | c :: r => ident_start c && forallb ident_part r
       end.

(* token.rs:78-84 is_parameter *)
Definition is_parameter (t : token) : bool :=
  match literal t with c :: _ => N.eqb c 63 || N.eqb c 64 | [] => false end.

(* token.rs:85-91 is_template *)
Definition is_template (t : token) : bool :=
  match literal t with c :: _ => N.eqb c 123 | [] => false end.

(* token.rs:92-95 is_numeric: ^([0-9]+|([0-9]*\.[0-9]+))([eE][\+\-]?[0-9]+)?$ *)
Definition re_digit : re := RSet is_digit_char.
Definition re_char (c : char) : re := RSet (N.eqb c).
Definition numeric_re : re :=
  RSeq (RAlt (RPlus re_digit) (RSeq (RStar re_digit) (RSeq (re_char 46%N) (RPlus re_digit))))
       (ROpt (RSeq (RAlt (re_char 101%N) (re_char 69%N))
                   (RSeq (ROpt (RAlt (re_char 43%N) (re_char 45%N))) (RPlus re_digit)))).
Definition is_numeric (t : token) : bool := re_matchb numeric_re (literal t).

(* token.rs:96-98 is_boolean *)
Definition is_boolean (t : token) : bool :=
  str_eqb (upper_literal t) (s_ "TRUE") || str_eqb (upper_literal t) (s_ "FALSE").

(* token.rs:108-127 is_comment *)
Definition is_comment_lit (s : str) : bool :=
  match s with
  | [] => false
  | c1 :: r =>
      if N.eqb c1 35 then true
      else match r with
           | [] => false
           | c2 :: _ => N.eqb c1 45 && N.eqb c2 45 || N.eqb c1 47 && N.eqb c2 42
           end
  end.
Definition is_comment (t : token) : bool := is_comment_lit (literal t).

End WithUnicode.
