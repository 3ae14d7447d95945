(* The parser's state and its primitives: /repo/src/parser.rs:1-210,
   /repo/src/error.rs *)
From Verif Require Import Chars Token Cst.
Local Open Scope string_scope.

(* error.rs:4-9 BQ2CSTError, error.rs:19-25 from_token. [e_message] is the fixed
   part of the message; [e_detail] the token whose `{:?}` rendering is appended
   to it, if any. *)
Record error := {
  e_line : N; e_column : N; e_message : string; e_detail : option token
}.
Definition from_token (t : token) (msg : string) (d : option token) : error :=
  {| e_line := line t; e_column := column t; e_message := msg; e_detail := d |}.

(* parser.rs:10-16 struct Parser *)
Record pstate := {
  position : nat;
  leading_comment_indices : list nat;
  trailing_comment_indices : list nat;
  tokens : list token
}.

(* Outcome of running code on a parser state. `Err` is the Rust `Err` that `?`
   propagates, `Panic` an `unwrap`/index panic, `Fuel` the model running out of
   recursion fuel and `Stuck` a MiniRust program using a variable it may not use;
   the last two are proved not to happen. *)
Inductive res (A : Type) :=
| Ok (a : A) (s : pstate)
| Err (e : error) (s : pstate)
| Panic (s : pstate)
| Fuel
| Stuck.
Arguments Ok {A}. Arguments Err {A}. Arguments Panic {A}. Arguments Fuel {A}. Arguments Stuck {A}.

Definition M (A : Type) := pstate -> res A.
Definition ret {A} (a : A) : M A := fun s => Ok a s.
Definition bind {A B} (m : M A) (f : A -> M B) : M B := fun s =>
  match m s with
  | Ok a s' => f a s'
  | Err e s' => Err e s'
  | Panic s' => Panic s'
  | Fuel => Fuel
  | Stuck => Stuck
  end.
Definition fail_ {A} (e : error) : M A := fun s => Err e s.
Definition panic {A} : M A := fun s => Panic s.
Definition stuck {A} : M A := fun s => Stuck.
Notation "x <- m ;; f" := (bind m (fun x => f)) (at level 61, m at next level, right associativity).

(* The search loop of get_offset_index (parser.rs:153-171) over the tokens from
   index [idx] on. *)
Fixpoint scan_offset (l : list token) (idx cnt offset : nat) : option nat :=
  match l with
  | [] => None
  | t :: l' =>
      if is_comment t then scan_offset l' (S idx) cnt offset
      else if Nat.leb offset (S cnt) then Some idx
      else scan_offset l' (S idx) (S cnt) offset
  end.

(* parser.rs:149-172 get_offset_index *)
Definition get_offset_index (offset : nat) : M nat := fun s =>
  match offset with
  | 0 => Ok (position s) s
  | _ =>
      match scan_offset (skipn (S (position s)) (tokens s)) (S (position s)) 0 offset with
      | Some i => Ok i s
      | None =>
          match nth_error (tokens s) (List.length (tokens s) - 1) with
          | Some t => Err (from_token t "Followed by unexpected EOF" None) s
          | None => Panic s
          end
      end
  end.

(* parser.rs:173-176 get_token *)
Definition get_token (offset : nat) : M token :=
  idx <- get_offset_index offset ;; fun s =>
  match nth_error (tokens s) idx with
  | Some t => Ok t s
  | None => Panic s
  end.

(* parser.rs:177-183 is_eof *)
Definition is_eof (offset : nat) : M bool := fun s =>
  match get_offset_index offset s with
  | Ok i _ => Ok (Nat.leb (List.length (tokens s) - 1) i) s
  | Err _ _ => Ok true s
  | Panic s' => Panic s'
  | Fuel => Fuel
  | Stuck => Stuck
  end.

Fixpoint take_while {A} (p : A -> bool) (l : list A) : list A :=
  match l with
  | [] => []
  | x :: l' => if p x then x :: take_while p l' else []
  end.

Definition line_of (ts : list token) (i : nat) : option N := option_map line (nth_error ts i).
Definition same_line (ts : list token) (i j : nat) : bool :=
  match line_of ts i, line_of ts j with
  | Some a, Some b => N.eqb a b
  | _, _ => false
  end.

Definition set_leading l s :=
  {| position := position s; leading_comment_indices := l;
     trailing_comment_indices := trailing_comment_indices s; tokens := tokens s |}.
Definition set_trailing l s :=
  {| position := position s; leading_comment_indices := leading_comment_indices s;
     trailing_comment_indices := l; tokens := tokens s |}.
Definition set_position p s :=
  {| position := p; leading_comment_indices := leading_comment_indices s;
     trailing_comment_indices := trailing_comment_indices s; tokens := tokens s |}.

Definition get : M pstate := fun s => Ok s s.
Definition modify (f : pstate -> pstate) : M unit := fun s => Ok tt (f s).

(* parser.rs:184-210 next_token. The two `for`/`while` loops that push consecutive
   indices are written as [seq] and [take_while] over [seq]. *)
Definition next_token : M unit :=
  _ <- modify (set_leading []) ;;
  next_token_idx <- get_offset_index 1 ;;
  s <- get ;;
  let from_idx := match rev (trailing_comment_indices s) with
                  | n :: _ => n + 1
                  | [] => position s + 1
                  end in
  _ <- modify (set_leading (seq from_idx (next_token_idx - from_idx))) ;;
  _ <- modify (set_position next_token_idx) ;;
  _ <- modify (set_trailing []) ;;
  fun s =>
  match get_offset_index 1 s with
  | Ok next_token_idx _ =>
      let start := position s + 1 in
      Ok tt (set_trailing
               (take_while (same_line (tokens s) (position s)) (seq start (next_token_idx - start))) s)
  | Err _ _ => Ok tt s
  | Panic s' => Panic s'
  | Fuel => Fuel
  | Stuck => Stuck
  end.

(* self.tokens[*idx].clone() for each collected index; None = index out of bounds *)
Fixpoint comment_nodes (ts : list token) (idxs : list nat) : option (list node) :=
  match idxs with
  | [] => Some []
  | i :: r =>
      match nth_error ts i, comment_nodes ts r with
      | Some t, Some ns => Some (node_new t N_Comment :: ns)
      | _, _ => None
      end
  end.

Definition push_comments (k : string) (ns : list node) (n : node) : node :=
  match ns with [] => n | _ => push_node_vec k ns n end.

Section WithUnicode.
Context (U : unicode).

(* parser.rs:58-81 the match on node_type in construct_node *)
Definition base_node (ty : node_type) : M node :=
  curr_token <- get_token 0 ;;
  match ty with
  | N_EOF => ret (node_empty N_EOF)
  | N_Unknown =>
      if is_identifier U curr_token then ret (node_new curr_token N_Identifier)
      else if is_numeric curr_token then ret (node_new curr_token N_NumericLiteral)
      else if is_string curr_token then ret (node_new curr_token N_StringLiteral)
      else if is_boolean U curr_token then ret (node_new curr_token N_BooleanLiteral)
      else if is_parameter curr_token then ret (node_new curr_token N_Parameter)
      else if is_template curr_token then ret (node_new curr_token N_Template)
      else if str_eqb (upper_literal U curr_token) (s_ "NULL") then ret (node_new curr_token N_NullLiteral)
      else
        next <- get_token 1 ;;
        if str_eqb (literal next) (s_ "(") || str_eqb (literal next) (s_ ".")
        then ret (node_new curr_token N_Identifier)
        else ret (node_new curr_token N_Unknown)
  | _ => t <- get_token 0 ;; ret (node_new t ty)
  end.

(* parser.rs:53-100 construct_node *)
Definition construct_node (ty : node_type) : M node :=
  n <- base_node ty ;; fun s =>
  match comment_nodes (tokens s) (leading_comment_indices s),
        comment_nodes (tokens s) (trailing_comment_indices s) with
  | Some lead, Some trail =>
      Ok (push_comments "trailing_comments" trail (push_comments "leading_comments" lead n)) s
  | _, _ => Panic s
  end.

Definition mem_str (x : str) (l : list string) : bool := existsb (fun y => str_eqb x (s_ y)) l.

(* parser.rs:101-148 get_precedence *)
Definition get_precedence (offset : nat) : M N :=
  t <- get_token offset ;;
  let u := upper_literal U t in
  if mem_str u ["("; "["] then ret 101%N
  else if mem_str u ["."] then ret 102%N
  else if mem_str u ["*"; "/"; "||"] then ret 103%N
  else if mem_str u ["+"; "-"] then ret 104%N
  else if mem_str u ["<<"; ">>"] then ret 105%N
  else if mem_str u ["&"] then ret 106%N
  else if mem_str u ["^"] then ret 107%N
  else if mem_str u ["|"] then ret 108%N
  else if mem_str u ["="; "<"; ">"; "<="; ">="; "!="; "<>"; "LIKE"; "BETWEEN"; "IN"; "IS"] then ret 109%N
  else if mem_str u ["NOT"] then
    t1 <- get_token (offset + 1) ;;
    let u1 := upper_literal U t1 in
    if mem_str u1 ["IN"; "LIKE"; "BETWEEN"] then ret 109%N
    else if mem_str u1 ["ENFORCED"] then ret usize_max
    else t2 <- get_token (offset + 1) ;;
         t3 <- get_token (offset + 1) ;;
         fail_ (from_token t2 "Expected `IN`, `LIKE` or `BETWEEN` but got: " (Some t3))
  else if mem_str u ["AND"] then ret 111%N
  else if mem_str u ["OR"] then ret 112%N
  else if mem_str u ["=>"] then ret 200%N
  else ret usize_max.

End WithUnicode.

(* The index of the first token that is not a comment, and the comments before it. *)
Fixpoint leading_run (ts : list token) (i : nat) : option nat :=
  match ts with
  | [] => None                      (* p.tokens[p.position] out of bounds *)
  | t :: ts' => if is_comment t then leading_run ts' (S i) else Some i
  end.

(* parser.rs:19-41 Parser::new; None is an out-of-bounds panic, which cannot occur
   on a list that ends with a token that is not a comment. The second loop is a
   [take_while] over the indices up to the end of the list; it stops at the EOF
   token at the latest, as the loop in the source does. *)
Definition parser_new (ts : list token) : option pstate :=
  match leading_run ts 0 with
  | None => None
  | Some pos =>
      let lead := seq 0 pos in
      if Nat.eqb pos (List.length ts - 1)
      then Some {| position := pos; leading_comment_indices := lead;
                   trailing_comment_indices := []; tokens := ts |}
      else
        let is_trailing i :=
          match nth_error ts i with
          | Some t => is_comment t && same_line ts pos i
          | None => false
          end in
        Some {| position := pos; leading_comment_indices := lead;
                trailing_comment_indices :=
                  take_while is_trailing (seq (S pos) (List.length ts - S pos));
                tokens := ts |}
  end.
