(* An abstract domain for parser programs. It follows, for every variable that holds a
   node, which types the node may have, which children it has and may have, and whether it
   has a token; and for the parser state, whether the current token has already been put
   into a node and which words it may be. The checks of the domain make sure that every
   token the parser passes is in exactly one node and that no node is dropped, except
   where a rule allows a child to be overwritten.

   This file holds the computable part; ShapeSound.v says what it means. *)
From Verif Require Import Chars Token Cst Core MiniRust AbsInt NodeIndex.
Local Open Scope list_scope.
Local Notation length := List.length.

(* ----- lists, evaluated lazily ----- *)
Fixpoint all {A} (p : A -> bool) (l : list A) : bool :=
  match l with [] => true | x :: r => if p x then all p r else false end.
Fixpoint any {A} (p : A -> bool) (l : list A) : bool :=
  match l with [] => false | x :: r => if p x then true else any p r end.
Fixpoint all2 {A B} (p : A -> B -> bool) (l : list A) (m : list B) : bool :=
  match l, m with
  | [], [] => true
  | x :: l', y :: m' => if p x y then all2 p l' m' else false
  | _, _ => false
  end.
Fixpoint each {A B} (f : A -> option B) (l : list A) : option (list B) :=
  match l with
  | [] => Some []
  | x :: r => let? y := f x in let? ys := each f r in Some (y :: ys)
  end.
Definition mem (x : string) (l : list string) : bool := any (String.eqb x) l.
Definition subset (a b : list string) : bool := all (fun x => mem x b) a.
Fixpoint union (a b : list string) : list string :=
  match a with [] => b | x :: r => if mem x b then union r b else x :: union r b end.
Definition inter (a b : list string) : list string := filter (fun x => mem x b) a.
Definition minus (a b : list string) : list string := filter (fun x => if mem x b then false else true) a.

(* ----- words: None is any word ----- *)
Definition words := option (list string).
Definition words_le (a b : words) : bool :=
  match b, a with
  | None, _ => true
  | Some _, None => false
  | Some y, Some x => subset x y
  end.
Definition words_join (a b : words) : words :=
  match a, b with Some x, Some y => Some (union x y) | _, _ => None end.
(* among the words of a token ahead, this stands for all words but ( *)
Definition no_paren : string := "~(".

Definition upper_char (a : ascii) : ascii := ascii_of_N (upper_ascii (N_of_ascii a)).
Fixpoint upper_string (s : string) : string :=
  match s with EmptyString => EmptyString | String a r => String (upper_char a) (upper_string r) end.
(* the strings of the program are ASCII *)
Fixpoint plain (s : string) : bool :=
  match s with EmptyString => true | String a r => if N.ltb (N_of_ascii a) 128 then plain r else false end.

(* ----- descriptions of nodes ----- *)
Definition has_type (m : N) (t : node_type) : bool := N.testbit m (nt_idx t).
Definition types_le (a b : N) : bool := N.eqb (N.lor a b) b.
Definition type_mask (t : node_type) : N := N.shiftl 1 (nt_idx t).
Definition nt_same (a b : node_type) : bool := N.eqb (nt_idx a) (nt_idx b).

(* a child: a node, a list or either; the types of the node or of the list's members; the
   word of the node's token *)
Record cdesc := CD { cd_node : bool; cd_vec : bool; cd_types : N; cd_words : words }.
(* a node: its type, whether it has a token, the token's word, children it has, children it may have *)
Record entry := En {
  en_ty : node_type; en_tok : option bool; en_words : words;
  en_must : list string; en_may : list (string * cdesc)
}.
Definition desc := list entry.   (* one of these *)

Definition le_bool (a b : bool) : bool := if a then b else true.
Definition cdesc_le (a b : cdesc) : bool :=
  if le_bool (cd_node a) (cd_node b) then
  if le_bool (cd_vec a) (cd_vec b) then
  if types_le (cd_types a) (cd_types b) then words_le (cd_words a) (cd_words b)
  else false else false else false.
Definition tok_le (a b : option bool) : bool :=
  match b, a with None, _ => true | Some y, Some x => Bool.eqb x y | Some _, None => false end.
Definition entry_le (a b : entry) : bool :=
  if nt_same (en_ty a) (en_ty b) then
  if tok_le (en_tok a) (en_tok b) then
  if words_le (en_words a) (en_words b) then
  if subset (en_must b) (en_must a) then
    all (fun kc => match map_get (fst kc) (en_may b) with Some c => cdesc_le (snd kc) c | None => false end) (en_may a)
  else false else false else false else false.
Definition desc_le (a b : desc) : bool := all (fun e => any (entry_le e) b) a.

Definition cdesc_join (a b : cdesc) : cdesc :=
  CD (if cd_node a then true else cd_node b) (if cd_vec a then true else cd_vec b)
     (N.lor (cd_types a) (cd_types b)) (words_join (cd_words a) (cd_words b)).
Fixpoint may_add (k : string) (c : cdesc) (m : list (string * cdesc)) : list (string * cdesc) :=
  match m with
  | [] => [(k, c)]
  | (k', c') :: r => if String.eqb k k' then (k', cdesc_join c' c) :: r else (k', c') :: may_add k c r
  end.
Definition tok_join (a b : option bool) : option bool :=
  match a, b with Some x, Some y => if Bool.eqb x y then a else None | _, _ => None end.
Definition entry_join (a b : entry) : entry :=
  En (en_ty a) (tok_join (en_tok a) (en_tok b)) (words_join (en_words a) (en_words b))
     (inter (en_must a) (en_must b)) (fold_left (fun m kc => may_add (fst kc) (snd kc) m) (en_may b) (en_may a)).
Definition label_key : string := "leading_label".
Definition same_tag (a b : entry) : bool :=
  if nt_same (en_ty a) (en_ty b) then Bool.eqb (mem label_key (en_must a)) (mem label_key (en_must b)) else false.
Fixpoint desc_add (e : entry) (d : desc) : desc :=
  match d with
  | [] => [e]
  | x :: r => if same_tag e x then (if entry_le e x then x else entry_join x e) :: r else x :: desc_add e r
  end.
(* the joins are not proved to be upper bounds but compared with what they join *)
Definition compact (d : desc) : desc :=
  let d' := fold_left (fun m e => desc_add e m) d [] in if desc_le d d' then d' else d.

(* ----- descriptions of values ----- *)
Inductive len := LEmpty | LOne | LAny.
Inductive aval :=
| AUndef
| ANd (d : desc) (z : bool)      (* a node; z: without tokens *)
| AVc (t : N) (n : len)          (* nodes of these types *)
| ABo (b : option bool)
| ASc                            (* a number, strings *)
| ASs (l : list string)          (* these strings *)
| ATop (z : bool).               (* anything; z: without tokens *)

Definition zero (a : aval) : bool :=
  match a with
  | ANd _ z => z
  | AVc _ LEmpty => true
  | AVc _ _ => false
  | ATop z => z
  | AUndef | ABo _ | ASc | ASs _ => true
  end.
Definition len_le (a b : len) : bool :=
  match a, b with _, LAny | LEmpty, LEmpty | LOne, LOne => true | _, _ => false end.
Definition val_le (a b : aval) : bool :=
  match a, b with
  | _, ATop z => le_bool z (zero a)
  | AUndef, AUndef => true
  | ANd d z, ANd d' z' => if le_bool z' z then desc_le d d' else false
  | AVc t n, AVc t' n' => if types_le t t' then len_le n n' else false
  | ABo b, ABo b' => tok_le b b'
  | ASc, ASc => true
  | ASs l, ASs l' => all2 String.eqb l l'
  | ASs _, ASc => true
  | _, _ => false
  end.
Definition val_join (a b : aval) : aval :=
  match a, b with
  | AUndef, AUndef => AUndef
  | ANd d z, ANd d' z' =>
      if desc_le d d' then ANd d' (andb z z')
      else if desc_le d' d then ANd d (andb z z')
      else ANd (compact (d ++ d')) (andb z z')
  | AVc t n, AVc t' n' => AVc (N.lor t t') (match n, n' with LEmpty, LEmpty => LEmpty | LOne, LOne => LOne | _, _ => LAny end)
  | ABo b, ABo b' => ABo (tok_join b b')
  | ASc, ASc | ASs _, ASc | ASc, ASs _ => ASc
  | ASs l, ASs l' => if all2 String.eqb l l' then ASs l else ASc
  | _, _ => ATop (andb (zero a) (zero b))
  end.

(* Live: the variable owns its tokens. Held: moreover they are those of the current token.
   Stale: the tokens of the variable are owned elsewhere, it must not be used again. *)
Inductive flag := Live | Stale | Held.
Record slot := Sl { sl_name : string; sl_val : aval; sl_flag : flag }.
Record astate := St { st_slots : list slot; st_used : bool; st_k0 : words; st_k1 : words; st_k2 : words }.

Definition dead (s : slot) : bool := match sl_flag s with Stale => true | _ => zero (sl_val s) end.
Definition live (f : flag) : bool := match f with Stale => false | _ => true end.
Definition slot_le (a b : slot) : bool :=
  if String.eqb (sl_name a) (sl_name b) then
  if val_le (sl_val a) (sl_val b) then
    match sl_flag a, sl_flag b with
    | Live, Live | Stale, Stale | Held, Held | Held, Live => true
    | _, Stale => zero (sl_val a)
    | _, _ => false
    end
  else false else false.
Definition state_le (a b : astate) : bool :=
  if Bool.eqb (st_used a) (st_used b) then
  if words_le (st_k0 a) (st_k0 b) then
  if words_le (st_k1 a) (st_k1 b) then
  if words_le (st_k2 a) (st_k2 b) then all2 slot_le (st_slots a) (st_slots b)
  else false else false else false else false.

Definition slot_join (a b : slot) : slot :=
  Sl (sl_name a) (val_join (sl_val a) (sl_val b))
     (match sl_flag a, sl_flag b with
      | Held, Held => Held
      | Stale, _ | _, Stale => Stale
      | _, _ => Live
      end).
Fixpoint slots_join (a b : list slot) : list slot :=
  match a, b with x :: a', y :: b' => slot_join x y :: slots_join a' b' | _, _ => [] end.
Definition state_join (a b : astate) : option astate :=
  let c := St (slots_join (st_slots a) (st_slots b)) (st_used a)
              (words_join (st_k0 a) (st_k0 b)) (words_join (st_k1 a) (st_k1 b)) (words_join (st_k2 a) (st_k2 b)) in
  if state_le a c then if state_le b c then Some c else None else None.

(* states are kept apart if they differ in a known boolean or in whether the word two ahead is known *)
Definition is_known (w : words) : bool := match w with Some _ => true | None => false end.
Definition same_bool (a b : slot) : bool :=
  match sl_val a, sl_val b with
  | ABo (Some x), ABo (Some y) => Bool.eqb x y
  | ABo None, ABo None => true
  | ABo _, ABo _ => false
  | _, _ => true
  end.
Definition same_key (a b : astate) : bool :=
  if Bool.eqb (st_used a) (st_used b) then
  if Bool.eqb (is_known (st_k2 a)) (is_known (st_k2 b)) then all2 same_bool (st_slots a) (st_slots b)
  else false else false.
Fixpoint add_state (s : astate) (l : list astate) : list astate :=
  match l with
  | [] => [s]
  | t :: r =>
      if same_key s t then
        if state_le s t then t :: r
        else match state_join t s with Some j => j :: r | None => t :: add_state s r end
      else t :: add_state s r
  end.
Definition merge (l : list astate) : list astate := fold_left (fun m s => add_state s m) l [].

Definition states := (nat * list astate)%type.

(* ----- variables ----- *)
Fixpoint get_slot (x : string) (l : list slot) : option slot :=
  match l with [] => None | s :: r => if String.eqb x (sl_name s) then Some s else get_slot x r end.
Fixpoint set_slot (x : string) (v : aval) (f : flag) (l : list slot) : option (list slot) :=
  match l with
  | [] => None
  | s :: r => if String.eqb x (sl_name s) then Some (Sl (sl_name s) v f :: r) else option_map (cons s) (set_slot x v f r)
  end.
Definition with_slots (l : list slot) (a : astate) : astate := St l (st_used a) (st_k0 a) (st_k1 a) (st_k2 a).
Definition put (x : string) (v : aval) (f : flag) (a : astate) : option astate :=
  let? l := set_slot x v f (st_slots a) in Some (with_slots l a).
Definition bound (x : string) (v : aval) (f : flag) (a : astate) : astate := with_slots (Sl x v f :: st_slots a) a.

Definition unhold_slot (s : slot) : slot := match sl_flag s with Held => Sl (sl_name s) (sl_val s) Live | _ => s end.
Definition unhold (a : astate) : astate := with_slots (map unhold_slot (st_slots a)) a.
(* the current token is taken back from the node that holds it *)
Fixpoint release (l : list slot) : option (list slot) :=
  match l with
  | [] => None
  | s :: r =>
      match sl_flag s with
      | Held => Some (Sl (sl_name s) (sl_val s) Stale :: map unhold_slot r)
      | _ => option_map (cons s) (release r)
      end
  end.
Definition free (a : astate) : option astate :=
  if st_used a then let? l := release (st_slots a) in Some (St l false (st_k0 a) (st_k1 a) (st_k2 a)) else Some a.

(* ----- tests ----- *)
Definition known (k : nat) (a : astate) : words :=
  match k with 0 => st_k0 a | 1 => st_k1 a | 2 => st_k2 a | _ => None end.
Definition with_known (k : nat) (w : words) (a : astate) : astate :=
  match k with
  | 0 => St (st_slots a) (st_used a) w (st_k1 a) (st_k2 a)
  | 1 => St (st_slots a) (st_used a) (st_k0 a) w (st_k2 a)
  | 2 => St (st_slots a) (st_used a) (st_k0 a) (st_k1 a) w
  | _ => a
  end.
Definition word_in (k : nat) (l : list string) (a : astate) : list astate :=
  let w := match known k a with
           | None => l
           | Some x => if mem no_paren x then (if mem "(" x then l else minus l ["("%string]) else inter x l
           end in
  match w with [] => [] | _ => [with_known k (Some w) a] end.
Definition word_not_in (k : nat) (l : list string) (a : astate) : list astate :=
  match known k a with
  | None => match k, l with 0, [p] => if String.eqb p "(" then [with_known k (Some [no_paren]) a] else [a] | _, _ => [a] end
  | Some x => match filter (fun w => if String.eqb w no_paren then true else negb (mem w l)) x with [] => [] | w => [with_known k (Some w) a] end
  end.
Definition upper_test (k : nat) (l : list string) (b : bool) (a : astate) : list astate :=
  if all plain l then
    if b then word_in k (map upper_string l) a else word_not_in k (map upper_string l) a
  else [a].
Definition tok_test (k : nat) (p : tpred) (b : bool) (a : astate) : list astate :=
  match p with
  | TIs s => upper_test k [s] b a
  | TIn l => upper_test k l b a
  | TUpperIs s => if b then word_in k [s] a else word_not_in k [s] a
  | TLiteralIs s => if b then upper_test k [s] true a else [a]
  | _ => [a]
  end.

Definition comment_key (k : string) : bool :=
  if String.eqb k "leading_comments" then true else String.eqb k "trailing_comments".

Definition entry_has (k : string) (e : entry) : option entry :=
  match map_get k (en_may e) with
  | Some _ => Some (if mem k (en_must e) then e else En (en_ty e) (en_tok e) (en_words e) (k :: en_must e) (en_may e))
  | None => None
  end.
Definition entry_lacks (k : string) (e : entry) : option entry :=
  if mem k (en_must e) then None
  else Some (En (en_ty e) (en_tok e) (en_words e) (en_must e)
               (filter (fun kc => if String.eqb k (fst kc) then false else true) (en_may e))).
Fixpoint choose (f : entry -> option entry) (d : desc) : desc :=
  match d with [] => [] | e :: r => match f e with Some e' => e' :: choose f r | None => choose f r end end.

(* replace the description of a variable, keeping its flag *)
Definition retype (x : string) (v : aval) (s : slot) (a : astate) : list astate :=
  match put x v (sl_flag s) a with Some a' => [a'] | None => [a] end.
Definition node_test (x : string) (f : entry -> option entry) (a : astate) : list astate :=
  match get_slot x (st_slots a) with
  | Some s => match sl_val s with
              | ANd d z => match choose f d with [] => [] | d' => retype x (ANd d' z) s a end
              | _ => [a]
              end
  | None => [a]
  end.

Fixpoint test1 (c : cond) (b : bool) (a : astate) : list astate :=
  match c with
  | CTrue => if b then [a] else []
  | CNot c => test1 c (negb b) a
  | CAnd x y => if b then flat_map (test1 y true) (test1 x true a)
                else test1 x false a ++ flat_map (test1 y false) (test1 x true a)
  | COr x y => if b then test1 x true a ++ flat_map (test1 y true) (test1 x false a)
               else flat_map (test1 y false) (test1 x false a)
  | CVar x =>
      match get_slot x (st_slots a) with
      | Some s => match sl_val s with
                  | ABo (Some v) => if Bool.eqb v b then [a] else []
                  | ABo None => retype x (ABo (Some b)) s a
                  | _ => [a]
                  end
      | None => [a]
      end
  | CTok k (TInVar x) =>
      match get_slot x (st_slots a) with
      | Some s => match sl_val s with ASs l => upper_test k l b a | _ => [a] end
      | None => [a]
      end
  | CTok k p => tok_test k p b a
  | CTypeIs x ty => node_test x (fun e => if Bool.eqb (nt_same (en_ty e) ty) b then Some e else None) a
  | CHasKey x k => if comment_key k then [a] else node_test x (if b then entry_has k else entry_lacks k) a
  | CNonEmpty x =>
      match get_slot x (st_slots a) with
      | Some s => match sl_val s with
                  | AVc t n => match n, b with
                               | LEmpty, true | LOne, false => []
                               | LAny, false => retype x (AVc t LEmpty) s a
                               | _, _ => [a]
                               end
                  | _ => [a]
                  end
      | None => [a]
      end
  | CLenIs1 x =>
      match get_slot x (st_slots a) with
      | Some s => match sl_val s with
                  | AVc t n => match n, b with
                               | LEmpty, true | LOne, false => []
                               | LAny, true => retype x (AVc t LOne) s a
                               | _, _ => [a]
                               end
                  | _ => [a]
                  end
      | None => [a]
      end
  | _ => [a]
  end.

Definition test_states (q : test) (b : bool) (a : astate) : list astate :=
  match q with
  | QCond c => test1 c b a
  | QUpper k l => if b then word_in k l a else word_not_in k l a
  | QLiteral k l => if b then upper_test k l true a else [a]
  | QVar _ _ => [a]
  end.

Fixpoint bool_value (b : bexp) (a : astate) : option bool :=
  match b with
  | BConst b => Some b
  | BVar x => match get_slot x (st_slots a) with Some s => match sl_val s with ABo v => v | _ => None end | None => None end
  | BNot b => option_map negb (bool_value b a)
  | BStrIs _ _ => None
  end.

(* ----- programs ----- *)
Section Domain.
Context {fn : Type}.
(* what nodes of a type look like once they are complete *)
Variable schema : node_type -> entry.
(* a child that may be overwritten: the parents, the key, the child's types and words *)
Record rule := Rule { ru_parent : N; ru_key : string; ru_types : N; ru_words : list string }.
Variable rules : list rule.
(* how a function may be called, what it returns, and which word follows the last one it read *)
Record ctx := Ctx { cx_used : bool; cx_k0 : words; cx_k1 : words; cx_k2 : words; cx_args : list aval; cx_ret : aval; cx_exit : bool; cx_next : words }.
Variable table : fn -> list ctx.

Definition complete (d : desc) : bool := all (fun e => entry_le e (schema (en_ty e))) d.
Definition types_of (d : desc) : N := fold_left (fun m e => N.lor m (type_mask (en_ty e))) d 0%N.
Fixpoint words_of (d : desc) : words :=
  match d with
  | [] => Some []
  | e :: r => match en_words e with None => None | Some x => match words_of r with Some y => Some (union x y) | None => None end end
  end.
Definition expand (m : N) : desc := map schema (filter (has_type m) all_node_types).

Definition literal_types : list node_type :=
  [N_Identifier; N_NumericLiteral; N_StringLiteral; N_BooleanLiteral; N_Parameter; N_Template; N_NullLiteral; N_Unknown].
(* a word that cannot be a literal *)
Definition name_like (w : string) : bool :=
  match w with
  | EmptyString => false
  | String a _ => if (65 <=? N_of_ascii a)%N then if (N_of_ascii a <=? 90)%N then negb (mem w ["TRUE"; "FALSE"; "NULL"]%string) else false else false
  end.
Definition literal_types_of (w : words) : list node_type :=
  match w with
  | Some l => if all name_like l then [N_Identifier; N_Parameter; N_Template; N_Unknown] else literal_types
  | None => literal_types
  end.
Definition constructed_desc (ty : node_type) (k : words) : option desc :=
  let w := match k with Some l => if mem no_paren l then None else k | None => None end in
  match ty with
  | N_EOF => None
  | N_Unknown => Some (map (fun t => En t (Some true) w [] []) (literal_types_of w))
  | _ => Some [En ty (Some true) w [] []]
  end.

Definition take (x : string) (a : astate) : option (aval * astate) :=
  let? s := get_slot x (st_slots a) in
  let? _ := check (live (sl_flag s)) in
  let? a' := put x AUndef Live a in Some (sl_val s, a').

Fixpoint args1 (args : list arg) (a : astate) : option (list aval * astate) :=
  match args with
  | [] => Some ([], a)
  | x :: r =>
      let? (v, a1) := match x with
                      | ABool b => Some (ABo (bool_value b a), a)
                      | ANum _ => Some (ASc, a)
                      | AStrs l => Some (ASs l, a)
                      | ANode x => take x a
                      end in
      let? (vs, a2) := args1 r a1 in Some (v :: vs, a2)
  end.
Definition know_le (a : astate) (c : ctx) : bool :=
  if words_le (st_k0 a) (cx_k0 c) then
  if words_le (st_k1 a) (cx_k1 c) then words_le (st_k2 a) (cx_k2 c) else false else false.
Fixpoint find_ctx (l : list ctx) (vs : list aval) (a : astate) : option (ctx * astate) :=
  match l with
  | [] => None
  | c :: r =>
      if know_le a c then
      if all2 val_le vs (cx_args c) then
        if cx_used c then (if st_used a then Some (c, a) else find_ctx r vs a)
        else match free a with Some a' => Some (c, a') | None => find_ctx r vs a end
      else find_ctx r vs a else find_ctx r vs a
  end.
Definition called (c : ctx) (a : astate) : astate := St (map unhold_slot (st_slots a)) (cx_exit c) None (cx_next c) None.
Definition call1 (f : fn) (args : list arg) (a : astate) : option (aval * astate) :=
  let? (vs, a1) := args1 args a in
  let? (c, a2) := find_ctx (table f) vs a1 in Some (cx_ret c, called c a2).

Definition nexp1 (e : nexp fn) (a : astate) : option (desc * bool * astate) :=
  match e with
  | EConstruct ty =>
      let? a1 := free a in let? d := constructed_desc ty (st_k0 a1) in
      Some (d, false, St (st_slots a1) true (st_k0 a1) (st_k1 a1) (st_k2 a1))
  | ECall f args =>
      let? (v, a1) := call1 f args a in
      match v with ANd d z => Some (d, z, a1) | _ => None end
  | EVar x =>
      let? (v, a1) := take x a in
      match v with ANd d z => Some (d, z, a1) | _ => None end
  | EEmpty ty => Some ([En ty (Some false) None [] []], true, a)
  | EPop x =>
      let? s := get_slot x (st_slots a) in
      match sl_val s with
      | AVc t n =>
          let? _ := check (live (sl_flag s)) in
          let? a1 := put x (AVc t (match n with LOne => LEmpty | _ => LAny end)) Live a in
          Some (expand t, false, a1)
      | _ => None
      end
  end.
Definition fresh (e : nexp fn) : bool := match e with EConstruct _ => true | _ => false end.
Fixpoint nexps1 (es : list (nexp fn)) (a : astate) : option (N * astate) :=
  match es with
  | [] => Some (0%N, a)
  | e :: r =>
      let? (d, _, a1) := nexp1 e a in
      let? _ := check (complete d) in
      let? (t, a2) := nexps1 r a1 in Some (N.lor (types_of d) t, a2)
  end.
Definition vexp1 (e : vexp fn) (a : astate) : option (N * len * astate) :=
  match e with
  | XNew => Some (0%N, LEmpty, a)
  | XVar x =>
      let? (v, a1) := take x a in
      match v with AVc t n => Some (t, n, a1) | _ => None end
  | XCall f args =>
      let? (v, a1) := call1 f args a in
      match v with AVc t n => Some (t, n, a1) | _ => None end
  | XList es => let? (t, a1) := nexps1 es a in Some (t, LAny, a1)
  end.

(* a child described by c is put under key k *)
Definition rule_allows (p : node_type) (k : string) (c : cdesc) (r : rule) : bool :=
  if String.eqb k (ru_key r) then
  if has_type (ru_parent r) p then
  if cd_vec c then false else
  if types_le (cd_types c) (ru_types r) then words_le (cd_words c) (Some (ru_words r))
  else false else false else false.
Definition entry_push (k : string) (c : cdesc) (e : entry) : option entry :=
  let? _ := check (match map_get k (en_may e) with
                   | None => true
                   | Some o => any (fun r => if rule_allows (en_ty e) k o r then rule_allows (en_ty e) k c r else false) rules
                   end) in
  Some (En (en_ty e) (en_tok e) (en_words e) (if mem k (en_must e) then en_must e else k :: en_must e)
          (map_insert k c (en_may e))).
Definition push1 (x k : string) (c : cdesc) (z : bool) (a : astate) : option astate :=
  let? _ := check (negb (comment_key k)) in
  let? s := get_slot x (st_slots a) in
  let? _ := check (live (sl_flag s)) in
  match sl_val s with
  | ANd d z' => let? d' := each (entry_push k c) d in put x (ANd d' (andb z' z)) Live a
  | _ => None
  end.
Definition assign (x : string) (v : aval) (f : flag) (a : astate) : option astate :=
  let? s := get_slot x (st_slots a) in
  let? _ := check (dead s) in put x v f a.

Definition basic1 (c : cmd fn) (a : astate) : option astate :=
  match c with
  | LetNode x e =>
      let? (d, z, a1) := nexp1 e a in
      Some (if fresh e then bound x (ANd d z) Held (unhold a1) else bound x (ANd d z) Live a1)
  | SetNode x e =>
      let? (d, z, a1) := nexp1 e a in
      if fresh e then assign x (ANd d z) Held (unhold a1) else assign x (ANd d z) Live a1
  | LetVec x e => let? (t, n, a1) := vexp1 e a in Some (bound x (AVc t n) Live a1)
  | SetVec x e => let? (t, n, a1) := vexp1 e a in assign x (AVc t n) Live a1
  | LetBool x c =>
      Some (bound x (ABo (match test1 c true a, test1 c false a with
                          | [], _ => Some false | _, [] => Some true | _, _ => None end)) Live a)
  | SetBool x c =>
      assign x (ABo (match test1 c true a, test1 c false a with
                     | [], _ => Some false | _, [] => Some true | _, _ => None end)) Live a
  | LetNum x _ | LetStrs x _ | LetUpper x _ => Some (bound x ASc Live a)
  | SetNum x _ => assign x ASc Live a
  | Declare x => Some (bound x AUndef Live a)
  | Next => if st_used a then Some (St (map unhold_slot (st_slots a)) false (st_k1 a) (st_k2 a) None) else None
  | Push x k e =>
      let? (d, z, a1) := nexp1 e a in
      let? _ := check (complete d) in
      push1 x k (CD true false (types_of d) (words_of d)) z a1
  | PushVec x k e =>
      let? (t, n, a1) := vexp1 e a in
      push1 x k (CD false true t None) (match n with LEmpty => true | _ => false end) a1
  | VecPush x e =>
      let? (d, z, a1) := nexp1 e a in
      let? _ := check (complete d) in
      let? s := get_slot x (st_slots a1) in
      let? _ := check (live (sl_flag s)) in
      match sl_val s with AVc t n => put x (AVc (N.lor t (types_of d)) LAny) Live a1 | _ => None end
  | SetType x ty =>
      let? s := get_slot x (st_slots a) in
      match sl_val s with
      | ANd d z => put x (ANd (compact (map (fun e => En ty (en_tok e) (en_words e) (en_must e) (en_may e)) d)) z) (sl_flag s) a
      | _ => None
      end
  | _ => None
  end.
Definition binds (c : cmd fn) : bool :=
  match c with
  | LetNode _ _ | LetVec _ _ | LetBool _ _ | LetNum _ _ | LetStrs _ _ | LetUpper _ _ | Declare _ => true
  | _ => false
  end.

Definition leave1 (k : nat) (a : astate) : option astate :=
  let? _ := check (all dead (firstn k (st_slots a))) in Some (with_slots (skipn k (st_slots a)) a).

Variable here : ctx.
Definition returned (v : aval) (a : astate) : bool :=
  if val_le v (cx_ret here) then
  if words_le (st_k1 a) (cx_next here) then
  if Bool.eqb (st_used a) (cx_exit here) then all dead (st_slots a) else false else false else false.

Definition pop_slot (x v : string) (a : astate) : option (astate * astate) :=
  let? s := get_slot v (st_slots a) in
  match sl_val s with
  | AVc t n =>
      let? _ := check (live (sl_flag s)) in
      let? a1 := put v (AVc t LAny) Live a in
      let? a2 := put v (AVc t LEmpty) Live a in
      Some (bound x (ANd (expand t) false) Live a1, a2)
  | _ => None
  end.

Definition lift (n : nat) (l : option (list astate)) : option states :=
  let? l := l in Some (n, merge l).

Definition shape_domain : domain (fn := fn) (A := states) := {|
  d_basic := fun c a => lift (if binds c then S (fst a) else fst a) (each (basic1 c) (snd a));
  d_test := fun q b a => match merge (flat_map (test_states q b) (snd a)) with [] => None | l => Some (fst a, l) end;
  d_pop := fun x v a =>
    let? l := each (pop_slot x v) (snd a) in
    Some ((S (fst a), merge (map fst l)), (fst a, merge (map snd l)));
  d_leave := fun n a => lift (fst a - (fst a - n)) (each (leave1 (fst a - n)) (snd a));
  d_size := fst;
  d_join := fun a b => if Nat.eqb (fst a) (fst b) then Some (fst a, merge (snd a ++ snd b)) else None;
  d_le := fun a b => if Nat.eqb (fst a) (fst b) then all (fun x => any (state_le x) (snd b)) (snd a) else false;
  d_ret := fun e a => all (fun x => match nexp1 e x with Some (d, z, x') => returned (ANd d z) x' | None => false end) (snd a);
  d_retv := fun e a => all (fun x => match vexp1 e x with Some (t, n, x') => returned (AVc t n) x' | None => false end) (snd a);
  d_try := fun x f args a =>
    let? _ := check (all (fun a => match a with ANode _ => false | _ => true end) args) in
    let? l := each (fun s => let? (v, s1) := call1 f args s in
                             match v with ANd _ _ => assign x v Live s1 | _ => None end) (snd a) in
    Some ((fst a, merge l), a)
|}.

Definition entry_state (params : list string) : astate :=
  St (map (fun pv => Sl (fst pv) (snd pv) Live) (combine params (cx_args here))) (cx_used here) (cx_k0 here) (cx_k1 here) (cx_k2 here).
Definition check_body (d : fundef fn) : bool :=
  if Nat.eqb (length (f_params d)) (length (cx_args here)) then
    match acmd shape_domain (f_body d) (length (f_params d), [entry_state (f_params d)]) with
    | Some _ => true
    | None => false
    end
  else false.
End Domain.
