(* A small abstract domain for the functions that do not build operators themselves: of
   each variable that holds a node it keeps what matters for the grouping of operators. *)
From Verif Require Import Chars Token Cst Core MiniRust Program AbsInt GroupingSpec.
Local Open Scope string_scope.
Local Open Scope list_scope.

Inductive kind :=
| KAny
| KFit (q : N)                  (* the operators that end where the node ends are at q or tighter *)
| KClosed                       (* no operator ends where the node ends *)
| KPlain                        (* not an operator *)
| KPost (k : string) (q : N)    (* an operator whose only open operand is the one on the left, under k *)
| KVal (i : nat).               (* not a node: the number or boolean that was bound to the i-th parameter *)

(* what is known of a node of this type; None: the type of an operator with an operand on
   the right *)
Definition type_kind (ty : node_type) : option kind :=
  match ty with
  | N_BinaryOperator | N_UnaryOperator | N_BetweenOperator | N_IsDistinctFromOperator => None
  | N_InOperator => Some (KPost "left" 9)
  | N_CallingFunction => Some (KPost "func" 1)
  | N_AccessOperator => Some (KPost "left" 1)
  | N_DotOperator | N_FunctionChain => Some (KPost "left" 2)
  | _ => Some KPlain
  end.
Definition plain_type (ty : node_type) : bool :=
  match type_kind ty with Some KPlain => true | _ => false end.

Definition kind_eqb (a b : kind) : bool :=
  match a, b with
  | KAny, KAny | KClosed, KClosed | KPlain, KPlain => true
  | KFit p, KFit q => N.eqb p q
  | KPost k p, KPost l q => String.eqb k l && N.eqb p q
  | KVal i, KVal j => Nat.eqb i j
  | _, _ => false
  end.
Definition closed_kind (a : kind) : bool := match a with KClosed | KPlain | KPost _ _ => true | _ => false end.
Definition fits (q : N) (a : kind) : bool :=
  match a with KFit p => N.leb p q | _ => closed_kind a end.
Definition kind_le (a b : kind) : bool :=
  match b with
  | KAny => true
  | KFit q => fits q a
  | KClosed => closed_kind a
  | _ => kind_eqb a b
  end.
Definition kind_join (a b : kind) : kind :=
  if kind_eqb a b then a else if closed_kind a && closed_kind b then KClosed else KAny.

Definition operand_keys : list string := ["left"; "func"; "right"; "right_min"; "right_max"].
Definition push_ok (target : kind) (k : string) (c : kind) : bool :=
  match target with
  | KPlain => true
  | KPost k' q => if String.eqb k k' then fits q c else true
  | _ => negb (existsb (String.eqb k) operand_keys)
  end.
Definition push_vec_ok (target : kind) (k : string) : bool :=
  match target with
  | KPlain | KPost _ _ => true
  | _ => negb (existsb (String.eqb k) operand_keys)
  end.

(* Not the functions that build an operator from its left operand: only parse_expr calls
   them. *)
Definition callable (f : fn) (args : list arg) : bool :=
  match f with
  | F_parse_binary_operator | F_parse_between_operator | F_parse_in_operator
  | F_parse_is_distinct_from_operator => false
  | F_parse_expr => match args with [ANum _; ABool _; ABool _; ABool _; ABool _] => true | _ => false end
  | _ => true
  end.
(* what is known of the results *)
Definition ret_kind (f : fn) : kind :=
  match f with
  | F_parse_single_or_multi_token_identifier => KPlain
  | F_parse_identifier => KClosed
  | F_parse_select_statement | F_parse_from_statement | F_parse_set_operator | F_parse_pipe_statement => KPlain
  | _ => KAny
  end.

Definition astate := list (string * kind).
Fixpoint lookup (x : string) (a : astate) : option kind :=
  match a with [] => None | (y, k) :: a' => if String.eqb x y then Some k else lookup x a' end.
Fixpoint update (x : string) (k : kind) (a : astate) : option astate :=
  match a with
  | [] => None
  | (y, l) :: a' => if String.eqb x y then Some ((y, k) :: a') else option_map (cons (y, l)) (update x k a')
  end.

Definition nexp_kind (e : nexp fn) (a : astate) : option kind :=
  match e with
  | EConstruct ty | EEmpty ty => type_kind ty
  | ECall f args => if callable f args then Some (ret_kind f) else None
  | EVar x => lookup x a
  | EPop _ => Some KAny
  end.
Fixpoint nexps_ok (es : list (nexp fn)) (a : astate) : bool :=
  match es with
  | [] => true
  | e :: es' => match nexp_kind e a with Some _ => nexps_ok es' a | None => false end
  end.
Definition vexp_ok (v : vexp fn) (a : astate) : bool :=
  match v with XNew | XVar _ => true | XCall f args => callable f args | XList es => nexps_ok es a end.

Definition basic (c : cmd fn) (a : astate) : option astate :=
  match c with
  | LetNode x e => let? k := nexp_kind e a in Some ((x, k) :: a)
  | SetNode x e => let? k := nexp_kind e a in update x k a
  | LetVec x v => let? _ := check (vexp_ok v a) in Some ((x, KAny) :: a)
  | SetVec x v => let? _ := check (vexp_ok v a) in update x KAny a
  | LetBool x _ | LetNum x _ | LetStrs x _ | LetUpper x _ | Declare x => Some ((x, KAny) :: a)
  | SetBool x _ | SetNum x _ => update x KAny a
  | Next => Some a
  | Push x k e =>
      let? c := nexp_kind e a in let? t := lookup x a in
      let? _ := check (push_ok t k c) in Some a
  | PushVec x k v =>
      let? _ := check (vexp_ok v a) in let? t := lookup x a in
      let? _ := check (push_vec_ok t k) in Some a
  | VecPush v e => let? _ := nexp_kind e a in Some a
  | SetType x ty => let? _ := check (plain_type ty) in update x KPlain a
  | _ => None
  end.

Fixpoint zip_kinds (a b : astate) : option astate :=
  match a, b with
  | [], [] => Some []
  | (x, k) :: a', (y, l) :: b' =>
      if String.eqb x y then option_map (cons (x, kind_join k l)) (zip_kinds a' b') else None
  | _, _ => None
  end.
Fixpoint states_le (a b : astate) : bool :=
  match a, b with
  | [], [] => true
  | (x, k) :: a', (y, l) :: b' => if String.eqb x y then (if kind_le k l then states_le a' b' else false) else false
  | _, _ => false
  end.

Definition grouping_domain (r : kind) : @domain fn astate := {|
  d_basic := basic;
  d_test := fun _ _ a => Some a;
  d_pop := fun x v a => Some ((x, KAny) :: a, a);
  d_leave := fun n a => Some (skipn (List.length a - n) a);
  d_size := @List.length (string * kind);
  d_join := zip_kinds;
  d_le := states_le;
  d_ret := fun e a => match nexp_kind e a with Some k => kind_le k r | None => false end;
  d_retv := fun v a => match r with KVal _ => false | _ => vexp_ok v a end;
  d_try := fun x f args a => let? _ := check (callable f args) in let? a1 := update x (ret_kind f) a in Some (a1, a)
|}.

Definition entry (d : fundef fn) : astate := map (fun x => (x, KAny)) (f_params d).
Definition body_ok (f : fn) : bool :=
  match acmd (grouping_domain (ret_kind f)) (f_body (prog f)) (entry (prog f)) with Some _ => true | None => false end.
