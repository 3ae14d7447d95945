(* MiniRust: the subset of Rust in which the parse_* functions of
   /repo/src/parser.rs are written, with its meaning.

   A function body is a command. Local variables live in a stack of bindings
   (`let` pushes a binding, a block pops those it pushed), nodes and vectors are
   moved out of their variable when used. `?` is the propagation of [Err] by
   [bind]. *)
From Verif Require Import Chars Token Cst Core.
Local Open Scope string_scope.

(* What a local variable holds. [VUndef]: declared but not initialised, or moved. *)
Inductive value :=
| VUndef
| VNode (n : node)
| VVec (ns : list node)
| VBool (b : bool)
| VNum (n : N)
| VStrs (l : list string)       (* Vec<&str> of literals *)
| VStr (s : str).               (* String *)

(* The types that occur in the functions' signatures: Node, Vec<Node>, bool, usize,
   &Vec<&str>. *)
Inductive vtype := TNode | TVec | TBool | TNum | TStrs.

(* Tests on one token. *)
Inductive tpred :=
| TIs (s : string)              (* .is("s") *)
| TIn (l : list string)         (* .in_(&vec![..]) *)
| TInVar (x : string)           (* .in_(x) with x a variable *)
| TUpperIs (s : string)         (* .literal.to_uppercase() == "s" *)
| TLiteralIs (s : string)       (* .literal == "s" *)
| TIdentifier                   (* .is_identifier() *)
| TString                       (* .is_string() *)
| TNumeric.                     (* .is_numeric() *)

(* Boolean expressions; && and || are short-circuiting. *)
Inductive cond :=
| CTrue
| CTok (k : nat) (p : tpred)    (* self.get_token(k)?.p *)
| CEof (k : nat)                (* self.is_eof(k) *)
| CVar (x : string)
| CNot (c : cond)
| CAnd (a b : cond)
| COr (a b : cond)
| CLenIs1 (v : string)          (* v.len() == 1 *)
| CNonEmpty (v : string)        (* 0 < v.len() *)
| CPrecLt (k : nat) (x : string)  (* self.get_precedence(k)? < x *)
| CTypeIs (x : string) (ty : node_type)   (* x.node_type == ty *)
| CDotRootIs (x : string) (ty : node_type)
    (* the node reached from x by following "left" through DotOperators has type ty *)
| CHasKey (x : string) (k : string)       (* x.children.keys().any(|k'| k' == k) *)
| CFirstCharIs (k : nat) (c : char)  (* get_token(k)?.literal.chars().next().unwrap() == c *)
| CLastCharIs (k : nat) (c : char)   (* get_token(k)?.literal.chars().last().unwrap() == c *)
| CNoToken (k : nat)            (* self.get_token(k) is Err(_) *)
| CAdjacent                     (* token 0 ends on the line and column where token 1 starts *)
| CParenOpensQuery.             (* parser.rs:1231-1241, see [paren_opens_query] *)

Inductive bexp := BConst (b : bool) | BVar (x : string) | BNot (b : bexp) | BStrIs (x s : string).
Inductive numexp :=
| NumC (n : N)
| NumMax                        (* usize::MAX *)
| NumVar (x : string)
| NumPrec (k : nat).            (* self.get_precedence(k)? *)

Section Syntax.
Context {fn : Type}.

Inductive arg := ABool (b : bexp) | ANum (n : numexp) | AStrs (l : list string) | ANode (x : string).

Inductive nexp :=
| EConstruct (ty : node_type)   (* self.construct_node(ty)? *)
| ECall (f : fn) (args : list arg)   (* self.f(args)? *)
| EVar (x : string)             (* x, moved *)
| EEmpty (ty : node_type)       (* Node::empty(ty) *)
| EPop (v : string).            (* v.pop().unwrap() *)

Inductive vexp :=
| XNew                          (* Vec::new(), vec![] *)
| XVar (v : string)             (* v, moved *)
| XCall (f : fn) (args : list arg)
| XList (es : list nexp).       (* vec![a, b] *)

Inductive cmd :=
| Skip
| Seq (a b : cmd)
| LetNode (x : string) (e : nexp)
| SetNode (x : string) (e : nexp)       (* x = e; *)
| LetVec (x : string) (v : vexp)
| SetVec (x : string) (v : vexp)
| LetBool (x : string) (c : cond)
| SetBool (x : string) (c : cond)
| LetNum (x : string) (n : numexp)
| SetNum (x : string) (n : numexp)
| LetStrs (x : string) (l : list string)
| LetUpper (x : string) (k : nat)       (* let x = self.get_token(k)?.literal.to_uppercase(); *)
| Declare (x : string)                  (* let x; *)
| Next                                  (* self.next_token()?; *)
| Push (x key : string) (e : nexp)      (* x.push_node("key", e); *)
| PushVec (x key : string) (v : vexp)   (* x.push_node_vec("key", v); *)
| VecPush (v : string) (e : nexp)       (* v.push(e); *)
| SetType (x : string) (ty : node_type) (* x.node_type = ty; *)
| If (c : cond) (a b : cmd)
| CaseUpper (k : nat) (pats : list string) (a rest : cmd)
    (* match self.get_token(k)?.literal.to_uppercase().as_str() { pats => a, rest } *)
| CaseLiteral (k : nat) (pats : list string) (a rest : cmd)
    (* match self.get_token(k)?.literal.as_str() { pats => a, rest } *)
| CaseVar (x : string) (pats : list string) (a rest : cmd)   (* match x.as_str() { .. } *)
| While (c : cond) (body : cmd)
| WhilePop (x v : string) (body : cmd)  (* while let Some(x) = v.pop() { body } *)
| ForFrom1 (n : string) (body : cmd)    (* for _ in 1..n { body } *)
| Break
| Return (e : nexp)                     (* return Ok(e); *)
| ReturnVec (v : vexp)
| Fail (k : nat) (msg : string) (d : option nat)
    (* return Err(BQ2CSTError::from_token(self.get_token(k)?, msg)); d: the token
       rendered into the message *)
| Try (x : string) (f : fn) (args : list arg) (handler : cmd).
    (* x = match self.f(args) { Ok(v) => v, Err(_) => { restore self; handler } };
       handler assigns x *)

Record fundef := { f_params : list string; f_body : cmd }.
End Syntax.
Arguments arg : clear implicits. Arguments nexp : clear implicits.
Arguments vexp : clear implicits. Arguments cmd : clear implicits.
Arguments fundef : clear implicits.

Declare Scope cmd_scope.
Delimit Scope cmd_scope with cmd.
Notation "a ;; b" := (Seq a b) (at level 100, right associativity) : cmd_scope.

(* ----- environments ----- *)
Definition env := list (string * value).

Fixpoint env_get (x : string) (e : env) : option value :=
  match e with
  | [] => None
  | (y, v) :: e' => if String.eqb x y then Some v else env_get x e'
  end.

(* assignment to the innermost binding of x *)
Fixpoint env_set (x : string) (v : value) (e : env) : option env :=
  match e with
  | [] => None
  | (y, w) :: e' =>
      if String.eqb x y then Some ((y, v) :: e')
      else option_map (cons (y, w)) (env_set x v e')
  end.

(* leaving a block: drop the bindings pushed since the environment had length n *)
Definition env_leave (n : nat) (e : env) : env := skipn (List.length e - n) e.

Definition set_or_stuck (x : string) (v : value) (e : env) : M env :=
  match env_set x v e with Some e' => ret e' | None => stuck end.

Definition take_node (x : string) (e : env) : M (node * env) :=
  match env_get x e with
  | Some (VNode n) => e' <- set_or_stuck x VUndef e ;; ret (n, e')
  | _ => stuck
  end.
Definition take_vec (x : string) (e : env) : M (list node * env) :=
  match env_get x e with
  | Some (VVec ns) => e' <- set_or_stuck x VUndef e ;; ret (ns, e')
  | _ => stuck
  end.

(* parser.rs:1231-1241: whether, after the run of "(" that follows the current
   token, there comes WITH, SELECT or FROM. The loop over `offset` is a recursion
   bounded by the number of tokens. *)
Section WithUnicode.
Context (U : unicode).

Fixpoint paren_scan (n offset : nat) : M bool :=
  match n with
  | 0 => fun _ => Fuel
  | S n' =>
      t <- get_token offset ;;
      if in_ U ["WITH"; "SELECT"; "FROM"] t then ret true
      else (t' <- get_token offset ;;
            if negb (is_ U "(" t') then ret false else paren_scan n' (S offset))
  end.
Definition paren_opens_query : M bool := fun s =>
  paren_scan (S (List.length (tokens s))) 1 s.

(* parser.rs:691-699: follow "left" through DotOperators *)
Fixpoint dot_root_type (n : node) : node_type :=
  match n with
  | Node _ ty ch =>
      if nt_eqb ty N_DotOperator then
        (fix go (l : list (string * content)) : node_type :=
           match l with
           | [] => ty
           | (k, c) :: l' =>
               if String.eqb "left" k
               then match c with CNode m => dot_root_type m | CVec _ => ty end
               else go l'
           end) ch
      else ty
  end.

Definition eval_tpred (p : tpred) (e : env) (t : token) : M bool :=
  match p with
  | TIs s => ret (is_ U s t)
  | TIn l => ret (in_ U l t)
  | TInVar x => match env_get x e with Some (VStrs l) => ret (in_ U l t) | _ => stuck end
  | TUpperIs s => ret (str_eqb (upper_literal U t) (s_ s))
  | TLiteralIs s => ret (str_eqb (literal t) (s_ s))
  | TIdentifier => ret (is_identifier U t)
  | TString => ret (is_string t)
  | TNumeric => ret (is_numeric t)
  end.

Fixpoint eval_cond (c : cond) (e : env) : M bool :=
  match c with
  | CTrue => ret true
  | CTok k p => t <- get_token k ;; eval_tpred p e t
  | CEof k => is_eof k
  | CVar x => match env_get x e with Some (VBool b) => ret b | _ => stuck end
  | CNot c => b <- eval_cond c e ;; ret (negb b)
  | CAnd a b => v <- eval_cond a e ;; if v : bool then eval_cond b e else ret false
  | COr a b => v <- eval_cond a e ;; if v : bool then ret true else eval_cond b e
  | CLenIs1 x =>
      match env_get x e with Some (VVec l) => ret (Nat.eqb (List.length l) 1) | _ => stuck end
  | CNonEmpty x =>
      match env_get x e with Some (VVec l) => ret (Nat.ltb 0 (List.length l)) | _ => stuck end
  | CPrecLt k x =>
      p <- get_precedence U k ;;
      match env_get x e with Some (VNum n) => ret (N.ltb p n) | _ => stuck end
  | CTypeIs x ty =>
      match env_get x e with Some (VNode n) => ret (nt_eqb (n_type n) ty) | _ => stuck end
  | CDotRootIs x ty =>
      match env_get x e with Some (VNode n) => ret (nt_eqb (dot_root_type n) ty) | _ => stuck end
  | CHasKey x k =>
      match env_get x e with
      | Some (VNode n) => ret (match child k n with Some _ => true | None => false end)
      | _ => stuck
      end
  | CFirstCharIs k c =>
      t <- get_token k ;;
      match first_char (literal t) with Some c' => ret (N.eqb c' c) | None => panic end
  | CLastCharIs k c =>
      t <- get_token k ;;
      match last_char (literal t) with Some c' => ret (N.eqb c' c) | None => panic end
  | CNoToken k => fun s =>
      match get_token k s with
      | Ok _ _ => Ok false s
      | Err _ _ => Ok true s
      | Panic s' => Panic s'
      | Fuel => Fuel
      | Stuck => Stuck
      end
  | CAdjacent =>
      t0 <- get_token 0 ;; t1 <- get_token 1 ;;
      ret (N.eqb (line t0) (line t1) &&
           N.eqb (column t0 + N.of_nat (List.length (literal t0))) (column t1))
  | CParenOpensQuery => paren_opens_query
  end.

Fixpoint eval_bexp (b : bexp) (e : env) : option bool :=
  match b with
  | BConst b => Some b
  | BVar x => match env_get x e with Some (VBool b) => Some b | _ => None end
  | BNot b => option_map negb (eval_bexp b e)
  | BStrIs x s => match env_get x e with Some (VStr u) => Some (str_eqb u (s_ s)) | _ => None end
  end.

Definition eval_num (n : numexp) (e : env) : M N :=
  match n with
  | NumC n => ret n
  | NumMax => ret usize_max
  | NumVar x => match env_get x e with Some (VNum n) => ret n | _ => stuck end
  | NumPrec k => get_precedence U k
  end.

Definition mem_pats (u : str) (pats : list string) : bool := existsb (fun p => str_eqb u (s_ p)) pats.

(* The Err(_) arm of parser.rs:1247-1255: every field is restored from the clone. *)
Definition restore (org s : pstate) : pstate :=
  set_position (position org)
    (set_leading (leading_comment_indices org)
      (set_trailing (trailing_comment_indices org)
        {| position := position s; leading_comment_indices := leading_comment_indices s;
           trailing_comment_indices := trailing_comment_indices s; tokens := tokens org |})).

(* ----- commands ----- *)
Inductive ctl := Norm | Brk | Ret (v : value).

Section Exec.
Context {fn : Type}.
Variable call : fn -> list value -> M value.   (* the functions that can be called *)
Variable loop_fuel : nat.                      (* bound on the iterations of a loop *)

Fixpoint eval_args (args : list (arg)) (e : env) : M (list value * env) :=
  match args with
  | [] => ret ([], e)
  | a :: r =>
      ve <- (match a with
             | ABool b => match eval_bexp b e with Some v => ret (VBool v, e) | None => stuck end
             | ANum n => v <- eval_num n e ;; ret (VNum v, e)
             | AStrs l => ret (VStrs l, e)
             | ANode x => ne <- take_node x e ;; ret (VNode (fst ne), snd ne)
             end) ;;
      let (v, e1) := (ve : value * env) in
      re <- eval_args r e1 ;;
      let (vs, e2) := (re : list value * env) in
      ret (v :: vs, e2)
  end.

Definition call_node (f : fn) (args : list arg) (e : env) : M (node * env) :=
  ae <- eval_args args e ;;
  let (vs, e1) := (ae : list value * env) in
  v <- call f vs ;;
  match v with VNode n => ret (n, e1) | _ => stuck end.

Definition eval_nexp (x : nexp fn) (e : env) : M (node * env) :=
  match x with
  | EConstruct ty => n <- construct_node U ty ;; ret (n, e)
  | ECall f args => call_node f args e
  | EVar y => take_node y e
  | EEmpty ty => ret (node_empty ty, e)
  | EPop v =>
      match env_get v e with
      | Some (VVec l) =>
          match rev l with
          | [] => panic
          | n :: r => e' <- set_or_stuck v (VVec (rev r)) e ;; ret (n, e')
          end
      | _ => stuck
      end
  end.

Fixpoint eval_nexps (xs : list (nexp fn)) (e : env) : M (list node * env) :=
  match xs with
  | [] => ret ([], e)
  | x :: r =>
      ne <- eval_nexp x e ;;
      let (n, e1) := (ne : node * env) in
      re <- eval_nexps r e1 ;;
      let (ns, e2) := (re : list node * env) in
      ret (n :: ns, e2)
  end.

Definition eval_vexp (x : vexp fn) (e : env) : M (list node * env) :=
  match x with
  | XNew => ret ([], e)
  | XVar y => take_vec y e
  | XCall f args =>
      ae <- eval_args args e ;;
      let (vs, e1) := (ae : list value * env) in
      v <- call f vs ;;
      match v with VVec l => ret (l, e1) | _ => stuck end
  | XList es => eval_nexps es e
  end.

(* iteration of a loop body; the body says whether to go on *)
Fixpoint iterate (n : nat) (step : env -> M (bool * ctl * env)) (e : env) : M (ctl * env) :=
  match n with
  | 0 => fun _ => Fuel
  | S n' =>
      r <- step e ;;
      let '(go, c, e') := (r : bool * ctl * env) in
      if go then iterate n' step e' else ret (c, e')
  end.

(* after the loop body: [continue the loop?, outcome, environment] *)
Definition after_body (n : nat) (r : ctl * env) : bool * ctl * env :=
  match r with
  | (Norm, e) => (true, Norm, env_leave n e)
  | (Brk, e) => (false, Norm, env_leave n e)
  | (Ret v, e) => (false, Ret v, env_leave n e)
  end.

(* leaving a block *)
Definition scoped (n : nat) (m : M (ctl * env)) : M (ctl * env) :=
  r <- m ;; ret (fst r, env_leave n (snd r)).

Fixpoint repeat_body (n : nat) (body : env -> M (ctl * env)) (e : env) : M (ctl * env) :=
  match n with
  | 0 => ret (Norm, e)
  | S n' =>
      r <- body e ;;
      match after_body (List.length e) r with
      | (true, _, e') => repeat_body n' body e'
      | (false, c, e') => ret (c, e')
      end
  end.

Definition norm (m : M env) : M (ctl * env) := e <- m ;; ret (Norm, e).

Definition with_node (x : string) (f : node -> node) (e : env) : M env :=
  match env_get x e with
  | Some (VNode n) => set_or_stuck x (VNode (f n)) e
  | _ => stuck
  end.

Fixpoint exec (c : cmd fn) (e : env) {struct c} : M (ctl * env) :=
  match c with
  | Skip => ret (Norm, e)
  | Seq a b =>
      r <- exec a e ;;
      match r with
      | (Norm, e') => exec b e'
      | r => ret r
      end
  | LetNode x ex => r <- eval_nexp ex e ;; ret (Norm, (x, VNode (fst r)) :: snd r)
  | SetNode x ex => r <- eval_nexp ex e ;; norm (set_or_stuck x (VNode (fst r)) (snd r))
  | LetVec x v => r <- eval_vexp v e ;; ret (Norm, (x, VVec (fst r)) :: snd r)
  | SetVec x v => r <- eval_vexp v e ;; norm (set_or_stuck x (VVec (fst r)) (snd r))
  | LetBool x c => b <- eval_cond c e ;; ret (Norm, (x, VBool b) :: e)
  | SetBool x c => b <- eval_cond c e ;; norm (set_or_stuck x (VBool b) e)
  | LetNum x n => v <- eval_num n e ;; ret (Norm, (x, VNum v) :: e)
  | SetNum x n => v <- eval_num n e ;; norm (set_or_stuck x (VNum v) e)
  | LetStrs x l => ret (Norm, (x, VStrs l) :: e)
  | LetUpper x k => t <- get_token k ;; ret (Norm, (x, VStr (upper_literal U t)) :: e)
  | Declare x => ret (Norm, (x, VUndef) :: e)
  | Next => _ <- next_token ;; ret (Norm, e)
  | Push x k ex =>
      r <- eval_nexp ex e ;; norm (with_node x (push_node k (fst r)) (snd r))
  | PushVec x k v =>
      r <- eval_vexp v e ;; norm (with_node x (push_node_vec k (fst r)) (snd r))
  | VecPush v ex =>
      r <- eval_nexp ex e ;;
      match env_get v (snd r) with
      | Some (VVec l) => norm (set_or_stuck v (VVec (l ++ [fst r])) (snd r))
      | _ => stuck
      end
  | SetType x ty => norm (with_node x (set_type ty) e)
  | If c a b =>
      v <- eval_cond c e ;;
      scoped (List.length e) (if v : bool then exec a e else exec b e)
  | CaseUpper k pats a rest =>
      t <- get_token k ;;
      scoped (List.length e)
        (if mem_pats (upper_literal U t) pats then exec a e else exec rest e)
  | CaseLiteral k pats a rest =>
      t <- get_token k ;;
      scoped (List.length e) (if mem_pats (literal t) pats then exec a e else exec rest e)
  | CaseVar x pats a rest =>
      match env_get x e with
      | Some (VStr u) => scoped (List.length e) (if mem_pats u pats then exec a e else exec rest e)
      | _ => stuck
      end
  | While c body =>
      iterate loop_fuel (fun e =>
        v <- eval_cond c e ;;
        if v : bool then (r <- exec body e ;; ret (after_body (List.length e) r))
        else ret (false, Norm, e)) e
  | WhilePop x v body =>
      iterate loop_fuel (fun e =>
        match env_get v e with
        | Some (VVec l) =>
            match rev l with
            | [] => ret (false, Norm, e)
            | n :: r =>
                e1 <- set_or_stuck v (VVec (rev r)) e ;;
                r <- exec body ((x, VNode n) :: e1) ;; ret (after_body (List.length e) r)
            end
        | _ => stuck
        end) e
  | ForFrom1 n body =>
      match env_get n e with
      | Some (VNum k) => repeat_body (N.to_nat k - 1) (exec body) e
      | _ => stuck
      end
  | Break => ret (Brk, e)
  | Return ex => r <- eval_nexp ex e ;; ret (Ret (VNode (fst r)), snd r)
  | ReturnVec v => r <- eval_vexp v e ;; ret (Ret (VVec (fst r)), snd r)
  | Fail k msg d =>
      t <- get_token k ;;
      match d with
      | None => fail_ (from_token t msg None)
      | Some k' => t' <- get_token k' ;; fail_ (from_token t msg (Some t'))
      end
  | Try x f args handler => fun s =>
      match eval_args args e s with
      | Ok (vs, e1) s1 =>
          match call f vs s1 with
          | Ok (VNode n) s2 => norm (set_or_stuck x (VNode n) e1) s2
          | Ok _ _ => Stuck
          | Err _ s2 => scoped (List.length e1) (exec handler e1) (restore s1 s2)
          | Panic s2 => Panic s2
          | Fuel => Fuel
          | Stuck => Stuck
          end
      | Err er s1 => Err er s1
      | Panic s1 => Panic s1
      | Fuel => Fuel
      | Stuck => Stuck
      end
  end.

End Exec.

(* Calling a function of a program: parameters are bound to the arguments, the body
   runs, and must return. *)
Section Run.
Context {fn : Type}.
Variable prog : fn -> fundef fn.

Definition call_body (call : fn -> list value -> M value) (lf : nat) (f : fn) (vs : list value)
  : M value :=
  let d := prog f in
  if Nat.eqb (List.length (f_params d)) (List.length vs)
  then (r <- exec call lf (f_body d) (combine (f_params d) vs) ;;
        match fst (r : ctl * env) with Ret v => ret v | _ => stuck end)
  else stuck.

Fixpoint run (fuel : nat) (f : fn) (vs : list value) {struct fuel} : M value :=
  match fuel with
  | 0 => fun _ => Fuel
  | S fuel' => call_body (run fuel') fuel' f vs
  end.
End Run.
End WithUnicode.
