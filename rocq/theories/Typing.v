(* A type check of MiniRust programs: variables are used with the right type, only after
   they have been initialised and not after they have been moved (what rustc checks), and
   `pop().unwrap()` is applied only to vectors known not to be empty. *)
From Verif Require Import Chars Token Cst Core MiniRust Bundles ParserView ParserGeneric.
Local Open Scope list_scope.
Local Notation length := List.length.

Inductive kind :=
| KAny                       (* nothing is known: not initialised, or moved *)
| KNode | KVec (nonempty : bool) | KBool | KNum | KStrs | KStr.

Definition kind_of (t : vtype) : kind :=
  match t with TNode => KNode | TVec => KVec false | TBool => KBool | TNum => KNum | TStrs => KStrs end.

Definition kind_le (k k' : kind) : bool :=   (* k is at least as precise as k' *)
  match k, k' with
  | _, KAny => true
  | KNode, KNode | KBool, KBool | KNum, KNum | KStrs, KStrs | KStr, KStr => true
  | KVec a, KVec b => implb b a
  | _, _ => false
  end.
Definition kind_join (k k' : kind) : kind :=
  match k, k' with
  | KNode, KNode => KNode | KBool, KBool => KBool | KNum, KNum => KNum
  | KStrs, KStrs => KStrs | KStr, KStr => KStr
  | KVec a, KVec b => KVec (a && b)
  | _, _ => KAny
  end.

Definition tenv := list (string * kind).
Fixpoint tget (x : string) (E : tenv) : option kind :=
  match E with [] => None | (y, k) :: r => if String.eqb x y then Some k else tget x r end.
Fixpoint tset (x : string) (k : kind) (E : tenv) : option tenv :=
  match E with
  | [] => None
  | (y, w) :: r => if String.eqb x y then Some ((y, k) :: r) else option_map (cons (y, w)) (tset x k r)
  end.
Definition tleave (n : nat) (E : tenv) : tenv := skipn (length E - n) E.
Fixpoint tle (E E' : tenv) : bool :=
  match E, E' with
  | [], [] => true
  | (x, k) :: r, (x', k') :: r' => String.eqb x x' && kind_le k k' && tle r r'
  | _, _ => false
  end.
Fixpoint tjoin (E E' : tenv) : option tenv :=
  match E, E' with
  | [], [] => Some []
  | (x, k) :: r, (x', k') :: r' =>
      if String.eqb x x' then option_map (cons (x, kind_join k k')) (tjoin r r') else None
  | _, _ => None
  end.
(* None: the point is not reached *)
Definition tjoin_opt (a b : option tenv) : option (option tenv) :=
  match a, b with
  | None, o | o, None => Some o
  | Some x, Some y => option_map Some (tjoin x y)
  end.

Definition obind {A B} (o : option A) (f : A -> option B) : option B :=
  match o with Some a => f a | None => None end.
Notation "'let?' x := o 'in' f" := (obind o (fun x => f)) (at level 61, x pattern, right associativity).
Definition check (b : bool) : option unit := if b then Some tt else None.

Definition has_kind (E : tenv) (x : string) (k : kind) : bool :=
  match tget x E with Some k' => kind_le k' k | None => false end.

Definition tpred_ok (E : tenv) (p : tpred) : bool :=
  match p with TInVar x => has_kind E x KStrs | _ => true end.
Fixpoint tcond (E : tenv) (c : cond) : bool :=
  match c with
  | CTok _ p => tpred_ok E p
  | CVar x => has_kind E x KBool
  | CNot c => tcond E c
  | CAnd a b | COr a b => tcond E a && tcond E b
  | CLenIs1 x | CNonEmpty x => has_kind E x (KVec false)
  | CPrecLt _ x => has_kind E x KNum
  | CTypeIs x _ | CDotRootIs x _ | CHasKey x _ => has_kind E x KNode
  | CFirstCharIs k _ | CLastCharIs k _ => Nat.eqb k 0
  | CTrue | CEof _ | CNoToken _ | CAdjacent | CParenOpensQuery => true
  end.
(* what the truth of a condition tells *)
Definition refine (c : cond) (E : tenv) : tenv :=
  match c with
  | CLenIs1 x | CNonEmpty x => match tset x (KVec true) E with Some E' => E' | None => E end
  | _ => E
  end.
Fixpoint tbexp (E : tenv) (b : bexp) : bool :=
  match b with
  | BConst _ => true
  | BVar x => has_kind E x KBool
  | BNot b => tbexp E b
  | BStrIs x _ => has_kind E x KStr
  end.
Definition tnum (E : tenv) (n : numexp) : bool :=
  match n with NumVar x => has_kind E x KNum | _ => true end.

Definition ttake (x : string) (k : kind) (E : tenv) : option tenv :=
  if has_kind E x k then tset x KAny E else None.

Section Check.
Context {fn : Type}.
Variable sig : fn -> list vtype * vtype.

Fixpoint targs (args : list arg) (ts : list vtype) (E : tenv) : option tenv :=
  match args, ts with
  | [], [] => Some E
  | ABool b :: r, TBool :: ts' => let? _ := check (tbexp E b) in targs r ts' E
  | ANum n :: r, TNum :: ts' => let? _ := check (tnum E n) in targs r ts' E
  | AStrs _ :: r, TStrs :: ts' => targs r ts' E
  | ANode x :: r, TNode :: ts' => let? E1 := ttake x KNode E in targs r ts' E1
  | _, _ => None
  end.
Definition tcall (f : fn) (args : list arg) (t : vtype) (E : tenv) : option tenv :=
  let? E1 := targs args (fst (sig f)) E in
  match snd (sig f), t with TNode, TNode | TVec, TVec => Some E1 | _, _ => None end.
Definition tnexp (e : nexp fn) (E : tenv) : option tenv :=
  match e with
  | EConstruct _ | EEmpty _ => Some E
  | ECall f args => tcall f args TNode E
  | EVar x => ttake x KNode E
  | EPop v => if has_kind E v (KVec true) then tset v (KVec false) E else None
  end.
Fixpoint tnexps (es : list (nexp fn)) (E : tenv) : option tenv :=
  match es with [] => Some E | e :: r => let? E1 := tnexp e E in tnexps r E1 end.
Definition tvexp (v : vexp fn) (E : tenv) : option tenv :=
  match v with
  | XNew => Some E
  | XVar x => ttake x (KVec false) E
  | XCall f args => tcall f args TVec E
  | XList es => tnexps es E
  end.

(* environment at normal exit, environment at Break *)
Definition tout := (option tenv * option tenv)%type.
Definition tscope (n : nat) (o : tout) : tout := (option_map (tleave n) (fst o), option_map (tleave n) (snd o)).
Definition tjoin_out (a b : tout) : option tout :=
  let? n := tjoin_opt (fst a) (fst b) in let? k := tjoin_opt (snd a) (snd b) in Some (n, k).
Definition tnorm (o : option tenv) : option tout := let? E := o in Some (Some E, None).

Variable ret_type : vtype.

Definition le_opt (o : option tenv) (E : tenv) : bool :=
  match o with Some E' => tle E' E | None => true end.

Fixpoint tcmd (c : cmd fn) (E : tenv) : option tout :=
  match c with
  | Skip => Some (Some E, None)
  | Next => Some (Some E, None)
  | Seq a b =>
      let? (n1, b1) := tcmd a E in
      match n1 with
      | None => Some (None, b1)
      | Some E1 =>
          let? _ := check (Nat.leb (length E) (length E1)) in
          let? (n2, b2) := tcmd b E1 in
          let? b3 := tjoin_opt (option_map (tleave (length E)) b1) (option_map (tleave (length E)) b2) in Some (n2, b3)
      end
  | LetNode x e => tnorm (let? E1 := tnexp e E in Some ((x, KNode) :: E1))
  | SetNode x e => tnorm (let? E1 := tnexp e E in tset x KNode E1)
  | LetVec x v => tnorm (let? E1 := tvexp v E in Some ((x, KVec false) :: E1))
  | SetVec x v => tnorm (let? E1 := tvexp v E in tset x (KVec false) E1)
  | LetBool x c => tnorm (let? _ := check (tcond E c) in Some ((x, KBool) :: E))
  | SetBool x c => tnorm (let? _ := check (tcond E c) in tset x KBool E)
  | LetNum x n => tnorm (let? _ := check (tnum E n) in Some ((x, KNum) :: E))
  | SetNum x n => tnorm (let? _ := check (tnum E n) in tset x KNum E)
  | LetStrs x _ => Some (Some ((x, KStrs) :: E), None)
  | LetUpper x _ => Some (Some ((x, KStr) :: E), None)
  | Declare x => Some (Some ((x, KAny) :: E), None)
  | Push x _ e => tnorm (let? E1 := tnexp e E in if has_kind E1 x KNode then Some E1 else None)
  | PushVec x _ v => tnorm (let? E1 := tvexp v E in if has_kind E1 x KNode then Some E1 else None)
  | VecPush v e => tnorm (let? E1 := tnexp e E in if has_kind E1 v (KVec false) then tset v (KVec true) E1 else None)
  | SetType x _ => tnorm (if has_kind E x KNode then Some E else None)
  | If c a b =>
      let? _ := check (tcond E c) in
      let? o1 := tcmd a (refine c E) in let? o2 := tcmd b E in
      tjoin_out (tscope (length E) o1) (tscope (length E) o2)
  | CaseUpper _ _ a b | CaseLiteral _ _ a b =>
      let? o1 := tcmd a E in let? o2 := tcmd b E in
      tjoin_out (tscope (length E) o1) (tscope (length E) o2)
  | CaseVar x _ a b =>
      let? _ := check (has_kind E x KStr) in
      let? o1 := tcmd a E in let? o2 := tcmd b E in
      tjoin_out (tscope (length E) o1) (tscope (length E) o2)
  | While c b =>
      let? _ := check (tcond E c) in
      let? o := tcmd b (refine c E) in
      let o := tscope (length E) o in
      let? _ := check (le_opt (fst o) E && le_opt (snd o) E) in Some (Some E, None)
  | WhilePop x v b =>
      let? _ := check (has_kind E v (KVec false)) in
      let? E1 := tset v (KVec false) E in
      let? o := tcmd b ((x, KNode) :: E1) in
      let o := tscope (length E) o in
      let? _ := check (le_opt (fst o) E1 && le_opt (snd o) E1) in Some (Some E1, None)
  | ForFrom1 n b =>
      let? _ := check (has_kind E n KNum) in
      let? o := tcmd b E in
      let o := tscope (length E) o in
      let? _ := check (le_opt (fst o) E && le_opt (snd o) E) in Some (Some E, None)
  | Break => Some (None, Some E)
  | Return e => let? _ := tnexp e E in match ret_type with TNode => Some (None, None) | _ => None end
  | ReturnVec v => let? _ := tvexp v E in match ret_type with TVec => Some (None, None) | _ => None end
  | Fail _ _ _ => Some (None, None)
  | Try x f args h =>
      let? E1 := tcall f args TNode E in
      let? E2 := tset x KNode E1 in
      let? o := tcmd h E1 in
      tjoin_out (Some E2, None) (tscope (length E1) o)
  end.


Definition tfun (d : fundef fn) (ts : list vtype) : bool :=
  Nat.eqb (length (f_params d)) (length ts) &&
  match tcmd (f_body d) (combine (f_params d) (map kind_of ts)) with
  | Some (None, None) => true
  | _ => false
  end.
End Check.

(* ----- soundness ----- *)
Definition vhas (v : value) (k : kind) : Prop :=
  match k with
  | KAny => True
  | KNode => exists n, v = VNode n
  | KVec b => exists l, v = VVec l /\ (b = true -> l <> [])
  | KBool => exists b, v = VBool b
  | KNum => exists n, v = VNum n
  | KStrs => exists l, v = VStrs l
  | KStr => exists u, v = VStr u
  end.
Definition ehas (e : env) (E : tenv) : Prop :=
  Forall2 (fun p q => fst p = fst q /\ vhas (snd p) (snd q)) e E.

Lemma vhas_le v k k' : vhas v k -> kind_le k k' = true -> vhas v k'.
Proof.
  destruct k, k'; cbn; try discriminate; auto. intros (l & -> & H) L. exists l. split; [reflexivity|].
  intro X. apply H. subst. destruct nonempty; [reflexivity|discriminate].
Qed.
Lemma vhas_join1 v k k' : vhas v k -> vhas v (kind_join k k').
Proof.
  destruct k, k'; cbn; auto. intros (l & -> & H). exists l. split; [reflexivity|].
  intro X. apply andb_true_iff in X as []. auto.
Qed.
Lemma vhas_join2 v k k' : vhas v k' -> vhas v (kind_join k k').
Proof.
  destruct k, k'; cbn; auto. intros (l & -> & H). exists l. split; [reflexivity|].
  intro X. apply andb_true_iff in X as []. auto.
Qed.
Lemma ehas_length e E : ehas e E -> length e = length E.
Proof. induction 1; cbn; congruence. Qed.
Lemma ehas_get e E x k : ehas e E -> tget x E = Some k -> exists v, env_get x e = Some v /\ vhas v k.
Proof.
  induction 1 as [|[y v] [z k'] e E [Hn Hv] H IH]; [discriminate|]. cbn in Hn, Hv. subst z.
  cbn [tget env_get]. destruct (String.eqb x y); [intros [= <-]; eauto|exact IH].
Qed.
Lemma has_get e E x k : ehas e E -> has_kind E x k = true -> exists v, env_get x e = Some v /\ vhas v k.
Proof.
  unfold has_kind. intros H Hk. destruct (tget x E) as [k'|] eqn:G; [|discriminate].
  destruct (ehas_get _ _ _ _ H G) as (v & Hv & Hh). exists v. split; [exact Hv|eapply vhas_le; eauto].
Qed.
Lemma tset_length x k : forall E E', tset x k E = Some E' -> length E' = length E.
Proof.
  induction E as [|[y w] E IH]; intros E' H; [discriminate|]. cbn in H.
  destruct (String.eqb x y); [injection H as <-; reflexivity|].
  destruct (tset x k E) eqn:S; [|discriminate]. injection H as <-. cbn. f_equal. now apply IH.
Qed.
Lemma tset_get x k : forall E E', tset x k E = Some E' -> tget x E' = Some k.
Proof.
  induction E as [|[y w] E IH]; intros E' H; [discriminate|]. cbn in H. destruct (String.eqb x y) eqn:Q.
  - injection H as <-. cbn. now rewrite Q.
  - destruct (tset x k E) eqn:S; [|discriminate]. injection H as <-. cbn. rewrite Q. now apply IH.
Qed.
Lemma tset_again x k : forall E E', tset x k E = Some E' -> tset x k E' = Some E'.
Proof.
  induction E as [|[y w] E IH]; intros E' H; [discriminate|]. cbn in H. destruct (String.eqb x y) eqn:Q.
  - injection H as <-. cbn. now rewrite Q.
  - destruct (tset x k E) eqn:S; [|discriminate]. injection H as <-. cbn. rewrite Q. now rewrite (IH _ eq_refl).
Qed.
Lemma refine_length c E : length (refine c E) = length E.
Proof. destruct c; cbn [refine]; try reflexivity; destruct (tset _ _ E) eqn:S; try reflexivity; eapply tset_length; eauto. Qed.
Lemma ehas_set e E x k v E' : ehas e E -> tset x k E = Some E' -> vhas v k ->
  exists e', env_set x v e = Some e' /\ ehas e' E'.
Proof.
  intro H. revert E'. induction H as [|[y w] [z k'] e E [Hn Hv] H IH]; intros E' Ht Hk; [discriminate|].
  cbn in Hn, Hv. subst z. cbn [tset env_set] in *. destruct (String.eqb x y).
  - injection Ht as <-. exists ((y, v) :: e). split; [reflexivity|]. constructor; [split; auto|exact H].
  - destruct (tset x k E) as [E1|]; [|discriminate]. injection Ht as <-.
    destruct (IH _ eq_refl Hk) as (e1 & -> & He). exists ((y, w) :: e1). split; [reflexivity|].
    constructor; [split; auto|exact He].
Qed.
Lemma ehas_self e E x k E' v : ehas e E -> tset x k E = Some E' -> env_get x e = Some v -> vhas v k -> ehas e E'.
Proof.
  intro H. revert E'. induction H as [|[y w] [z k'] e E [Hn Hv] H IH]; intros E' Ht Hg Hk; [discriminate|].
  cbn in Hn, Hv. subst z. cbn [tset env_get] in *. destruct (String.eqb x y).
  - injection Ht as <-. injection Hg as ->. constructor; [split; auto|exact H].
  - destruct (tset x k E) as [E1|]; [|discriminate]. injection Ht as <-. constructor; [split; auto|]. now apply IH.
Qed.
Lemma ehas_le e E E' : ehas e E -> tle E E' = true -> ehas e E'.
Proof.
  intro H. revert E'. induction H as [|[y w] [z k'] e E [Hn Hv] H IH]; intros [|[z2 k2] E'] L; try discriminate; [constructor|].
  cbn in *. apply andb_true_iff in L as [L1 L2]. apply andb_true_iff in L1 as [L0 L1]. apply String.eqb_eq in L0. subst.
  constructor; [split; [reflexivity|eapply vhas_le; eauto]|now apply IH].
Qed.
Lemma ehas_join1 e E : ehas e E -> forall E2 E3, tjoin E E2 = Some E3 -> ehas e E3.
Proof.
  induction 1 as [|[y w] [z k'] e E [Hn Hv] H IH]; intros [|[z2 k2] E2] E3 J; try discriminate; cbn in *.
  - injection J as <-. constructor.
  - destruct (String.eqb_spec z z2); [|discriminate]. destruct (tjoin E E2) as [E4|] eqn:J4; [|discriminate].
    injection J as <-. subst. constructor; [split; [reflexivity|now apply vhas_join1]|eapply IH; eauto].
Qed.
Lemma ehas_join2 e E : ehas e E -> forall E2 E3, tjoin E2 E = Some E3 -> ehas e E3.
Proof.
  induction 1 as [|[y w] [z k'] e E [Hn Hv] H IH]; intros [|[z2 k2] E2] E3 J; try discriminate; cbn in *.
  - injection J as <-. constructor.
  - destruct (String.eqb_spec z2 z); [|discriminate]. destruct (tjoin E2 E) as [E4|] eqn:J4; [|discriminate].
    injection J as <-. subst. constructor; [split; [reflexivity|now apply vhas_join2]|eapply IH; eauto].
Qed.
Lemma ehas_skipn e E k : ehas e E -> ehas (skipn k e) (skipn k E).
Proof. intro H. revert k. induction H; intros [|k]; cbn; try constructor; auto; apply IHForall2. Qed.
Lemma ehas_leave e E n : ehas e E -> ehas (env_leave n e) (tleave n E).
Proof. intro H. unfold env_leave, tleave. rewrite (ehas_length _ _ H). now apply ehas_skipn. Qed.
Lemma leave_leave n m (e : env) : n <= m -> env_leave n (env_leave m e) = env_leave n e.
Proof.
  intro H. unfold env_leave. rewrite skipn_length.
  assert (K : forall a b (l : env), skipn a (skipn b l) = skipn (b + a) l).
  { induction b as [|b IHb]; intros [|x l]; try reflexivity; [now rewrite !skipn_nil|]. cbn. apply IHb. }
  rewrite K. f_equal. lia.
Qed.

(* The result is not Stuck, and a panic happens at a token with an empty literal. *)
Section Fine.
Context (ts0 : list token).
Definition at_empty (s : pstate) : Prop :=
  exists b bs, view s (b :: bs) /\ tokens s = ts0 /\ literal (b_tok b) = [].
Definition viewed (s : pstate) : Prop := exists bs, view s bs /\ tokens s = ts0.
Definition fine {A} (P : A -> Prop) (r : res A) : Prop :=
  match r with
  | Ok a s => P a /\ viewed s
  | Err _ _ => True
  | Panic s => at_empty s
  | Fuel => True
  | Stuck => False
  end.

Lemma fine_bind {A B} (P : A -> Prop) (Q : B -> Prop) (m : M A) (f : A -> M B) s :
  fine P (m s) -> (forall a s', P a -> viewed s' -> fine Q (f a s')) -> fine Q (bind m f s).
Proof. unfold bind, fine. intros H F. destruct (m s); auto. destruct H. now apply F. Qed.
Lemma fine_ret {A} (P : A -> Prop) a s : P a -> viewed s -> fine P (ret a s).
Proof. now split. Qed.
Lemma fine_weaken {A} (P Q : A -> Prop) r : (forall a, P a -> Q a) -> fine P r -> fine Q r.
Proof. intros W. destruct r; cbn; auto. intros []. auto. Qed.

Section WithUnicode.
Context (U : unicode).

Lemma get_token_fine k s : viewed s -> fine (fun _ => True) (get_token k s).
Proof.
  intros (bs & V & T). rewrite (get_token_view _ _ _ V). destruct (nth_error bs k); [|exact I].
  split; [exact I|now exists bs].
Qed.
Lemma get_precedence_fine k s : viewed s -> fine (fun _ => True) (get_precedence U k s).
Proof.
  intros V. unfold get_precedence. eapply fine_bind; [now apply get_token_fine|]. intros t s1 _ V1.
  repeat match goal with |- fine _ ((if ?c then _ else _) _) => destruct c; [try (now apply fine_ret)|] end;
    try (now apply fine_ret).
  eapply fine_bind; [now apply get_token_fine|]. intros t1 s2 _ V2.
  destruct (mem_str _ _); [now apply fine_ret|]. destruct (mem_str _ _); [now apply fine_ret|].
  eapply fine_bind; [now apply get_token_fine|]. intros t2 s3 _ V3.
  eapply fine_bind; [now apply get_token_fine|]. intros t3 s4 _ V4. exact I.
Qed.

Ltac kind_get H := match goal with Hh : ehas ?e ?E, Hk : has_kind ?E ?x ?k = true |- _ =>
  let v := fresh "v" in let Hg := fresh "Hg" in
  destruct (has_get e E x k Hh Hk) as (v & Hg & H); try rewrite Hg; cbn in H end.

Lemma cond_fine c e E s : ehas e E -> tcond E c = true -> viewed s -> fine (fun _ => True) (eval_cond U c e s).
Proof.
  intros He. revert s. induction c; intros st Ht V; cbn [eval_cond tcond] in *.
  - now apply fine_ret.
  - eapply fine_bind; [now apply get_token_fine|]. intros t s1 _ V1.
    destruct p; cbn [eval_tpred tpred_ok] in *; try now apply fine_ret.
    kind_get K. destruct K as [l ->]. now apply fine_ret.
  - destruct V as (bs & V & T). rewrite (is_eof_view _ _ _ V). split; [exact I|now exists bs].
  - kind_get K. destruct K as [l ->]. now apply fine_ret.
  - eapply fine_bind; [now apply IHc|]. intros. now apply fine_ret.
  - apply andb_true_iff in Ht as [T1 T2]. eapply fine_bind; [now apply IHc1|]. intros [] s1 _ V1; [now apply IHc2|now apply fine_ret].
  - apply andb_true_iff in Ht as [T1 T2]. eapply fine_bind; [now apply IHc1|]. intros [] s1 _ V1; [now apply fine_ret|now apply IHc2].
  - kind_get K. destruct K as (l & -> & _). now apply fine_ret.
  - kind_get K. destruct K as (l & -> & _). now apply fine_ret.
  - eapply fine_bind; [now apply get_precedence_fine|]. intros p s1 _ V1. kind_get K. destruct K as [l ->]. now apply fine_ret.
  - kind_get K. destruct K as [l ->]. now apply fine_ret.
  - kind_get K. destruct K as [l ->]. now apply fine_ret.
  - kind_get K. destruct K as [l ->]. now apply fine_ret.
  - apply Nat.eqb_eq in Ht. subst k. destruct V as (bs & V & T). unfold bind. rewrite (get_token_view _ _ _ V).
    destruct (view_cons _ _ V) as (b & bs' & ->). cbn [nth_error].
    destruct (first_char (literal (b_tok b))) eqn:F; [split; [exact I|now exists (b :: bs')]|].
    exists b, bs'. split; [exact V|]. split; [exact T|]. destruct (literal (b_tok b)); [reflexivity|discriminate].
  - apply Nat.eqb_eq in Ht. subst k. destruct V as (bs & V & T). unfold bind. rewrite (get_token_view _ _ _ V).
    destruct (view_cons _ _ V) as (b & bs' & ->). cbn [nth_error].
    destruct (last_char (literal (b_tok b))) eqn:F; [split; [exact I|now exists (b :: bs')]|].
    exists b, bs'. split; [exact V|]. split; [exact T|]. unfold last_char, first_char in F.
    destruct (literal (b_tok b)) as [|x l]; [reflexivity|]. exfalso.
    assert (K : rev (x :: l) <> []) by (intro X; apply (f_equal (@length _)) in X; rewrite rev_length in X; discriminate).
    destruct (rev (x :: l)); [congruence|discriminate].
  - destruct V as (bs & V & T). rewrite (get_token_view _ _ _ V). destruct (nth_error bs k); (split; [exact I|now exists bs]).
  - eapply fine_bind; [now apply get_token_fine|]. intros t s1 _ V1.
    eapply fine_bind; [now apply get_token_fine|]. intros. now apply fine_ret.
  - destruct V as (bs & V & T). destruct (view_cons _ _ V) as (b & bs' & ->). rewrite (paren_opens_query_view _ _ _ _ V).
    destruct (paren_view _ _); [split; [exact I|now exists (b :: bs')]|exact I].
Qed.

Lemma refine_ok c e E s s' : ehas e E -> tcond E c = true -> eval_cond U c e s = Ok true s' -> ehas e (refine c E).
Proof.
  intros He Ht H. destruct c; cbn [refine tcond eval_cond] in *; try exact He.
  - destruct (tset v (KVec true) E) as [E'|] eqn:S; [|exact He]. kind_get K. rewrite Hg in H.
    destruct K as (l & -> & _). eapply ehas_self; eauto. exists l. split; [reflexivity|].
    intros _ ->. cbn in H. discriminate.
  - destruct (tset v (KVec true) E) as [E'|] eqn:S; [|exact He]. kind_get K. rewrite Hg in H.
    destruct K as (l & -> & _). eapply ehas_self; eauto. exists l. split; [reflexivity|].
    intros _ ->. cbn in H. discriminate.
Qed.

Lemma bexp_fine b e E : ehas e E -> tbexp E b = true -> exists v, eval_bexp b e = Some v.
Proof.
  intro He. induction b; cbn [eval_bexp tbexp]; intro Ht; eauto.
  - kind_get K. destruct K as [l ->]. eauto.
  - destruct (IHb Ht) as [v ->]. cbn. eauto.
  - kind_get K. destruct K as [l ->]. eauto.
Qed.
Lemma num_fine n e E s : ehas e E -> tnum E n = true -> viewed s -> fine (fun _ => True) (eval_num U n e s).
Proof.
  intros He Ht V. destruct n; cbn [eval_num tnum] in *; try now apply fine_ret.
  - kind_get K. destruct K as [l ->]. now apply fine_ret.
  - now apply get_precedence_fine.
Qed.
Lemma set_fine x v k e E E' s : ehas e E -> tset x k E = Some E' -> vhas v k -> viewed s ->
  fine (fun e' => ehas e' E') (set_or_stuck x v e s).
Proof.
  intros He Ht Hv V. destruct (ehas_set _ _ _ _ _ _ He Ht Hv) as (e' & E1 & He'). unfold set_or_stuck. rewrite E1.
  now apply fine_ret.
Qed.
Lemma take_node_fine x e E E' s : ehas e E -> ttake x KNode E = Some E' -> viewed s ->
  fine (fun p => ehas (snd p) E') (take_node x e s).
Proof.
  unfold ttake, take_node. intros He Ht V. destruct (has_kind E x KNode) eqn:Hk; [|discriminate].
  kind_get K. destruct K as [n ->]. eapply fine_bind; [eapply set_fine; eauto; exact I|].
  intros. now apply fine_ret.
Qed.
Lemma take_vec_fine x e E E' s : ehas e E -> ttake x (KVec false) E = Some E' -> viewed s ->
  fine (fun p => ehas (snd p) E') (take_vec x e s).
Proof.
  unfold ttake, take_vec. intros He Ht V. destruct (has_kind E x (KVec false)) eqn:Hk; [|discriminate].
  kind_get K. destruct K as (n & -> & _). eapply fine_bind; [eapply set_fine; eauto; exact I|].
  intros. now apply fine_ret.
Qed.
Lemma construct_fine ty s : viewed s -> fine (fun _ => True) (construct_node U ty s).
Proof.
  intros (bs & V & T). destruct (view_cons _ _ V) as (b & bs' & ->). rewrite (construct_node_view _ _ _ _ _ V).
  destruct (constructed _ _ _ _); [split; [exact I|now exists (b :: bs')]|exact I].
Qed.
Lemma next_fine s : viewed s -> fine (fun _ => True) (next_token s).
Proof.
  intros (bs & V & T). destruct (view_cons _ _ V) as (b & bs' & ->). destruct bs' as [|b' bs'].
  - rewrite (next_token_end _ _ V). exact I.
  - destruct (next_token_view _ _ _ _ V) as (s' & -> & V' & T'). split; [exact I|]. exists (b' :: bs'). split; [exact V'|congruence].
Qed.

Section Exec.
Context {fn : Type}.
Variable sig : fn -> list vtype * vtype.
Definition vals_ok (vs : list value) (ts : list vtype) : Prop := Forall2 (fun v t => vhas v (kind_of t)) vs ts.

Lemma check_inv b (A : Type) (o : option A) r : obind (check b) (fun _ => o) = Some r -> b = true /\ o = Some r.
Proof. destruct b; [auto|discriminate]. Qed.
Lemma obind_inv {A B} (o : option A) (f : A -> option B) r : obind o f = Some r -> exists a, o = Some a /\ f a = Some r.
Proof. destruct o; [eauto|discriminate]. Qed.

Lemma args_fine args : forall ts e E E' s, ehas e E -> targs args ts E = Some E' -> viewed s ->
  fine (fun p => vals_ok (fst p) ts /\ ehas (snd p) E') (eval_args U args e s).
Proof.
  induction args as [|a args IH]; intros ts e E E' s He Ht V; cbn [eval_args].
  - destruct ts; [|discriminate]. injection Ht as <-. apply fine_ret; [|exact V]. split; [constructor|exact He].
  - destruct ts as [|t ts]; [destruct a; discriminate|].
    destruct a, t; try discriminate; cbn [targs] in Ht.
    + apply check_inv in Ht as [Hb Ht]. destruct (bexp_fine _ _ _ He Hb) as [v ->].
      eapply (fine_bind (fun p => p = (VBool v, e))); [apply fine_ret; [reflexivity|exact V]|].
      intros p s1 -> V1. eapply fine_bind; [eapply IH; eauto|]. intros [vs e2] s2 [Hvs He2] V2.
      apply fine_ret; [|exact V2]. split; [constructor; [eexists; reflexivity|exact Hvs]|exact He2].
    + apply check_inv in Ht as [Hb Ht].
      eapply (fine_bind (fun p => (exists v, fst p = VNum v) /\ snd p = e)).
      { eapply fine_bind; [eapply num_fine; eauto|]. intros. apply fine_ret; [|assumption]. cbn. eauto. }
      intros [v e1] s1 [[w Hw] Hs] V1. cbn in Hw, Hs. subst v e1.
      eapply fine_bind; [eapply IH; eauto|]. intros [vs e2] s2 [Hvs He2] V2.
      apply fine_ret; [|exact V2]. split; [constructor; [eexists; reflexivity|exact Hvs]|exact He2].
    + eapply (fine_bind (fun p => p = (VStrs l, e))); [apply fine_ret; [reflexivity|exact V]|].
      intros p s1 -> V1. eapply fine_bind; [eapply IH; eauto|]. intros [vs e2] s2 [Hvs He2] V2.
      apply fine_ret; [|exact V2]. split; [constructor; [eexists; reflexivity|exact Hvs]|exact He2].
    + apply obind_inv in Ht as (E1 & Ht1 & Ht).
      eapply (fine_bind (fun p => (exists v, fst p = VNode v) /\ ehas (snd p) E1)).
      { eapply fine_bind; [eapply take_node_fine; eauto|]. intros [? ?] ? ? ?. apply fine_ret; [|assumption]. cbn. eauto. }
      intros [v e1] s1 [[w Hw] Hs] V1. cbn in Hw, Hs. subst v.
      eapply fine_bind; [eapply IH; eauto|]. intros [vs e2] s2 [Hvs He2] V2.
      apply fine_ret; [|exact V2]. split; [constructor; [eexists; reflexivity|exact Hvs]|exact He2].
Qed.

Lemma ttake_length x k E E' : ttake x k E = Some E' -> length E' = length E.
Proof. unfold ttake. destruct (has_kind _ _ _); [|discriminate]. apply tset_length. Qed.
Lemma targs_length args : forall ts E E', targs args ts E = Some E' -> length E' = length E.
Proof.
  induction args as [|[] args IH]; intros [|[] ts] E E' H; try discriminate; cbn [targs] in H.
  - now injection H as <-.
  - apply check_inv in H as [_ H]. eauto.
  - apply check_inv in H as [_ H]. eauto.
  - eauto.
  - apply obind_inv in H as (E1 & H1 & H). apply ttake_length in H1. rewrite <- H1. eauto.
Qed.

Section Calls.
Variable call : fn -> list value -> M value.
Variable lf : nat.
Hypothesis call_fine : forall f vs s, vals_ok vs (fst (sig f)) -> viewed s ->
  fine (fun v => vhas v (kind_of (snd (sig f)))) (call f vs s).

Lemma call_val_fine f args t e E E' s : ehas e E -> tcall sig f args t E = Some E' -> viewed s ->
  fine (fun p => vhas (fst p) (kind_of t) /\ ehas (snd p) E')
    (bind (eval_args U args e) (fun ae => let (vs, e1) := (ae : list value * env) in
       bind (call f vs) (fun v => ret (v, e1))) s).
Proof.
  unfold tcall. intros He Ht V. apply obind_inv in Ht as (E1 & Ha & Ht).
  eapply fine_bind; [eapply args_fine; eauto|]. intros [vs e1] s1 [Hvs He1] V1.
  eapply fine_bind; [eapply call_fine; eauto|]. intros v s2 Hv V2. apply fine_ret; [|exact V2].
  destruct (snd (sig f)), t; try discriminate; injection Ht as <-; split; assumption.
Qed.

Lemma nexp_fine x e E E' s : ehas e E -> tnexp sig x E = Some E' -> viewed s ->
  fine (fun p => ehas (snd p) E') (eval_nexp U call x e s).
Proof.
  intros He Ht V. destruct x; cbn [eval_nexp tnexp] in *.
  - injection Ht as <-. eapply fine_bind; [now apply construct_fine|]. intros. now apply fine_ret.
  - pose proof (call_val_fine f args TNode e E E' s He Ht V) as K. unfold call_node.
    unfold bind in *. destruct (eval_args U args e s) as [[vs e1] s1|? ?|?| |]; try exact K.
    destruct (call f vs s1) as [v s2|? ?|?| |]; try exact K.
    destruct K as [[[n Hn] He1] V2]. cbn [fst snd] in *. subst v. split; assumption.
  - eapply take_node_fine; eauto.
  - injection Ht as <-. now apply fine_ret.
  - destruct (has_kind E v (KVec true)) eqn:Hk; [|discriminate]. kind_get K. destruct K as (l & -> & Hl).
    destruct (rev l) as [|n r] eqn:R.
    + exfalso. apply (Hl eq_refl). apply (f_equal (@rev _)) in R. now rewrite rev_involutive in R.
    + eapply fine_bind; [eapply set_fine; eauto|].
      * eexists. split; [reflexivity|discriminate].
      * intros. now apply fine_ret.
Qed.
Lemma nexps_fine xs : forall e E E' s, ehas e E -> tnexps sig xs E = Some E' -> viewed s ->
  fine (fun p => ehas (snd p) E') (eval_nexps U call xs e s).
Proof.
  induction xs as [|x xs IH]; intros e E E' s He Ht V; cbn [eval_nexps tnexps] in *.
  - injection Ht as <-. now apply fine_ret.
  - apply obind_inv in Ht as (E1 & H1 & Ht). eapply fine_bind; [eapply nexp_fine; eauto|].
    intros [n e1] s1 He1 V1. eapply fine_bind; [eapply IH; eauto|]. intros [ns e2] s2 He2 V2. now apply fine_ret.
Qed.
Lemma vexp_fine x e E E' s : ehas e E -> tvexp sig x E = Some E' -> viewed s ->
  fine (fun p => ehas (snd p) E') (eval_vexp U call x e s).
Proof.
  intros He Ht V. destruct x; cbn [eval_vexp tvexp] in *.
  - injection Ht as <-. now apply fine_ret.
  - eapply take_vec_fine; eauto.
  - pose proof (call_val_fine f args TVec e E E' s He Ht V) as K.
    unfold bind in *. destruct (eval_args U args e s) as [[vs e1] s1|? ?|?| |]; try exact K.
    destruct (call f vs s1) as [v s2|? ?|?| |]; try exact K.
    destruct K as [[(n & Hn & _) He1] V2]. cbn [fst snd] in *. subst v. split; assumption.
  - eapply nexps_fine; eauto.
Qed.

Variable rt : vtype.
Definition out_ok (n : nat) (o : tout) (r : ctl * env) : Prop :=
  match fst r with
  | Norm => exists E', fst o = Some E' /\ ehas (snd r) E'
  | Brk => exists E', snd o = Some E' /\ ehas (env_leave n (snd r)) (tleave n E')
  | Ret v => vhas v (kind_of rt)
  end.

Lemma fine_norm E' n m s : fine (fun e => ehas e E') (m s) -> fine (out_ok n (Some E', None)) (norm m s).
Proof.
  intros H. unfold norm. eapply fine_bind; [exact H|]. intros e s' He V. apply fine_ret; [|exact V]. cbn. eauto.
Qed.
Lemma with_fine x f e E s : ehas e E -> has_kind E x KNode = true -> viewed s ->
  fine (fun e' => ehas e' E) (with_node x f e s).
Proof.
  intros He Hk V. unfold with_node. unfold has_kind in Hk. destruct (tget x E) as [k|] eqn:G; [|discriminate].
  assert (k = KNode) as -> by (destruct k; try discriminate; reflexivity).
  destruct (ehas_get _ _ _ _ He G) as (v & -> & [n ->]).
  assert (S : tset x KNode E = Some E).
  { clear -G. induction E as [|[y k] E IH]; [discriminate|]. cbn [tget tset] in *.
    destruct (String.eqb x y); [injection G as ->; reflexivity|]. now rewrite (IH G). }
  eapply set_fine; eauto. cbn. eauto.
Qed.

Lemma tjoin_opt1 a b r E e : tjoin_opt a b = Some r -> a = Some E -> ehas e E -> exists E', r = Some E' /\ ehas e E'.
Proof.
  intros J -> He. destruct b as [y|]; cbn in J.
  - destruct (tjoin E y) as [z|] eqn:Ej; [|discriminate]. injection J as <-. exists z. split; [reflexivity|eapply ehas_join1; eauto].
  - injection J as <-. eauto.
Qed.
Lemma tjoin_opt2 a b r E e : tjoin_opt a b = Some r -> b = Some E -> ehas e E -> exists E', r = Some E' /\ ehas e E'.
Proof.
  intros J -> He. destruct a as [y|]; cbn in J.
  - destruct (tjoin y E) as [z|] eqn:Ej; [|discriminate]. injection J as <-. exists z. split; [reflexivity|eapply ehas_join2; eauto].
  - injection J as <-. eauto.
Qed.
Lemma tleave_idem n m (E : tenv) : n <= m -> tleave n (tleave m E) = tleave n E.
Proof.
  intro H. unfold tleave. rewrite skipn_length.
  assert (K : forall a b (l : tenv), skipn a (skipn b l) = skipn (b + a) l).
  { induction b as [|b IHb]; intros [|x l]; try reflexivity; [now rewrite !skipn_nil|]. cbn. apply IHb. }
  rewrite K. f_equal. lia.
Qed.

(* leaving the scope that was entered with n bindings *)
Lemma scoped_fine n o m s : fine (out_ok n o) (m s) -> fine (out_ok n (tscope n o)) (scoped n m s).
Proof.
  intro H. unfold scoped. eapply fine_bind; [exact H|]. intros [ct e'] s' Ho V. apply fine_ret; [|exact V].
  unfold out_ok in *. cbn [fst snd tscope] in *. destruct ct.
  - destruct Ho as (E' & -> & He). cbn. eexists. split; [reflexivity|now apply ehas_leave].
  - destruct Ho as (E' & -> & He). cbn. eexists. split; [reflexivity|].
    rewrite leave_leave, tleave_idem by lia. exact He.
  - exact Ho.
Qed.
Lemma join_out1 n a b o r : tjoin_out (tscope n a) (tscope n b) = Some o -> out_ok n (tscope n a) r -> out_ok n o r.
Proof.
  unfold tjoin_out. intros J H. apply obind_inv in J as (x & J1 & J). apply obind_inv in J as (y & J2 & J). injection J as <-.
  unfold out_ok in *. destruct r as [[] e']; cbn [fst snd] in *.
  - destruct H as (E' & Hs & He). eapply tjoin_opt1; eauto.
  - destruct H as (E' & Hs & He).
    assert (K : tleave n E' = E').
    { cbn [tscope snd] in Hs. destruct (snd a); [|discriminate]. injection Hs as <-. now apply tleave_idem. }
    rewrite K in He. destruct (tjoin_opt1 _ _ _ _ _ J2 Hs He) as (E2 & -> & He2). exists E2. split; [reflexivity|].
    assert (K2 : env_leave n (env_leave n e') = env_leave n e') by (now apply leave_leave).
    rewrite <- K2. now apply ehas_leave.
  - exact H.
Qed.
Lemma join_out2 n a b o r : tjoin_out (tscope n a) (tscope n b) = Some o -> out_ok n (tscope n b) r -> out_ok n o r.
Proof.
  unfold tjoin_out. intros J H. apply obind_inv in J as (x & J1 & J). apply obind_inv in J as (y & J2 & J). injection J as <-.
  unfold out_ok in *. destruct r as [[] e']; cbn [fst snd] in *.
  - destruct H as (E' & Hs & He). eapply tjoin_opt2; eauto.
  - destruct H as (E' & Hs & He).
    assert (K : tleave n E' = E').
    { cbn [tscope snd] in Hs. destruct (snd b); [|discriminate]. injection Hs as <-. now apply tleave_idem. }
    rewrite K in He. destruct (tjoin_opt2 _ _ _ _ _ J2 Hs He) as (E2 & -> & He2). exists E2. split; [reflexivity|].
    assert (K2 : env_leave n (env_leave n e') = env_leave n e') by (now apply leave_leave).
    rewrite <- K2. now apply ehas_leave.
  - exact H.
Qed.

Lemma branch_fine n (b : bool) a1 a2 o1 o2 o m1 m2 s :
  tjoin_out (tscope n o1) (tscope n o2) = Some o -> (a1 = a1 :> unit) -> (a2 = a2 :> unit) ->
  (b = true -> fine (out_ok n o1) (m1 s)) -> (b = false -> fine (out_ok n o2) (m2 s)) ->
  fine (out_ok n o) (scoped n (if b then m1 else m2) s).
Proof.
  intros J _ _ H1 H2. destruct b.
  - eapply fine_weaken; [|apply scoped_fine, H1; reflexivity]. intros r. now apply (join_out1 n o1 o2).
  - eapply fine_weaken; [|apply scoped_fine, H2; reflexivity]. intros r. now apply (join_out2 n o1 o2).
Qed.

(* one iteration of a loop whose environment is described by E *)
Lemma after_fine n E (o : tout) m s : n = length E ->
  fine (out_ok n o) (m s) -> le_opt (fst (tscope n o)) E && le_opt (snd (tscope n o)) E = true ->
  fine (fun r => match r with (true, _, e) | (false, Norm, e) => ehas e E
        | (false, Brk, _) => False | (false, Ret v, _) => vhas v (kind_of rt) end)
    (bind m (fun r => ret (after_body n r)) s).
Proof.
  intros Hn H L. apply andb_true_iff in L as [L1 L2]. eapply fine_bind; [exact H|].
  intros [ct e'] s' Ho V. apply fine_ret; [|exact V]. unfold out_ok in Ho. cbn [fst snd] in Ho.
  destruct ct; cbn [after_body].
  - destruct Ho as (E' & Hs & He). rewrite (surjective_pairing o), Hs in L1. cbn in L1.
    eapply ehas_le; [apply ehas_leave; exact He|exact L1].
  - destruct Ho as (E' & Hs & He). rewrite (surjective_pairing o), Hs in L2. cbn in L2.
    eapply ehas_le; [exact He|exact L2].
  - exact Ho.
Qed.
Definition step_ok (E : tenv) (r : bool * ctl * env) : Prop :=
  match r with (true, _, e) | (false, Norm, e) => ehas e E
    | (false, Brk, _) => False | (false, Ret v, _) => vhas v (kind_of rt) end.
Lemma iterate_fine E step k : (forall e s, ehas e E -> viewed s -> fine (step_ok E) (step e s)) ->
  forall e s n, ehas e E -> viewed s -> fine (out_ok n (Some E, None)) (iterate k step e s).
Proof.
  intro H. induction k as [|k IH]; intros e s n He V; cbn [iterate]; [exact I|].
  eapply fine_bind; [now apply H|]. intros [[go ct] e'] s' Ho V'. destruct go; [now apply IH|].
  apply fine_ret; [|exact V']. unfold out_ok. cbn. destruct ct; cbn in Ho; [eauto|contradiction|exact Ho].
Qed.
Lemma repeat_fine E body k : (forall e s, ehas e E -> viewed s ->
    fine (step_ok E) (bind (body e) (fun r => ret (after_body (length e) r)) s)) ->
  forall e s n, ehas e E -> viewed s -> fine (out_ok n (Some E, None)) (repeat_body k body e s).
Proof.
  intro H. induction k as [|k IH]; intros e s n He V; cbn [repeat_body].
  - apply fine_ret; [|exact V]. cbn. eauto.
  - specialize (H e s He V). unfold bind in *. destruct (body e s) as [r s1|? ?|?| |]; try exact H.
    destruct H as [H V1]. destruct (after_body (length e) r) as [[go ct] e']. destruct go; [now apply IH|].
    apply fine_ret; [|exact V1]. unfold out_ok. cbn. destruct ct; cbn in H; [eauto|contradiction|exact H].
Qed.

Lemma exec_fine c : forall e E o s, ehas e E -> tcmd sig rt c E = Some o -> viewed s ->
  fine (out_ok (length E) o) (exec U call lf c e s).
Proof.
  induction c; intros en E o st He Ht V; cbn [exec tcmd] in *.
  - injection Ht as <-. apply fine_ret; [|exact V]. cbn. eauto.
  - apply obind_inv in Ht as ([n1 b1] & H1 & Ht). eapply fine_bind; [eapply IHc1; eauto|].
    intros [ct e1] s1 Ho V1. unfold out_ok in Ho. cbn [fst snd] in Ho. destruct ct.
    + destruct Ho as (E1 & -> & He1). apply check_inv in Ht as [Hl Ht]. apply Nat.leb_le in Hl.
      apply obind_inv in Ht as ([n2 b2] & H2 & Ht). apply obind_inv in Ht as (b3 & J & Ht). injection Ht as <-.
      eapply fine_weaken; [|eapply IHc2; eauto]. intros [ct e2] Ho. unfold out_ok in *. cbn [fst snd] in *.
      destruct ct; [exact Ho| |exact Ho]. destruct Ho as (E2 & -> & He2).
      cbn [option_map] in J. apply (ehas_leave _ _ (length E)) in He2.
      rewrite leave_leave, tleave_idem in He2 by exact Hl.
      destruct (tjoin_opt2 _ _ _ _ _ J eq_refl He2) as (E3 & -> & He3). exists E3. split; [reflexivity|].
      rewrite <- (leave_leave (length E) (length E) e2) by lia. now apply ehas_leave.
    + destruct Ho as (E1 & -> & He1). destruct n1 as [E2|].
      * apply check_inv in Ht as [Hl Ht]. apply obind_inv in Ht as ([n2 b2] & H2 & Ht).
        apply obind_inv in Ht as (b3 & J & Ht). injection Ht as <-. apply fine_ret; [|exact V1].
        unfold out_ok. cbn [fst snd]. cbn [option_map] in J.
        destruct (tjoin_opt1 _ _ _ _ _ J eq_refl He1) as (E3 & -> & He3). exists E3. split; [reflexivity|].
        rewrite <- (leave_leave (length E) (length E) e1) by lia. now apply ehas_leave.
      * injection Ht as <-. apply fine_ret; [|exact V1]. cbn. eauto.
    + apply fine_ret; [|exact V1]. exact Ho.
  - unfold tnorm in Ht. apply obind_inv in Ht as (E' & Ht & [= <-]). apply obind_inv in Ht as (E1 & H1 & [= <-]).
    eapply fine_bind; [eapply nexp_fine; eauto|]. intros [n e1] s1 He1 V1. apply fine_ret; [|exact V1].
    cbn. eexists. split; [reflexivity|]. constructor; [split; [reflexivity|cbn; eauto]|exact He1].
  - unfold tnorm in Ht. apply obind_inv in Ht as (E' & Ht & [= <-]). apply obind_inv in Ht as (E1 & H1 & Ht).
    eapply fine_bind; [eapply nexp_fine; eauto|]. intros [n e1] s1 He1 V1.
    apply fine_norm. eapply set_fine; eauto. cbn. eauto.
  - unfold tnorm in Ht. apply obind_inv in Ht as (E' & Ht & [= <-]). apply obind_inv in Ht as (E1 & H1 & [= <-]).
    eapply fine_bind; [eapply vexp_fine; eauto|]. intros [n e1] s1 He1 V1. apply fine_ret; [|exact V1].
    cbn. eexists. split; [reflexivity|]. constructor; [split; [reflexivity|cbn; eexists; split; [reflexivity|discriminate]]|exact He1].
  - unfold tnorm in Ht. apply obind_inv in Ht as (E' & Ht & [= <-]). apply obind_inv in Ht as (E1 & H1 & Ht).
    eapply fine_bind; [eapply vexp_fine; eauto|]. intros [n e1] s1 He1 V1.
    apply fine_norm. eapply set_fine; eauto. cbn. eexists; split; [reflexivity|discriminate].
  - unfold tnorm in Ht. apply obind_inv in Ht as (E' & Ht & [= <-]). apply check_inv in Ht as [Hc [= <-]].
    eapply fine_bind; [eapply cond_fine; eauto|]. intros b s1 _ V1. apply fine_ret; [|exact V1].
    cbn. eexists. split; [reflexivity|]. constructor; [split; [reflexivity|cbn; eauto]|exact He].
  - unfold tnorm in Ht. apply obind_inv in Ht as (E' & Ht & [= <-]). apply check_inv in Ht as [Hc Ht].
    eapply fine_bind; [eapply cond_fine; eauto|]. intros b s1 _ V1.
    apply fine_norm. eapply set_fine; eauto. cbn. eauto.
  - unfold tnorm in Ht. apply obind_inv in Ht as (E' & Ht & [= <-]). apply check_inv in Ht as [Hc [= <-]].
    eapply fine_bind; [eapply num_fine; eauto|]. intros b s1 _ V1. apply fine_ret; [|exact V1].
    cbn. eexists. split; [reflexivity|]. constructor; [split; [reflexivity|cbn; eauto]|exact He].
  - unfold tnorm in Ht. apply obind_inv in Ht as (E' & Ht & [= <-]). apply check_inv in Ht as [Hc Ht].
    eapply fine_bind; [eapply num_fine; eauto|]. intros b s1 _ V1.
    apply fine_norm. eapply set_fine; eauto. cbn. eauto.
  - injection Ht as <-. apply fine_ret; [|exact V]. cbn. eexists. split; [reflexivity|].
    constructor; [split; [reflexivity|cbn; eauto]|exact He].
  - injection Ht as <-. eapply fine_bind; [now apply get_token_fine|]. intros t s1 _ V1. apply fine_ret; [|exact V1].
    cbn. eexists. split; [reflexivity|]. constructor; [split; [reflexivity|cbn; eauto]|exact He].
  - injection Ht as <-. apply fine_ret; [|exact V]. cbn. eexists. split; [reflexivity|].
    constructor; [split; [reflexivity|exact I]|exact He].
  - injection Ht as <-. eapply fine_bind; [eapply next_fine; eassumption|]. intros u s1 _ V1. apply fine_ret; [|exact V1]. cbn. eauto.
  - unfold tnorm in Ht. apply obind_inv in Ht as (E' & Ht & [= <-]). apply obind_inv in Ht as (E1 & H1 & Ht).
    destruct (has_kind E1 x KNode) eqn:Hk; [|discriminate]. injection Ht as <-.
    eapply fine_bind; [eapply nexp_fine; eauto|]. intros [n e1] s1 He1 V1.
    apply fine_norm. eapply with_fine; eauto.
  - unfold tnorm in Ht. apply obind_inv in Ht as (E' & Ht & [= <-]). apply obind_inv in Ht as (E1 & H1 & Ht).
    destruct (has_kind E1 x KNode) eqn:Hk; [|discriminate]. injection Ht as <-.
    eapply fine_bind; [eapply vexp_fine; eauto|]. intros [n e1] s1 He1 V1.
    apply fine_norm. eapply with_fine; eauto.
  - unfold tnorm in Ht. apply obind_inv in Ht as (E' & Ht & [= <-]). apply obind_inv in Ht as (E1 & H1 & Ht).
    destruct (has_kind E1 v (KVec false)) eqn:Hk; [|discriminate].
    eapply fine_bind; [eapply nexp_fine; eauto|]. intros [n e1] s1 He1 V1. cbn [fst snd] in *.
    kind_get K. destruct K as (l & -> & _).
    apply fine_norm. eapply set_fine; eauto.
    cbn. eexists. split; [reflexivity|]. intros _ X. apply app_eq_nil in X as [_ X]. discriminate.
  - unfold tnorm in Ht. apply obind_inv in Ht as (E' & Ht & [= <-]). destruct (has_kind E x KNode) eqn:Hk; [|discriminate].
    injection Ht as <-. apply fine_norm. eapply with_fine; eauto.
  - apply check_inv in Ht as [Hc Ht]. apply obind_inv in Ht as (o1 & H1 & Ht). apply obind_inv in Ht as (o2 & H2 & J).
    pose proof (cond_fine _ _ _ _ He Hc V) as K. unfold bind at 1.
    match goal with |- context [eval_cond U ?x en st] => rename x into cnd end.
    destruct (eval_cond U cnd en st) as [b s1|? ?|?| |] eqn:Ec; try exact K. destruct K as [_ V1].
    rewrite (ehas_length _ _ He).
    apply (branch_fine _ b tt tt o1 o2 o _ _ s1 J eq_refl eq_refl).
    + intros ->. rewrite <- (refine_length cnd E). eapply IHc1; eauto. eapply refine_ok; eauto.
    + intros ->. eapply IHc2; eauto.
  - apply obind_inv in Ht as (o1 & H1 & Ht). apply obind_inv in Ht as (o2 & H2 & J).
    eapply fine_bind; [now apply get_token_fine|]. intros t s1 _ V1. rewrite (ehas_length _ _ He).
    apply (branch_fine _ _ tt tt o1 o2 o _ _ s1 J eq_refl eq_refl); intros _; [eapply IHc1|eapply IHc2]; eauto.
  - apply obind_inv in Ht as (o1 & H1 & Ht). apply obind_inv in Ht as (o2 & H2 & J).
    eapply fine_bind; [now apply get_token_fine|]. intros t s1 _ V1. rewrite (ehas_length _ _ He).
    apply (branch_fine _ _ tt tt o1 o2 o _ _ s1 J eq_refl eq_refl); intros _; [eapply IHc1|eapply IHc2]; eauto.
  - apply check_inv in Ht as [Hk Ht]. apply obind_inv in Ht as (o1 & H1 & Ht). apply obind_inv in Ht as (o2 & H2 & J).
    kind_get K. destruct K as [u ->]. rewrite (ehas_length _ _ He).
    apply (branch_fine _ _ tt tt o1 o2 o _ _ st J eq_refl eq_refl); intros _; [eapply IHc1|eapply IHc2]; eauto.
  - apply check_inv in Ht as [Hc Ht]. apply obind_inv in Ht as (o1 & H1 & Ht). apply check_inv in Ht as [Hl Ht]. injection Ht as <-.
    apply iterate_fine; [|exact He|exact V]. intros e1 s1 He1 V1.
    pose proof (cond_fine _ _ _ _ He1 Hc V1) as K. unfold bind at 1.
    match goal with |- context [eval_cond U ?x e1 s1] => rename x into cnd end.
    destruct (eval_cond U cnd e1 s1) as [b s2|? ?|?| |] eqn:Ec; try exact K. destruct K as [_ V2].
    destruct b; [|now apply fine_ret]. rewrite (ehas_length _ _ He1).
    eapply (after_fine _ E o1); [reflexivity| |exact Hl]. rewrite <- (refine_length cnd E).
    eapply IHc; eauto. eapply refine_ok; eauto.
  - apply check_inv in Ht as [Hk Ht]. apply obind_inv in Ht as (E1 & HE1 & Ht). apply obind_inv in Ht as (o1 & H1 & Ht).
    apply check_inv in Ht as [Hl Ht]. injection Ht as <-.
    assert (He1 : ehas en E1).
    { kind_get K. eapply ehas_self; eauto. }
    rewrite <- (tset_length _ _ _ _ HE1) in *.
    apply iterate_fine; [|exact He1|exact V]. intros e1 s1 He2 V1.
    destruct (ehas_get _ _ _ _ He2 (tset_get _ _ _ _ HE1)) as (w & Hg & (l & -> & _)). rewrite Hg.
    destruct (rev l) as [|n r]; [now apply fine_ret|].
    eapply fine_bind; [eapply set_fine; [exact He2|exact (tset_again _ _ _ _ HE1)| |exact V1]|].
    { eexists. split; [reflexivity|discriminate]. }
    intros e2 s2 He3 V2. rewrite (ehas_length _ _ He2).
    eapply (after_fine _ E1 o1); [reflexivity| |exact Hl].
    assert (K : fine (out_ok (length ((x, KNode) :: E1)) o1) (exec U call lf c ((x, VNode n) :: e2) s2)).
    { eapply IHc; eauto. constructor; [split; [reflexivity|cbn; eauto]|exact He3]. }
    revert K. apply fine_weaken. intros [ct e3] Ho. unfold out_ok in *. cbn [fst snd] in *.
    destruct ct; [exact Ho| |exact Ho]. destruct Ho as (E3 & -> & He4). exists E3. split; [reflexivity|].
    rewrite <- (leave_leave (length E1) (length ((x, KNode) :: E1)) e3), <- (tleave_idem (length E1) (length ((x, KNode) :: E1)) E3) by (cbn; lia).
    now apply ehas_leave.
  - apply check_inv in Ht as [Hk Ht]. apply obind_inv in Ht as (o1 & H1 & Ht).
    apply check_inv in Ht as [Hl Ht]. injection Ht as <-.
    kind_get K. destruct K as [k ->].
    apply repeat_fine; [|exact He|exact V]. intros e1 s1 He1 V1. rewrite (ehas_length _ _ He1).
    eapply (after_fine _ E o1); [reflexivity| |exact Hl]. eapply IHc; eauto.
  - injection Ht as <-. apply fine_ret; [|exact V]. cbn. eexists. split; [reflexivity|]. now apply ehas_leave.
  - apply obind_inv in Ht as (E1 & H1 & Ht). destruct rt eqn:Hrt; try discriminate. injection Ht as <-.
    eapply fine_bind; [eapply nexp_fine; eauto|]. intros. apply fine_ret; [|assumption]. cbn. rewrite Hrt. cbn. eauto.
  - apply obind_inv in Ht as (E1 & H1 & Ht). destruct rt eqn:Hrt; try discriminate. injection Ht as <-.
    eapply fine_bind; [eapply vexp_fine; eauto|]. intros. apply fine_ret; [|assumption]. cbn. rewrite Hrt. cbn. eexists; split; [reflexivity|discriminate].
  - eapply fine_bind; [now apply get_token_fine|]. intros t s1 _ V1. destruct d; [|exact I].
    eapply fine_bind; [now apply get_token_fine|]. intros. exact I.
  - apply obind_inv in Ht as (E1 & H1 & Ht). apply obind_inv in Ht as (E2 & H2 & Ht). apply obind_inv in Ht as (o1 & H3 & J).
    unfold tcall in H1. apply obind_inv in H1 as (E1' & Ha & H1).
    assert (snd (sig f) = TNode /\ E1' = E1) as [Hs ->].
    { destruct (snd (sig f)); try discriminate. injection H1 as <-. auto. }
    pose proof (args_fine args _ _ _ _ _ He Ha V) as K.
    destruct (eval_args U args en st) as [[vs e1] s1|? ?|?| |]; try exact K. destruct K as [[Hvs He1] V1]. cbn [fst snd] in *.
    pose proof (call_fine f vs s1 Hvs V1) as K.
    destruct (call f vs s1) as [v s2|er s2|s2| |]; try exact K.
    + destruct K as [Hv V2]. rewrite Hs in Hv. destruct Hv as [n ->].
      unfold norm. eapply fine_bind; [eapply set_fine; eauto; cbn; eauto|]. intros e2 s3 He2 V3.
      apply fine_ret; [|exact V3]. unfold tjoin_out in J. apply obind_inv in J as (x1 & J1 & J).
      apply obind_inv in J as (x2 & J2 & J). injection J as <-. unfold out_ok. cbn [fst snd] in *.
      eapply tjoin_opt1; eauto.
    + rewrite restore_org, (ehas_length _ _ He1).
      assert (L : length E1 = length E) by (eapply targs_length; eauto).
      assert (L2 : length E2 = length E1) by (eapply tset_length; eauto).
      rewrite <- L. eapply fine_weaken; [|apply scoped_fine; eapply IHc; eauto].
      intros r. apply (join_out2 (length E1) (Some E2, None)). rewrite <- J.
      unfold tscope at 1. cbn [fst snd option_map]. unfold tleave at 1. now rewrite L2, Nat.sub_diag.
Qed.

End Calls.

Theorem run_fine (prog : fn -> fundef fn) :
  (forall f, tfun sig (snd (sig f)) (prog f) (fst (sig f)) = true) ->
  forall fuel f vs s, vals_ok vs (fst (sig f)) -> viewed s ->
  fine (fun v => vhas v (kind_of (snd (sig f)))) (run U prog fuel f vs s).
Proof.
  intros P. induction fuel as [|fuel IH]; intros f vs s Hvs V; [exact I|]. cbn [run]. unfold call_body.
  specialize (P f). unfold tfun in P. apply andb_true_iff in P as [Hn P]. apply Nat.eqb_eq in Hn.
  assert (Lv : length vs = length (fst (sig f))) by (clear -Hvs; induction Hvs; cbn; congruence).
  rewrite Lv, Hn, Nat.eqb_refl.
  destruct (tcmd sig _ _ _) as [[[?|] [?|]]|] eqn:Ht; try discriminate.
  eapply fine_bind; [eapply exec_fine; [exact IH| |exact Ht|exact V]|].
  - clear -Hvs Hn. revert Hn. generalize (f_params (prog f)) as xs. induction Hvs; intros [|p ps] Hn; try discriminate; [constructor|].
    cbn in *. constructor; [split; [reflexivity|assumption]|]. apply IHHvs. lia.
  - intros [ct e] s1 Ho V1. unfold out_ok in Ho. cbn [fst snd] in *.
    destruct ct; [destruct Ho as (? & ? & _); discriminate|destruct Ho as (? & ? & _); discriminate|now apply fine_ret].
Qed.
End Exec.
End WithUnicode.
End Fine.
