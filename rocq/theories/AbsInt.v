(* A checker for MiniRust programs by abstract interpretation, for any abstract domain:
   the domain says what is known of the variables and of the parser state, and how the
   commands without control flow change it; branches, loops and scopes are handled here.
   Partial correctness: nothing is said about runs that fail. *)
From Verif Require Import Chars Token Cst Core MiniRust.
Local Open Scope list_scope.
Local Notation length := List.length.

Definition obind {A B} (o : option A) (f : A -> option B) : option B :=
  match o with Some a => f a | None => None end.
Notation "'let?' x := o 'in' f" := (obind o (fun x => f)) (at level 61, x pattern, right associativity).
Definition check (b : bool) : option unit := if b then Some tt else None.
Lemma check_inv b (A : Type) (o : option A) r : obind (check b) (fun _ => o) = Some r -> b = true /\ o = Some r.
Proof. destruct b; [auto|discriminate]. Qed.
Lemma obind_inv {A B} (o : option A) (f : A -> option B) r : obind o f = Some r -> exists a, o = Some a /\ f a = Some r.
Proof. destruct o; [eauto|discriminate]. Qed.

(* what a branch depends on *)
Inductive test :=
| QCond (c : cond)
| QUpper (k : nat) (pats : list string)
| QLiteral (k : nat) (pats : list string)
| QVar (x : string) (pats : list string).

Section WithUnicode.
Context (U : unicode).

Definition eval_test (q : test) (e : env) : M bool :=
  match q with
  | QCond c => eval_cond U c e
  | QUpper k pats => t <- get_token k ;; ret (mem_pats (upper_literal U t) pats)
  | QLiteral k pats => t <- get_token k ;; ret (mem_pats (literal t) pats)
  | QVar x pats => match env_get x e with Some (VStr u) => ret (mem_pats u pats) | _ => stuck end
  end.

Section Domain.
Context {fn : Type} {A : Type}.

Record domain := Domain {
  d_basic : cmd fn -> A -> option A;              (* commands without control flow; None: rejected *)
  d_test : test -> bool -> A -> option A;         (* after the test; None: this outcome is impossible *)
  d_pop : string -> string -> A -> option (A * A); (* x = v.pop(): x bound, v was empty *)
  d_leave : nat -> A -> option A;                 (* keep the n outermost variables *)
  d_size : A -> nat;                              (* number of variables *)
  d_join : A -> A -> option A;
  d_le : A -> A -> bool;
  d_ret : nexp fn -> A -> bool;
  d_retv : vexp fn -> A -> bool;
  d_try : string -> fn -> list arg -> A -> option (A * A)  (* success, handler *)
}.
Variable D : domain.

Definition out := (option A * option A)%type.      (* at the end, at Break; None: not reached *)
Definition join_opt (a b : option A) : option (option A) :=
  match a, b with
  | None, o | o, None => Some o
  | Some x, Some y => option_map Some (d_join D x y)
  end.
Definition leave_opt (n : nat) (a : option A) : option (option A) :=
  match a with None => Some None | Some a => option_map Some (d_leave D n a) end.
Definition scope (n : nat) (o : out) : option out :=
  let? a := leave_opt n (fst o) in Some (a, snd o).
Definition join_out (a b : out) : option out :=
  let? n := join_opt (fst a) (fst b) in let? k := join_opt (snd a) (snd b) in Some (n, k).
Definition le_opt (a : option A) (b : A) : bool := match a with None => true | Some a => d_le D a b end.
Definition on_opt (f : A -> option out) (a : option A) : option out :=
  match a with None => Some (None, None) | Some a => f a end.

(* [body inv]: the state at the end of an iteration started in inv, and at Break *)
Fixpoint invariant (n : nat) (body : A -> option out) (inv : A) : option (A * option A) :=
  let? o := body inv in
  if le_opt (fst o) inv then Some (inv, snd o)
  else match n with
       | 0 => None
       | S n => match fst o with
                | None => None
                | Some a => let? J := d_join D inv a in invariant n body J
                end
       end.
Definition rounds : nat := 6.

Fixpoint acmd (c : cmd fn) (a : A) : option out :=
  let branch q c1 c2 :=
    let n := d_size D a in
    let? o1 := on_opt (fun a => let? o := acmd c1 a in scope n o) (d_test D q true a) in
    let? o2 := on_opt (fun a => let? o := acmd c2 a in scope n o) (d_test D q false a) in
    join_out o1 o2 in
  match c with
  | Skip => Some (Some a, None)
  | Seq c1 c2 =>
      let? (n1, b1) := acmd c1 a in
      match n1 with
      | None => Some (None, b1)
      | Some a1 =>
          let? _ := check (Nat.leb (d_size D a) (d_size D a1)) in
          let? (n2, b2) := acmd c2 a1 in
          let? b2 := leave_opt (d_size D a) b2 in
          let? b := join_opt b1 b2 in Some (n2, b)
      end
  | If c c1 c2 => branch (QCond c) c1 c2
  | CaseUpper k pats c1 c2 => branch (QUpper k pats) c1 c2
  | CaseLiteral k pats c1 c2 => branch (QLiteral k pats) c1 c2
  | CaseVar x pats c1 c2 => branch (QVar x pats) c1 c2
  | While c b =>
      let? (inv, brk) := invariant rounds (fun inv =>
        on_opt (fun a => let? o := acmd b a in scope (d_size D inv) o) (d_test D (QCond c) true inv)) a in
      let? n := join_opt (d_test D (QCond c) false inv) brk in Some (n, None)
  | WhilePop x v b =>
      let? (inv, brk) := invariant rounds (fun inv =>
        let? (a, _) := d_pop D x v inv in let? o := acmd b a in
        let? k := leave_opt (d_size D inv) (snd o) in
        let? n := leave_opt (d_size D inv) (fst o) in Some (n, k)) a in
      let? (_, e) := d_pop D x v inv in
      let? n := join_opt (Some e) brk in Some (n, None)
  | ForFrom1 _ b =>
      let? (inv, brk) := invariant rounds (fun inv => let? o := acmd b inv in scope (d_size D inv) o) a in
      let? n := join_opt (Some inv) brk in Some (n, None)
  | Break => Some (None, Some a)
  | Return e => let? _ := check (d_ret D e a) in Some (None, None)
  | ReturnVec v => let? _ := check (d_retv D v a) in Some (None, None)
  | Fail _ _ _ => Some (None, None)
  | Try x f args h =>
      let? (a1, a2) := d_try D x f args a in
      let? o := acmd h a2 in
      let? o := scope (d_size D a2) o in
      join_out (Some a1, None) o
  | c => let? a' := d_basic D c a in Some (Some a', None)
  end.

(* ----- soundness ----- *)
Variable call : fn -> list value -> M value.
Variable lf : nat.
Variable gamma : A -> env -> pstate -> Prop.
Variable Q : value -> pstate -> Prop.

Definition control (c : cmd fn) : bool :=
  match c with
  | Skip | Seq _ _ | If _ _ _ | CaseUpper _ _ _ _ | CaseLiteral _ _ _ _ | CaseVar _ _ _ _
  | While _ _ | WhilePop _ _ _ | ForFrom1 _ _ | Break | Return _ | ReturnVec _ | Fail _ _ _
  | Try _ _ _ _ => true
  | _ => false
  end.

Record sound : Prop := Sound {
  s_basic : forall c a a' e s ct e' s', control c = false ->
    d_basic D c a = Some a' -> gamma a e s -> exec U call lf c e s = Ok (ct, e') s' ->
    ct = Norm /\ gamma a' e' s';
  s_test : forall q a e s b s', gamma a e s -> eval_test q e s = Ok b s' ->
    exists a', d_test D q b a = Some a' /\ gamma a' e s';
  s_test_size : forall q b a a', d_test D q b a = Some a' -> d_size D a' = d_size D a;
  s_pop : forall x v a a1 a2 e s l, d_pop D x v a = Some (a1, a2) -> gamma a e s ->
    env_get v e = Some (VVec l) ->
    (l = [] -> gamma a2 e s) /\
    (forall n r e1, rev l = n :: r -> env_set v (VVec (rev r)) e = Some e1 ->
       gamma a1 ((x, VNode n) :: e1) s);
  s_pop_size : forall x v a a1 a2, d_pop D x v a = Some (a1, a2) -> d_size D a1 = S (d_size D a);
  s_leave : forall n a a' e s, d_leave D n a = Some a' -> gamma a e s -> gamma a' (env_leave n e) s;
  s_size : forall a e s, gamma a e s -> length e = d_size D a;
  s_join : forall a b c e s, d_join D a b = Some c -> gamma a e s \/ gamma b e s -> gamma c e s;
  s_le : forall a b e s, d_le D a b = true -> gamma a e s -> gamma b e s;
  s_ret : forall x a e s n e' s', d_ret D x a = true -> gamma a e s ->
    eval_nexp U call x e s = Ok (n, e') s' -> Q (VNode n) s';
  s_retv : forall x a e s l e' s', d_retv D x a = true -> gamma a e s ->
    eval_vexp U call x e s = Ok (l, e') s' -> Q (VVec l) s';
  s_try : forall x f args a a1 a2 e s vs e1 s1, d_try D x f args a = Some (a1, a2) -> gamma a e s ->
    eval_args U args e s = Ok (vs, e1) s1 ->
    gamma a2 e1 s1 /\
    (forall n s2 e2, call f vs s1 = Ok (VNode n) s2 -> env_set x (VNode n) e1 = Some e2 -> gamma a1 e2 s2);
  s_try_size : forall x f args a a1 a2, d_try D x f args a = Some (a1, a2) ->
    d_size D a1 = d_size D a /\ d_size D a2 = d_size D a
}.
Hypothesis Sd : sound.

Definition okr (n : nat) (o : out) (r : res (ctl * env)) : Prop :=
  match r with
  | Ok (Norm, e) s => exists a, fst o = Some a /\ gamma a e s
  | Ok (Brk, e) s => exists a, snd o = Some a /\ gamma a (env_leave n e) s
  | Ok (Ret v, _) s => Q v s
  | _ => True
  end.

Lemma leave_leave n m (e : env) : n <= m -> env_leave n (env_leave m e) = env_leave n e.
Proof.
  intro H. unfold env_leave. rewrite skipn_length.
  assert (K : forall a b (l : env), skipn a (skipn b l) = skipn (b + a) l).
  { induction b as [|b IHb]; intros [|x l]; try reflexivity; [now rewrite !skipn_nil|]. cbn. apply IHb. }
  rewrite K. f_equal. lia.
Qed.
Lemma leave_self n (e : env) : length e = n -> env_leave n e = e.
Proof. intros <-. unfold env_leave. now rewrite Nat.sub_diag. Qed.

Lemma join_opt1 a b r x e s : join_opt a b = Some r -> a = Some x -> gamma x e s ->
  exists y, r = Some y /\ gamma y e s.
Proof.
  intros J -> H. destruct b as [y|]; cbn in J.
  - destruct (d_join D x y) eqn:E; [|discriminate]. injection J as <-. eexists. split; [reflexivity|]. eapply s_join; eauto.
  - injection J as <-. eauto.
Qed.
Lemma join_opt2 a b r x e s : join_opt a b = Some r -> b = Some x -> gamma x e s ->
  exists y, r = Some y /\ gamma y e s.
Proof.
  intros J -> H. destruct a as [y|]; cbn in J.
  - destruct (d_join D y x) eqn:E; [|discriminate]. injection J as <-. eexists. split; [reflexivity|]. eapply s_join; eauto.
  - injection J as <-. eauto.
Qed.
Lemma leave_opt_ok n a r x e s : leave_opt n a = Some r -> a = Some x -> gamma x e s ->
  exists y, r = Some y /\ gamma y (env_leave n e) s.
Proof.
  intros L -> H. cbn in L. destruct (d_leave D n x) eqn:E; [|discriminate]. injection L as <-.
  eexists. split; [reflexivity|]. eapply s_leave; eauto.
Qed.


Lemma scoped_ok n o o' m s : scope n o = Some o' -> okr n o (m s) -> okr n o' (scoped n m s).
Proof.
  unfold scope, scoped, bind. intros Sc H. apply obind_inv in Sc as (a & L & [= <-]).
  destruct (m s) as [[ct e] s1|? ?|?| |]; try exact I. cbn [fst snd ret]. unfold okr in *. cbn [fst snd] in *.
  destruct ct.
  - destruct H as (x & Hx & G). eapply leave_opt_ok; eauto.
  - destruct H as (x & Hx & G). exists x. split; [exact Hx|]. now rewrite leave_leave.
  - exact H.
Qed.
Lemma okr_join1 n a b o r : join_out a b = Some o -> okr n a r -> okr n o r.
Proof.
  unfold join_out. intros J H. apply obind_inv in J as (x & J1 & J). apply obind_inv in J as (y & J2 & [= <-]).
  unfold okr in *. destruct r as [[ct e] s|? ?|?| |]; try exact I. destruct ct; cbn [fst snd]; [| |exact H].
  - destruct H as (z & Hz & G). eapply join_opt1; eauto.
  - destruct H as (z & Hz & G). eapply join_opt1; eauto.
Qed.
Lemma okr_join2 n a b o r : join_out a b = Some o -> okr n b r -> okr n o r.
Proof.
  unfold join_out. intros J H. apply obind_inv in J as (x & J1 & J). apply obind_inv in J as (y & J2 & [= <-]).
  unfold okr in *. destruct r as [[ct e] s|? ?|?| |]; try exact I. destruct ct; cbn [fst snd]; [| |exact H].
  - destruct H as (z & Hz & G). eapply join_opt2; eauto.
  - destruct H as (z & Hz & G). eapply join_opt2; eauto.
Qed.

Definition exec_ok (c : cmd fn) : Prop :=
  forall a o e s, gamma a e s -> acmd c a = Some o -> okr (d_size D a) o (exec U call lf c e s).

Lemma branch_ok q c1 c2 : exec_ok c1 -> exec_ok c2 ->
  forall a o e s, gamma a e s ->
  (let? o1 := on_opt (fun b => let? o := acmd c1 b in scope (d_size D a) o) (d_test D q true a) in
   let? o2 := on_opt (fun b => let? o := acmd c2 b in scope (d_size D a) o) (d_test D q false a) in
   join_out o1 o2) = Some o ->
  okr (d_size D a) o
    (bind (eval_test q e) (fun v => scoped (length e) (if v : bool then exec U call lf c1 e else exec U call lf c2 e)) s).
Proof.
  intros H1 H2 a o e s G Ho. apply obind_inv in Ho as (o1 & E1 & Ho). apply obind_inv in Ho as (o2 & E2 & J).
  unfold bind at 1. destruct (eval_test q e s) as [b s1|? ?|?| |] eqn:Et; try exact I.
  destruct (s_test Sd _ _ _ _ _ _ G Et) as (a' & Ta & G').
  rewrite (s_size Sd _ _ _ G). pose proof (s_test_size Sd _ _ _ _ Ta) as Sz.
  destruct b.
  - rewrite Ta in E1. cbn in E1. apply obind_inv in E1 as (o3 & A1 & Sc).
    eapply okr_join1; [exact J|]. eapply scoped_ok; [exact Sc|]. rewrite <- Sz. eapply H1; eauto.
  - rewrite Ta in E2. cbn in E2. apply obind_inv in E2 as (o3 & A1 & Sc).
    eapply okr_join2; [exact J|]. eapply scoped_ok; [exact Sc|]. rewrite <- Sz. eapply H2; eauto.
Qed.

Lemma invariant_ok n body : forall a inv brk, invariant n body a = Some (inv, brk) ->
  (forall e s, gamma a e s -> gamma inv e s) /\
  exists o, body inv = Some o /\ le_opt (fst o) inv = true /\ snd o = brk.
Proof.
  induction n as [|n IH]; intros a inv brk H; cbn [invariant] in H; apply obind_inv in H as (o & Hb & H);
    destruct (le_opt (fst o) a) eqn:L.
  - injection H as <- <-. split; [auto|]. eauto.
  - discriminate.
  - injection H as <- <-. split; [auto|]. eauto.
  - destruct (fst o) as [x|] eqn:Fo; [|discriminate]. apply obind_inv in H as (J & HJ & H).
    destruct (IH _ _ _ H) as [G1 G2]. split; [|exact G2].
    intros e s G. apply G1. eapply s_join; eauto.
Qed.

Lemma after_ok I (o : out) n m s : n = d_size D I -> okr n o (m s) ->
  forall o', scope n o = Some o' -> le_opt (fst o') I = true ->
  match bind m (fun r => ret (after_body n r)) s with
  | Ok (true, _, e) s1 => gamma I e s1
  | Ok (false, Norm, e) s1 => exists b, snd o' = Some b /\ gamma b e s1
  | Ok (false, Brk, _) _ => False
  | Ok (false, Ret v, _) s1 => Q v s1
  | _ => True
  end.
Proof.
  intros Hn H o' Sc L. unfold bind. destruct (m s) as [[ct e] s1|? ?|?| |]; try exact Logic.I.
  unfold okr in H. cbn [fst snd] in H. unfold scope in Sc. apply obind_inv in Sc as (x & Lv & [= <-]). cbn [fst snd] in *.
  destruct ct; cbn [after_body ret].
  - destruct H as (y & Hy & G). destruct (leave_opt_ok _ _ _ _ _ _ Lv Hy G) as (z & -> & G').
    cbn in L. eapply s_le; eauto.
  - destruct H as (y & Hy & G). exists y. auto.
  - exact H.
Qed.

Definition step_ok (I : A) (brk : option A) (r : res (bool * ctl * env)) : Prop :=
  match r with
  | Ok (true, _, e) s1 => gamma I e s1
  | Ok (false, Norm, e) s1 => exists b, brk = Some b /\ gamma b e s1
  | Ok (false, Brk, _) _ => False
  | Ok (false, Ret v, _) s1 => Q v s1
  | _ => True
  end.
Lemma iterate_ok I brk step k n : (forall e s, gamma I e s -> step_ok I brk (step e s)) ->
  forall e s, gamma I e s -> okr n (brk, None) (iterate k step e s).
Proof.
  intro H. induction k as [|k IH]; intros e s G; cbn [iterate]; [exact Logic.I|].
  unfold bind. specialize (H e s G). destruct (step e s) as [[[go ct] e'] s'|? ?|?| |]; try exact Logic.I.
  cbn in H. destruct go; [now apply IH|]. unfold okr, ret. destruct ct; auto. contradiction.
Qed.
Lemma repeat_ok I brk body k n o : join_opt (Some I) brk = Some o ->
  (forall e s, gamma I e s -> step_ok I brk (bind (body e) (fun r => ret (after_body (length e) r)) s)) ->
  forall e s, gamma I e s -> okr n (o, None) (repeat_body k body e s).
Proof.
  intros J H. induction k as [|k IH]; intros e s G; cbn [repeat_body].
  - unfold okr, ret. eapply join_opt1; eauto.
  - specialize (H e s G). unfold bind in *. destruct (body e s) as [r s1|? ?|?| |]; try exact Logic.I.
    cbn [ret] in H. unfold step_ok in H. destruct (after_body (length e) r) as [[go ct] e']. destruct go; [now apply IH|].
    unfold okr, ret. destruct ct; [|contradiction|exact H]. destruct H as (b & Hb & Gb). eapply join_opt2; eauto.
Qed.


Theorem acmd_sound c : exec_ok c.
Proof.
  induction c; intros aa o en st G Ha;
    try match goal with |- okr _ _ (exec U call lf ?c en st) => assert (control c = false) as Hc by reflexivity;
         cbn [acmd] in Ha; apply obind_inv in Ha as (a' & Hb & Ho); injection Ho as <-;
         match goal with |- okr _ _ ?r => destruct r as [[ct en'] st'|? ?|?| |] eqn:Ex; try exact I end;
         destruct (s_basic Sd _ _ _ _ _ _ _ _ Hc Hb G Ex) as [-> G'];
         cbn [okr fst]; eexists; split; [reflexivity|exact G'] end.
  - injection Ha as <-. cbn. eauto.
  - cbn [acmd] in Ha. apply obind_inv in Ha as ([n1 b1] & H1 & Ha). cbn [exec]. unfold bind.
    pose proof (IHc1 _ _ _ _ G H1) as K. destruct (exec U call lf c1 en st) as [[ct e1] s1|? ?|?| |]; try exact I.
    unfold okr in K. cbn [fst snd] in K. destruct ct.
    + destruct K as (a1 & -> & G1). apply check_inv in Ha as [Hl Ha]. apply Nat.leb_le in Hl.
      apply obind_inv in Ha as ([n2 b2] & H2 & Ha). apply obind_inv in Ha as (b2' & L & Ha).
      apply obind_inv in Ha as (b & J & [= <-]).
      pose proof (IHc2 _ _ _ _ G1 H2) as K. destruct (exec U call lf c2 e1 s1) as [[ct e2] s2|? ?|?| |]; try exact I.
      unfold okr in *. cbn [fst snd] in *. destruct ct; [exact K| |exact K].
      destruct K as (x & Hx & Gx). destruct (leave_opt_ok _ _ _ _ _ _ L Hx Gx) as (y & -> & Gy).
      rewrite leave_leave in Gy by exact Hl. eapply join_opt2; eauto.
    + destruct K as (x & Hx & Gx). unfold okr, ret. destruct n1 as [a1|].
      * apply check_inv in Ha as [Hl Ha].
        apply obind_inv in Ha as ([n2 b2] & H2 & Ha). apply obind_inv in Ha as (b2' & L & Ha).
        apply obind_inv in Ha as (b & J & [= <-]). cbn [snd]. eapply join_opt1; eauto.
      * injection Ha as <-. eauto.
    + exact K.
  - cbn [exec]. match goal with |- context [eval_cond U ?q en] => exact (branch_ok (QCond q) _ _ IHc1 IHc2 aa o en st G Ha) end.
  - cbn [exec]. pose proof (branch_ok (QUpper k pats) c1 c2 IHc1 IHc2 aa o en st G Ha) as K.
    cbn [eval_test] in K. unfold bind in *. destruct (get_token k st); exact K.
  - cbn [exec]. pose proof (branch_ok (QLiteral k pats) c1 c2 IHc1 IHc2 aa o en st G Ha) as K.
    cbn [eval_test] in K. unfold bind in *. destruct (get_token k st); exact K.
  - cbn [exec]. pose proof (branch_ok (QVar x pats) c1 c2 IHc1 IHc2 aa o en st G Ha) as K.
    cbn [eval_test] in K. unfold bind in *. destruct (env_get x en) as [[]|]; exact K.
  - cbn [acmd] in Ha. apply obind_inv in Ha as ([J brk] & Hi & Ha). apply obind_inv in Ha as (x & Jo & [= <-]).
    destruct (invariant_ok _ _ _ _ _ Hi) as (Gi & o & Ho & L & Hs). cbn [exec].
    apply (iterate_ok J x).
    2:{ now apply Gi. }
    intros e1 s1 G1. unfold bind at 1. 
    match goal with |- context [eval_cond U ?y e1 s1] => destruct (eval_cond U y e1 s1) as [b s2|? ?|?| |] eqn:Et; try exact I end.
    destruct (s_test Sd (QCond _) _ _ _ _ _ G1 Et) as (a' & Ta & G').
    destruct b.
    + rewrite Ta in Ho. cbn [on_opt] in Ho. apply obind_inv in Ho as (o1 & A1 & Sc).
      rewrite (s_size Sd _ _ _ G1).
      match goal with |- step_ok _ _ (?r) => assert (Kr : step_ok J brk r) end.
      { unfold step_ok. rewrite <- Hs. eapply after_ok; [reflexivity| |exact Sc|exact L].
        rewrite <- (s_test_size Sd _ _ _ _ Ta). eapply IHc; eauto. }
      revert Kr. unfold step_ok. match goal with |- match ?r with _ => _ end -> _ => destruct r as [[[[] []] ?] ?|? ?|?| |]; auto end.
      all: try (intros (b & Hb & Gb); eapply join_opt2; eauto).
    + unfold step_ok, ret. eapply join_opt1; eauto.
  - cbn [acmd] in Ha. apply obind_inv in Ha as ([J brk] & Hi & Ha). apply obind_inv in Ha as ([ab ae] & Hp & Ha).
    apply obind_inv in Ha as (y & Jo & [= <-]).
    destruct (invariant_ok _ _ _ _ _ Hi) as (Gi & o & Ho & L & Hs). rewrite Hp in Ho. cbn [obind] in Ho.
    apply obind_inv in Ho as (o1 & A1 & Ho). apply obind_inv in Ho as (k & Lk & Ho). apply obind_inv in Ho as (n & Ln & [= <-]).
    cbn [fst snd] in *. subst brk. cbn [exec].
    apply (iterate_ok J y).
    2:{ now apply Gi. }
    intros e1 s1 G1. destruct (env_get v e1) as [[]|] eqn:Hg; try exact I.
    match goal with |- context [match rev ?l with _ => _ end] => rename l into ls end.
    destruct (s_pop Sd _ _ _ _ _ _ _ _ Hp G1 Hg) as [P1 P2].
    destruct (rev ls) as [|nd r] eqn:R.
    + unfold step_ok, ret. assert (ls = []) by (apply (f_equal (@rev _)) in R; now rewrite rev_involutive in R).
      eapply join_opt1; eauto.
    + unfold set_or_stuck. destruct (env_set v (VVec (rev r)) e1) as [e2|] eqn:Es; [|exact I].
      specialize (P2 _ _ _ eq_refl Es). unfold bind at 1. unfold ret at 1.
      rewrite (s_size Sd _ _ _ G1). unfold bind. pose proof (IHc _ _ _ _ P2 A1) as K.
      rewrite (s_pop_size Sd _ _ _ _ _ Hp) in K.
      destruct (exec U call lf c ((x, VNode nd) :: e2) s1) as [[ct e3] s3|? ?|?| |]; try exact I.
      unfold okr in K. cbn [fst snd] in K. unfold step_ok, ret. destruct ct; cbn [after_body].
      * destruct K as (z & Hz & Gz). destruct (leave_opt_ok _ _ _ _ _ _ Ln Hz Gz) as (z' & -> & Gz').
        cbn in L. eapply s_le; eauto.
      * destruct K as (z & Hz & Gz). destruct (leave_opt_ok _ _ _ _ _ _ Lk Hz Gz) as (z' & -> & Gz').
        rewrite leave_leave in Gz' by lia. eapply join_opt2; eauto.
      * exact K.
  - cbn [acmd] in Ha. apply obind_inv in Ha as ([J brk] & Hi & Ha). apply obind_inv in Ha as (x & Jo & [= <-]).
    destruct (invariant_ok _ _ _ _ _ Hi) as (Gi & o & Ho & L & Hs). cbn [exec].
    destruct (env_get n en) as [[]|]; try exact I.
    apply obind_inv in Ho as (o1 & A1 & Sc).
    apply (repeat_ok J brk); [exact Jo| |now apply Gi].
    intros e1 s1 G1. rewrite (s_size Sd _ _ _ G1). unfold step_ok. rewrite <- Hs.
    eapply after_ok; [reflexivity| |exact Sc|exact L]. eapply IHc; eauto.
  - injection Ha as <-. cbn. exists aa. split; [reflexivity|]. rewrite leave_self; [exact G|]. eapply s_size; eauto.
  - cbn [acmd] in Ha. apply check_inv in Ha as [Hr [= <-]]. cbn [exec]. unfold bind.
    destruct (eval_nexp U call e en st) as [[nd e1] s1|? ?|?| |] eqn:Ee; try exact I. cbn. eapply s_ret; eauto.
  - cbn [acmd] in Ha. apply check_inv in Ha as [Hr [= <-]]. cbn [exec]. unfold bind.
    destruct (eval_vexp U call v en st) as [[nd e1] s1|? ?|?| |] eqn:Ee; try exact I. cbn. eapply s_retv; eauto.
  - cbn [exec]. unfold bind. destruct (get_token k st); try exact I. destruct d; try exact I.
    destruct (get_token _ _); exact I.
  - cbn [acmd] in Ha. apply obind_inv in Ha as ([a1 a2] & Ht & Ha). apply obind_inv in Ha as (o1 & A1 & Ha).
    apply obind_inv in Ha as (o2 & Sc & J). cbn [exec].
    destruct (eval_args U args en st) as [[vs e1] s1|? ?|?| |] eqn:Ea; try exact I.
    destruct (s_try Sd _ _ _ _ _ _ _ _ _ _ _ Ht G Ea) as [G2 G1].
    destruct (s_try_size Sd _ _ _ _ _ _ Ht) as [Z1 Z2].
    destruct (call f vs s1) as [w s2|er s2|s2| |] eqn:Ec; try exact I.
    + destruct w; try exact I. unfold norm, bind, set_or_stuck.
      match goal with |- context [env_set x (VNode ?m) e1] => destruct (env_set x (VNode m) e1) as [e2|] eqn:Es; [|exact I] end.
      eapply okr_join1; [exact J|]. unfold okr, ret. cbn [fst]. eexists. split; [reflexivity|]. eauto.
    + assert (restore s1 s2 = s1) as -> by now destruct s1.
      rewrite (s_size Sd _ _ _ G2). eapply okr_join2; [exact J|]. rewrite <- Z2. eapply scoped_ok; [exact Sc|]. eapply IHc; eauto.
Qed.
End Domain.
End WithUnicode.
