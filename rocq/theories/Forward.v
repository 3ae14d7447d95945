(* Running the parser forward: rules that say what commands do on input of which something is
   known. [steps c e bs ct e' bs'] says that the command [c], run in the environment [e] at the
   first of the bundles [bs], ends with [ct] in the environment [e'] at the first of [bs']. *)
From Verif Require Import Chars Token Cst Core MiniRust Program Bundles ParserView ParserGeneric ShapeSound.
Local Open Scope string_scope.
Local Open Scope list_scope.
Local Notation length := List.length.

Section WithUnicode.
Context (U : unicode) (HU : ascii_faithful U).

Definition steps_n (n : nat) (c : cmd fn) (e : env) (bs : list bundle) (ct : ctl) (e' : env) (bs' : list bundle) : Prop :=
  forall s, view s bs -> exists s', exec U (run U prog n) n c e s = Ok (ct, e') s' /\ view s' bs'.
Definition steps c e bs ct e' bs' : Prop := exists n, steps_n n c e bs ct e' bs'.
Definition calls_n (n : nat) (f : fn) (vs : list value) (bs : list bundle) (v : value) (bs' : list bundle) : Prop :=
  forall s, view s bs -> exists s', run U prog n f vs s = Ok v s' /\ view s' bs'.
Definition calls f vs bs v bs' : Prop := exists n, calls_n n f vs bs v bs'.
Definition makes_n (n : nat) (x : nexp fn) (e : env) (bs : list bundle) (m : node) (e' : env) (bs' : list bundle) : Prop :=
  forall s, view s bs -> exists s', eval_nexp U (run U prog n) x e s = Ok (m, e') s' /\ view s' bs'.
Definition makes x e bs m e' bs' : Prop := exists n, makes_n n x e bs m e' bs'.
Definition lists_n (n : nat) (x : vexp fn) (e : env) (bs : list bundle) (l : list node) (e' : env) (bs' : list bundle) : Prop :=
  forall s, view s bs -> exists s', eval_vexp U (run U prog n) x e s = Ok (l, e') s' /\ view s' bs'.
Definition lists x e bs l e' bs' : Prop := exists n, lists_n n x e bs l e' bs'.
Definition decides (c : cond) (e : env) (bs : list bundle) (v : bool) : Prop :=
  forall s, view s bs -> eval_cond U c e s = Ok v s.
Definition counts (x : numexp) (e : env) (bs : list bundle) (v : N) : Prop :=
  forall s, view s bs -> eval_num U x e s = Ok v s.
Definition passes (args : list arg) (e : env) (bs : list bundle) (vs : list value) (e' : env) : Prop :=
  forall s, view s bs -> eval_args U args e s = Ok (vs, e') s.

(* ----- more fuel ----- *)
Lemma exec_more n m c e s r s' : n <= m -> exec U (run U prog n) n c e s = Ok r s' -> exec U (run U prog m) m c e s = Ok r s'.
Proof.
  intros L E. destruct (exec_less U (run U prog n) (run U prog m) n m (run_less U prog n m L) L c e s) as [H|H]; congruence.
Qed.
Lemma nexp_more n m x e s r s' : n <= m -> eval_nexp U (run U prog n) x e s = Ok r s' -> eval_nexp U (run U prog m) x e s = Ok r s'.
Proof. intros L E. destruct (eval_nexp_less U (run U prog n) (run U prog m) (run_less U prog n m L) x e s) as [H|H]; congruence. Qed.
Lemma vexp_more n m x e s r s' : n <= m -> eval_vexp U (run U prog n) x e s = Ok r s' -> eval_vexp U (run U prog m) x e s = Ok r s'.
Proof. intros L E. destruct (eval_vexp_less U (run U prog n) (run U prog m) (run_less U prog n m L) x e s) as [H|H]; congruence. Qed.
Lemma steps_more n m c e bs ct e' bs' : n <= m -> steps_n n c e bs ct e' bs' -> steps_n m c e bs ct e' bs'.
Proof. intros L H s V. destruct (H s V) as (s' & E & V'). exists s'. split; [eapply exec_more; eauto|exact V']. Qed.

(* ----- commands ----- *)
Lemma steps_skip e bs : steps Skip e bs Norm e bs.
Proof. exists 0. intros s V. exists s. now split. Qed.
Lemma steps_seq a b e bs e1 bs1 ct e' bs' : steps a e bs Norm e1 bs1 -> steps b e1 bs1 ct e' bs' -> steps (Seq a b) e bs ct e' bs'.
Proof.
  intros [n A] [m B]. exists (n + m). intros s V.
  destruct (steps_more n (n + m) _ _ _ _ _ _ (Nat.le_add_r _ _) A s V) as (s1 & E1 & V1).
  destruct (steps_more m (n + m) _ _ _ _ _ _ (Nat.le_add_l _ _) B s1 V1) as (s2 & E2 & V2).
  exists s2. split; [|exact V2]. cbn [exec]. unfold bind. now rewrite E1.
Qed.
Lemma steps_seq_ret a b e bs v e1 bs1 : steps a e bs (Ret v) e1 bs1 -> steps (Seq a b) e bs (Ret v) e1 bs1.
Proof.
  intros [n A]. exists n. intros s V. destruct (A s V) as (s1 & E1 & V1). exists s1. split; [|exact V1].
  cbn [exec]. unfold bind. now rewrite E1.
Qed.
Lemma steps_seq_brk a b e bs e1 bs1 : steps a e bs Brk e1 bs1 -> steps (Seq a b) e bs Brk e1 bs1.
Proof.
  intros [n A]. exists n. intros s V. destruct (A s V) as (s1 & E1 & V1). exists s1. split; [|exact V1].
  cbn [exec]. unfold bind. now rewrite E1.
Qed.
Lemma steps_next e b bs : bs <> [] -> steps Next e (b :: bs) Norm e bs.
Proof.
  intros Ne. destruct bs as [|b' bs]; [contradiction|]. exists 0. intros s V.
  destruct (next_token_view _ _ _ _ V) as (s' & E & V' & _). exists s'. split; [|exact V'].
  cbn [exec]. unfold bind. now rewrite E.
Qed.
Lemma steps_if c a b e bs v ct e1 bs1 : decides c e bs v -> steps (if v then a else b) e bs ct e1 bs1 ->
  steps (If c a b) e bs ct (env_leave (length e) e1) bs1.
Proof.
  intros D [n S]. exists n. intros s V. destruct (S s V) as (s' & E & V'). exists s'. split; [|exact V'].
  cbn [exec]. unfold bind, scoped. rewrite (D s V). unfold bind. destruct v; now rewrite E.
Qed.
Lemma steps_eq c e bs ct e1 e2 bs1 : steps c e bs ct e1 bs1 -> e1 = e2 -> steps c e bs ct e2 bs1. Proof. now intros S <-. Qed.
Lemma steps_case k pats a b e bs t v ct e1 bs1 : tok_at bs k = Some t -> mem_pats (upper_literal U t) pats = v ->
  steps (if v then a else b) e bs ct e1 bs1 -> steps (CaseUpper k pats a b) e bs ct (env_leave (length e) e1) bs1.
Proof.
  intros T M [n S]. exists n. intros s V. destruct (S s V) as (s' & E & V'). exists s'. split; [|exact V'].
  cbn [exec]. unfold bind. rewrite (get_token_view _ _ k V). unfold tok_at in T. destruct (nth_error bs k); [|discriminate].
  injection T as ->. rewrite M. unfold scoped, bind. destruct v; now rewrite E.
Qed.
Lemma steps_casevar x pats a b e bs u v ct e1 bs1 : env_get x e = Some (VStr u) -> mem_pats u pats = v ->
  steps (if v then a else b) e bs ct e1 bs1 -> steps (CaseVar x pats a b) e bs ct (env_leave (length e) e1) bs1.
Proof.
  intros T M [n S]. exists n. intros s V. destruct (S s V) as (s' & E & V'). exists s'. split; [|exact V'].
  cbn [exec]. rewrite T, M. unfold scoped, bind. destruct v; now rewrite E.
Qed.
Lemma steps_let x ex e bs m e1 bs1 : makes ex e bs m e1 bs1 -> steps (LetNode x ex) e bs Norm ((x, VNode m) :: e1) bs1.
Proof.
  intros [n A]. exists n. intros s V. destruct (A s V) as (s' & E & V'). exists s'. split; [|exact V'].
  cbn [exec]. unfold bind. now rewrite E.
Qed.
Lemma steps_set x ex e bs m e1 bs1 e2 : makes ex e bs m e1 bs1 -> env_set x (VNode m) e1 = Some e2 ->
  steps (SetNode x ex) e bs Norm e2 bs1.
Proof.
  intros [n A] S. exists n. intros s V. destruct (A s V) as (s' & E & V'). exists s'. split; [|exact V'].
  cbn [exec]. unfold bind. rewrite E. unfold norm, bind, set_or_stuck. cbn [fst snd]. now rewrite S.
Qed.
Lemma steps_push x k ex e bs m e1 bs1 n e2 : makes ex e bs m e1 bs1 -> env_get x e1 = Some (VNode n) ->
  env_set x (VNode (push_node k m n)) e1 = Some e2 -> steps (Push x k ex) e bs Norm e2 bs1.
Proof.
  intros [f A] G S. exists f. intros s V. destruct (A s V) as (s' & E & V'). exists s'. split; [|exact V'].
  cbn [exec]. unfold bind. rewrite E. unfold norm, bind, with_node, set_or_stuck. cbn [fst snd]. now rewrite G, S.
Qed.
Lemma steps_pushvec x k ex e bs l e1 bs1 n e2 : lists ex e bs l e1 bs1 -> env_get x e1 = Some (VNode n) ->
  env_set x (VNode (push_node_vec k l n)) e1 = Some e2 -> steps (PushVec x k ex) e bs Norm e2 bs1.
Proof.
  intros [f A] G S. exists f. intros s V. destruct (A s V) as (s' & E & V'). exists s'. split; [|exact V'].
  cbn [exec]. unfold bind. rewrite E. unfold norm, bind, with_node, set_or_stuck. cbn [fst snd]. now rewrite G, S.
Qed.
Lemma steps_letvec x ex e bs l e1 bs1 : lists ex e bs l e1 bs1 -> steps (LetVec x ex) e bs Norm ((x, VVec l) :: e1) bs1.
Proof.
  intros [n A]. exists n. intros s V. destruct (A s V) as (s' & E & V'). exists s'. split; [|exact V'].
  cbn [exec]. unfold bind. now rewrite E.
Qed.
Lemma steps_setvec x ex e bs l e1 bs1 e2 : lists ex e bs l e1 bs1 -> env_set x (VVec l) e1 = Some e2 ->
  steps (SetVec x ex) e bs Norm e2 bs1.
Proof.
  intros [n A] S. exists n. intros s V. destruct (A s V) as (s' & E & V'). exists s'. split; [|exact V'].
  cbn [exec]. unfold bind. rewrite E. unfold norm, bind, set_or_stuck. cbn [fst snd]. now rewrite S.
Qed.
Lemma steps_vecpush x ex e bs m e1 bs1 l e2 : makes ex e bs m e1 bs1 -> env_get x e1 = Some (VVec l) ->
  env_set x (VVec (l ++ [m])) e1 = Some e2 -> steps (VecPush x ex) e bs Norm e2 bs1.
Proof.
  intros [f A] G S. exists f. intros s V. destruct (A s V) as (s' & E & V'). exists s'. split; [|exact V'].
  cbn [exec]. unfold bind. rewrite E. cbn [fst snd]. rewrite G. unfold norm, bind, set_or_stuck. now rewrite S.
Qed.
Lemma steps_settype x ty e bs n e2 : env_get x e = Some (VNode n) -> env_set x (VNode (set_type ty n)) e = Some e2 ->
  steps (SetType x ty) e bs Norm e2 bs.
Proof.
  intros G S. exists 0. intros s V. exists s. split; [|exact V]. cbn [exec]. unfold norm, bind, with_node, set_or_stuck.
  now rewrite G, S.
Qed.
Lemma steps_declare x e bs : steps (Declare x) e bs Norm ((x, VUndef) :: e) bs.
Proof. exists 0. intros s V. exists s. now split. Qed.
Lemma steps_letbool x c e bs v : decides c e bs v -> steps (LetBool x c) e bs Norm ((x, VBool v) :: e) bs.
Proof. intros D. exists 0. intros s V. exists s. split; [|exact V]. cbn [exec]. unfold bind. now rewrite (D s V). Qed.
Lemma steps_letnum x c e bs v : counts c e bs v -> steps (LetNum x c) e bs Norm ((x, VNum v) :: e) bs.
Proof. intros D. exists 0. intros s V. exists s. split; [|exact V]. cbn [exec]. unfold bind. now rewrite (D s V). Qed.
Lemma steps_setnum x c e bs v e' : counts c e bs v -> env_set x (VNum v) e = Some e' -> steps (SetNum x c) e bs Norm e' bs.
Proof.
  intros D S. exists 0. intros s V. exists s. split; [|exact V]. cbn [exec]. unfold bind. rewrite (D s V).
  unfold norm, bind, set_or_stuck. now rewrite S.
Qed.
Lemma steps_letupper x k e bs t : tok_at bs k = Some t -> steps (LetUpper x k) e bs Norm ((x, VStr (upper_literal U t)) :: e) bs.
Proof.
  intros T. exists 0. intros s V. exists s. split; [|exact V]. cbn [exec]. unfold bind. rewrite (get_token_view _ _ k V).
  unfold tok_at in T. destruct (nth_error bs k); [|discriminate]. injection T as ->. reflexivity.
Qed.
Lemma steps_letstrs x l e bs : steps (LetStrs x l) e bs Norm ((x, VStrs l) :: e) bs.
Proof. exists 0. intros s V. exists s. now split. Qed.
Lemma steps_break e bs : steps Break e bs Brk e bs.
Proof. exists 0. intros s V. exists s. now split. Qed.
Lemma steps_return ex e bs m e1 bs1 : makes ex e bs m e1 bs1 -> steps (Return ex) e bs (Ret (VNode m)) e1 bs1.
Proof.
  intros [n A]. exists n. intros s V. destruct (A s V) as (s' & E & V'). exists s'. split; [|exact V'].
  cbn [exec]. unfold bind. now rewrite E.
Qed.
Lemma steps_returnvec ex e bs l e1 bs1 : lists ex e bs l e1 bs1 -> steps (ReturnVec ex) e bs (Ret (VVec l)) e1 bs1.
Proof.
  intros [n A]. exists n. intros s V. destruct (A s V) as (s' & E & V'). exists s'. split; [|exact V'].
  cbn [exec]. unfold bind. now rewrite E.
Qed.

(* ----- loops ----- *)
Lemma steps_while_end c body e bs : decides c e bs false -> steps (While c body) e bs Norm e bs.
Proof.
  intros D. exists 1. intros s V. exists s. split; [|exact V]. cbn [exec iterate]. unfold bind. now rewrite (D s V).
Qed.
Lemma while_more n m c body e s r s' : n <= m ->
  iterate n (fun e => v <- eval_cond U c e ;; if v : bool then (r <- exec U (run U prog n) n body e ;; ret (after_body (length e) r))
     else ret (false, Norm, e)) e s = Ok r s' ->
  forall k, n <= k -> iterate k (fun e => v <- eval_cond U c e ;; if v : bool then (r <- exec U (run U prog m) m body e ;; ret (after_body (length e) r))
     else ret (false, Norm, e)) e s = Ok r s'.
Proof.
  intros L E k Lk.
  assert (H : less (iterate n (fun e => v <- eval_cond U c e ;; if v : bool then (r <- exec U (run U prog n) n body e ;; ret (after_body (length e) r))
     else ret (false, Norm, e)) e s) (iterate k (fun e => v <- eval_cond U c e ;; if v : bool then (r <- exec U (run U prog m) m body e ;; ret (after_body (length e) r))
     else ret (false, Norm, e)) e s)).
  { apply (iterate_less n m L); [exact Lk|]. intros e0 s0. apply less_bind; [apply less_refl|]. intros [] s1; [|apply less_refl].
    apply less_bind; [|intros; apply less_refl]. eapply exec_less; [apply run_less; exact L|exact L]. }
  destruct H as [H|H]; [rewrite H in E; discriminate|rewrite <- H; exact E].
Qed.
Lemma steps_while_more c body e bs e1 bs1 ct e2 bs2 : decides c e bs true -> steps body e bs Norm e1 bs1 ->
  steps (While c body) (env_leave (length e) e1) bs1 ct e2 bs2 -> steps (While c body) e bs ct e2 bs2.
Proof.
  intros D [n B] [m W]. exists (S (n + m)). intros s V.
  destruct (B s V) as (s1 & E1 & V1). destruct (W s1 V1) as (s2 & E2 & V2). exists s2. split; [|exact V2].
  cbn [exec]. cbn [iterate]. cbn [exec] in E2. unfold bind at 1. unfold bind at 1. rewrite (D s V). unfold bind at 1.
  rewrite (exec_more n (S (n + m)) _ _ _ _ _ ltac:(lia) E1). cbn [ret after_body].
  eapply while_more; [|exact E2|]; lia.
Qed.
Lemma steps_while_more_seq c body k e bs e1 bs1 ct e2 bs2 : decides c e bs true -> steps body e bs Norm e1 bs1 ->
  steps (Seq (While c body) k) (env_leave (length e) e1) bs1 ct e2 bs2 -> steps (Seq (While c body) k) e bs ct e2 bs2.
Proof.
  intros D [n B] [m W]. exists (S (n + m)). intros s V.
  destruct (B s V) as (s1 & E1 & V1). destruct (W s1 V1) as (s2 & E2 & V2). exists s2. split; [|exact V2].
  cbn [exec] in E2 |- *. unfold bind at 1 in E2.
  destruct (iterate m _ _ s1) as [[c1 e3] s3| | | |] eqn:I; try discriminate.
  assert (X : exec U (run U prog (S (n + m))) (S (n + m)) (While c body) e s = Ok (c1, e3) s3).
  { cbn [exec]. cbn [iterate]. unfold bind at 1. unfold bind at 1. rewrite (D s V). unfold bind at 1.
    rewrite (exec_more n (S (n + m)) _ _ _ _ _ ltac:(lia) E1). cbn [ret after_body].
    eapply while_more; [|exact I|]; lia. }
  cbn [exec] in X. unfold bind at 1. rewrite X. destruct c1; try exact E2.
  eapply exec_more; [|exact E2]. lia.
Qed.
Lemma steps_while_brk c body e bs e1 bs1 : decides c e bs true -> steps body e bs Brk e1 bs1 ->
  steps (While c body) e bs Norm (env_leave (length e) e1) bs1.
Proof.
  intros D [n B]. exists (S n). intros s V. destruct (B s V) as (s1 & E1 & V1). exists s1. split; [|exact V1].
  cbn [exec]. cbn [iterate]. unfold bind at 1. unfold bind at 1. rewrite (D s V). unfold bind at 1.
  rewrite (exec_more n (S n) _ _ _ _ _ ltac:(lia) E1). reflexivity.
Qed.

(* ----- nodes and lists ----- *)
Lemma makes_construct ty e b bs m : constructed U ty b (tok_at bs 0) = Some m -> makes (EConstruct ty) e (b :: bs) m e (b :: bs).
Proof.
  intros C. exists 0. intros s V. exists s. split; [|exact V]. cbn [eval_nexp]. unfold bind.
  rewrite (construct_node_view U _ _ _ ty V), C. reflexivity.
Qed.
Lemma makes_empty ty e bs : makes (EEmpty ty) e bs (Node None ty []) e bs.
Proof. exists 0. intros s V. exists s. split; [reflexivity|exact V]. Qed.
Lemma makes_var x e bs m e' : env_get x e = Some (VNode m) -> env_set x VUndef e = Some e' -> makes (EVar x) e bs m e' bs.
Proof.
  intros G S. exists 0. intros s V. exists s. split; [|exact V]. cbn [eval_nexp]. unfold take_node. rewrite G. unfold bind, set_or_stuck.
  now rewrite S.
Qed.
Lemma makes_pop x e bs l m e' : env_get x e = Some (VVec (l ++ [m])) -> env_set x (VVec l) e = Some e' -> makes (EPop x) e bs m e' bs.
Proof.
  intros G S. exists 0. intros s V. exists s. split; [|exact V]. cbn [eval_nexp]. rewrite G, rev_app_distr. cbn [rev app].
  rewrite rev_involutive. unfold bind, set_or_stuck. now rewrite S.
Qed.
Lemma makes_call f args e bs vs e1 m bs' : passes args e bs vs e1 -> calls f vs bs (VNode m) bs' -> makes (ECall f args) e bs m e1 bs'.
Proof.
  intros P [n C]. exists n. intros s V. destruct (C s V) as (s' & E & V'). exists s'. split; [|exact V'].
  cbn [eval_nexp]. unfold call_node, bind. rewrite (P s V), E. reflexivity.
Qed.
Lemma lists_new e bs : lists XNew e bs [] e bs.
Proof. exists 0. intros s V. exists s. now split. Qed.
Lemma lists_var x e bs l e' : env_get x e = Some (VVec l) -> env_set x VUndef e = Some e' -> lists (XVar x) e bs l e' bs.
Proof.
  intros G S. exists 0. intros s V. exists s. split; [|exact V]. cbn [eval_vexp]. unfold take_vec. rewrite G. unfold bind, set_or_stuck.
  now rewrite S.
Qed.
Lemma lists_call f args e bs vs e1 l bs' : passes args e bs vs e1 -> calls f vs bs (VVec l) bs' -> lists (XCall f args) e bs l e1 bs'.
Proof.
  intros P [n C]. exists n. intros s V. destruct (C s V) as (s' & E & V'). exists s'. split; [|exact V'].
  cbn [eval_vexp]. unfold bind. rewrite (P s V), E. reflexivity.
Qed.
Lemma nexps_more n m xs : n <= m -> forall e s r s', eval_nexps U (run U prog n) xs e s = Ok r s' -> eval_nexps U (run U prog m) xs e s = Ok r s'.
Proof.
  intros L e s r s' E. destruct (eval_nexps_less U (run U prog n) (run U prog m) (run_less U prog n m L) xs e s) as [H|H]; congruence.
Qed.
Lemma lists_nil e bs : lists (XList []) e bs [] e bs.
Proof. exists 0. intros s V. exists s. now split. Qed.
Lemma lists_cons x xs e bs m e1 bs1 l e2 bs2 : makes x e bs m e1 bs1 -> lists (XList xs) e1 bs1 l e2 bs2 ->
  lists (XList (x :: xs)) e bs (m :: l) e2 bs2.
Proof.
  intros [n A] [k B]. exists (n + k). intros s V. destruct (A s V) as (s1 & E1 & V1). destruct (B s1 V1) as (s2 & E2 & V2).
  exists s2. split; [|exact V2]. cbn [eval_vexp eval_nexps] in *. unfold bind.
  rewrite (nexp_more n (n + k) _ _ _ _ _ (Nat.le_add_r _ _) E1).
  rewrite (nexps_more k (n + k) _ (Nat.le_add_l _ _) _ _ _ _ E2). reflexivity.
Qed.

(* ----- arguments ----- *)
Lemma passes_nil e bs : passes [] e bs [] e. Proof. now intros s V. Qed.
Lemma passes_bool b v args e bs vs e' : eval_bexp b e = Some v -> passes args e bs vs e' -> passes (ABool b :: args) e bs (VBool v :: vs) e'.
Proof. intros B P s V. cbn [eval_args]. unfold bind. rewrite B. cbn [ret]. rewrite (P s V). reflexivity. Qed.
Lemma passes_num x v args e bs vs e' : counts x e bs v -> passes args e bs vs e' -> passes (ANum x :: args) e bs (VNum v :: vs) e'.
Proof. intros C P s V. cbn [eval_args]. unfold bind. rewrite (C s V). cbn [ret]. rewrite (P s V). reflexivity. Qed.
Lemma passes_strs l args e bs vs e' : passes args e bs vs e' -> passes (AStrs l :: args) e bs (VStrs l :: vs) e'.
Proof. intros P s V. cbn [eval_args]. unfold bind. cbn [ret]. rewrite (P s V). reflexivity. Qed.
Lemma passes_node x n args e e1 bs vs e' : env_get x e = Some (VNode n) -> env_set x VUndef e = Some e1 ->
  passes args e1 bs vs e' -> passes (ANode x :: args) e bs (VNode n :: vs) e'.
Proof.
  intros G S P s V. cbn [eval_args]. unfold bind, take_node. rewrite G. unfold bind, set_or_stuck. rewrite S. cbn [ret fst snd].
  rewrite (P s V). reflexivity.
Qed.
Lemma counts_const n e bs : counts (NumC n) e bs n. Proof. now intros s V. Qed.
Lemma counts_max e bs : counts NumMax e bs usize_max. Proof. now intros s V. Qed.
Lemma counts_var x n e bs : env_get x e = Some (VNum n) -> counts (NumVar x) e bs n.
Proof. intros G s V. cbn [eval_num]. now rewrite G. Qed.

(* ----- calls ----- *)
Lemma calls_body f vs bs v e' bs' : length (f_params (prog f)) = length vs ->
  steps (f_body (prog f)) (combine (f_params (prog f)) vs) bs (Ret v) e' bs' -> calls f vs bs v bs'.
Proof.
  intros L [n S]. exists (Datatypes.S n). intros s V. destruct (S s V) as (s' & E & V'). exists s'. split; [|exact V'].
  cbn [run]. unfold call_body. rewrite L, Nat.eqb_refl. unfold bind. rewrite E. reflexivity.
Qed.

(* ----- conditions ----- *)
Lemma decides_eq c e bs v v' : decides c e bs v -> v = v' -> decides c e bs v'. Proof. now intros D <-. Qed.
Lemma decides_var x e bs v : env_get x e = Some (VBool v) -> decides (CVar x) e bs v.
Proof. intros G s V. cbn [eval_cond]. now rewrite G. Qed.
Lemma decides_not c e bs v : decides c e bs v -> decides (CNot c) e bs (negb v).
Proof. intros D s V. cbn [eval_cond]. unfold bind. now rewrite (D s V). Qed.
Lemma decides_and a b e bs va v : decides a e bs va -> (if va then decides b e bs v else v = false) -> decides (CAnd a b) e bs v.
Proof. intros D1 D2 s V. cbn [eval_cond]. unfold bind. rewrite (D1 s V). destruct va; [apply (D2 s V)|now subst v]. Qed.
Lemma decides_or a b e bs va v : decides a e bs va -> (if va then v = true else decides b e bs v) -> decides (COr a b) e bs v.
Proof. intros D1 D2 s V. cbn [eval_cond]. unfold bind. rewrite (D1 s V). destruct va; [now subst v|apply (D2 s V)]. Qed.
Lemma decides_and_true a b e bs v : decides a e bs true -> decides b e bs v -> decides (CAnd a b) e bs v.
Proof. intros D1 D2 s V. cbn [eval_cond]. unfold bind. now rewrite (D1 s V), (D2 s V). Qed.
Lemma decides_and_false a b e bs : decides a e bs false -> decides (CAnd a b) e bs false.
Proof. intros D1 s V. cbn [eval_cond]. unfold bind. now rewrite (D1 s V). Qed.
Lemma decides_or_true a b e bs : decides a e bs true -> decides (COr a b) e bs true.
Proof. intros D1 s V. cbn [eval_cond]. unfold bind. now rewrite (D1 s V). Qed.
Lemma decides_or_false a b e bs v : decides a e bs false -> decides b e bs v -> decides (COr a b) e bs v.
Proof. intros D1 D2 s V. cbn [eval_cond]. unfold bind. now rewrite (D1 s V), (D2 s V). Qed.
Lemma decides_len x e bs l : env_get x e = Some (VVec l) -> decides (CLenIs1 x) e bs (Nat.eqb (length l) 1).
Proof. intros G s V. cbn [eval_cond]. now rewrite G. Qed.
Lemma decides_type x ty e bs n : env_get x e = Some (VNode n) -> decides (CTypeIs x ty) e bs (nt_eqb (n_type n) ty).
Proof. intros G s V. cbn [eval_cond]. now rewrite G. Qed.
Lemma decides_dot x ty e bs n : env_get x e = Some (VNode n) -> decides (CDotRootIs x ty) e bs (nt_eqb (dot_root_type n) ty).
Proof. intros G s V. cbn [eval_cond]. now rewrite G. Qed.
Lemma decides_eof k e bs : decides (CEof k) e bs (Nat.leb (length bs) (S k)).
Proof. intros s V. cbn [eval_cond]. now apply is_eof_view. Qed.
Lemma decides_tok k p e bs t v : tok_at bs k = Some t -> (forall s, eval_tpred U p e t s = Ok v s) -> decides (CTok k p) e bs v.
Proof.
  intros T P s V. cbn [eval_cond]. unfold bind. rewrite (get_token_view _ _ k V). unfold tok_at in T.
  destruct (nth_error bs k); [|discriminate]. injection T as ->. apply P.
Qed.

(* ----- what is known of a token ----- *)
Inductive known := Among (ws : list string) | Avoids (ws : list string).
Definition fits_known (kn : known) (t : token) : Prop :=
  match kn with
  | Among ws => mem_pats (upper_literal U t) ws = true
  | Avoids ws => mem_pats (upper_literal U t) ws = false
  end.
Definition known_in (kn : known) (pats : list string) : option bool :=
  match kn with
  | Among ws =>
      if forallb (fun w => existsb (String.eqb w) pats) ws then Some true
      else if forallb (fun w => negb (existsb (String.eqb w) pats)) ws then Some false else None
  | Avoids ws => if forallb (fun p => existsb (String.eqb p) ws) pats then Some false else None
  end.
Lemma s_eqb a b : str_eqb (s_ a) (s_ b) = String.eqb a b.
Proof.
  destruct (String.eqb_spec a b) as [->|N]; [now apply str_eqb_eq|].
  destruct (str_eqb (s_ a) (s_ b)) eqn:E; [|reflexivity]. apply str_eqb_eq in E. elim N. clear N.
  revert b E. induction a as [|x a IH]; intros [|y b]; cbn; try discriminate; [reflexivity|].
  intros [= E1 E2]. f_equal; [|now apply IH]. rewrite <- (ascii_N_embedding x), <- (ascii_N_embedding y). now f_equal.
Qed.
Lemma known_in_ok kn pats t v : fits_known kn t -> known_in kn pats = Some v -> mem_pats (upper_literal U t) pats = v.
Proof.
  destruct kn as [ws|ws]; cbn [fits_known known_in]; intros F.
  - apply existsb_exists in F as (w & I & E). apply str_eqb_eq in E. rewrite E.
    assert (M : mem_pats (s_ w) pats = existsb (String.eqb w) pats).
    { unfold mem_pats. induction pats as [|p ps IH]; [reflexivity|]. cbn [existsb]. now rewrite IH, s_eqb. }
    rewrite M. destruct (forallb (fun w => existsb (String.eqb w) pats) ws) eqn:A.
    + intros [= <-]. rewrite forallb_forall in A. now apply A.
    + destruct (forallb (fun w => negb (existsb (String.eqb w) pats)) ws) eqn:B; [|intros [=]]. intros [= <-]. rewrite forallb_forall in B. specialize (B w I).
      now destruct (existsb (String.eqb w) pats).
  - destruct (forallb _ _) eqn:A; [|intros [=]]. intros [= <-]. unfold mem_pats in *.
    destruct (existsb _ pats) eqn:E; [|reflexivity]. apply existsb_exists in E as (p & I & E).
    rewrite forallb_forall in A. specialize (A p I). apply existsb_exists in A as (q & J & E2). apply String.eqb_eq in E2. subst q.
    enough (X : existsb (fun p => str_eqb (upper_literal U t) (s_ p)) ws = true) by congruence.
    apply existsb_exists. eauto.
Qed.

Fixpoint up_string (w : string) : string :=
  match w with EmptyString => EmptyString | String a r => String (ascii_of_N (upper_ascii (N_of_ascii a))) (up_string r) end.
Definition ascii_word (w : string) : bool := forallb is_ascii (s_ w).
Lemma upper_word w : ascii_word w = true -> to_uppercase U (s_ w) = s_ (up_string w).
Proof.
  destruct HU as [_ H2]. unfold ascii_word, to_uppercase. induction w as [|a w IH]; [reflexivity|].
  change (s_ (String a w)) with (N_of_ascii a :: s_ w). cbn [forallb flat_map]. intro F. apply andb_prop in F as [F1 F2].
  rewrite (H2 _ F1), (IH F2). change (s_ (up_string (String a w))) with (N_of_ascii (ascii_of_N (upper_ascii (N_of_ascii a))) :: s_ (up_string w)).
  rewrite N_ascii_embedding; [reflexivity|]. pose proof (N_ascii_bounded a). unfold upper_ascii, is_lower_ascii, in_range.
  destruct (_ && _) eqn:E; [|assumption]. apply andb_prop in E as [E1 E2]. apply N.leb_le in E1, E2. lia.
Qed.
Lemma is_mem w t : ascii_word w = true -> is_ U w t = mem_pats (upper_literal U t) [up_string w].
Proof. intro A. unfold is_, mem_pats. cbn [existsb]. now rewrite (upper_word w A), orb_false_r. Qed.
Lemma in_mem ws t : forallb ascii_word ws = true -> in_ U ws t = mem_pats (upper_literal U t) (map up_string ws).
Proof.
  unfold in_. induction ws as [|w ws IH]; [reflexivity|]. cbn [forallb]. intro F. apply andb_prop in F as [F1 F2].
  cbn [existsb map]. rewrite (is_mem w t F1), (IH F2). unfold mem_pats. cbn [existsb]. now rewrite orb_false_r.
Qed.

Lemma decides_is k w e bs t kn v : tok_at bs k = Some t -> fits_known kn t -> ascii_word w = true ->
  known_in kn [up_string w] = Some v -> decides (CTok k (TIs w)) e bs v.
Proof. intros T F A K. eapply decides_tok; [exact T|]. intro s. cbn [eval_tpred]. unfold ret. rewrite (is_mem w t A). f_equal. eapply known_in_ok; eauto. Qed.
Lemma decides_in k ws e bs t kn v : tok_at bs k = Some t -> fits_known kn t -> forallb ascii_word ws = true ->
  known_in kn (map up_string ws) = Some v -> decides (CTok k (TIn ws)) e bs v.
Proof. intros T F A K. eapply decides_tok; [exact T|]. intro s. cbn [eval_tpred]. unfold ret. rewrite (in_mem ws t A). f_equal. eapply known_in_ok; eauto. Qed.
Lemma decides_invar k x ws e bs t kn v : env_get x e = Some (VStrs ws) -> tok_at bs k = Some t -> fits_known kn t -> forallb ascii_word ws = true ->
  known_in kn (map up_string ws) = Some v -> decides (CTok k (TInVar x)) e bs v.
Proof.
  intros G T F A K. eapply decides_tok; [exact T|]. intro s. cbn [eval_tpred]. rewrite G. unfold ret. rewrite (in_mem ws t A). f_equal.
  eapply known_in_ok; eauto.
Qed.
Lemma decides_upperis k w e bs t kn v : tok_at bs k = Some t -> fits_known kn t ->
  known_in kn [w] = Some v -> decides (CTok k (TUpperIs w)) e bs v.
Proof.
  intros T F K. eapply decides_tok; [exact T|]. intro s. cbn [eval_tpred]. unfold ret. f_equal.
  rewrite <- (known_in_ok _ _ _ _ F K). unfold mem_pats. cbn [existsb]. now rewrite orb_false_r.
Qed.
Lemma steps_case_known k pats a b e bs t kn v ct e1 bs1 : tok_at bs k = Some t -> fits_known kn t -> known_in kn pats = Some v ->
  steps (if v then a else b) e bs ct e1 bs1 -> steps (CaseUpper k pats a b) e bs ct (env_leave (length e) e1) bs1.
Proof. intros T F K. eapply steps_case; [exact T|]. eapply known_in_ok; eauto. Qed.
End WithUnicode.
