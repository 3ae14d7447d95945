(* The functions that build operators: each call keeps to the precedence it was given. *)
From Verif Require Import Chars Token Cst Core MiniRust Program Bundles ParserView ParserGeneric TreeSpec AbsInt ShapeSound
  GroupingSpec GroupingDomain GroupingSound.
Local Open Scope string_scope.
Local Open Scope list_scope.
Local Notation length := List.length.

(* ----- commands, one by one ----- *)
Section Commands.
Context (U : unicode) {fn : Type} (call : fn -> list value -> M value) (lf : nat).
Local Notation exec := (exec U call lf).

Lemma seq_inv a b e s ct e' s' : exec (Seq a b) e s = Ok (ct, e') s' ->
  exists ct1 e1 s1, exec a e s = Ok (ct1, e1) s1 /\
    ((ct1 = Norm /\ exec b e1 s1 = Ok (ct, e') s') \/ (ct1 <> Norm /\ ct = ct1 /\ e' = e1 /\ s' = s1)).
Proof.
  cbn [MiniRust.exec]. intro H. apply bind_Ok in H as ([ct1 e1] & s1 & H1 & H). exists ct1, e1, s1. split; [exact H1|].
  destruct ct1; [left; auto|right|right]; injection H as <- <- <-; repeat split; discriminate.
Qed.
Lemma case_inv k pats a b e s bs ct e' s' : view s bs -> exec (CaseUpper k pats a b) e s = Ok (ct, e') s' ->
  exists t e1, tok_at bs k = Some t /\ e' = env_leave (length e) e1 /\
    ((mem_pats (upper_literal U t) pats = true /\ exec a e s = Ok (ct, e1) s') \/
     (mem_pats (upper_literal U t) pats = false /\ exec b e s = Ok (ct, e1) s')).
Proof.
  intros V. cbn [MiniRust.exec]. intro H. apply bind_Ok in H as (t & s1 & Ht & H).
  apply (get_token_ok _ _ _ _ _ V) in Ht as (-> & w & Hw & <-). unfold scoped in H.
  apply bind_Ok in H as ([ct1 e1] & s2 & H & E). injection E as <- <- <-.
  exists (b_tok w), e1. unfold tok_at. rewrite Hw. repeat split. destruct (mem_pats _ _); auto.
Qed.
Lemma if_inv c a b e s bs ct e' s' : view s bs -> exec (If c a b) e s = Ok (ct, e') s' ->
  exists v e1, eval_cond U c e s = Ok v s /\ e' = env_leave (length e) e1 /\
    exec (if v then a else b) e s = Ok (ct, e1) s'.
Proof.
  intros V. cbn [MiniRust.exec]. intro H. apply bind_Ok in H as (v & s1 & Hc & H). pose proof (cond_same U _ _ _ _ _ _ V Hc) as ->.
  unfold scoped in H. apply bind_Ok in H as ([ct1 e1] & s2 & H & E). injection E as <- <- <-.
  exists v, e1. repeat split; [exact Hc|]. now destruct v.
Qed.
Lemma next_inv e s bs ct e' s' : view s bs -> exec Next e s = Ok (ct, e') s' ->
  ct = Norm /\ e' = e /\ exists b bs', bs = b :: bs' /\ view s' bs'.
Proof.
  intros V. cbn [MiniRust.exec]. intro H. apply bind_Ok in H as (x & s1 & Hn & E). injection E as <- <- <-.
  repeat split. destruct (view_cons _ _ V) as (b & bs' & ->). exists b, bs'. split; [reflexivity|].
  destruct bs' as [|b' bs'].
  - rewrite (next_token_end _ _ V) in Hn. discriminate.
  - destruct (next_token_view _ _ _ _ V) as (s2 & E2 & V2 & _). rewrite Hn in E2. assert (s1 = s2) by congruence. now subst.
Qed.
Lemma skip_inv e s ct e' s' : exec Skip e s = Ok (ct, e') s' -> ct = Norm /\ e' = e /\ s' = s.
Proof. now intros [= <- <- <-]. Qed.

Lemma with_node_inv x f e s e' s' : with_node x f e s = Ok e' s' ->
  s' = s /\ exists m, env_get x e = Some (VNode m) /\ env_set x (VNode (f m)) e = Some e'.
Proof.
  unfold with_node. destruct (env_get x e) as [[|m| | | | |]|]; try discriminate. intro H. apply set_or_stuck_inv in H as [H ->]. eauto.
Qed.
Lemma push_inv x k g e s ct e' s' : exec (Push x k g) e s = Ok (ct, e') s' ->
  ct = Norm /\ exists n e1 m, eval_nexp U call g e s = Ok (n, e1) s' /\ env_get x e1 = Some (VNode m) /\
    env_set x (VNode (put k (CNode n) m)) e1 = Some e'.
Proof.
  cbn [MiniRust.exec]. intro H. apply bind_Ok in H as ([n e1] & s1 & H1 & H). cbn [fst snd] in H. unfold norm in H.
  apply bind_Ok in H as (e2 & s2 & H2 & H). injection H as <- <- <-. apply with_node_inv in H2 as (-> & m & G & S).
  split; [reflexivity|]. exists n, e1, m. auto.
Qed.
Lemma settype_inv x ty e s ct e' s' : exec (SetType x ty) e s = Ok (ct, e') s' ->
  ct = Norm /\ s' = s /\ exists m, env_get x e = Some (VNode m) /\ env_set x (VNode (set_type ty m)) e = Some e'.
Proof.
  cbn [MiniRust.exec]. unfold norm. intro H. apply bind_Ok in H as (e2 & s2 & H2 & H). injection H as <- <- <-.
  apply with_node_inv in H2 as (-> & m & G & S). eauto.
Qed.
Lemma let_inv x g e s ct e' s' : exec (LetNode x g) e s = Ok (ct, e') s' ->
  ct = Norm /\ exists n e1, eval_nexp U call g e s = Ok (n, e1) s' /\ e' = (x, VNode n) :: e1.
Proof.
  cbn [MiniRust.exec]. intro H. apply bind_Ok in H as ([n e1] & s1 & H1 & H). injection H as <- <- <-. eauto.
Qed.
Lemma set_inv x g e s ct e' s' : exec (SetNode x g) e s = Ok (ct, e') s' ->
  ct = Norm /\ exists n e1, eval_nexp U call g e s = Ok (n, e1) s' /\ env_set x (VNode n) e1 = Some e'.
Proof.
  cbn [MiniRust.exec]. intro H. apply bind_Ok in H as ([n e1] & s1 & H1 & H). cbn [fst snd] in H. unfold norm in H.
  apply bind_Ok in H as (e2 & s2 & H2 & H). injection H as <- <- <-. apply set_or_stuck_inv in H2 as [H2 ->]. eauto.
Qed.
Lemma letnum_inv x g e s ct e' s' : exec (LetNum x g) e s = Ok (ct, e') s' ->
  ct = Norm /\ exists n, eval_num U g e s = Ok n s' /\ e' = (x, VNum n) :: e.
Proof. cbn [MiniRust.exec]. intro H. apply bind_Ok in H as (n & s1 & H1 & H). injection H as <- <- <-. eauto. Qed.
Lemma return_inv g e s ct e' s' : exec (Return g) e s = Ok (ct, e') s' ->
  exists n, eval_nexp U call g e s = Ok (n, e') s' /\ ct = Ret (VNode n).
Proof. cbn [MiniRust.exec]. intro H. apply bind_Ok in H as ([n e1] & s1 & H1 & H). injection H as <- <- <-. eauto. Qed.
Lemma fail_inv k m d e s ct e' s' : exec (Fail k m d) e s = Ok (ct, e') s' -> False.
Proof.
  cbn [MiniRust.exec]. intro H. apply bind_Ok in H as (t & s1 & H1 & H).
  destruct d; [|discriminate]. apply bind_Ok in H as (t2 & s2 & H2 & H). discriminate.
Qed.
Lemma construct_inv ty e s bs n e' s' : view s bs -> eval_nexp U call (EConstruct ty) e s = Ok (n, e') s' ->
  s' = s /\ e' = e /\ exists b bs', bs = b :: bs' /\ constructed U ty b (tok_at bs' 0) = Some n.
Proof.
  intros V. cbn [eval_nexp]. intro H. apply bind_Ok in H as (m & s1 & H1 & H). injection H as <- <- <-.
  destruct (construct_ok U _ _ _ _ _ V H1) as (-> & X). auto.
Qed.
Lemma call_inv f args e s n e' s' : eval_nexp U call (ECall f args) e s = Ok (n, e') s' ->
  exists vs s1, eval_args U args e s = Ok (vs, e') s1 /\ call f vs s1 = Ok (VNode n) s'.
Proof.
  cbn [eval_nexp]. unfold call_node. intro H. apply bind_Ok in H as ([vs e1] & s1 & Ha & H).
  apply bind_Ok in H as (v & s2 & Hc & H). destruct v; try discriminate. injection H as <- <- <-. eauto.
Qed.
Lemma var_inv x e s n e' s' : eval_nexp U call (EVar x) e s = Ok (n, e') s' ->
  s' = s /\ env_get x e = Some (VNode n) /\ env_set x VUndef e = Some e'.
Proof.
  cbn [eval_nexp]. unfold take_node. destruct (env_get x e) as [[|m| | | | |]|]; try discriminate. intro H.
  apply bind_Ok in H as (e1 & s1 & H & E). injection E as <- <- <-. apply set_or_stuck_inv in H as [H ->]. auto.
Qed.
End Commands.

(* ----- the parts of parse_expr ----- *)
Definition fst_cmd (c : cmd fn) : cmd fn := match c with Seq a _ => a | c => c end.
Definition snd_cmd (c : cmd fn) : cmd fn := match c with Seq _ b => b | c => c end.
Definition then_cmd (c : cmd fn) : cmd fn := match c with If _ a _ => a | c => c end.
Definition else_cmd (c : cmd fn) : cmd fn := match c with If _ _ b => b | c => c end.
Definition expr_body : cmd fn := Eval cbv in f_body (prog F_parse_expr).
Definition expr_words : cmd fn := Eval cbv in then_cmd (else_cmd (fst_cmd (snd_cmd (snd_cmd expr_body)))).
Definition expr_loop : cmd fn :=
  Eval cbv in match fst_cmd (snd_cmd (snd_cmd (snd_cmd expr_body))) with While _ b => b | c => c end.
Lemma expr_shape : f_body (prog F_parse_expr) =
  Seq (Declare "left")
  (Seq (If (CVar "after_dot") (SetNode "left" (EConstruct N_Identifier)) (SetNode "left" (EConstruct N_Unknown)))
  (Seq (If (CVar "as_table") (SetNode "left" (ECall F_parse_identifier [])) (If (CNot (CVar "after_dot")) expr_words Skip))
  (Seq (While (CPrecLt 1 "precedence") expr_loop)
  (Seq (If (CVar "alias")
         (If (CTok 1 (TIs "AS"))
           (Seq Next (Seq (Push "left" "as" (EConstruct N_Keyword)) (Seq Next
             (Push "left" "alias" (ECall F_parse_expr
               [ANum NumMax; ABool (BConst false); ABool (BConst false); ABool (BConst false); ABool (BConst false)])))))
           (If (CTok 1 TIdentifier) (Seq Next (Push "left" "alias" (EConstruct N_Identifier))) Skip))
         Skip)
  (Seq (If (CVar "order")
         (Seq
           (If (CTok 1 (TIn ["ASC"; "DESC"]))
             (Seq Next (Seq (LetNode "order" (EConstruct N_Keyword)) (Push "left" "order" (EVar "order")))) Skip)
           (If (CAnd (CTok 1 (TIn ["NULLS"])) (CTok 2 (TIn ["FIRST"; "LAST"])))
             (Seq (LetVec "nulls_first" XNew) (Seq Next (Seq (VecPush "nulls_first" (EConstruct N_Keyword)) (Seq Next
               (Seq (VecPush "nulls_first" (EConstruct N_Keyword)) (PushVec "left" "null_order" (XVar "nulls_first")))))))
             Skip))
         Skip)
  (Return (EVar "left"))))))).
Proof. reflexivity. Qed.

Section WithUnicode.
Context (U : unicode).
Local Notation well_grouped := (well_grouped U).
Local Notation left_operand := (left_operand U).
Local Notation right_operands := (right_operands U).
Local Notation last_operand := (last_operand U).
Local Notation suffixed := (suffixed U).
Local Notation ends_by := (ends_by U).
Local Notation good := (good U).

(* ----- the precedence of the token after the current one ----- *)
(* get_precedence on a word; None: it depends on the word that follows *)
Definition prec_of (u : str) : option N :=
  if mem_str u ["("; "["] then Some 101%N
  else if mem_str u ["."] then Some 102%N
  else if mem_str u ["*"; "/"; "||"] then Some 103%N
  else if mem_str u ["+"; "-"] then Some 104%N
  else if mem_str u ["<<"; ">>"] then Some 105%N
  else if mem_str u ["&"] then Some 106%N
  else if mem_str u ["^"] then Some 107%N
  else if mem_str u ["|"] then Some 108%N
  else if mem_str u ["="; "<"; ">"; "<="; ">="; "!="; "<>"; "LIKE"; "BETWEEN"; "IN"; "IS"] then Some 109%N
  else if mem_str u ["NOT"] then None
  else if mem_str u ["AND"] then Some 111%N
  else if mem_str u ["OR"] then Some 112%N
  else if mem_str u ["=>"] then Some 200%N
  else Some usize_max.
Definition prec_in (bs : list bundle) (k : nat) : option N :=
  match tok_at bs k with
  | None => None
  | Some t =>
      match prec_of (upper_literal U t) with
      | Some c => Some c
      | None => match tok_at bs (k + 1) with
                | None => None
                | Some t1 => if mem_str (upper_literal U t1) ["IN"; "LIKE"; "BETWEEN"] then Some 109%N
                             else if mem_str (upper_literal U t1) ["ENFORCED"] then Some usize_max else None
                end
      end
  end.
Lemma prec_ok k s bs c s' : view s bs -> get_precedence U k s = Ok c s' -> s' = s /\ prec_in bs k = Some c.
Proof.
  intros V H. pose proof (get_precedence_reads U s bs k V) as R. rewrite H in R. cbn in R. subst. split; [reflexivity|].
  unfold get_precedence in H. apply bind_Ok in H as (t & s1 & Ht & H).
  apply (get_token_ok _ _ _ _ _ V) in Ht as (-> & w & Hw & <-). unfold prec_in, tok_at at 1. rewrite Hw. cbn [option_map].
  unfold prec_of.
  do 9 (match type of H with (if ?c then _ else _) _ = _ => destruct c end; [now injection H as <-|]).
  match type of H with (if ?c then _ else _) _ = _ => destruct c end.
  - apply bind_Ok in H as (t1 & s1 & Ht & H). apply (get_token_ok _ _ _ _ _ V) in Ht as (-> & w1 & Hw1 & <-).
    unfold tok_at. rewrite Hw1. cbn [option_map].
    do 2 (match type of H with (if ?c then _ else _) _ = _ => destruct c end; [now injection H as <-|]).
    apply bind_Ok in H as (t2 & s1 & Ht2 & H). apply bind_Ok in H as (t3 & s2 & Ht3 & H). discriminate.
  - do 3 (match type of H with (if ?c then _ else _) _ = _ => destruct c end; [now injection H as <-|]). now injection H as <-.
Qed.
Lemma mem_pats_all u pats (P : str -> bool) : mem_pats u pats = true -> forallb (fun p => P (s_ p)) pats = true -> P u = true.
Proof.
  unfold mem_pats. intros M F. apply existsb_exists in M as (p & I & E). apply str_eqb_eq in E. subst.
  rewrite forallb_forall in F. now apply F.
Qed.

(* ----- where an expression ends ----- *)
Definition open_end (n : node) (bs : list bundle) : Prop :=
  suffixed n \/ forall c, prec_in bs 1 = Some c -> ends_by (c - 100) n.
Definition ending (n : node) (p : N) (bs : list bundle) : Prop :=
  suffixed n \/ exists c, prec_in bs 1 = Some c /\ (p <= c)%N /\ ends_by (c - 100) n.
Lemma closed_open n bs : last_operand n = None -> open_end n bs.
Proof. intro L. right. intros c _. now constructor 1. Qed.
Lemma operand_open n q k r bs : last_operand n = Some (q, k) -> child k n = Some (CNode r) -> ending r (100 + q) bs ->
  open_end n bs.
Proof.
  intros L C [S|(c & P & Le & E)]; [left; econstructor 2; eauto|right]. intros c' P'. rewrite P in P'. injection P' as <-.
  econstructor 2; eauto. lia.
Qed.

Definition fit (l : node) (c : N) : Prop := suffixed l \/ ends_by (c - 100) l.
Definition op_level (f : fn) (c : N) (bs : list bundle) : Prop :=
  (100 <= c)%N /\
  match f with
  | F_parse_binary_operator => exists t, tok_at bs 0 = Some t /\ find_level (upper_literal U t) binary_levels = Some (c - 100)%N
  | _ => c = 109%N
  end.
Definition builds (call : fn -> list value -> M value) (f : fn) : Prop :=
  forall l c s bs n s', view s bs -> good l -> prec_in bs 0 = Some c -> op_level f c bs -> fit l c ->
    call f [VNode l] s = Ok (VNode n) s' ->
    exists bs', view s' bs' /\ good n /\ left_operand n = Some ((c - 100)%N, "left") /\ open_end n bs'.
Record specs (call : fn -> list value -> M value) : Prop := {
  sp_moves f vs s bs : view s bs -> moves bs s (call f vs s);
  sp_good f vs s bs v s' : called f vs -> view s bs -> Forall (good_val U) vs -> call f vs s = Ok v s' ->
    good_val U v /\ result_ok U (ret_kind f) v;
  sp_expr p alias as_table after_dot order s bs n s' : view s bs ->
    call F_parse_expr [VNum p; VBool alias; VBool as_table; VBool after_dot; VBool order] s = Ok (VNode n) s' ->
    exists bs', view s' bs' /\ good n /\
      (as_table = false -> forall q k, left_operand n = Some (q, k) -> (100 + q < p)%N) /\
      (alias = false -> ending n p bs');
  sp_binary : builds call F_parse_binary_operator;
  sp_between : builds call F_parse_between_operator;
  sp_in : builds call F_parse_in_operator;
  sp_distinct : builds call F_parse_is_distinct_from_operator
}.

(* ----- one more level of calls ----- *)
Section Step.
Context (call : fn -> list value -> M value) (lf : nat) (Sp : specs call).
Local Notation exec := (exec U call lf).
Local Notation body f := (call_body U prog call lf f).

Lemma body_inv f vs s v s' : body f vs s = Ok v s' ->
  length (f_params (prog f)) = length vs /\
  exists e', exec (f_body (prog f)) (combine (f_params (prog f)) vs) s = Ok (Ret v, e') s'.
Proof.
  unfold call_body. destruct (Nat.eqb_spec (length (f_params (prog f))) (length vs)) as [L|]; [|discriminate]. intro H.
  split; [exact L|]. apply bind_Ok in H as ([ct e'] & s1 & H1 & H). cbn [fst] in H. destruct ct; try discriminate.
  injection H as <- <-. eauto.
Qed.

Definition no_vals (i : nat) : value := VBool true.
Lemma no_vals_scalar i : scalar (no_vals i). Proof. exact Logic.I. Qed.

Lemma accepted_call f vs s bs v s' : body_ok f = true -> view s bs -> Forall (good_val U) vs ->
  body f vs s = Ok v s' -> good_val U v /\ result_ok U (ret_kind f) v.
Proof.
  intros B V G H. apply body_inv in H as (L & e' & H). unfold body_ok in B. destruct (acmd _ _ _) as [o|] eqn:A; [|discriminate].
  assert (Gm : gamma U no_vals (entry (prog f)) (combine (f_params (prog f)) vs) s).
  { split; [|eauto]. unfold entry. revert L G. clear. generalize (f_params (prog f)). intros ps. revert vs.
    induction ps as [|x ps IH]; intros [|v vs] L G; try discriminate; cbn [combine map]; [constructor|].
    inversion G; subst. constructor; [repeat split; auto; now destruct v|]. apply IH; auto. }
  destruct (accepted U no_vals no_vals_scalar call lf (sp_moves _ Sp) (sp_good _ Sp) _ _ _ _ _ _ _ _ _ A Gm H) as (Gv & R & _).
  auto.
Qed.

Ltac simp H := cbn [env_get env_set eval_num eval_args eval_bexp bind ret take_node set_or_stuck fst snd String.eqb Ascii.eqb Bool.eqb
  option_map env_leave length Nat.sub skipn] in H.
Ltac seq H E e1 s1 := let ct := fresh "ct" in apply seq_inv in H as (ct & e1 & s1 & E & H).
Ltac on H := destruct H as [[_ H]|[H _]]; [|now elim H].

(* ----- parse_in_operator ----- *)
Lemma in_builds : builds (call_body U prog call lf) F_parse_in_operator.
Proof.
  intros l c s bs n s' V G P [_ ->] F H. apply body_inv in H as (_ & e' & H).
  assert (A : exists o, acmd (grouping_domain (KPost "left" 9)) (f_body (prog F_parse_in_operator)) [("left", KFit 9)] = Some o)
    by (eexists; vm_compute; reflexivity).
  destruct A as [o A].
  assert (Gm : gamma U no_vals [("left", KFit 9)] [("left", VNode l)] s).
  { split; [|eauto]. constructor; [|constructor]. split; [reflexivity|]. split; [exact G|exact F]. }
  destruct (accepted U no_vals no_vals_scalar call lf (sp_moves _ Sp) (sp_good _ Sp) _ _ _ _ _ _ _ _ _ A Gm H)
    as (Gv & R & bs' & V').
  exists bs'. split; [exact V'|]. split; [exact Gv|]. cbn in R. split; [now apply post_left|].
  apply closed_open. eapply closed_last, post_closed; eauto.
Qed.

(* ----- parse_between_operator ----- *)
Lemma construct_op ty s bs e n e' s' : ty <> N_EOF -> ty <> N_Unknown -> view s bs ->
  eval_nexp U call (EConstruct ty) e s = Ok (n, e') s' ->
  s' = s /\ e' = e /\ good n /\ n_type n = ty /\ n_token n = tok_at bs 0.
Proof.
  intros N1 N2 V H. destruct (construct_inv _ _ _ _ _ _ _ _ _ V H) as (-> & -> & b & bs' & -> & C).
  destruct (constructed_ok _ _ _ _ _ C) as (G & _ & T & Ty & _).
  split; [reflexivity|]. split; [reflexivity|]. split; [exact G|]. split; [now apply Ty|]. now rewrite T.
Qed.
Lemma left_key n q k : left_operand n = Some (q, k) -> k = "left" \/ k = "func".
Proof.
  unfold GroupingSpec.left_operand. destruct (n_type n); try discriminate; try (destruct (token_level _ _ _); [|discriminate]);
    cbn [option_map]; intros [= <- <-]; auto.
Qed.
Lemma right_key n q ks k : right_operands n = Some (q, ks) -> In k ks -> In k ["right"; "right_min"; "right_max"].
Proof.
  unfold GroupingSpec.right_operands. destruct (n_type n); try discriminate; try (destruct (token_level _ _ _); [|discriminate]);
    cbn [option_map]; intros [= <- <-]; cbn; tauto.
Qed.
Lemma put_left n l q : good n -> good l -> left_operand n = Some (q, "left") -> suffixed l \/ ends_by q l ->
  good (put "left" (CNode l) n).
Proof.
  intros G Gl L F. apply put_good; [exact G|exact Gl| |].
  - intros q' c [= <-] L'. rewrite L in L'. now injection L' as <-.
  - intros q' ks c [= <-] R I. exfalso. pose proof (right_key _ _ _ _ R I) as K. cbn in K. intuition discriminate.
Qed.
Lemma put_right n r k q ks : good n -> good r -> In k ["right"; "right_min"; "right_max"] -> right_operands n = Some (q, ks) ->
  (forall q' k', left_operand r = Some (q', k') -> (q' < q)%N) -> good (put k (CNode r) n).
Proof.
  intros G Gr I R F. apply put_good; [exact G|exact Gr| |].
  - intros q' c [= <-] L'. exfalso. apply left_key in L' as [->| ->]; cbn in I; intuition discriminate.
  - intros q' ks' c [= <-] R' _. rewrite R in R'. now injection R' as <- <-.
Qed.
Lemma other_key k : negb (existsb (String.eqb k) operand_keys) = true -> forall n m, good n -> good m -> good (put k (CNode m) n).
Proof. intros N n m G Gm. apply put_nonoperand; [now apply not_operand|exact G|exact Gm]. Qed.
Lemma child_same k v n : child k (put k v n) = Some v.
Proof. rewrite child_put. now rewrite String.eqb_refl. Qed.

(* Push node key (construct) *)
Lemma push_construct x k ty e s bs ct e' s' : ty <> N_EOF -> ty <> N_Unknown -> view s bs ->
  exec (Push x k (EConstruct ty)) e s = Ok (ct, e') s' ->
  ct = Norm /\ s' = s /\ exists c m, good c /\ env_get x e = Some (VNode m) /\ env_set x (VNode (put k (CNode c) m)) e = Some e'.
Proof.
  intros N1 N2 V H. apply push_inv in H as (-> & c & e1 & m & E & M & S).
  destruct (construct_op _ _ _ _ _ _ _ N1 N2 V E) as (-> & -> & G & _). eauto 8.
Qed.
(* Push node key (parse_expr(precedence, false, false, false, true)) *)
Definition operand_args (g : numexp) : list arg :=
  [ANum g; ABool (BConst false); ABool (BConst false); ABool (BConst false); ABool (BConst true)].
Lemma operand_call g p e s bs n e' s' : view s bs -> eval_num U g e s = Ok p s ->
  eval_nexp U call (ECall F_parse_expr (operand_args g)) e s = Ok (n, e') s' ->
  e' = e /\ exists bs', view s' bs' /\ good n /\ (forall q k, left_operand n = Some (q, k) -> (100 + q < p)%N) /\ ending n p bs'.
Proof.
  intros V P H. apply call_inv in H as (vs & s1 & A & H). cbn [eval_args operand_args eval_bexp] in A. unfold bind at 1 2 in A.
  rewrite P in A. injection A as <- <- <-. split; [reflexivity|].
  destruct (sp_expr _ Sp _ _ _ _ _ _ _ _ _ V H) as (bs' & V' & G & L & E). eauto 8.
Qed.
Lemma push_operand x k g p e s bs ct e' s' : view s bs ->
  exec (Push x k (ECall F_parse_expr (operand_args g))) e s = Ok (ct, e') s' -> eval_num U g e s = Ok p s ->
  ct = Norm /\ exists n bs' m, view s' bs' /\ good n /\ (forall q k, left_operand n = Some (q, k) -> (100 + q < p)%N) /\
    ending n p bs' /\ env_get x e = Some (VNode m) /\ env_set x (VNode (put k (CNode n) m)) e = Some e'.
Proof.
  intros V H P. apply push_inv in H as (-> & n & e1 & m & E & M & S). split; [reflexivity|].
  destruct (operand_call _ _ _ _ _ _ _ _ V P E) as (-> & bs' & V' & G & L & En). exists n, bs', m. auto 8.
Qed.
Lemma push_var x k y e s ct e' s' : exec (Push x k (EVar y)) e s = Ok (ct, e') s' ->
  ct = Norm /\ s' = s /\ exists c e1 m, env_get y e = Some (VNode c) /\ env_set y VUndef e = Some e1 /\
    env_get x e1 = Some (VNode m) /\ env_set x (VNode (put k (CNode c) m)) e1 = Some e'.
Proof. intro H. apply push_inv in H as (-> & c & e1 & m & E & M & S). apply var_inv in E as (-> & G & E).
  split; [reflexivity|]. split; [reflexivity|]. exists c, e1, m. auto. Qed.
Lemma return_var x e s ct e' s' : exec (Return (EVar x)) e s = Ok (ct, e') s' ->
  s' = s /\ exists n, env_get x e = Some (VNode n) /\ ct = Ret (VNode n).
Proof. intro H. apply return_inv in H as (n & E & ->). apply var_inv in E as (-> & G & E). eauto. Qed.
Lemma below q p q' : (100 + q' < p)%N -> p = (100 + q)%N -> (q' < q)%N. Proof. lia. Qed.

Lemma between_builds : builds (call_body U prog call lf) F_parse_between_operator.
Proof.
  intros l c s bs n s' V G P [Lc ->] F H. apply body_inv in H as (_ & e' & H).
  cbn [prog parse_between_operator f_body f_params combine] in H.
  seq H E e1 s1. apply letnum_inv in E as (-> & p & E & ->). on H. cbn [eval_num] in E.
  destruct (prec_ok _ _ _ _ _ V E) as [-> Pp]. rewrite P in Pp. injection Pp as <-. clear E.
  seq H E e1 s1. apply let_inv in E as (-> & m & e2 & E & ->). on H.
  destruct (construct_op N_BetweenOperator _ _ _ _ _ _ ltac:(discriminate) ltac:(discriminate) V E) as (-> & -> & Gm & Tm & Km). clear E.
  seq H E e1 s1. apply push_var in E as (-> & -> & c & e2 & m1 & E1 & E2 & E3 & E4). on H.
  simp E1. injection E1 as <-. simp E2. injection E2 as <-. simp E3. injection E3 as <-. simp E4. injection E4 as <-.
  assert (Lm : left_operand m = Some (9%N, "left")) by (unfold GroupingSpec.left_operand; now rewrite Tm).
  assert (Rm : right_operands m = Some (9%N, ["right_min"; "right_max"])) by (unfold GroupingSpec.right_operands; now rewrite Tm).
  assert (G1 : good (put "left" (CNode l) m)) by (eapply put_left; eauto).
  seq H E e1 s1. destruct (next_inv _ _ _ _ _ _ _ _ _ V E) as (-> & -> & b & bs1 & -> & V1). on H. clear E.
  seq H E e1 s2. destruct (push_operand _ _ _ 109%N _ _ _ _ _ _ V1 E eq_refl) as (-> & r & bs2 & m1 & V2 & Gr & Lr & _ & E3 & E4). on H.
  simp E3. injection E3 as <-. simp E4. injection E4 as <-. clear E.
  assert (G2 : good (put "right_min" (CNode r) (put "left" (CNode l) m))).
  { eapply put_right; eauto; [cbn; tauto|rewrite right_put; exact Rm|]. intros q' k' L. apply Lr in L. lia. }
  seq H E e1 s3. destruct (next_inv _ _ _ _ _ _ _ _ _ V2 E) as (-> & -> & b2 & bs3 & -> & V3). on H. clear E.
  seq H E e1 s4. destruct (push_construct _ _ N_Keyword _ _ _ _ _ _ ltac:(discriminate) ltac:(discriminate) V3 E) as (-> & -> & a & m1 & Ga & E3 & E4). on H.
  simp E3. injection E3 as <-. simp E4. injection E4 as <-. clear E.
  pose proof (other_key "and" eq_refl _ _ G2 Ga) as G3.
  seq H E e1 s4. destruct (next_inv _ _ _ _ _ _ _ _ _ V3 E) as (-> & -> & b3 & bs4 & -> & V4). on H. clear E.
  seq H E e1 s5. destruct (push_operand _ _ _ 109%N _ _ _ _ _ _ V4 E eq_refl) as (-> & r2 & bs5 & m1 & V5 & Gr2 & Lr2 & En & E3 & E4). on H.
  simp E3. injection E3 as <-. simp E4. injection E4 as <-. clear E.
  apply return_var in H as (-> & n0 & E3 & [= ->]). simp E3. injection E3 as <-.
  exists bs5. split; [exact V5|]. split; [|split].
  - eapply put_right; eauto; [cbn; tauto|rewrite !right_put; exact Rm|]. intros q' k' L. apply Lr2 in L. lia.
  - now rewrite !left_put.
  - eapply (operand_open _ 9 "right_max" r2); [|apply child_same|exact En].
    rewrite !last_put. unfold GroupingSpec.last_operand. now rewrite Rm.
Qed.

Lemma distinct_builds : builds (call_body U prog call lf) F_parse_is_distinct_from_operator.
Proof.
  intros l c s bs n s' V G P [Lc ->] F H. apply body_inv in H as (_ & e' & H).
  cbn [prog parse_is_distinct_from_operator f_body f_params combine] in H.
  seq H E e1 s1. apply letnum_inv in E as (-> & p & E & ->). on H. cbn [eval_num] in E.
  destruct (prec_ok _ _ _ _ _ V E) as [-> Pp]. rewrite P in Pp. injection Pp as <-. clear E.
  seq H E e1 s1. apply let_inv in E as (-> & m & e2 & E & ->). on H.
  destruct (construct_op N_IsDistinctFromOperator _ _ _ _ _ _ ltac:(discriminate) ltac:(discriminate) V E) as (-> & -> & Gm & Tm & Km). clear E.
  seq H E e1 s1. apply push_var in E as (-> & -> & c & e2 & m1 & E1 & E2 & E3 & E4). on H.
  simp E1. injection E1 as <-. simp E2. injection E2 as <-. simp E3. injection E3 as <-. simp E4. injection E4 as <-.
  assert (Lm : left_operand m = Some (9%N, "left")) by (unfold GroupingSpec.left_operand; now rewrite Tm).
  assert (Rm : right_operands m = Some (9%N, ["right"])) by (unfold GroupingSpec.right_operands; now rewrite Tm).
  assert (G1 : good (put "left" (CNode l) m)) by (eapply put_left; eauto).
  rewrite <- (left_put U "left" (CNode l)) in Lm. rewrite <- (right_put U "left" (CNode l)) in Rm.
  revert G1 Lm Rm H. generalize (put "left" (CNode l) m). clear Gm Tm Km m. intros m G1 Lm Rm H.
  (* IS NOT DISTINCT *)
  seq H E e1 s1. destruct (if_inv _ _ _ _ _ _ _ _ _ _ _ _ V E) as (b & e2 & C & -> & E1). clear E C.
  assert (X : ct = Norm /\ exists m bs1, view s1 bs1 /\ good m /\ left_operand m = Some (9%N, "left") /\
    right_operands m = Some (9%N, ["right"]) /\
    env_leave (length [("node", VNode m); ("precedence", VNum 109); ("left", VUndef)]) e2 =
    [("node", VNode m); ("precedence", VNum 109); ("left", VUndef)]).
  { destruct b.
    - seq E1 E e3 s2. destruct (next_inv _ _ _ _ _ _ _ _ _ V E) as (-> & -> & b & bs1 & -> & V1). on E1.
      destruct (push_construct _ _ N_Keyword _ _ _ _ _ _ ltac:(discriminate) ltac:(discriminate) V1 E1) as (-> & -> & a & m1 & Ga & E3 & E4).
      simp E3. injection E3 as <-. simp E4. injection E4 as <-. split; [reflexivity|].
      exists (put "not" (CNode a) m), bs1. rewrite left_put, right_put. pose proof (other_key "not" eq_refl _ _ G1 Ga). auto 8.
    - apply skip_inv in E1 as (-> & -> & ->). split; [reflexivity|]. exists m, bs. auto 8. }
  destruct X as (-> & m' & bs1 & V1 & G2 & L2 & R2 & Ee). on H. cbn [length] in H, Ee. rewrite Ee in H.
  clear E1 Ee e2 G1 Lm Rm m b V P.
  seq H E e1 s2. destruct (next_inv _ _ _ _ _ _ _ _ _ V1 E) as (-> & -> & b & bs2 & -> & V2). on H. clear E V1.
  seq H E e1 s3. destruct (push_construct _ _ N_Keyword _ _ _ _ _ _ ltac:(discriminate) ltac:(discriminate) V2 E) as (-> & -> & a & m1 & Ga & E3 & E4). on H.
  simp E3. injection E3 as <-. simp E4. injection E4 as <-. clear E. pose proof (other_key "distinct" eq_refl _ _ G2 Ga) as G3.
  seq H E e1 s3. destruct (next_inv _ _ _ _ _ _ _ _ _ V2 E) as (-> & -> & b2 & bs3 & -> & V3). on H. clear E V2.
  seq H E e1 s4. destruct (push_construct _ _ N_Keyword _ _ _ _ _ _ ltac:(discriminate) ltac:(discriminate) V3 E) as (-> & -> & a2 & m1 & Ga2 & E3 & E4). on H.
  simp E3. injection E3 as <-. simp E4. injection E4 as <-. clear E. pose proof (other_key "from" eq_refl _ _ G3 Ga2) as G4.
  seq H E e1 s4. destruct (next_inv _ _ _ _ _ _ _ _ _ V3 E) as (-> & -> & b3 & bs4 & -> & V4). on H. clear E V3.
  seq H E e1 s5. destruct (push_operand _ _ _ 109%N _ _ _ _ _ _ V4 E eq_refl) as (-> & r2 & bs5 & m1 & V5 & Gr2 & Lr2 & En & E3 & E4). on H.
  simp E3. injection E3 as <-. simp E4. injection E4 as <-. clear E.
  apply return_var in H as (-> & n0 & E3 & [= ->]). simp E3. injection E3 as <-.
  exists bs5. split; [exact V5|]. split; [|split].
  - eapply put_right; eauto; [cbn; tauto|rewrite !right_put; exact R2|]. intros q' k' L. apply Lr2 in L. lia.
  - now rewrite !left_put.
  - eapply (operand_open _ 9 "right" r2); [|apply child_same|exact En].
    rewrite !last_put. unfold GroupingSpec.last_operand. now rewrite R2.
Qed.

Lemma leave_same e : env_leave (length e) e = e.
Proof. unfold env_leave. now rewrite Nat.sub_diag. Qed.
(* if ... { self.next_token()?; node.push_node(k, self.construct_node(Keyword)?) } *)
Lemma optional cond k m rest s bs ct e' s' : view s bs -> good m ->
  exec (If cond (Seq Next (Push "node" k (EConstruct N_Keyword))) Skip) (("node", VNode m) :: rest) s = Ok (ct, e') s' ->
  negb (existsb (String.eqb k) operand_keys) = true ->
  ct = Norm /\ exists m' bs', e' = ("node", VNode m') :: rest /\ view s' bs' /\ good m' /\
    left_operand m' = left_operand m /\ right_operands m' = right_operands m.
Proof.
  intros V G H K. destruct (if_inv _ _ _ _ _ _ _ _ _ _ _ _ V H) as (b & e2 & C & -> & E1). clear H C. destruct b.
  - seq E1 E e3 s2. destruct (next_inv _ _ _ _ _ _ _ _ _ V E) as (-> & -> & b & bs1 & -> & V1). on E1.
    destruct (push_construct _ _ N_Keyword _ _ _ _ _ _ ltac:(discriminate) ltac:(discriminate) V1 E1) as (-> & -> & a & m1 & Ga & E3 & E4).
    simp E3. injection E3 as <-. simp E4. injection E4 as <-. split; [reflexivity|].
    exists (put k (CNode a) m), bs1. rewrite left_put, right_put. pose proof (other_key k K _ _ G Ga).
    split; [apply (leave_same (("node", VNode (put k (CNode a) m)) :: rest))|auto].
  - apply skip_inv in E1 as (-> & -> & ->). split; [reflexivity|]. exists m, bs. split; [apply leave_same|auto].
Qed.

Lemma binary_builds : builds (call_body U prog call lf) F_parse_binary_operator.
Proof.
  intros l c s bs n s' V G P [Lc (t & Ht & Lt)] F H. apply body_inv in H as (_ & e' & H).
  cbn [prog parse_binary_operator f_body f_params combine] in H.
  seq H E e1 s1. apply letnum_inv in E as (-> & p & E & ->). on H. cbn [eval_num] in E.
  destruct (prec_ok _ _ _ _ _ V E) as [-> Pp]. rewrite P in Pp. injection Pp as <-. clear E.
  seq H E e1 s1. apply let_inv in E as (-> & m & e2 & E & ->). on H.
  destruct (construct_op N_BinaryOperator _ _ _ _ _ _ ltac:(discriminate) ltac:(discriminate) V E) as (-> & -> & Gm & Tm & Km). clear E.
  assert (Lm : left_operand m = Some ((c - 100)%N, "left")).
  { unfold GroupingSpec.left_operand, token_level. now rewrite Tm, Km, Ht, Lt. }
  assert (Rm : right_operands m = Some ((c - 100)%N, ["right"])).
  { unfold GroupingSpec.right_operands, token_level. now rewrite Tm, Km, Ht, Lt. }
  clear Tm Km.
  seq H E e1 s1. destruct (optional _ _ _ _ _ _ _ _ _ V Gm E eq_refl) as (-> & m1 & bs1 & -> & V1 & G1 & L1 & R1). on H. clear E.
  seq H E e1 s2. destruct (optional _ _ _ _ _ _ _ _ _ V1 G1 E eq_refl) as (-> & m2 & bs2 & -> & V2 & G2 & L2 & R2). on H. clear E.
  rewrite L1, Lm in L2. rewrite R1, Rm in R2. clear L1 R1 Lm Rm Gm G1 m m1.
  seq H E e1 s3. destruct (next_inv _ _ _ _ _ _ _ _ _ V2 E) as (-> & -> & b & bs3 & -> & V3). on H. clear E V2.
  seq H E e1 s4. apply push_var in E as (-> & -> & c0 & e2 & m1 & E1 & E2 & E3 & E4). on H.
  simp E1. injection E1 as <-. simp E2. injection E2 as <-. simp E3. injection E3 as <-. simp E4. injection E4 as <-.
  assert (G3 : good (put "left" (CNode l) m2)) by (eapply put_left; eauto).
  seq H E e1 s5. destruct (push_operand _ _ _ c _ _ _ _ _ _ V3 E eq_refl) as (-> & r2 & bs5 & m1 & V5 & Gr2 & Lr2 & En & E3 & E4). on H.
  simp E3. injection E3 as <-. simp E4. injection E4 as <-. clear E.
  apply return_var in H as (-> & n0 & E3 & [= ->]). simp E3. injection E3 as <-.
  exists bs5. split; [exact V5|]. split; [|split].
  - eapply put_right; eauto; [cbn; tauto|rewrite !right_put; exact R2|]. intros q' k' L. apply Lr2 in L. lia.
  - now rewrite !left_put.
  - eapply (operand_open _ (c - 100) "right" r2); [|apply child_same|].
    + rewrite !last_put. unfold GroupingSpec.last_operand. now rewrite R2.
    + replace (100 + (c - 100))%N with c by lia. exact En.
Qed.

(* ----- parse_expr ----- *)
Section Expr.
Context (p : N) (alias as_table after_dot order : bool).
Definition frame (v : value) : env :=
  [("left", v); ("precedence", VNum p); ("alias", VBool alias); ("as_table", VBool as_table);
   ("after_dot", VBool after_dot); ("order", VBool order)].
Definition frame_kinds (k : kind) : astate :=
  [("left", k); ("precedence", KVal 0); ("alias", KVal 1); ("as_table", KVal 2); ("after_dot", KVal 3); ("order", KVal 4)].
Definition params (i : nat) : value :=
  match i with 0 => VNum p | 1 => VBool alias | 2 => VBool as_table | 3 => VBool after_dot | _ => VBool order end.
Lemma params_scalar i : scalar (params i).
Proof. do 4 (destruct i as [|i]; [exact Logic.I|]). exact Logic.I. Qed.
Lemma frame_gamma k v s bs : view s bs -> good_val U v -> kind_val U params k v -> gamma U params (frame_kinds k) (frame v) s.
Proof.
  intros V G K. split; [|eauto]. unfold frame_kinds, frame.
  repeat match goal with |- env_ok _ _ _ _ => constructor | |- Forall2 _ _ _ => constructor end;
    (split; [reflexivity|split; [exact G || exact Logic.I|exact K || reflexivity]]).
Qed.
Lemma gamma_frame k e s : gamma U params (frame_kinds k) e s ->
  exists v bs, e = frame v /\ view s bs /\ good_val U v /\ kind_val U params k v.
Proof.
  intros [F [bs V]]. unfold frame_kinds in F.
  repeat match goal with
         | H : env_ok _ _ (_ :: _) ?e |- _ => inversion H as [|? [? ?] ? ? (? & ? & ?) ?]; subst; clear H
         | H : Forall2 _ (_ :: _) ?e |- _ => inversion H as [|? [? ?] ? ? (? & ? & ?) ?]; subst; clear H
         | H : Forall2 _ [] ?e |- _ => inversion H; subst; clear H
         end.
  cbn [fst snd kind_val params] in *. subst. unfold frame. eauto 8.
Qed.

(* a branch that the domain accepts *)
Definition branch_ok (c : cmd fn) (k k' : kind) : Prop :=
  obind (acmd (grouping_domain (KVal 0)) c (frame_kinds k)) (scope (grouping_domain (KVal 0)) 6) = Some (Some (frame_kinds k'), None).
Lemma branch c k k' v s bs ct e1 s' : branch_ok c k k' -> view s bs -> good_val U v -> kind_val U params k v ->
  exec c (frame v) s = Ok (ct, e1) s' ->
  ct = Norm /\ exists v' bs', env_leave 6 e1 = frame v' /\ view s' bs' /\ good_val U v' /\ kind_val U params k' v'.
Proof.
  intros B V G K H. unfold branch_ok in B. apply obind_inv in B as (o & A & B).
  pose proof (accepted U params params_scalar call lf (sp_moves _ Sp) (sp_good _ Sp) _ _ _ _ _ _ _ _ _ A
    (frame_gamma _ _ _ _ V G K) H) as R.
  unfold scope in B. apply obind_inv in B as (l & Lo & [= -> So]).
  destruct ct.
  - split; [reflexivity|]. destruct R as (a' & Fo & Ga). rewrite Fo in Lo. cbn [leave_opt] in Lo.
    destruct (d_leave _ 6 a') as [a2|] eqn:D; [|discriminate]. injection Lo as ->.
    pose proof (s_leave _ _ _ _ _ _ (grouping_sound U params params_scalar call lf (sp_moves _ Sp) (sp_good _ Sp) (KVal 0)) _ _ _ _ _ D Ga) as L.
    destruct (gamma_frame _ _ _ L) as (v' & bs' & E & V' & Gv & Kv). eauto 8.
  - destruct R as (a' & X & _). congruence.
  - destruct R as (_ & [] & _).
Qed.

(* what holds of the expression so far, at the head of the loop *)
Definition so_far (v : value) (bs : list bundle) : Prop :=
  good_val U v /\ forall l, v = VNode l ->
    (as_table = false -> forall q k, left_operand l = Some (q, k) -> (100 + q < p)%N) /\ open_end l bs.
Definition keeps (c : cmd fn) (v : value) (s : pstate) : Prop :=
  forall ct e1 s', exec c (frame v) s = Ok (ct, e1) s' ->
    ct = Norm /\ exists v' bs', env_leave 6 e1 = frame v' /\ view s' bs' /\ so_far v' bs'.
Lemma leave_frame v : env_leave 6 (frame v) = frame v. Proof. reflexivity. Qed.
Lemma keeps_case k pats a b v s bs : view s bs ->
  (forall t, tok_at bs k = Some t -> mem_pats (upper_literal U t) pats = true -> keeps a v s) -> keeps b v s ->
  keeps (CaseUpper k pats a b) v s.
Proof.
  intros V Ka Kb ct e1 s' H. destruct (case_inv _ _ _ _ _ _ _ _ _ _ _ _ _ V H) as (t & e2 & Ht & -> & [[M E]|[M E]]).
  - destruct (Ka _ Ht M _ _ _ E) as (-> & v' & bs' & L & R). split; [reflexivity|]. exists v', bs'. split; [|exact R].
    change (length (frame v)) with 6. rewrite L. apply leave_frame.
  - destruct (Kb _ _ _ E) as (-> & v' & bs' & L & R). split; [reflexivity|]. exists v', bs'. split; [|exact R].
    change (length (frame v)) with 6. rewrite L. apply leave_frame.
Qed.
Lemma keeps_if c a b v s bs : view s bs ->
  (eval_cond U c (frame v) s = Ok true s -> keeps a v s) -> (eval_cond U c (frame v) s = Ok false s -> keeps b v s) ->
  keeps (If c a b) v s.
Proof.
  intros V Ka Kb ct e1 s' H. destruct (if_inv _ _ _ _ _ _ _ _ _ _ _ _ V H) as (w & e2 & C & -> & E).
  assert (K : keeps (if w then a else b) v s) by (destruct w; auto).
  destruct (K _ _ _ E) as (-> & v' & bs' & L & R). split; [reflexivity|]. exists v', bs'. split; [|exact R].
  change (length (frame v)) with 6. rewrite L. apply leave_frame.
Qed.
Lemma keeps_skip v s bs : view s bs -> so_far v bs -> keeps Skip v s.
Proof. intros V F ct e1 s' [= <- <- <-]. split; [reflexivity|]. exists v, bs. auto using leave_frame. Qed.
Lemma so_far_kind k v bs : good_val U v -> kind_val U params k v ->
  match k with KPlain => True | KPost _ q => (100 + q < p)%N | KClosed => as_table = true | _ => False end -> so_far v bs.
Proof.
  intros G K C. split; [exact G|]. intros l ->. apply (kind_val_node U params params_scalar) in K.
  destruct k; try contradiction; cbn in K; split.
  - congruence.
  - now apply closed_open, closed_last.
  - intros _ q k L. now rewrite (plain_left _ _ K) in L.
  - now apply closed_open, closed_last, plain_closed.
  - intros _ q' k' L. rewrite (post_left _ _ _ _ K) in L. injection L as <- <-. exact C.
  - eapply closed_open, closed_last, post_closed; eauto.
Qed.
Lemma keeps_branch c k k' v s bs : branch_ok c k k' -> view s bs -> good_val U v -> kind_val U params k v ->
  match k' with KPlain => True | KPost _ q => (100 + q < p)%N | KClosed => as_table = true | _ => False end ->
  keeps c v s.
Proof.
  intros B V G K C ct e1 s' H. destruct (branch _ _ _ _ _ _ _ _ _ B V G K H) as (-> & v' & bs' & L & V' & G' & K').
  split; [reflexivity|]. exists v', bs'. split; [exact L|]. split; [exact V'|]. eapply so_far_kind; eauto.
Qed.

(* ----- prefix operators ----- *)
Lemma set_put k v ty n : set_type ty (put k v n) = put k v (set_type ty n). Proof. now destruct n. Qed.
Lemma unary_ok l r q bs t : good l -> n_token l = Some t -> good r ->
  match find_level (upper_literal U t) prefix_levels with
  | Some q' => q = (100 + q')%N /\ forall q'' k, left_operand r = Some (q'', k) -> (100 + q'' < q)%N
  | None => True
  end -> ending r q bs ->
  so_far (VNode (put "right" (CNode r) (set_type N_UnaryOperator l))) bs.
Proof.
  intros G T Gr L E. set (n := put "right" (CNode r) (set_type N_UnaryOperator l)).
  assert (Ln : left_operand n = None) by now destruct l.
  assert (Tn : token_level U prefix_levels n = find_level (upper_literal U t) prefix_levels).
  { unfold token_level. destruct l. cbn in T |- *. now rewrite T. }
  assert (Rn : right_operands n = option_map (fun q => (q, ["right"])) (find_level (upper_literal U t) prefix_levels)).
  { rewrite <- Tn. now destruct l. }
  assert (Cn : child "right" n = Some (CNode r)) by apply child_same.
  split.
  - apply good_eq. split.
    + constructor; [intros; congruence|]. intros q' ks k r0 R I C. rewrite Rn in R.
      destruct (find_level _ _) as [q1|]; [|discriminate]. injection R as <- <-. destruct I as [<-|[]]. rewrite Cn in C. injection C as <-.
      destruct L as [-> L]. intros q'' k' X. apply L in X. lia.
    + apply good_eq in G as [_ K]. intros k c I. destruct l as [tl ty m]. cbn [n set_type put n_children] in I, K.
      apply In_insert in I as [[_ ->]|I]; [exact Gr|eauto].
  - intros l0 [= <-]. split; [intros _ q' k X; congruence|]. destruct (find_level _ _) as [q1|] eqn:F.
    + destruct L as [-> _]. eapply operand_open; eauto. unfold GroupingSpec.last_operand. now rewrite Rn.
    + apply closed_open. unfold GroupingSpec.last_operand. now rewrite Rn.
Qed.
Lemma let_operand q tb e s bs ct e' s' : view s bs ->
  exec (LetNode "right" (ECall F_parse_expr
    [ANum (NumC q); ABool (BConst false); ABool (BConst tb); ABool (BConst false); ABool (BConst true)])) e s = Ok (ct, e') s' ->
  ct = Norm /\ exists r bs', e' = ("right", VNode r) :: e /\ view s' bs' /\ good r /\
    (tb = false -> forall q' k, left_operand r = Some (q', k) -> (100 + q' < q)%N) /\ ending r q bs'.
Proof.
  intros V H. apply let_inv in H as (-> & r & e1 & H & ->). split; [reflexivity|].
  apply call_inv in H as (vs & s1 & A & H). injection A as <- <- <-.
  destruct (sp_expr _ Sp _ _ _ _ _ _ _ _ _ V H) as (bs' & V' & G & L & E). eauto 10.
Qed.
Lemma prefix_one q tb l t s bs : view s bs -> good l -> n_token l = Some t ->
  match find_level (upper_literal U t) prefix_levels with Some q' => q = (100 + q')%N /\ tb = false | None => True end ->
  keeps (Seq (SetType "left" N_UnaryOperator) (Seq Next (Seq (LetNode "right" (ECall F_parse_expr
    [ANum (NumC q); ABool (BConst false); ABool (BConst tb); ABool (BConst false); ABool (BConst true)]))
    (Push "left" "right" (EVar "right"))))) (VNode l) s.
Proof.
  intros V G T L ct e1 s' H. seq H E e2 s2. apply settype_inv in E as (-> & -> & m & E1 & E2). on H.
  simp E1. injection E1 as <-. simp E2. injection E2 as <-.
  seq H E e2 s2. destruct (next_inv _ _ _ _ _ _ _ _ _ V E) as (-> & -> & b & bs1 & -> & V1). on H. clear E.
  seq H E e2 s3. destruct (let_operand _ _ _ _ _ _ _ _ V1 E) as (-> & r & bs2 & -> & V2 & Gr & Lr & En). on H. clear E.
  apply push_var in H as (-> & -> & c & e2 & m & E1 & E2 & E3 & E4).
  simp E1. injection E1 as <-. simp E2. injection E2 as <-. simp E3. injection E3 as <-. simp E4. injection E4 as <-.
  split; [reflexivity|]. eexists _, bs2. split; [reflexivity|]. split; [exact V2|]. eapply unary_ok; eauto.
  destruct (find_level _ _); [|exact Logic.I]. destruct L as [-> Ht]. eauto.
Qed.
Lemma prefix_two q l t s bs : view s bs -> good l -> n_token l = Some t ->
  match find_level (upper_literal U t) prefix_levels with Some q' => q = (100 + q')%N | None => True end ->
  keeps (Seq Next (Seq (LetNode "right" (ECall F_parse_expr
    [ANum (NumC q); ABool (BConst false); ABool (BConst false); ABool (BConst false); ABool (BConst true)]))
    (Seq (Push "left" "right" (EVar "right")) (SetType "left" N_UnaryOperator)))) (VNode l) s.
Proof.
  intros V G T L ct e1 s' H.
  seq H E e2 s2. destruct (next_inv _ _ _ _ _ _ _ _ _ V E) as (-> & -> & b & bs1 & -> & V1). on H. clear E.
  seq H E e2 s3. destruct (let_operand _ _ _ _ _ _ _ _ V1 E) as (-> & r & bs2 & -> & V2 & Gr & Lr & En). on H. clear E.
  seq H E e2 s4. apply push_var in E as (-> & -> & c & e3 & m & E1 & E2 & E3 & E4). on H.
  simp E1. injection E1 as <-. simp E2. injection E2 as <-. simp E3. injection E3 as <-. simp E4. injection E4 as <-.
  apply settype_inv in H as (-> & -> & m & E1 & E2). simp E1. injection E1 as <-. simp E2. injection E2 as <-.
  split; [reflexivity|]. rewrite set_put. eexists _, bs2. split; [reflexivity|]. split; [exact V2|]. eapply unary_ok; eauto.
  destruct (find_level _ _); [|exact Logic.I]. eauto.
Qed.
Lemma level_of u pats (r : option N) : mem_pats u pats = true ->
  forallb (fun p => match find_level (s_ p) prefix_levels, r with Some a, Some b => N.eqb a b | None, None => true | _, _ => false end) pats = true ->
  find_level u prefix_levels = r.
Proof.
  intros M F.
  pose proof (mem_pats_all u pats (fun u => match find_level u prefix_levels, r with Some a, Some b => N.eqb a b | None, None => true | _, _ => false end) M F) as X.
  cbv beta in X. destruct (find_level u prefix_levels), r; try discriminate; [|reflexivity]. apply N.eqb_eq in X. congruence.
Qed.

(* the arms for the first word *)
Lemma words_keep l s bs : view s bs -> good l -> plain_type (n_type l) = true -> n_token l = tok_at bs 0 ->
  keeps expr_words (VNode l) s.
Proof.
  intros V G Pl T. unfold expr_words.
  assert (B : forall c, branch_ok c KPlain KPlain -> keeps c (VNode l) s).
  { intros c B. eapply keeps_branch; eauto. exact Logic.I. }
  assert (S : keeps Skip (VNode l) s).
  { eapply keeps_skip; [exact V|]. apply (so_far_kind KPlain); [exact G|exact Pl|exact Logic.I]. }
  do 6 (eapply keeps_case; [exact V|intros _ _ _; apply B; vm_compute; reflexivity|]).
  eapply keeps_case; [exact V| |].
  { intros t Ht M. rewrite Ht in T. eapply prefix_one; eauto. rewrite (level_of _ _ (Some 2%N) M); [auto|reflexivity]. }
  eapply keeps_case; [exact V| |].
  { intros t Ht M. rewrite Ht in T. eapply keeps_if; [exact V|intros _|intros _; exact S].
    eapply prefix_one; eauto. rewrite (level_of _ _ None M); [auto|reflexivity]. }
  eapply keeps_case; [exact V|intros _ _ _; apply B; vm_compute; reflexivity|].
  eapply keeps_case; [exact V| |].
  { intros t Ht M. rewrite Ht in T. eapply prefix_one; eauto. rewrite (level_of _ _ None M); [auto|reflexivity]. }
  eapply keeps_case; [exact V| |].
  { intros t Ht M. rewrite Ht in T. eapply keeps_if; [exact V|intros _|intros _; exact S].
    eapply prefix_two; eauto. rewrite (level_of _ _ None M); [auto|reflexivity]. }
  do 2 (eapply keeps_case; [exact V|intros _ _ _; apply B; vm_compute; reflexivity|]).
  eapply keeps_case; [exact V| |].
  { intros t Ht M. rewrite Ht in T. eapply prefix_two; eauto. rewrite (level_of _ _ (Some 10%N) M); [auto|reflexivity]. }
  eapply keeps_case; [exact V|intros _ _ _; apply B; vm_compute; reflexivity|]. exact S.
Qed.

(* ----- the loop ----- *)
Lemma prec_word bs k t pats c : tok_at bs k = Some t -> mem_pats (upper_literal U t) pats = true ->
  forallb (fun p => match prec_of (s_ p) with Some x => N.eqb x c | None => false end) pats = true -> prec_in bs k = Some c.
Proof.
  intros T M F. unfold prec_in. rewrite T.
  pose proof (mem_pats_all _ _ (fun u => match prec_of u with Some x => N.eqb x c | None => false end) M F) as X. cbv beta in X.
  destruct (prec_of _) as [x|]; [|discriminate]. apply N.eqb_eq in X. congruence.
Qed.
Lemma so_far_fit v l bs c : so_far v bs -> v = VNode l -> prec_in bs 1 = Some c -> fit l c.
Proof. intros [_ F] -> P. destruct (F l eq_refl) as [_ [S|E]]; [now left|right; auto]. Qed.
Lemma keeps_post c q k v s bs : branch_ok c (KFit q) (KPost k q) -> view s bs -> so_far v bs ->
  prec_in bs 1 = Some (100 + q)%N -> (100 + q < p)%N -> keeps c v s.
Proof.
  intros B V F P L. eapply keeps_branch; eauto; [apply F|]. unfold kind_val. destruct v; try exact Logic.I. cbn [kind_ok].
  replace q with (100 + q - 100)%N by lia. eapply so_far_fit; eauto.
Qed.

(* left = self.parse_..._operator(left)? *)
Lemma set_operator f e s bs ct e' s' c : builds call f -> view s bs -> prec_in bs 0 = Some c -> op_level f c bs ->
  (forall l, env_get "left" e = Some (VNode l) -> good l /\ fit l c) ->
  exec (SetNode "left" (ECall f [ANode "left"])) e s = Ok (ct, e') s' ->
  ct = Norm /\ exists n e1 bs', env_set "left" VUndef e = Some e1 /\ env_set "left" (VNode n) e1 = Some e' /\ view s' bs' /\
    good n /\ left_operand n = Some ((c - 100)%N, "left") /\ open_end n bs'.
Proof.
  intros B V P O Hl H. apply set_inv in H as (-> & n & e1 & H & S). split; [reflexivity|].
  apply call_inv in H as (vs & s1 & A & H). cbn [eval_args] in A. apply bind_Ok in A as ([u e2] & s2 & A1 & A).
  apply bind_Ok in A1 as ([m e3] & s3 & A1 & A2). unfold take_node in A1.
  destruct (env_get "left" e) as [[|l| | | | |]|]; try discriminate. destruct (Hl _ eq_refl) as [G F].
  apply bind_Ok in A1 as (e4 & s4 & A1 & A3). injection A3 as <- <- <-. injection A2 as <- <- <-.
  apply set_or_stuck_inv in A1 as [A1 ->]. injection A as <- <- <-.
  destruct (B _ _ _ _ _ _ V G P O F H) as (bs' & V' & Gn & L & En). exists n, e4, bs'. auto 8.
Qed.
Lemma so_far_op n c bs : good n -> left_operand n = Some ((c - 100)%N, "left") -> (100 <= c)%N -> (c < p)%N -> open_end n bs ->
  so_far (VNode n) bs.
Proof.
  intros G L C P E. split; [exact G|]. intros l [= <-]. split; [|exact E]. intros _ q k X. rewrite L in X. injection X as <- <-. lia.
Qed.
Lemma open_put k v n bs : ~ In k operand_keys -> open_end n bs -> open_end (put k v n) bs.
Proof. intros K [S|E]; [left; now apply suffixed_put|right]. intros c P. apply ends_put; auto. Qed.
Lemma keeps_set f v s bs c : builds call f -> view s bs -> prec_in bs 0 = Some c -> op_level f c bs -> (c < p)%N ->
  (forall l, v = VNode l -> good l /\ fit l c) -> keeps (SetNode "left" (ECall f [ANode "left"])) v s.
Proof.
  intros B V P O L F ct e1 s' H.
  destruct (set_operator f (frame v) s bs ct e1 s' c B V P O) as (-> & n & e2 & bs' & E1 & E2 & V' & G & Ln & En); [|exact H|].
  { intros l E. simp E. injection E as ->. now apply F. }
  simp E1. injection E1 as <-. simp E2. injection E2 as <-. split; [reflexivity|].
  exists (VNode n), bs'. split; [reflexivity|]. split; [exact V'|]. eapply so_far_op; eauto. apply O.
Qed.
Lemma keeps_next c v s bs : view s bs -> (forall b bs1 s1, bs = b :: bs1 -> view s1 bs1 -> keeps c v s1) -> keeps (Seq Next c) v s.
Proof.
  intros V K ct e1 s' H. seq H E e2 s2. destruct (next_inv _ _ _ _ _ _ _ _ _ V E) as (-> & -> & b & bs1 & -> & V1). on H.
  eapply K; eauto.
Qed.
Lemma keeps_fail k m d v s : keeps (Fail k m d) v s.
Proof. intros ct e1 s' H. now apply fail_inv in H. Qed.
(* a NOT before IN, LIKE or BETWEEN *)
Lemma not_operator f k0 v s bs ct e' s' : builds call f -> view s bs -> prec_in bs 0 = Some 109%N -> op_level f 109 bs -> (109 < p)%N ->
  (forall l, v = VNode l -> good l /\ fit l 109) -> good k0 ->
  exec (Seq (SetNode "left" (ECall f [ANode "left"])) (Push "left" "not" (EVar "not"))) (("not", VNode k0) :: frame v) s = Ok (ct, e') s' ->
  ct = Norm /\ exists v' bs', e' = ("not", VUndef) :: frame v' /\ view s' bs' /\ so_far v' bs'.
Proof.
  intros B V P O L F K0 H. seq H E e2 s2.
  destruct (set_operator f (("not", VNode k0) :: frame v) s bs ct0 e2 s2 109%N B V P O) as (-> & n & e3 & bs' & E1 & E2 & V' & G & Ln & En); [|exact E|].
  { intros l E1. simp E1. injection E1 as ->. now apply F. }
  on H. simp E1. injection E1 as <-. simp E2. injection E2 as <-.
  apply push_var in H as (-> & -> & c & e2 & m & E1 & E2 & E3 & E4).
  simp E1. injection E1 as <-. simp E2. injection E2 as <-. simp E3. injection E3 as <-. simp E4. injection E4 as <-.
  split; [reflexivity|]. exists (VNode (put "not" (CNode k0) n)), bs'. split; [reflexivity|]. split; [exact V'|].
  eapply (so_far_op _ 109); [now apply other_key|now rewrite left_put|lia|exact L|].
  apply open_put; [|exact En]. apply not_operand. reflexivity.
Qed.
Lemma token_cond k w e s bs b : view s bs -> eval_cond U (CTok k (TIs w)) e s = Ok b s ->
  exists t, tok_at bs k = Some t /\ is_ U w t = b.
Proof.
  intros V H. cbn [eval_cond] in H. apply bind_Ok in H as (t & s1 & Ht & H).
  apply (get_token_ok _ _ _ _ _ V) in Ht as (-> & x & Hx & <-). injection H as <-. exists (b_tok x). unfold tok_at. now rewrite Hx.
Qed.
Hypothesis upper_words : forall w, In w ["IN"; "LIKE"; "BETWEEN"] -> to_uppercase U (s_ w) = s_ w.
Lemma is_word w t : In w ["IN"; "LIKE"; "BETWEEN"] -> is_ U w t = true -> upper_literal U t = s_ w.
Proof. intros I H. unfold is_ in H. apply str_eqb_eq in H. rewrite H. now apply upper_words. Qed.

Lemma loop_keeps v s bs c : view s bs -> so_far v bs -> prec_in bs 1 = Some c -> (c < p)%N -> keeps expr_loop v s.
Proof.
  intros V F P L. unfold expr_loop.
  assert (Fl : forall l, v = VNode l -> good l /\ fit l c).
  { intros l E. split; [destruct F as [F _]; now subst|]. eapply so_far_fit; eauto. }
  assert (Q : forall t pats c', tok_at bs 1 = Some t -> mem_pats (upper_literal U t) pats = true ->
    forallb (fun p => match prec_of (s_ p) with Some x => N.eqb x c' | None => false end) pats = true -> c = c').
  { intros t pats c' T M X. rewrite (prec_word _ _ _ _ _ T M X) in P. congruence. }
  eapply keeps_case; [exact V| |].
  { intros t T M. pose proof (Q _ _ 101%N T M eq_refl). subst c.
    eapply (keeps_post _ 1); eauto. vm_compute. reflexivity. }
  eapply keeps_case; [exact V| |].
  { intros t T M. pose proof (Q _ _ 101%N T M eq_refl). subst c.
    eapply (keeps_post _ 1); eauto. vm_compute. reflexivity. }
  eapply keeps_case; [exact V| |].
  { intros t T M. pose proof (Q _ _ 102%N T M eq_refl). subst c.
    eapply (keeps_post _ 2); eauto. vm_compute. reflexivity. }
  eapply keeps_case; [exact V| |].
  { intros t T M. eapply keeps_next; [exact V|]. intros b bs1 s1 -> V1.
    eapply keeps_set; [apply (sp_binary _ Sp)|exact V1|exact P| |exact L|exact Fl].
    change (tok_at bs1 0 = Some t) in T. change (prec_in bs1 0 = Some c) in P. unfold prec_in in P. rewrite T in P.
    pose proof (mem_pats_all _ _ (fun u => match prec_of u, find_level u binary_levels with
      | Some x, Some y => N.leb 100 x && N.eqb y (x - 100) | _, _ => false end) M eq_refl) as X. cbv beta in X.
    destruct (prec_of _) as [x|]; [|discriminate]. injection P as ->. destruct (find_level _ _) as [y|] eqn:Y; [|discriminate].
    apply andb_true_iff in X as [X1 X2]. apply N.leb_le in X1. apply N.eqb_eq in X2. subst y. split; [exact X1|eauto]. }
  eapply keeps_case; [exact V| |].
  { intros t T M. pose proof (Q _ _ 109%N T M eq_refl). subst c. eapply keeps_next; [exact V|]. intros b bs1 s1 -> V1.
    eapply keeps_if; [exact V1|intros _|intros _].
    - eapply keeps_set; [apply (sp_distinct _ Sp)|exact V1|exact P| |exact L|exact Fl]. split; [lia|reflexivity].
    - eapply keeps_set; [apply (sp_binary _ Sp)|exact V1|exact P| |exact L|exact Fl]. split; [lia|]. exists t. split; [exact T|].
      pose proof (mem_pats_all _ _ (fun u => match find_level u binary_levels with Some x => N.eqb x 9 | None => false end) M eq_refl) as X.
      cbv beta in X. destruct (find_level _ _) as [x|]; [|discriminate]. apply N.eqb_eq in X. now subst. }
  eapply keeps_case; [exact V| |].
  { intros t T M. pose proof (Q _ _ 109%N T M eq_refl). subst c. eapply keeps_next; [exact V|]. intros b bs1 s1 -> V1.
    eapply keeps_set; [apply (sp_between _ Sp)|exact V1|exact P| |exact L|exact Fl]. split; [lia|reflexivity]. }
  eapply keeps_case; [exact V| |].
  { intros t T M. pose proof (Q _ _ 109%N T M eq_refl). subst c. eapply keeps_next; [exact V|]. intros b bs1 s1 -> V1.
    eapply keeps_set; [apply (sp_in _ Sp)|exact V1|exact P| |exact L|exact Fl]. split; [lia|reflexivity]. }
  eapply keeps_case; [exact V| |intros; apply keeps_fail].
  intros t T M ct e1 s' H.
  seq H E e2 s2. destruct (next_inv _ _ _ _ _ _ _ _ _ V E) as (-> & -> & b & bs1 & -> & V1). on H. clear E.
  seq H E e2 s3. apply let_inv in E as (-> & k0 & e3 & E & ->). on H.
  destruct (construct_op N_Keyword _ _ _ _ _ _ ltac:(discriminate) ltac:(discriminate) V1 E) as (-> & -> & Gk & _). clear E.
  seq H E e2 s3. destruct (next_inv _ _ _ _ _ _ _ _ _ V1 E) as (-> & -> & b1 & bs2 & -> & V2). on H. clear E.
  assert (W : forall w, In w ["IN"; "LIKE"; "BETWEEN"] -> forall t1, tok_at bs2 0 = Some t1 -> is_ U w t1 = true ->
    c = 109%N /\ prec_in bs2 0 = Some 109%N /\ upper_literal U t1 = s_ w).
  { intros w I t1 T1 W. apply (is_word _ _ I) in W. split; [|split; [|exact W]].
    - unfold prec_in in P. rewrite T in P.
      pose proof (mem_pats_all _ _ (fun u => match prec_of u with Some x => false | None => true end) M eq_refl) as X. cbv beta in X.
      destruct (prec_of _); [discriminate|]. change (tok_at (b :: b1 :: bs2) (1 + 1)) with (tok_at bs2 0) in P. rewrite T1 in P.
      rewrite W in P. destruct I as [<-|[<-|[<-|[]]]]; cbn in P; congruence.
    - unfold prec_in. rewrite T1, W. destruct I as [<-|[<-|[<-|[]]]]; reflexivity. }
  assert (Fin : forall e4 v' bs' , e4 = ("not", VUndef) :: frame v' -> view s' bs' -> so_far v' bs' ->
    env_leave 6 (env_leave 7 e4) = frame v' /\ view s' bs' /\ so_far v' bs').
  { intros e4 v' bs' -> V' F'. auto. }
  assert (Sz : length (("not", VNode k0) :: frame v) = 7) by reflexivity.
  destruct (if_inv _ _ _ _ _ _ _ _ _ _ _ _ V2 H) as (w & e4 & C & -> & H1). clear H. destruct (token_cond _ _ _ _ _ _ V2 C) as (t1 & T1 & W1).
  rewrite Sz. destruct w.
  { destruct (W "IN" ltac:(cbn; tauto) _ T1 W1) as (-> & P2 & Wt).
    destruct (not_operator F_parse_in_operator k0 v s3 bs2 ct e4 s' (sp_in _ Sp) V2 P2) as (-> & v' & bs' & Ev & V' & F'); auto.
    { split; [lia|reflexivity]. }
    split; [reflexivity|]. exists v', bs'. now apply Fin. }
  destruct (if_inv _ _ _ _ _ _ _ _ _ _ _ _ V2 H1) as (w & e5 & C2 & -> & H). clear H1. destruct (token_cond _ _ _ _ _ _ V2 C2) as (t2 & T2 & W2).
  rewrite Sz. destruct w.
  { destruct (W "LIKE" ltac:(cbn; tauto) _ T2 W2) as (-> & P2 & Wt).
    destruct (not_operator F_parse_binary_operator k0 v s3 bs2 ct e5 s' (sp_binary _ Sp) V2 P2) as (-> & v' & bs' & Ev & V' & F'); auto.
    { split; [lia|]. exists t2. split; [exact T2|]. now rewrite Wt. }
    split; [reflexivity|]. exists v', bs'. apply Fin; auto. now rewrite Ev. }
  destruct (if_inv _ _ _ _ _ _ _ _ _ _ _ _ V2 H) as (w & e6 & C3 & -> & H1). clear H. destruct (token_cond _ _ _ _ _ _ V2 C3) as (t3 & T3 & W3).
  rewrite Sz. destruct w; [|now apply fail_inv in H1].
  destruct (W "BETWEEN" ltac:(cbn; tauto) _ T3 W3) as (-> & P2 & Wt).
  destruct (not_operator F_parse_between_operator k0 v s3 bs2 ct e6 s' (sp_between _ Sp) V2 P2) as (-> & v' & bs' & Ev & V' & F'); auto.
  { split; [lia|reflexivity]. }
  split; [reflexivity|]. exists v', bs'. apply Fin; auto. now rewrite Ev.
Qed.

Lemma while_keeps v s bs ct e' s' : view s bs -> so_far v bs ->
  exec (While (CPrecLt 1 "precedence") expr_loop) (frame v) s = Ok (ct, e') s' ->
  ct = Norm /\ exists v' bs' c, e' = frame v' /\ view s' bs' /\ so_far v' bs' /\ prec_in bs' 1 = Some c /\ (p <= c)%N.
Proof.
  cbn [MiniRust.exec].
  enough (K : forall n v s bs, view s bs -> so_far v bs ->
    iterate n (fun e => b <- eval_cond U (CPrecLt 1 "precedence") e ;;
      if b : bool then (r <- exec expr_loop e ;; ret (after_body (length e) r)) else ret (false, Norm, e)) (frame v) s = Ok (ct, e') s' ->
    ct = Norm /\ exists v' bs' c, e' = frame v' /\ view s' bs' /\ so_far v' bs' /\ prec_in bs' 1 = Some c /\ (p <= c)%N) by exact (K _ _ _ _).
  clear v s bs. induction n as [|n IH]; intros v s bs V F H; [discriminate|].
  cbn [iterate] in H. apply bind_Ok in H as ([[g c0] e1] & s1 & H1 & H). apply bind_Ok in H1 as (w & s2 & C & H1).
  cbn [eval_cond] in C. apply bind_Ok in C as (c & s3 & Cp & C). destruct (prec_ok _ _ _ _ _ V Cp) as [-> P].
  simp C. injection C as <- <-. destruct (N.ltb_spec c p) as [L|L].
  - apply bind_Ok in H1 as ([ct1 e2] & s4 & H1 & E). injection E as E <-.
    destruct (loop_keeps _ _ _ _ V F P L _ _ _ H1) as (-> & v' & bs' & Ev & V' & F'). cbn [after_body] in E.
    injection E as <- <- <-. change (length (frame v)) with 6 in H. rewrite Ev in H. eapply IH; eauto.
  - injection H1 as <- <- <- <-. injection H as <- <- <-. split; [reflexivity|]. exists v, bs, c. auto 8.
Qed.

(* ----- alias and order ----- *)
Definition grown (v v' : value) : Prop :=
  (good_val U v -> good_val U v') /\
  forall l', v' = VNode l' -> exists l, v = VNode l /\ left_operand l' = left_operand l.
Lemma grown_refl v : grown v v. Proof. split; [auto|]. intros l' ->. eauto. Qed.
Lemma grown_trans u v w : grown u v -> grown v w -> grown u w.
Proof.
  intros [A1 A2] [B1 B2]. split; [auto|]. intros l' E. destruct (B2 _ E) as (l & E1 & L1). destruct (A2 _ E1) as (l0 & E0 & L0).
  exists l0. split; [exact E0|congruence].
Qed.
Lemma grown_put k c l : ~ In k operand_keys -> good_content U c -> grown (VNode l) (VNode (put k c l)).
Proof.
  intros K C. split; [intro G; now apply put_nonoperand|]. intros l' [= <-]. exists l. split; [reflexivity|apply left_put].
Qed.
Lemma notin k : negb (existsb (String.eqb k) operand_keys) = true -> ~ In k operand_keys. Proof. apply not_operand. Qed.

Lemma alias_ok v s bs ct e' s' : view s bs ->
  exec (If (CVar "alias")
         (If (CTok 1 (TIs "AS"))
           (Seq Next (Seq (Push "left" "as" (EConstruct N_Keyword)) (Seq Next
             (Push "left" "alias" (ECall F_parse_expr
               [ANum NumMax; ABool (BConst false); ABool (BConst false); ABool (BConst false); ABool (BConst false)])))))
           (If (CTok 1 TIdentifier) (Seq Next (Push "left" "alias" (EConstruct N_Identifier))) Skip))
         Skip) (frame v) s = Ok (ct, e') s' ->
  ct = Norm /\ exists v' bs', e' = frame v' /\ view s' bs' /\ grown v v' /\ (alias = false -> v' = v /\ bs' = bs).
Proof.
  intros V H. destruct (if_inv _ _ _ _ _ _ _ _ _ _ _ _ V H) as (w & e1 & C & -> & H1). clear H. simp C. cbn [eval_cond] in C. simp C.
  injection C as <-. change (length (frame v)) with 6. destruct alias eqn:Al.
  2: { apply skip_inv in H1 as (-> & -> & ->). split; [reflexivity|]. exists v, bs. auto using leave_frame, grown_refl. }
  destruct (if_inv _ _ _ _ _ _ _ _ _ _ _ _ V H1) as (w & e2 & _ & -> & H). clear H1. destruct w.
  - seq H E e3 s2. destruct (next_inv _ _ _ _ _ _ _ _ _ V E) as (-> & -> & b & bs1 & -> & V1). on H. clear E.
    seq H E e3 s3. destruct (push_construct _ _ N_Keyword _ _ _ _ _ _ ltac:(discriminate) ltac:(discriminate) V1 E) as (-> & -> & a & m & Ga & E3 & E4). on H.
    simp E3. injection E3 as ->. simp E4. injection E4 as <-. clear E.
    seq H E e3 s3. destruct (next_inv _ _ _ _ _ _ _ _ _ V1 E) as (-> & -> & b1 & bs2 & -> & V2). on H. clear E.
    apply push_inv in H as (-> & n & e3 & m2 & H & M & S). apply call_inv in H as (vs & s4 & A & H). injection A as <- <- <-.
    destruct (sp_expr _ Sp _ _ _ _ _ _ _ _ _ V2 H) as (bs' & V' & G & _). simp M. injection M as <-. simp S. injection S as <-.
    split; [reflexivity|]. eexists _, bs'. split; [reflexivity|]. split; [exact V'|]. split; [|discriminate].
    eapply grown_trans; apply grown_put; try (apply notin; reflexivity); assumption.
  - destruct (if_inv _ _ _ _ _ _ _ _ _ _ _ _ V H) as (w & e3 & _ & -> & H1). clear H. destruct w.
    + seq H1 E e4 s2. destruct (next_inv _ _ _ _ _ _ _ _ _ V E) as (-> & -> & b & bs1 & -> & V1). on H1. clear E.
      destruct (push_construct _ _ N_Identifier _ _ _ _ _ _ ltac:(discriminate) ltac:(discriminate) V1 H1) as (-> & -> & a & m & Ga & E3 & E4).
      simp E3. injection E3 as ->. simp E4. injection E4 as <-.
      split; [reflexivity|]. eexists _, bs1. split; [reflexivity|]. split; [exact V1|]. split; [|discriminate].
      apply grown_put; try (apply notin; reflexivity); assumption.
    + apply skip_inv in H1 as (-> & -> & ->). split; [reflexivity|]. exists v, bs. split; [reflexivity|]. split; [exact V|].
      split; [apply grown_refl|discriminate].
Qed.

(* unchanged, or followed by the order of the rows *)
Definition ordered (v v' : value) (bs bs' : list bundle) : Prop :=
  grown v v' /\ (v' = v /\ bs' = bs \/ forall l, v' = VNode l -> suffixed l).
Lemma ordered_refl v bs : ordered v v bs bs. Proof. split; [apply grown_refl|auto]. Qed.
Lemma ordered_put k c v l bs bs' bs'' : In k ["order"; "null_order"] -> good_content U c -> ordered v (VNode l) bs bs' ->
  ordered v (VNode (put k c l)) bs bs''.
Proof.
  intros K C [G S]. split.
  - eapply grown_trans; [exact G|]. apply grown_put; [|exact C]. intro I. cbn in K, I. intuition (subst; discriminate).
  - right. intros l' [= <-]. econstructor 1; [exact K|apply child_same].
Qed.
Lemma vecpush_construct x ty e s bs ct e' s' : ty <> N_EOF -> ty <> N_Unknown -> view s bs ->
  exec (VecPush x (EConstruct ty)) e s = Ok (ct, e') s' ->
  ct = Norm /\ s' = s /\ exists c l, good c /\ env_get x e = Some (VVec l) /\ env_set x (VVec (l ++ [c])) e = Some e'.
Proof.
  intros N1 N2 V H. cbn [MiniRust.exec] in H. apply bind_Ok in H as ([c e1] & s1 & E & H). cbn [fst snd] in H.
  destruct (construct_op _ _ _ _ _ _ _ N1 N2 V E) as (-> & -> & G & _). destruct (env_get x e) as [[]|] eqn:X; try discriminate.
  unfold norm in H. apply bind_Ok in H as (e2 & s2 & S & H). injection H as <- <- <-. apply set_or_stuck_inv in S as [S ->].
  split; [reflexivity|]. split; [reflexivity|]. exists c, ns. auto.
Qed.
Lemma pushvec_var x k y e s ct e' s' : exec (PushVec x k (XVar y)) e s = Ok (ct, e') s' ->
  ct = Norm /\ s' = s /\ exists c e1 m, env_get y e = Some (VVec c) /\ env_set y VUndef e = Some e1 /\
    env_get x e1 = Some (VNode m) /\ env_set x (VNode (put k (CVec c) m)) e1 = Some e'.
Proof.
  cbn [MiniRust.exec eval_vexp]. intro H. apply bind_Ok in H as ([l e1] & s1 & E & H). cbn [fst snd] in H. unfold norm in H.
  apply bind_Ok in H as (e2 & s2 & H2 & H). injection H as <- <- <-. apply with_node_inv in H2 as (-> & m & G & S).
  unfold take_vec in E. destruct (env_get y e) as [[]|]; try discriminate. apply bind_Ok in E as (e3 & s3 & E & X). injection X as <- <- <-.
  apply set_or_stuck_inv in E as [E ->]. split; [reflexivity|]. split; [reflexivity|]. exists ns, e3, m. auto.
Qed.
Lemma order_ok v s bs ct e' s' : view s bs ->
  exec (If (CVar "order")
         (Seq
           (If (CTok 1 (TIn ["ASC"; "DESC"]))
             (Seq Next (Seq (LetNode "order" (EConstruct N_Keyword)) (Push "left" "order" (EVar "order")))) Skip)
           (If (CAnd (CTok 1 (TIn ["NULLS"])) (CTok 2 (TIn ["FIRST"; "LAST"])))
             (Seq (LetVec "nulls_first" XNew) (Seq Next (Seq (VecPush "nulls_first" (EConstruct N_Keyword)) (Seq Next
               (Seq (VecPush "nulls_first" (EConstruct N_Keyword)) (PushVec "left" "null_order" (XVar "nulls_first")))))))
             Skip))
         Skip) (frame v) s = Ok (ct, e') s' ->
  ct = Norm /\ exists v' bs', e' = frame v' /\ view s' bs' /\ ordered v v' bs bs'.
Proof.
  intros V H. destruct (if_inv _ _ _ _ _ _ _ _ _ _ _ _ V H) as (w & e1 & _ & -> & H1). clear H.
  change (length (frame v)) with 6. destruct w.
  2: { apply skip_inv in H1 as (-> & -> & ->). split; [reflexivity|]. exists v, bs. auto using leave_frame, ordered_refl. }
  seq H1 E e2 s2. destruct (if_inv _ _ _ _ _ _ _ _ _ _ _ _ V E) as (w & e3 & _ & -> & H). clear E.
  assert (A : ct0 = Norm /\ exists v' bs', env_leave 6 e3 = frame v' /\ view s2 bs' /\ ordered v v' bs bs').
  { destruct w.
    - seq H E e4 s3. destruct (next_inv _ _ _ _ _ _ _ _ _ V E) as (-> & -> & b & bs1 & -> & V1). on H. clear E.
      seq H E e4 s4. apply let_inv in E as (-> & k0 & e5 & E & ->). on H.
      destruct (construct_op N_Keyword _ _ _ _ _ _ ltac:(discriminate) ltac:(discriminate) V1 E) as (-> & -> & Gk & _). clear E.
      apply push_var in H as (-> & -> & c & e5 & m & E1 & E2 & E3 & E4).
      simp E1. injection E1 as <-. simp E2. injection E2 as <-. simp E3. injection E3 as ->. simp E4. injection E4 as <-.
      split; [reflexivity|]. eexists _, bs1. split; [reflexivity|]. split; [exact V1|].
      eapply ordered_put; [cbn; tauto|exact Gk|apply ordered_refl].
    - apply skip_inv in H as (-> & -> & ->). split; [reflexivity|]. exists v, bs. auto using leave_frame, ordered_refl. }
  destruct A as (-> & v1 & bs1 & Ee & V1 & O1). on H1. change (length (frame v)) with 6 in H1. rewrite Ee in H1. clear H Ee e3.
  destruct (if_inv _ _ _ _ _ _ _ _ _ _ _ _ V1 H1) as (w1 & e3 & _ & -> & H). clear H1. change (length (frame v1)) with 6.
  destruct w1.
  2: { apply skip_inv in H as (-> & -> & ->). split; [reflexivity|]. exists v1, bs1. auto using leave_frame. }
  seq H E e4 s3. cbn [MiniRust.exec eval_vexp] in E. injection E as <- <- <-. on H.
  seq H E e4 s4. destruct (next_inv _ _ _ _ _ _ _ _ _ V1 E) as (-> & -> & b & bs2 & -> & V2). on H. clear E.
  seq H E e4 s5. destruct (vecpush_construct _ N_Keyword _ _ _ _ _ _ ltac:(discriminate) ltac:(discriminate) V2 E) as (-> & -> & k1 & l1 & G1 & E1 & E2). on H.
  simp E1. injection E1 as <-. simp E2. injection E2 as <-. clear E.
  seq H E e4 s5. destruct (next_inv _ _ _ _ _ _ _ _ _ V2 E) as (-> & -> & b1 & bs3 & -> & V3). on H. clear E.
  seq H E e4 s6. destruct (vecpush_construct _ N_Keyword _ _ _ _ _ _ ltac:(discriminate) ltac:(discriminate) V3 E) as (-> & -> & k2 & l2 & G2 & E1 & E2). on H.
  simp E1. injection E1 as <-. simp E2. injection E2 as <-. clear E.
  apply pushvec_var in H as (-> & -> & c & e5 & m & E1 & E2 & E3 & E4).
  simp E1. injection E1 as <-. simp E2. injection E2 as <-. simp E3. injection E3 as ->. simp E4. injection E4 as <-.
  split; [reflexivity|]. eexists _, bs3. split; [reflexivity|]. split; [exact V3|].
  eapply ordered_put; [cbn; tauto| |exact O1]. cbn. auto.
Qed.

Lemma expr_ok s bs v s' : view s bs ->
  call_body U prog call lf F_parse_expr [VNum p; VBool alias; VBool as_table; VBool after_dot; VBool order] s = Ok v s' ->
  exists n bs', v = VNode n /\ view s' bs' /\ good n /\
      (as_table = false -> forall q k, left_operand n = Some (q, k) -> (100 + q < p)%N) /\
      (alias = false -> ending n p bs').
Proof.
  intros V H. apply body_inv in H as (_ & e' & H). rewrite expr_shape in H. cbn [prog parse_expr f_params combine] in H.
  seq H E e1 s1. injection E as <- <- <-. on H.
  change (("left", VUndef) :: _) with (frame VUndef) in H.
  (* the first token *)
  seq H E e1 s1. destruct (if_inv _ _ _ _ _ _ _ _ _ _ _ _ V E) as (w & e2 & C & -> & E1). clear E. change (length (frame VUndef)) with 6 in H.
  cbn [eval_cond] in C. simp C. injection C as <-.
  assert (A : ct = Norm /\ s1 = s /\ exists l, env_leave 6 e2 = frame (VNode l) /\ good l /\ plain_type (n_type l) = true /\
    n_token l = tok_at bs 0).
  { assert (A : forall ty, ty <> N_EOF -> plain_type ty = true ->
      exec (SetNode "left" (EConstruct ty)) (frame VUndef) s = Ok (ct, e2) s1 ->
      ct = Norm /\ s1 = s /\ exists l, env_leave 6 e2 = frame (VNode l) /\ good l /\ plain_type (n_type l) = true /\ n_token l = tok_at bs 0).
    { intros ty Ne Pl X. apply set_inv in X as (-> & n & e3 & X & S).
      destruct (construct_inv _ _ _ _ _ _ _ _ _ V X) as (-> & -> & b & bs' & -> & K). simp S. injection S as <-.
      destruct (constructed_ok _ _ _ _ _ K) as (G & T & Tk & _). split; [reflexivity|]. split; [reflexivity|].
      exists n. split; [reflexivity|]. split; [exact G|]. split; [unfold plain_type; now rewrite T|]. now rewrite Tk. }
    destruct after_dot; (apply A in E1; [exact E1|discriminate|reflexivity]). }
  destruct A as (-> & -> & l & Ee & Gl & Pl & Tl). on H. rewrite Ee in H. clear E1 Ee e2.
  (* the words *)
  seq H E e1 s1.
  assert (A : ct = Norm /\ exists v1 bs1, e1 = frame v1 /\ view s1 bs1 /\ so_far v1 bs1).
  { enough (K : keeps (If (CVar "as_table") (SetNode "left" (ECall F_parse_identifier [])) (If (CNot (CVar "after_dot")) expr_words Skip)) (VNode l) s).
    { destruct (if_inv _ _ _ _ _ _ _ _ _ _ _ _ V E) as (w & e2 & _ & -> & _).
      destruct (K _ _ _ E) as (-> & v1 & bs1 & Ev & R). split; [reflexivity|]. exists v1, bs1. split; [|exact R].
      rewrite <- Ev. change (length (frame (VNode l))) with 6. unfold env_leave. rewrite skipn_length.
      replace (length e2 - (length e2 - 6) - 6) with 0 by lia. reflexivity. }
    eapply keeps_if; [exact V| |]; intro C; cbn [eval_cond] in C; simp C; injection C as C.
    - eapply (keeps_branch _ KPlain KClosed); [vm_compute; reflexivity|exact V|exact Gl|exact Pl|exact C].
    - eapply keeps_if; [exact V| |]; intros _.
      + eapply words_keep; eauto.
      + eapply keeps_skip; [exact V|]. apply (so_far_kind KPlain); [exact Gl|exact Pl|exact Logic.I]. }
  destruct A as (-> & v1 & bs1 & -> & V1 & F1). on H. clear E Gl Pl Tl l.
  (* the loop *)
  seq H E e1 s2. destruct (while_keeps _ _ _ _ _ _ V1 F1 E) as (-> & v2 & bs2 & c & -> & V2 & F2 & P2 & L2). on H. clear E.
  (* alias and order *)
  seq H E e1 s3. destruct (alias_ok _ _ _ _ _ _ V2 E) as (-> & v3 & bs3 & -> & V3 & [G3 H3] & A3). on H. clear E.
  seq H E e1 s4. destruct (order_ok _ _ _ _ _ _ V3 E) as (-> & v4 & bs4 & -> & V4 & [G4 H4] & O4). on H. clear E.
  apply return_var in H as (-> & n & En & [= ->]). simp En. injection En as ->.
  destruct F2 as [Gv2 F2]. destruct (H4 _ eq_refl) as (l3 & -> & L3). destruct (H3 _ eq_refl) as (l2 & -> & L4).
  destruct (F2 _ eq_refl) as [Lv Ov]. exists n, bs4. split; [reflexivity|]. split; [exact V4|]. split; [exact (G4 (G3 Gv2))|]. split.
  - intros T q k X. rewrite L3, L4 in X. eapply Lv; eauto.
  - intros Al. destruct (A3 Al) as [X ->]. injection X as ->. destruct O4 as [[X ->]|O4]; [|left; now apply O4].
    injection X as ->. destruct Ov as [S|Ov]; [now left|right]. exists c. auto.
Qed.
End Expr.

Hypothesis upper_words : forall w, In w ["IN"; "LIKE"; "BETWEEN"] -> to_uppercase U (s_ w) = s_ w.
Lemma specs_step : specs (call_body U prog call lf).
Proof.
  constructor.
  - intros f vs s bs V. unfold call_body. destruct (Nat.eqb _ _); [|exact Logic.I].
    apply moves_bind; [apply exec_moves; [exact (sp_moves _ Sp)|exact V]|]. intros [c e'] s' bs' _ S V'. cbn [fst].
    destruct c; try exact Logic.I. now apply moves_ret.
  - intros f vs s bs v s' C V G H. assert (D : f = F_parse_expr \/ f <> F_parse_expr) by (destruct f; (now left) || (right; discriminate)).
    destruct D as [->|Ne].
    + destruct C as (p & al & ta & ad & od & ->). destruct (expr_ok p al ta ad od upper_words _ _ _ _ V H) as (n & bs' & -> & _ & Gn & _).
      now split.
    + eapply accepted_call; eauto. destruct f; try contradiction; try (now elim Ne); vm_compute; reflexivity.
  - intros p al ta ad od s bs n s' V H. destruct (expr_ok p al ta ad od upper_words _ _ _ _ V H) as (n' & bs' & [= <-] & R). eauto.
  - exact binary_builds.
  - exact between_builds.
  - exact in_builds.
  - exact distinct_builds.
Qed.
End Step.

Theorem run_specs : (forall w, In w ["IN"; "LIKE"; "BETWEEN"] -> to_uppercase U (s_ w) = s_ w) ->
  forall fuel, specs (run U prog fuel).
Proof.
  intros W. induction fuel as [|fuel IH]; [|exact (specs_step _ _ IH W)].
  constructor; try (intros; discriminate); try (intros ? ? ? ? ? ? ? ? ? ? ? X; discriminate X).
  intros f vs s bs V. exact Logic.I.
Qed.
End WithUnicode.
