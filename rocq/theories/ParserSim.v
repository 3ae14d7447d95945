(* The parser cannot tell apart two token lists whose code tokens are alike in the eyes of a program
   that knows only the words of a list W: the outcomes agree up to comments. Proved for every
   MiniRust program that passes a syntactic check. *)
From Verif Require Import Chars Token Cst Core MiniRust Bundles ParserView ParserGeneric ParserSpec.
Local Open Scope list_scope.
Local Notation length := List.length.

(* ----- the syntactic check ----- *)
(* the texts that are compared as written; all others are compared in upper case *)
Definition literal_words : list string := ["("; "."; "*"; ","; "<"; "|>"; "?"; "+"; "{"]%string.

Section Check.
Context {fn : Type}.

Variable W : list string.
Definition word_ok (s : string) : bool := existsb (String.eqb s) W.
Definition lit_ok (s : string) : bool := existsb (String.eqb s) literal_words.
Definition key_ok (k : string) : bool := negb (comment_key k).

Definition tpred_ok (p : tpred) : bool :=
  match p with TIs s | TUpperIs s => word_ok s | TLiteralIs s => lit_ok s | TIn l => forallb word_ok l | _ => true end.
Fixpoint cond_ok (c : cond) : bool :=
  match c with
  | CTok _ p => tpred_ok p
  | CNot c => cond_ok c
  | CAnd a b | COr a b => cond_ok a && cond_ok b
  | CHasKey _ k => key_ok k
  | CFirstCharIs _ c => N.eqb c 96
  | CLastCharIs _ c => N.eqb c 46
  | _ => true
  end.
Fixpoint bexp_ok (b : bexp) : bool :=
  match b with BStrIs _ s => word_ok s | BNot b => bexp_ok b | _ => true end.
Definition arg_ok (a : arg) : bool :=
  match a with ABool b => bexp_ok b | AStrs l => forallb word_ok l | _ => true end.
Definition nexp_ok (e : nexp fn) : bool := match e with ECall _ args => forallb arg_ok args | _ => true end.
Definition vexp_ok (v : vexp fn) : bool :=
  match v with XCall _ args => forallb arg_ok args | XList es => forallb nexp_ok es | _ => true end.
Fixpoint cmd_ok (c : cmd fn) : bool :=
  match c with
  | Seq a b => cmd_ok a && cmd_ok b
  | LetNode _ e | SetNode _ e | VecPush _ e | Return e => nexp_ok e
  | LetVec _ v | SetVec _ v | ReturnVec v => vexp_ok v
  | LetBool _ c | SetBool _ c => cond_ok c
  | LetStrs _ l => forallb word_ok l
  | Push _ k e => key_ok k && nexp_ok e
  | PushVec _ k v => key_ok k && vexp_ok v
  | If c a b => cond_ok c && cmd_ok a && cmd_ok b
  | CaseUpper _ pats a b | CaseVar _ pats a b => forallb word_ok pats && cmd_ok a && cmd_ok b
  | CaseLiteral _ pats a b => forallb lit_ok pats && cmd_ok a && cmd_ok b
  | While c b => cond_ok c && cmd_ok b
  | WhilePop _ _ b | ForFrom1 _ b => cmd_ok b
  | Try _ _ args h => forallb arg_ok args && cmd_ok h
  | _ => true
  end.
End Check.

(* ----- trees ----- *)
Section Trees.
Variable R : token -> token -> Prop.

Lemma code_children_insert {k} c m : key_ok k = true ->
  code_children (map_insert k c m) = map_insert k c (code_children m).
Proof.
  unfold key_ok. intro Hk. induction m as [|[k' c'] m IH]; cbn [map_insert code_children filter].
  - cbn [fst]. rewrite Hk. reflexivity.
  - destruct (String.eqb_spec k k') as [<-|E].
    + cbn [code_children filter fst]. rewrite Hk. cbn [map_insert]. rewrite String.eqb_refl. reflexivity.
    + cbn [code_children filter fst]. fold (code_children m).
      destruct (negb (comment_key k')).
      * cbn [map_insert]. apply String.eqb_neq in E. rewrite E. f_equal. exact IH.
      * exact IH.
Qed.

Lemma code_children_get k m : key_ok k = true -> map_get k (code_children m) = map_get k m.
Proof.
  unfold key_ok. intro Hk. induction m as [|[k' c'] m IH]; cbn [map_get code_children filter fst]; [reflexivity|].
  fold (code_children m). destruct (negb (comment_key k')) eqn:E.
  - cbn [map_get]. now rewrite IH.
  - rewrite IH. destruct (String.eqb_spec k k') as [<-|]; [congruence|reflexivity].
Qed.

Lemma same_children_insert_node k n1 n2 m1 m2 :
  same_tree R n1 n2 -> same_children R m1 m2 ->
  same_children R (map_insert k (CNode n1) m1) (map_insert k (CNode n2) m2).
Proof.
  intros Hn. induction 1; cbn [map_insert]; [repeat constructor; assumption| |];
    destruct (String.eqb k k0); constructor; assumption.
Qed.
Lemma same_children_insert_vec k n1 n2 m1 m2 :
  same_trees R n1 n2 -> same_children R m1 m2 ->
  same_children R (map_insert k (CVec n1) m1) (map_insert k (CVec n2) m2).
Proof.
  intros Hn. induction 1; cbn [map_insert]; [repeat constructor; assumption| |];
    destruct (String.eqb k k0); constructor; assumption.
Qed.

Lemma same_push k n1 n2 c1 c2 : key_ok k = true ->
  same_tree R n1 n2 -> same_tree R c1 c2 -> same_tree R (push_node k c1 n1) (push_node k c2 n2).
Proof.
  intros Hk [t1 t2 ty m1 m2 Ht Hm] Hc. cbn [push_node]. constructor; [exact Ht|].
  rewrite !code_children_insert by assumption. now apply same_children_insert_node.
Qed.
Lemma same_push_vec k n1 n2 c1 c2 : key_ok k = true ->
  same_tree R n1 n2 -> same_trees R c1 c2 -> same_tree R (push_node_vec k c1 n1) (push_node_vec k c2 n2).
Proof.
  intros Hk [t1 t2 ty m1 m2 Ht Hm] Hc. cbn [push_node_vec]. constructor; [exact Ht|].
  rewrite !code_children_insert by assumption. now apply same_children_insert_vec.
Qed.
Lemma same_set_type ty n1 n2 : same_tree R n1 n2 -> same_tree R (set_type ty n1) (set_type ty n2).
Proof. intros [t1 t2 ty' m1 m2 Ht Hm]. now constructor. Qed.
Lemma same_type n1 n2 : same_tree R n1 n2 -> n_type n1 = n_type n2.
Proof. now intros []. Qed.

Lemma same_children_get k m1 m2 : same_children R m1 m2 ->
  match map_get k m1, map_get k m2 with
  | None, None => True
  | Some (CNode n1), Some (CNode n2) => same_tree R n1 n2
  | Some (CVec l1), Some (CVec l2) => same_trees R l1 l2
  | _, _ => False
  end.
Proof. induction 1; cbn [map_get]; [exact I| |]; destruct (String.eqb k k0); assumption. Qed.

Lemma same_child k n1 n2 : key_ok k = true -> same_tree R n1 n2 ->
  match child k n1, child k n2 with
  | None, None => True
  | Some (CNode n1), Some (CNode n2) => same_tree R n1 n2
  | Some (CVec l1), Some (CVec l2) => same_trees R l1 l2
  | _, _ => False
  end.
Proof.
  intros Hk [t1 t2 ty m1 m2 Ht Hm]. unfold child. cbn [n_children].
  rewrite <- (code_children_get k m1), <- (code_children_get k m2) by assumption.
  now apply same_children_get.
Qed.

Lemma comments_dropped l b k m : key_ok k = false ->
  code_children (n_children (push_comments k l (Node b N_Unknown m))) = code_children m.
Proof.
  unfold key_ok, push_comments. intro Hk. destruct l; [reflexivity|]. cbn [push_node_vec n_children].
  induction m as [|[k' c'] m IH]; cbn [map_insert code_children filter fst].
  - rewrite Hk. reflexivity.
  - destruct (String.eqb_spec k k') as [<-|E].
    + cbn [code_children filter fst]. rewrite Hk. reflexivity.
    + cbn [code_children filter fst]. destruct (negb (comment_key k')); [f_equal|]; exact IH.
Qed.

Lemma decorate_shape b t ty m : exists m', decorate b (Node t ty m) = Node t ty m' /\
  code_children m' = code_children m.
Proof.
  unfold decorate.
  assert (K : forall k l t ty m, key_ok k = false -> exists m',
             push_comments k l (Node t ty m) = Node t ty m' /\ code_children m' = code_children m).
  { intros k l t0 ty0 m0 Hk. exists (n_children (push_comments k l (Node t0 ty0 m0))). split.
    - unfold push_comments. destruct l; reflexivity.
    - rewrite <- (comments_dropped l t0 k m0 Hk). unfold push_comments. destruct l; reflexivity. }
  destruct (K "leading_comments"%string (comment_children (b_lead b)) t ty m eq_refl) as (m1 & -> & E1).
  destruct (K "trailing_comments"%string (comment_children (b_trail b)) t ty m1 eq_refl) as (m2 & -> & E2).
  exists m2. split; [reflexivity|congruence].
Qed.

Lemma same_decorate b1 b2 t1 t2 ty : opt_rel R t1 t2 ->
  same_tree R (decorate b1 (Node t1 ty [])) (decorate b2 (Node t2 ty [])).
Proof.
  intro H. destruct (decorate_shape b1 t1 ty []) as (m1 & -> & E1).
  destruct (decorate_shape b2 t2 ty []) as (m2 & -> & E2).
  constructor; [exact H|]. rewrite E1, E2. constructor.
Qed.

Lemma dot_root_eq n : dot_root_type n =
  if nt_eqb (n_type n) N_DotOperator then
    match child "left" n with Some (CNode m) => dot_root_type m | _ => n_type n end
  else n_type n.
Proof.
  destruct n as [t ty m]. cbn [dot_root_type n_type]. destruct (nt_eqb ty N_DotOperator); [|reflexivity].
  unfold child. cbn [n_children].
  assert (K : forall d l, (fix go (l : list (string * content)) : node_type :=
           match l with
           | [] => d
           | (k, c) :: l' =>
               if String.eqb "left" k
               then match c with CNode m => dot_root_type m | CVec _ => d end
               else go l'
           end) l = match map_get "left" l with Some (CNode m) => dot_root_type m | _ => d end).
  { intros d l. induction l as [|[k c] l IH]; [reflexivity|]. cbn [map_get].
    destruct (String.eqb "left" k); [|exact IH]. destruct c; reflexivity. }
  apply K.
Qed.

Lemma same_dot_root n1 n2 : same_tree R n1 n2 -> dot_root_type n1 = dot_root_type n2.
Proof.
  revert n1 n2. apply (same_tree_mind R
    (fun n1 n2 _ => dot_root_type n1 = dot_root_type n2)
    (fun m1 m2 _ => forall k, match map_get k m1, map_get k m2 with
                    | Some (CNode n1), Some (CNode n2) => dot_root_type n1 = dot_root_type n2
                    | Some (CNode _), _ | _, Some (CNode _) => False
                    | _, _ => True end)
    (fun _ _ _ => True)); try exact I; intros.
  - rewrite !dot_root_eq. unfold child. cbn [n_type n_children]. destruct (nt_eqb _ _); [|reflexivity].
    specialize (H "left"%string). rewrite !code_children_get in H by reflexivity.
    destruct (map_get _ m1) as [[]|], (map_get _ m2) as [[]|]; try contradiction; auto.
  - exact I.
  - cbn [map_get]. destruct (String.eqb k0 k); [assumption|apply H0].
  - cbn [map_get]. destruct (String.eqb k0 k); [exact I|apply H0].
  - exact I.
Qed.

Lemma same_trees_app a1 a2 b1 b2 : same_trees R a1 a2 -> same_trees R b1 b2 ->
  same_trees R (a1 ++ b1) (a2 ++ b2).
Proof. induction 1; cbn [app]; intros; [assumption|]. constructor; auto. Qed.
Lemma same_trees_rev a1 a2 : same_trees R a1 a2 -> same_trees R (rev a1) (rev a2).
Proof.
  induction 1; cbn [rev]; [constructor|]. apply same_trees_app; [assumption|].
  constructor; [assumption|constructor].
Qed.
Lemma same_trees_length a1 a2 : same_trees R a1 a2 -> length a1 = length a2.
Proof. induction 1; cbn; congruence. Qed.
End Trees.

(* the words that construct_node, get_precedence and the look-ahead for parentheses compare with *)
Definition base_words : list string :=
  ["TRUE"; "FALSE"; "NULL"; "("; "."; "["; "*"; "/"; "||"; "+"; "-"; "<<"; ">>"; "&"; "^"; "|"; "="; "<"; ">"; "<="; ">=";
   "!="; "<>"; "LIKE"; "BETWEEN"; "IN"; "IS"; "NOT"; "ENFORCED"; "AND"; "OR"; "=>"; "WITH"; "SELECT"; "FROM"]%string.

(* what a program that knows the words W can see of a token *)
Record like (U : unicode) (W : list string) (t1 t2 : token) : Prop := {
  like_upper : forall w, In w W -> (upper_literal U t1 = s_ w <-> upper_literal U t2 = s_ w);
  like_is : forall w, In w W -> is_ U w t1 = is_ U w t2;
  like_identifier : is_identifier U t1 = is_identifier U t2;
  like_string : is_string t1 = is_string t2;
  like_numeric : is_numeric t1 = is_numeric t2;
  like_parameter : is_parameter t1 = is_parameter t2;
  like_template : is_template t1 = is_template t2;
  like_literal : forall w, In w literal_words -> (literal t1 = s_ w <-> literal t2 = s_ w);
  like_first : first_char (literal t1) = Some 96%N <-> first_char (literal t2) = Some 96%N;
  like_last : last_char (literal t1) = Some 46%N <-> last_char (literal t2) = Some 46%N;
  like_empty : literal t1 = [] <-> literal t2 = []
}.

(* ----- two runs ----- *)
Section Sim.
Context (U : unicode).
Variable W : list string.
Hypothesis W_base : forall w, In w base_words -> In w W.
Variable R : token -> token -> Prop.
Hypothesis R_like : forall t1 t2, R t1 t2 -> like U W t1 t2.

Lemma word_ok_In w : word_ok W w = true -> In w W.
Proof. unfold word_ok. rewrite existsb_exists. intros (x & I & E). apply String.eqb_eq in E. now subst. Qed.
Lemma words_ok_In l : forallb (word_ok W) l = true -> forall w, In w l -> In w W.
Proof. rewrite forallb_forall. intros H w I. apply word_ok_In. auto. Qed.
(* a string that the program compares with words of W only *)
Definition urel (a b : str) : Prop := forall w, In w W -> (a = s_ w <-> b = s_ w).

Inductive brels : list bundle -> list bundle -> Prop :=
| brels_nil : brels [] []
| brels_cons b1 b2 r1 r2 :
    R (b_tok b1) (b_tok b2) ->
    (forall c1 q1 c2 q2, r1 = c1 :: q1 -> r2 = c2 :: q2 ->
       touch (b_tok b1) (b_tok c1) = touch (b_tok b2) (b_tok c2)) ->
    brels r1 r2 -> brels (b1 :: r1) (b2 :: r2).

Definition srel (s1 s2 : pstate) : Prop :=
  exists bs1 bs2, view s1 bs1 /\ view s2 bs2 /\ brels bs1 bs2.

Inductive vrel : value -> value -> Prop :=
| vrel_undef : vrel VUndef VUndef
| vrel_node n1 n2 : same_tree R n1 n2 -> vrel (VNode n1) (VNode n2)
| vrel_vec l1 l2 : same_trees R l1 l2 -> vrel (VVec l1) (VVec l2)
| vrel_bool b : vrel (VBool b) (VBool b)
| vrel_num n : vrel (VNum n) (VNum n)
| vrel_strs l : (forall w, In w l -> In w W) -> vrel (VStrs l) (VStrs l)
| vrel_str a b : urel a b -> vrel (VStr a) (VStr b).

Definition erel : env -> env -> Prop :=
  Forall2 (fun a b => fst a = fst b /\ vrel (snd a) (snd b)).

Definition rrel {A B} (Q : A -> B -> Prop) (r1 : res A) (r2 : res B) : Prop :=
  match r1, r2 with
  | Ok a s1, Ok b s2 => Q a b /\ srel s1 s2
  | Err e1 _, Err e2 _ => same_error R e1 e2
  | Panic _, Panic _ => True
  | Fuel, Fuel => True
  | Stuck, Stuck => True
  | _, _ => False
  end.

Definition mrel {A B} (Q : A -> B -> Prop) (m1 : M A) (m2 : M B) : Prop :=
  forall s1 s2, srel s1 s2 -> rrel Q (m1 s1) (m2 s2).

Lemma mrel_bind {A1 A2 B1 B2} (Q : A1 -> A2 -> Prop) (P : B1 -> B2 -> Prop) m1 m2 f1 f2 :
  mrel Q m1 m2 -> (forall a b, Q a b -> mrel P (f1 a) (f2 b)) -> mrel P (bind m1 f1) (bind m2 f2).
Proof.
  intros H F s1 s2 S. specialize (H s1 s2 S). unfold bind.
  destruct (m1 s1), (m2 s2); cbn in H; try contradiction; try exact I; try exact H.
  destruct H as [HQ S']. apply F; assumption.
Qed.
Lemma mrel_ret {A B} (Q : A -> B -> Prop) a b : Q a b -> mrel Q (ret a) (ret b).
Proof. intros H s1 s2 S. now split. Qed.
Lemma mrel_stuck {A B} (Q : A -> B -> Prop) : mrel Q stuck stuck.
Proof. intros s1 s2 S. exact I. Qed.
Lemma mrel_panic {A B} (Q : A -> B -> Prop) : mrel Q panic panic.
Proof. intros s1 s2 S. exact I. Qed.
Lemma mrel_weaken {A B} (Q Q' : A -> B -> Prop) m1 m2 :
  (forall a b, Q a b -> Q' a b) -> mrel Q m1 m2 -> mrel Q' m1 m2.
Proof.
  intros Wk H s1 s2 S. specialize (H s1 s2 S). destruct (m1 s1), (m2 s2); cbn in *; try assumption.
  destruct H; auto.
Qed.

Lemma brels_nth k bs1 bs2 : brels bs1 bs2 ->
  match nth_error bs1 k, nth_error bs2 k with
  | Some b1, Some b2 => R (b_tok b1) (b_tok b2)
  | None, None => True
  | _, _ => False
  end.
Proof.
  intro H. revert k. induction H; intros [|k]; cbn [nth_error]; auto. apply IHbrels.
Qed.
Lemma brels_last d1 d2 bs1 bs2 : brels bs1 bs2 -> bs1 <> [] ->
  R (b_tok (last bs1 d1)) (b_tok (last bs2 d2)).
Proof.
  induction 1; intro Hn; [contradiction|]. destruct H1; [assumption|].
  apply IHbrels. discriminate.
Qed.
Lemma brels_length bs1 bs2 : brels bs1 bs2 -> length bs1 = length bs2.
Proof. induction 1; cbn; congruence. Qed.

Lemma eof_error_rel bs1 bs2 : brels bs1 bs2 -> bs1 <> [] ->
  same_error R (eof_error bs1) (eof_error bs2).
Proof.
  intros H Hn. do 5 eexists. split; [|split; [|split; reflexivity]].
  - now apply brels_last.
  - constructor.
Qed.

Lemma srel_intro s1 s2 bs1 bs2 : view s1 bs1 -> view s2 bs2 -> brels bs1 bs2 -> srel s1 s2.
Proof. intros. exists bs1, bs2. auto. Qed.

Lemma get_token_rel k : mrel R (get_token k) (get_token k).
Proof.
  intros s1 s2 (bs1 & bs2 & V1 & V2 & H).
  rewrite (get_token_view _ _ _ V1), (get_token_view _ _ _ V2).
  pose proof (brels_nth k _ _ H) as N.
  destruct (nth_error bs1 k), (nth_error bs2 k); try contradiction.
  - split; [exact N|]. eapply srel_intro; eauto.
  - apply eof_error_rel; [assumption|]. eapply view_not_nil; eauto.
Qed.

Lemma is_eof_rel k : mrel eq (is_eof k) (is_eof k).
Proof.
  intros s1 s2 (bs1 & bs2 & V1 & V2 & H).
  rewrite (is_eof_view _ _ _ V1), (is_eof_view _ _ _ V2), (brels_length _ _ H).
  split; [reflexivity|]. eapply srel_intro; eauto.
Qed.

Lemma next_token_rel : mrel eq next_token next_token.
Proof.
  intros s1 s2 (bs1 & bs2 & V1 & V2 & H). destruct H as [|b1 b2 r1 r2 HR HT H].
  - destruct (view_cons _ _ V1) as (? & ? & ?). discriminate.
  - destruct H as [|c1 c2 r1 r2 HR' HT' H].
    + rewrite (next_token_end _ _ V1), (next_token_end _ _ V2). apply eof_error_rel; [|discriminate].
      constructor; [assumption|discriminate|constructor].
    + destruct (next_token_view _ _ _ _ V1) as (s1' & -> & V1' & _).
      destruct (next_token_view _ _ _ _ V2) as (s2' & -> & V2' & _).
      split; [reflexivity|]. eapply srel_intro; eauto. constructor; assumption.
Qed.

Lemma iff_eqb (a b : str) s : (a = s <-> b = s) -> str_eqb a s = str_eqb b s.
Proof.
  intro H. destruct (str_eqb a s) eqn:E.
  - apply str_eqb_eq in E. apply H in E. subst. now rewrite str_eqb_refl.
  - symmetry. apply str_eqb_neq. apply str_eqb_neq in E. tauto.
Qed.

Lemma lit_ok_In w : lit_ok w = true -> In w literal_words.
Proof. unfold lit_ok. rewrite existsb_exists. intros (x & I & E). apply String.eqb_eq in E. now subst. Qed.
Lemma literal_rel t1 t2 w : R t1 t2 -> In w literal_words ->
  str_eqb (literal t1) (s_ w) = str_eqb (literal t2) (s_ w).
Proof. intros H Hs. apply iff_eqb. exact (like_literal U _ _ _ (R_like _ _ H) _ Hs). Qed.
Lemma upper_rel t1 t2 w : R t1 t2 -> In w W ->
  str_eqb (upper_literal U t1) (s_ w) = str_eqb (upper_literal U t2) (s_ w).
Proof. intros H Hs. apply iff_eqb. exact (like_upper U _ _ _ (R_like _ _ H) _ Hs). Qed.
Lemma upper_urel t1 t2 : R t1 t2 -> urel (upper_literal U t1) (upper_literal U t2).
Proof. intros H w I. exact (like_upper U _ _ _ (R_like _ _ H) _ I). Qed.

Lemma is_rel t1 t2 s : R t1 t2 -> In s W -> is_ U s t1 = is_ U s t2.
Proof. intros H I. exact (like_is U _ _ _ (R_like _ _ H) _ I). Qed.
Lemma in_rel t1 t2 l : R t1 t2 -> (forall w, In w l -> In w W) -> in_ U l t1 = in_ U l t2.
Proof.
  intro H. unfold in_. induction l as [|s l IH]; intro I; [reflexivity|]. cbn [existsb].
  rewrite (is_rel _ _ s H (I s (or_introl eq_refl))), IH; [reflexivity|]. intros w J. apply I. now right.
Qed.
Ltac base := apply W_base; cbv [base_words]; cbn [In]; tauto.

Lemma classify_rel t1 t2 n1 n2 : R t1 t2 -> opt_rel R n1 n2 ->
  classify U t1 n1 = classify U t2 n2.
Proof.
  intros H Hn. pose proof (R_like _ _ H) as A. unfold classify, is_boolean.
  rewrite (like_identifier U _ _ _ A), (like_numeric U _ _ _ A), (like_string U _ _ _ A),
    (like_parameter U _ _ _ A), (like_template U _ _ _ A).
  rewrite (upper_rel t1 t2 "TRUE" H), (upper_rel t1 t2 "FALSE" H), (upper_rel t1 t2 "NULL" H) by base.
  destruct Hn as [|a b Hab]; [reflexivity|].
  now rewrite (literal_rel _ _ "(" Hab), (literal_rel _ _ "." Hab) by (cbv [literal_words]; cbn [In]; tauto).
Qed.

Lemma construct_node_rel ty : mrel (same_tree R) (construct_node U ty) (construct_node U ty).
Proof.
  intros s1 s2 (bs1 & bs2 & V1 & V2 & H). destruct H as [|b1 b2 r1 r2 HR HT H].
  - destruct (view_cons _ _ V1) as (? & ? & ?). discriminate.
  - rewrite (construct_node_view _ _ _ _ _ V1), (construct_node_view _ _ _ _ _ V2).
    assert (Hn : opt_rel R (tok_at r1 0) (tok_at r2 0)).
    { unfold tok_at. pose proof (brels_nth 0 _ _ H) as N.
      destruct (nth_error r1 0), (nth_error r2 0); try contradiction; now constructor. }
    assert (S : srel s1 s2) by (eapply srel_intro; eauto; now constructor).
    unfold constructed. pose proof (classify_rel _ _ _ _ HR Hn) as E. rewrite E.
    destruct ty; cbn [option_map];
      try (split; [apply same_decorate; constructor; exact HR|exact S]).
    clear E. destruct (classify _ _ _); cbn [option_map].
    + split; [apply same_decorate; constructor; exact HR|exact S].
    + apply eof_error_rel; [now constructor|discriminate].
Qed.

Lemma mem_str_rel t1 t2 l : R t1 t2 -> (forall w, In w l -> In w W) ->
  mem_str (upper_literal U t1) l = mem_str (upper_literal U t2) l.
Proof.
  intro H. unfold mem_str. induction l as [|s l IH]; intro I; [reflexivity|]. cbn [existsb].
  rewrite (upper_rel _ _ s H (I s (or_introl eq_refl))), IH; [reflexivity|]. intros w J. apply I. now right.
Qed.
Lemma mem_pats_rel a b l : urel a b -> (forall w, In w l -> In w W) -> mem_pats a l = mem_pats b l.
Proof.
  intro H. unfold mem_pats. induction l as [|s l IH]; intro I; [reflexivity|]. cbn [existsb].
  rewrite (iff_eqb a b (s_ s) (H s (I s (or_introl eq_refl)))), IH; [reflexivity|]. intros w J. apply I. now right.
Qed.

Lemma fail_rel {A B} (Q : A -> B -> Prop) t1 t2 msg d1 d2 : R t1 t2 -> opt_rel R d1 d2 ->
  mrel Q (fail_ (from_token t1 msg d1)) (fail_ (from_token t2 msg d2)).
Proof. intros H D s1 s2 S. cbn. do 5 eexists. eauto. Qed.

Lemma get_precedence_rel k : mrel eq (get_precedence U k) (get_precedence U k).
Proof.
  unfold get_precedence. apply mrel_bind with (Q := R); [apply get_token_rel|]. intros t1 t2 H. cbv zeta.
  assert (B : forall l, (forall w, In w l -> In w base_words) -> mem_str (upper_literal U t1) l = mem_str (upper_literal U t2) l)
    by (intros l I; apply mem_str_rel; auto).
  repeat match goal with |- mrel _ (if mem_str _ ?l then _ else _) _ =>
    rewrite (B l) by (let w := fresh in intros w; cbv [base_words]; cbn [In]; tauto);
    destruct (mem_str (upper_literal U t2) l); [try now apply mrel_ret|] end;
    try now apply mrel_ret.
  apply mrel_bind with (Q := R); [apply get_token_rel|]. intros u1 u2 Hu.
  rewrite (mem_str_rel _ _ ["IN"; "LIKE"; "BETWEEN"]%string Hu), (mem_str_rel _ _ ["ENFORCED"]%string Hu)
    by (intros w Hw; apply W_base; revert Hw; cbv [base_words]; cbn [In]; tauto).
  destruct (mem_str _ _); [now apply mrel_ret|]. destruct (mem_str _ _); [now apply mrel_ret|].
  apply mrel_bind with (Q := R); [apply get_token_rel|]. intros v1 v2 Hv.
  apply mrel_bind with (Q := R); [apply get_token_rel|]. intros w1 w2 Hw.
  apply fail_rel; [assumption|now constructor].
Qed.

Lemma paren_view_rel bs1 bs2 : brels bs1 bs2 -> paren_view U bs1 = paren_view U bs2.
Proof.
  induction 1; [reflexivity|]. cbn [paren_view]. rewrite (in_rel _ _ _ H), (is_rel _ _ _ H), IHbrels; [reflexivity|base|].
  intros w Hw. apply W_base. revert Hw. cbv [base_words]. cbn [In]. tauto.
Qed.

Lemma env_get_rel x e1 e2 : erel e1 e2 ->
  match env_get x e1, env_get x e2 with
  | Some v1, Some v2 => vrel v1 v2
  | None, None => True
  | _, _ => False
  end.
Proof.
  induction 1 as [|[y v1] [z v2] e1 e2 [E V] H IH]; [exact I|]. cbn in E, V. subst z. cbn [env_get].
  destruct (String.eqb x y); assumption.
Qed.

Lemma env_set_rel x v1 v2 e1 e2 : vrel v1 v2 -> erel e1 e2 ->
  match env_set x v1 e1, env_set x v2 e2 with
  | Some e1', Some e2' => erel e1' e2'
  | None, None => True
  | _, _ => False
  end.
Proof.
  intro Hv. induction 1 as [|[y w1] [z w2] e1 e2 [E V] H IH]; [exact I|]. cbn in E, V. subst z. cbn [env_set].
  destruct (String.eqb x y).
  - constructor; [now split|assumption].
  - destruct (env_set x v1 e1), (env_set x v2 e2); try contradiction; cbn [option_map]; try exact I.
    constructor; [now split|assumption].
Qed.

Lemma erel_length e1 e2 : erel e1 e2 -> length e1 = length e2.
Proof. induction 1; cbn; congruence. Qed.

Lemma env_leave_rel n e1 e2 : erel e1 e2 -> erel (env_leave n e1) (env_leave n e2).
Proof.
  intro H. unfold env_leave. rewrite (erel_length _ _ H). generalize (length e2 - n). intro k.
  revert k. induction H; intros [|k]; cbn [skipn]; try constructor; auto.
Qed.

Lemma set_or_stuck_rel x v1 v2 e1 e2 : vrel v1 v2 -> erel e1 e2 ->
  mrel erel (set_or_stuck x v1 e1) (set_or_stuck x v2 e2).
Proof.
  intros Hv He. unfold set_or_stuck. pose proof (env_set_rel x _ _ _ _ Hv He) as H.
  destruct (env_set x v1 e1), (env_set x v2 e2); try contradiction; [now apply mrel_ret|apply mrel_stuck].
Qed.

Definition nerel (a b : node * env) : Prop := same_tree R (fst a) (fst b) /\ erel (snd a) (snd b).
Definition verel (a b : list node * env) : Prop := same_trees R (fst a) (fst b) /\ erel (snd a) (snd b).

Lemma take_node_rel x e1 e2 : erel e1 e2 -> mrel nerel (take_node x e1) (take_node x e2).
Proof.
  intro He. unfold take_node. pose proof (env_get_rel x _ _ He) as G.
  destruct (env_get x e1) as [v1|], (env_get x e2) as [v2|]; try contradiction; [|apply mrel_stuck].
  destruct G; try apply mrel_stuck.
  apply mrel_bind with (Q := erel); [apply set_or_stuck_rel; [constructor|assumption]|].
  intros a b Hab. apply mrel_ret. now split.
Qed.
Lemma take_vec_rel x e1 e2 : erel e1 e2 -> mrel verel (take_vec x e1) (take_vec x e2).
Proof.
  intro He. unfold take_vec. pose proof (env_get_rel x _ _ He) as G.
  destruct (env_get x e1) as [v1|], (env_get x e2) as [v2|]; try contradiction; [|apply mrel_stuck].
  destruct G; try apply mrel_stuck.
  apply mrel_bind with (Q := erel); [apply set_or_stuck_rel; [constructor|assumption]|].
  intros a b Hab. apply mrel_ret. now split.
Qed.

Lemma with_node_rel x f1 f2 e1 e2 : erel e1 e2 ->
  (forall n1 n2, same_tree R n1 n2 -> same_tree R (f1 n1) (f2 n2)) ->
  mrel erel (with_node x f1 e1) (with_node x f2 e2).
Proof.
  intros He Hf. unfold with_node. pose proof (env_get_rel x _ _ He) as G.
  destruct (env_get x e1) as [v1|], (env_get x e2) as [v2|]; try contradiction; [|apply mrel_stuck].
  destruct G; try apply mrel_stuck. apply set_or_stuck_rel; [constructor; auto|assumption].
Qed.

Lemma opt_is_rel (o1 o2 : option char) c :
  (o1 = None <-> o2 = None) -> (o1 = Some c <-> o2 = Some c) ->
  match o1, o2 with
  | Some a, Some b => N.eqb a c = N.eqb b c
  | None, None => True
  | _, _ => False
  end.
Proof.
  intros H1 H2. destruct o1 as [a|], o2 as [b|]; try exact I.
  - destruct (N.eqb_spec a c) as [->|E].
    + symmetry. apply N.eqb_eq. destruct H2 as [H2 _]. specialize (H2 eq_refl). congruence.
    + symmetry. apply N.eqb_neq. intros ->. destruct H2 as [_ H2]. specialize (H2 eq_refl). congruence.
  - destruct H1 as [_ H1]. specialize (H1 eq_refl). discriminate.
  - destruct H1 as [H1 _]. specialize (H1 eq_refl). discriminate.
Qed.

Lemma first_none s : first_char s = None <-> s = [].
Proof. destruct s; cbn; split; congruence. Qed.
Lemma last_none s : last_char s = None <-> s = [].
Proof.
  unfold last_char. rewrite first_none. split; [|now intros ->].
  intro H. apply (f_equal (@rev _)) in H. now rewrite rev_involutive in H.
Qed.

Lemma eval_cond_rel c : cond_ok W c = true -> forall e1 e2, erel e1 e2 ->
  mrel eq (eval_cond U c e1) (eval_cond U c e2).
Proof.
  induction c; cbn [cond_ok]; intros Hok e1 e2 He; cbn [eval_cond].
  - now apply mrel_ret.
  - apply mrel_bind with (Q := R); [apply get_token_rel|]. intros t1 t2 H.
    pose proof (R_like _ _ H) as A.
    destruct p; cbn [eval_tpred tpred_ok] in *.
    + apply mrel_ret. apply is_rel; [assumption|now apply word_ok_In].
    + apply mrel_ret. apply in_rel; [assumption|now apply words_ok_In].
    + pose proof (env_get_rel x _ _ He) as G.
      destruct (env_get x e1) as [v1|], (env_get x e2) as [v2|]; try contradiction; [|apply mrel_stuck].
      destruct G; try apply mrel_stuck. apply mrel_ret. now apply in_rel.
    + apply mrel_ret. apply upper_rel; [assumption|now apply word_ok_In].
    + apply mrel_ret. apply literal_rel; [assumption|now apply lit_ok_In].
    + apply mrel_ret. apply (like_identifier U _ _ _ A).
    + apply mrel_ret. apply (like_string U _ _ _ A).
    + apply mrel_ret. apply (like_numeric U _ _ _ A).
  - apply is_eof_rel.
  - pose proof (env_get_rel x _ _ He) as G.
    destruct (env_get x e1) as [v1|], (env_get x e2) as [v2|]; try contradiction; [|apply mrel_stuck].
    destruct G; try apply mrel_stuck. now apply mrel_ret.
  - apply mrel_bind with (Q := eq); [now apply IHc|]. intros a b ->. now apply mrel_ret.
  - apply andb_true_iff in Hok as [H1 H2].
    apply mrel_bind with (Q := eq); [now apply IHc1|]. intros a b ->.
    destruct b; [now apply IHc2|now apply mrel_ret].
  - apply andb_true_iff in Hok as [H1 H2].
    apply mrel_bind with (Q := eq); [now apply IHc1|]. intros a b ->.
    destruct b; [now apply mrel_ret|now apply IHc2].
  - pose proof (env_get_rel v _ _ He) as G.
    destruct (env_get v e1) as [v1|], (env_get v e2) as [v2|]; try contradiction; [|apply mrel_stuck].
    destruct G; try apply mrel_stuck. apply mrel_ret. now rewrite (same_trees_length _ _ _ H).
  - pose proof (env_get_rel v _ _ He) as G.
    destruct (env_get v e1) as [v1|], (env_get v e2) as [v2|]; try contradiction; [|apply mrel_stuck].
    destruct G; try apply mrel_stuck. apply mrel_ret. now rewrite (same_trees_length _ _ _ H).
  - apply mrel_bind with (Q := eq); [apply get_precedence_rel|]. intros a b ->.
    pose proof (env_get_rel x _ _ He) as G.
    destruct (env_get x e1) as [v1|], (env_get x e2) as [v2|]; try contradiction; [|apply mrel_stuck].
    destruct G; try apply mrel_stuck. now apply mrel_ret.
  - pose proof (env_get_rel x _ _ He) as G.
    destruct (env_get x e1) as [v1|], (env_get x e2) as [v2|]; try contradiction; [|apply mrel_stuck].
    destruct G; try apply mrel_stuck. apply mrel_ret. now rewrite (same_type _ _ _ H).
  - pose proof (env_get_rel x _ _ He) as G.
    destruct (env_get x e1) as [v1|], (env_get x e2) as [v2|]; try contradiction; [|apply mrel_stuck].
    destruct G; try apply mrel_stuck. apply mrel_ret. now rewrite (same_dot_root _ _ _ H).
  - pose proof (env_get_rel x _ _ He) as G.
    destruct (env_get x e1) as [v1|], (env_get x e2) as [v2|]; try contradiction; [|apply mrel_stuck].
    destruct G; try apply mrel_stuck. apply mrel_ret. pose proof (same_child _ _ _ _ Hok H) as C.
    destruct (child k n1) as [[]|], (child k n2) as [[]|]; try contradiction; reflexivity.
  - apply mrel_bind with (Q := R); [apply get_token_rel|]. intros t1 t2 H.
    pose proof (R_like _ _ H) as A. apply N.eqb_eq in Hok. subst c.
    assert (K := opt_is_rel (first_char (literal t1)) (first_char (literal t2)) 96%N).
    rewrite !first_none in K. specialize (K (like_empty _ _ _ _ A) (like_first _ _ _ _ A)).
    destruct (first_char (literal t1)), (first_char (literal t2)); try contradiction;
      [now apply mrel_ret|apply mrel_panic].
  - apply mrel_bind with (Q := R); [apply get_token_rel|]. intros t1 t2 H.
    pose proof (R_like _ _ H) as A. apply N.eqb_eq in Hok. subst c.
    assert (K := opt_is_rel (last_char (literal t1)) (last_char (literal t2)) 46%N).
    rewrite !last_none in K. specialize (K (like_empty _ _ _ _ A) (like_last _ _ _ _ A)).
    destruct (last_char (literal t1)), (last_char (literal t2)); try contradiction;
      [now apply mrel_ret|apply mrel_panic].
  - intros s1 s2 S. pose proof (get_token_rel k s1 s2 S) as K. unfold rrel in *.
    destruct (get_token k s1), (get_token k s2); try contradiction; try exact I; split; auto.
  - intros s1 s2 S. pose proof S as (bs1 & bs2 & V1 & V2 & H). unfold bind.
    rewrite !(get_token_view _ _ _ V1), !(get_token_view _ _ _ V2).
    destruct H as [|b1 b2 r1 r2 HR HT H].
    { destruct (view_cons _ _ V1) as (? & ? & ?). discriminate. }
    cbn [nth_error]. destruct H as [|c1 c2 q1 q2 HR' HT' H].
    + rewrite !(get_token_view _ _ _ V1), !(get_token_view _ _ _ V2). cbn [nth_error].
      apply eof_error_rel; [|discriminate]. constructor; [assumption|discriminate|constructor].
    + rewrite !(get_token_view _ _ _ V1), !(get_token_view _ _ _ V2). cbn [nth_error ret].
      split; [|exact S]. exact (HT _ _ _ _ eq_refl eq_refl).
  - intros s1 s2 S. pose proof S as (bs1 & bs2 & V1 & V2 & H).
    destruct H as [|b1 b2 r1 r2 HR HT H].
    { destruct (view_cons _ _ V1) as (? & ? & ?). discriminate. }
    rewrite (paren_opens_query_view _ _ _ _ V1), (paren_opens_query_view _ _ _ _ V2).
    rewrite (paren_view_rel _ _ H). destruct (paren_view _ _); [now split|].
    apply eof_error_rel; [now constructor|discriminate].
Qed.

Lemma eval_bexp_rel b e1 e2 : bexp_ok W b = true -> erel e1 e2 -> eval_bexp b e1 = eval_bexp b e2.
Proof.
  intros Hok He. induction b; cbn [eval_bexp bexp_ok] in *; try reflexivity.
  - pose proof (env_get_rel x _ _ He) as G.
    destruct (env_get x e1) as [v1|], (env_get x e2) as [v2|]; try contradiction; [|reflexivity].
    destruct G; reflexivity.
  - now rewrite (IHb Hok).
  - pose proof (env_get_rel x _ _ He) as G.
    destruct (env_get x e1) as [v1|], (env_get x e2) as [v2|]; try contradiction; [|reflexivity].
    destruct G as [| | | | | |a b Hab]; try reflexivity. rewrite (iff_eqb a b _ (Hab s (word_ok_In _ Hok))). reflexivity.
Qed.

Lemma eval_num_rel n e1 e2 : erel e1 e2 -> mrel eq (eval_num U n e1) (eval_num U n e2).
Proof.
  intro He. destruct n; cbn [eval_num]; try now apply mrel_ret.
  - pose proof (env_get_rel x _ _ He) as G.
    destruct (env_get x e1) as [v1|], (env_get x e2) as [v2|]; try contradiction; [|apply mrel_stuck].
    destruct G; try apply mrel_stuck. now apply mrel_ret.
  - apply get_precedence_rel.
Qed.

Section Exec.
Context {fn : Type}.

Definition aerel (a b : list value * env) : Prop := Forall2 vrel (fst a) (fst b) /\ erel (snd a) (snd b).

Lemma eval_args_rel args : forallb (arg_ok W) args = true -> forall e1 e2, erel e1 e2 ->
  mrel aerel (eval_args U args e1) (eval_args U args e2).
Proof.
  induction args as [|a args IH]; intros Hok e1 e2 He; cbn [eval_args];
    [|cbn [forallb] in Hok; apply andb_true_iff in Hok as [Ha Hok]].
  - apply mrel_ret. split; [constructor|assumption].
  - apply mrel_bind with (Q := fun a b => vrel (fst a) (fst b) /\ erel (snd a) (snd b)).
    + destruct a.
      * rewrite (eval_bexp_rel _ _ _ Ha He). destruct (eval_bexp b e2); [|apply mrel_stuck].
        apply mrel_ret. split; [constructor|assumption].
      * apply mrel_bind with (Q := eq); [now apply eval_num_rel|]. intros ? ? ->.
        apply mrel_ret. split; [constructor|assumption].
      * apply mrel_ret. split; [constructor; exact (words_ok_In _ Ha)|assumption].
      * apply mrel_bind with (Q := nerel); [now apply take_node_rel|]. intros ? ? [Hn He'].
        apply mrel_ret. split; [now constructor|assumption].
    + intros [v1 f1] [v2 f2] [Hv Hf]. cbn [fst snd] in *.
      apply mrel_bind with (Q := aerel); [now apply IH|]. intros [vs1 g1] [vs2 g2] [Hvs Hg].
      apply mrel_ret. split; [now constructor|assumption].
Qed.

Variable call : fn -> list value -> M value.
Variable lf : nat.
Hypothesis call_rel : forall f vs1 vs2, Forall2 vrel vs1 vs2 -> mrel vrel (call f vs1) (call f vs2).

Lemma call_node_rel f args e1 e2 : forallb (arg_ok W) args = true -> erel e1 e2 ->
  mrel nerel (call_node U call f args e1) (call_node U call f args e2).
Proof.
  intros Hok He. unfold call_node.
  apply mrel_bind with (Q := aerel); [now apply eval_args_rel|]. intros [vs1 g1] [vs2 g2] [Hvs Hg].
  apply mrel_bind with (Q := vrel); [now apply call_rel|]. intros v1 v2 Hv.
  destruct Hv; try apply mrel_stuck. apply mrel_ret. now split.
Qed.

Lemma eval_nexp_rel x e1 e2 : nexp_ok W x = true -> erel e1 e2 ->
  mrel nerel (eval_nexp U call x e1) (eval_nexp U call x e2).
Proof.
  intros Hok He. destruct x; cbn [eval_nexp].
  - apply mrel_bind with (Q := same_tree R); [apply construct_node_rel|]. intros n1 n2 Hn.
    apply mrel_ret. now split.
  - now apply call_node_rel.
  - now apply take_node_rel.
  - apply mrel_ret. split; [|assumption]. unfold node_empty. cbn [fst]. constructor; [constructor|]. constructor.
  - pose proof (env_get_rel v _ _ He) as G.
    destruct (env_get v e1) as [v1|], (env_get v e2) as [v2|]; try contradiction; [|apply mrel_stuck].
    destruct G; try apply mrel_stuck. pose proof (same_trees_rev _ _ _ H) as Hr.
    destruct Hr; [apply mrel_panic|].
    apply mrel_bind with (Q := erel).
    + apply set_or_stuck_rel; [constructor; now apply same_trees_rev|assumption].
    + intros a b Hab. apply mrel_ret. now split.
Qed.

Lemma eval_nexps_rel xs : forallb (nexp_ok W) xs = true -> forall e1 e2, erel e1 e2 ->
  mrel verel (eval_nexps U call xs e1) (eval_nexps U call xs e2).
Proof.
  induction xs as [|x xs IH]; intros Hok e1 e2 He; cbn [eval_nexps];
    [|cbn [forallb] in Hok; apply andb_true_iff in Hok as [Hx Hok]].
  - apply mrel_ret. split; [constructor|assumption].
  - apply mrel_bind with (Q := nerel); [now apply eval_nexp_rel|]. intros [n1 g1] [n2 g2] [Hn Hg].
    apply mrel_bind with (Q := verel); [now apply IH|]. intros [l1 h1] [l2 h2] [Hl Hh].
    apply mrel_ret. split; [now constructor|assumption].
Qed.

Lemma eval_vexp_rel x e1 e2 : vexp_ok W x = true -> erel e1 e2 ->
  mrel verel (eval_vexp U call x e1) (eval_vexp U call x e2).
Proof.
  intros Hok He. destruct x; cbn [eval_vexp].
  - apply mrel_ret. split; [constructor|assumption].
  - now apply take_vec_rel.
  - apply mrel_bind with (Q := aerel); [now apply eval_args_rel|]. intros [vs1 g1] [vs2 g2] [Hvs Hg].
    apply mrel_bind with (Q := vrel); [now apply call_rel|]. intros v1 v2 Hv.
    destruct Hv; try apply mrel_stuck. apply mrel_ret. now split.
  - now apply eval_nexps_rel.
Qed.

Inductive crel : ctl -> ctl -> Prop :=
| crel_norm : crel Norm Norm
| crel_brk : crel Brk Brk
| crel_ret v1 v2 : vrel v1 v2 -> crel (Ret v1) (Ret v2).
Definition cerel (a b : ctl * env) : Prop := crel (fst a) (fst b) /\ erel (snd a) (snd b).
Definition gcerel (a b : bool * ctl * env) : Prop :=
  fst (fst a) = fst (fst b) /\ crel (snd (fst a)) (snd (fst b)) /\ erel (snd a) (snd b).

Lemma after_body_rel n r1 r2 : cerel r1 r2 -> gcerel (after_body n r1) (after_body n r2).
Proof.
  destruct r1 as [c1 e1], r2 as [c2 e2]. intros [Hc He]. cbn [fst snd] in *.
  destruct Hc; cbn [after_body]; repeat split; try (constructor; assumption); now apply env_leave_rel.
Qed.

Lemma iterate_rel n st1 st2 : (forall e1 e2, erel e1 e2 -> mrel gcerel (st1 e1) (st2 e2)) ->
  forall e1 e2, erel e1 e2 -> mrel cerel (iterate n st1 e1) (iterate n st2 e2).
Proof.
  intro H. induction n as [|n IH]; intros e1 e2 He; cbn [iterate].
  - intros s1 s2 S. exact I.
  - apply mrel_bind with (Q := gcerel); [now apply H|].
    intros [[g1 c1] f1] [[g2 c2] f2] (Hg & Hc & Hf). cbn [fst snd] in *. subst g2.
    destruct g1; [now apply IH|]. apply mrel_ret. now split.
Qed.
Lemma repeat_rel n b1 b2 : (forall e1 e2, erel e1 e2 -> mrel cerel (b1 e1) (b2 e2)) ->
  forall e1 e2, erel e1 e2 -> mrel cerel (repeat_body n b1 e1) (repeat_body n b2 e2).
Proof.
  intro H. induction n as [|n IH]; intros e1 e2 He; cbn [repeat_body].
  - apply mrel_ret. split; [constructor|assumption].
  - apply mrel_bind with (Q := cerel); [now apply H|]. intros r1 r2 Hr.
    rewrite (erel_length _ _ He). pose proof (after_body_rel (length e2) _ _ Hr) as K.
    destruct (after_body (length e2) r1) as [[g1 c1] f1], (after_body (length e2) r2) as [[g2 c2] f2].
    destruct K as (Hg & Hc & Hf). cbn [fst snd] in *. subst g2.
    destruct g1; [now apply IH|]. apply mrel_ret. now split.
Qed.
Lemma scoped_rel n m1 m2 : mrel cerel m1 m2 -> mrel cerel (scoped n m1) (scoped n m2).
Proof.
  intro H. unfold scoped. apply mrel_bind with (Q := cerel); [exact H|]. intros [c1 e1] [c2 e2] [Hc He].
  apply mrel_ret. split; [exact Hc|]. now apply env_leave_rel.
Qed.
Lemma norm_rel m1 m2 : mrel erel m1 m2 -> mrel cerel (norm m1) (norm m2).
Proof.
  intro H. unfold norm. apply mrel_bind with (Q := erel); [exact H|]. intros.
  apply mrel_ret. split; [constructor|assumption].
Qed.

Lemma mem_pats_lit t1 t2 pats : R t1 t2 -> forallb lit_ok pats = true ->
  mem_pats (literal t1) pats = mem_pats (literal t2) pats.
Proof.
  intros H. unfold mem_pats. induction pats as [|p pats IH]; intro Hp; [reflexivity|].
  cbn [forallb existsb] in *. apply andb_true_iff in Hp as [Hp1 Hp2].
  now rewrite (literal_rel _ _ p H (lit_ok_In _ Hp1)), IH.
Qed.

Lemma exec_rel c : cmd_ok W c = true -> forall e1 e2, erel e1 e2 ->
  mrel cerel (exec U call lf c e1) (exec U call lf c e2).
Proof.
  induction c; cbn [cmd_ok]; intros Hok e1 e2 He; cbn [exec].
  - apply mrel_ret. split; [constructor|assumption].
  - apply andb_true_iff in Hok as [H1 H2].
    apply mrel_bind with (Q := cerel); [now apply IHc1|]. intros [k1 f1] [k2 f2] [Hk Hf].
    cbn [fst snd] in *. destruct Hk; [now apply IHc2| |].
    + apply mrel_ret. split; [constructor|assumption].
    + apply mrel_ret. split; [now constructor|assumption].
  - apply mrel_bind with (Q := nerel); [now apply eval_nexp_rel|]. intros [n1 f1] [n2 f2] [Hn Hf].
    apply mrel_ret. split; [constructor|]. constructor; [|assumption]. split; [reflexivity|now constructor].
  - apply mrel_bind with (Q := nerel); [now apply eval_nexp_rel|]. intros [n1 f1] [n2 f2] [Hn Hf].
    apply norm_rel. apply set_or_stuck_rel; [now constructor|assumption].
  - apply mrel_bind with (Q := verel); [now apply eval_vexp_rel|]. intros [n1 f1] [n2 f2] [Hn Hf].
    apply mrel_ret. split; [constructor|]. constructor; [|assumption]. split; [reflexivity|now constructor].
  - apply mrel_bind with (Q := verel); [now apply eval_vexp_rel|]. intros [n1 f1] [n2 f2] [Hn Hf].
    apply norm_rel. apply set_or_stuck_rel; [now constructor|assumption].
  - apply mrel_bind with (Q := eq); [now apply eval_cond_rel|]. intros ? ? ->.
    apply mrel_ret. split; [constructor|]. constructor; [|assumption]. split; [reflexivity|now constructor].
  - apply mrel_bind with (Q := eq); [now apply eval_cond_rel|]. intros ? ? ->.
    apply norm_rel. apply set_or_stuck_rel; [now constructor|assumption].
  - apply mrel_bind with (Q := eq); [now apply eval_num_rel|]. intros ? ? ->.
    apply mrel_ret. split; [constructor|]. constructor; [|assumption]. split; [reflexivity|now constructor].
  - apply mrel_bind with (Q := eq); [now apply eval_num_rel|]. intros ? ? ->.
    apply norm_rel. apply set_or_stuck_rel; [now constructor|assumption].
  - apply mrel_ret. split; [constructor|]. constructor; [|assumption]. split; [reflexivity|constructor; exact (words_ok_In _ Hok)].
  - apply mrel_bind with (Q := R); [apply get_token_rel|]. intros t1 t2 H.
    apply mrel_ret. split; [constructor|]. constructor; [|assumption]. split; [reflexivity|].
    cbn [snd]. constructor. now apply upper_urel.
  - apply mrel_ret. split; [constructor|]. constructor; [|assumption]. split; [reflexivity|now constructor].
  - apply mrel_bind with (Q := eq); [apply next_token_rel|]. intros _ _ _.
    apply mrel_ret. split; [constructor|assumption].
  - apply andb_true_iff in Hok as [Hk Hok].
    apply mrel_bind with (Q := nerel); [now apply eval_nexp_rel|]. intros [n1 f1] [n2 f2] [Hn Hf].
    apply norm_rel. apply with_node_rel; [assumption|]. intros. now apply same_push.
  - apply andb_true_iff in Hok as [Hk Hok].
    apply mrel_bind with (Q := verel); [now apply eval_vexp_rel|]. intros [n1 f1] [n2 f2] [Hn Hf].
    apply norm_rel. apply with_node_rel; [assumption|]. intros. now apply same_push_vec.
  - apply mrel_bind with (Q := nerel); [now apply eval_nexp_rel|]. intros [n1 f1] [n2 f2] [Hn Hf].
    cbn [fst snd] in *. pose proof (env_get_rel v _ _ Hf) as G.
    destruct (env_get v f1) as [v1|], (env_get v f2) as [v2|]; try contradiction; [|apply mrel_stuck].
    destruct G; try apply mrel_stuck. apply norm_rel.
    apply set_or_stuck_rel; [constructor|assumption].
    apply same_trees_app; [assumption|]. constructor; [assumption|constructor].
  - apply norm_rel. apply with_node_rel; [assumption|]. intros. now apply same_set_type.
  - apply andb_true_iff in Hok as [Hok H2]. apply andb_true_iff in Hok as [H0 H1].
    apply mrel_bind with (Q := eq); [now apply eval_cond_rel|]. intros ? ? ->.
    rewrite (erel_length _ _ He). apply scoped_rel. destruct b; [now apply IHc1|now apply IHc2].
  - apply andb_true_iff in Hok as [Hok H2]. apply andb_true_iff in Hok as [H0 H1].
    apply mrel_bind with (Q := R); [apply get_token_rel|]. intros t1 t2 H.
    rewrite (mem_pats_rel _ _ pats (upper_urel _ _ H) (words_ok_In _ H0)), (erel_length _ _ He). apply scoped_rel.
    destruct (mem_pats _ _); [now apply IHc1|now apply IHc2].
  - apply andb_true_iff in Hok as [Hok H2]. apply andb_true_iff in Hok as [H0 H1].
    apply mrel_bind with (Q := R); [apply get_token_rel|]. intros t1 t2 H.
    rewrite (mem_pats_lit _ _ _ H H0), (erel_length _ _ He). apply scoped_rel.
    destruct (mem_pats _ _); [now apply IHc1|now apply IHc2].
  - apply andb_true_iff in Hok as [Hok H2]. apply andb_true_iff in Hok as [H0 H1]. pose proof (env_get_rel x _ _ He) as G.
    destruct (env_get x e1) as [v1|], (env_get x e2) as [v2|]; try contradiction; [|apply mrel_stuck].
    destruct G as [| | | | | |a b Hab]; try apply mrel_stuck. rewrite (erel_length _ _ He). apply scoped_rel.
    rewrite (mem_pats_rel a b pats Hab (words_ok_In _ H0)).
    destruct (mem_pats _ _); [now apply IHc1|now apply IHc2].
  - apply andb_true_iff in Hok as [H1 H2]. apply iterate_rel; [|assumption]. intros f1 f2 Hf.
    apply mrel_bind with (Q := eq); [now apply eval_cond_rel|]. intros ? b ->. destruct b.
    + apply mrel_bind with (Q := cerel); [now apply IHc|]. intros r1 r2 Hr. apply mrel_ret.
      rewrite (erel_length _ _ Hf). now apply after_body_rel.
    + apply mrel_ret. repeat split; [constructor|assumption].
  - apply iterate_rel; [|assumption]. intros f1 f2 Hf. pose proof (env_get_rel v _ _ Hf) as G.
    destruct (env_get v f1) as [v1|], (env_get v f2) as [v2|]; try contradiction; [|apply mrel_stuck].
    destruct G; try apply mrel_stuck. pose proof (same_trees_rev _ _ _ H) as Hr.
    destruct Hr as [|n1 n2 r1 r2 Hn Hr].
    + apply mrel_ret. repeat split; [constructor|assumption].
    + apply mrel_bind with (Q := erel).
      { apply set_or_stuck_rel; [constructor; now apply same_trees_rev|assumption]. }
      intros g1 g2 Hg. apply mrel_bind with (Q := cerel).
      { apply IHc; [assumption|]. constructor; [|assumption]. split; [reflexivity|now constructor]. }
      intros q1 q2 Hq. apply mrel_ret. rewrite (erel_length _ _ Hf). now apply after_body_rel.
  - pose proof (env_get_rel n _ _ He) as G.
    destruct (env_get n e1) as [v1|], (env_get n e2) as [v2|]; try contradiction; [|apply mrel_stuck].
    destruct G; try apply mrel_stuck. apply repeat_rel; [|assumption]. intros. now apply IHc.
  - apply mrel_ret. split; [constructor|assumption].
  - apply mrel_bind with (Q := nerel); [now apply eval_nexp_rel|]. intros [n1 f1] [n2 f2] [Hn Hf].
    apply mrel_ret. split; [constructor; now constructor|assumption].
  - apply mrel_bind with (Q := verel); [now apply eval_vexp_rel|]. intros [n1 f1] [n2 f2] [Hn Hf].
    apply mrel_ret. split; [constructor; now constructor|assumption].
  - apply mrel_bind with (Q := R); [apply get_token_rel|]. intros t1 t2 H. destruct d as [k'|].
    + apply mrel_bind with (Q := R); [apply get_token_rel|]. intros u1 u2 Hu.
      apply fail_rel; [assumption|now constructor].
    + apply fail_rel; [assumption|constructor].
  - apply andb_true_iff in Hok as [Ha Hok].
    intros s1 s2 S. pose proof (eval_args_rel args Ha _ _ He s1 s2 S) as K. unfold rrel in K.
    destruct (eval_args U args e1 s1) as [[vs1 g1] a1| | | |],
             (eval_args U args e2 s2) as [[vs2 g2] a2| | | |]; try contradiction; try exact K; try exact I.
    destruct K as [[Hvs Hg] S']. cbn [fst snd] in *.
    pose proof (call_rel f _ _ Hvs a1 a2 S') as C. unfold rrel in C.
    destruct (call f vs1 a1) as [v1 b1| | | |], (call f vs2 a2) as [v2 b2| | | |];
      try contradiction; try exact C; try exact I.
    + destruct C as [Hv S2]. destruct Hv; try exact I.
      apply norm_rel; [|assumption]. apply set_or_stuck_rel; [now constructor|assumption].
    + rewrite !restore_org, (erel_length _ _ Hg). apply scoped_rel; [|assumption]. now apply IHc.
Qed.
End Exec.

Theorem run_rel {fn} (prog : fn -> fundef fn) :
  (forall f, cmd_ok W (f_body (prog f)) = true) ->
  forall fuel f vs1 vs2, Forall2 vrel vs1 vs2 ->
  mrel vrel (run U prog fuel f vs1) (run U prog fuel f vs2).
Proof.
  intros Hok fuel. induction fuel as [|fuel IH]; intros f vs1 vs2 Hvs; cbn [run].
  - intros s1 s2 S. exact I.
  - unfold call_body.
    assert (HL : length vs1 = length vs2) by (clear -Hvs; induction Hvs; cbn; congruence).
    rewrite HL. destruct (Nat.eqb _ _); [|apply mrel_stuck].
    apply mrel_bind with (Q := cerel).
    + apply exec_rel; [exact IH|apply Hok|].
      clear -Hvs. generalize (f_params (prog f)). intro ps. revert ps.
      induction Hvs; intros [|p ps]; cbn [combine]; try constructor; auto. apply IHHvs.
    + intros [c1 g1] [c2 g2] [Hc _]. cbn [fst] in *. destruct Hc; try apply mrel_stuck. now apply mrel_ret.
Qed.
End Sim.
