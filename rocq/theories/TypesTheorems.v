(* Which deviations from types.rs can occur: those that the table checked in ShapeCheck.v
   leaves open. *)
From Verif Require Import Chars Token Cst Core MiniRust Lexer Program Api Bundles TreeSpec ParserGeneric
  ParserView NodeIndex Shape ShapeSound ShapeTable TreeTheorems TypesSchema TypesSpec.
From Coq Require Import Permutation Lia.
Local Open Scope string_scope.
Local Open Scope list_scope.

Definition is_forbidden (f : field) : bool := match fd_presence f with Forbidden => true | _ => false end.
Definition is_required (f : field) : bool := match fd_presence f with Required => true | _ => false end.
Definition fields_of (t : node_type) : list (string * field) :=
  match declared t with Some d => dc_fields d | None => [] end.
Definition field_of (t : node_type) (k : string) : option field :=
  match map_get k (fields_of t) with Some f => if is_forbidden f then None else Some f | None => None end.
Definition mem_type (t : node_type) (l : list node_type) : bool := any (nt_same t) l.
Lemma any_In {A} (p : A -> bool) l : any p l = true <-> exists x, In x l /\ p x = true.
Proof.
  induction l as [|y l IH]; cbn [any]; [split; [discriminate|intros (x & [] & _)]|].
  destruct (p y) eqn:E; [split; [intros _; exists y; split; [now left|exact E]|reflexivity]|].
  rewrite IH. split; [intros (x & I & P); exists x; split; [now right|exact P]|].
  intros (x & [->|I] & P); [congruence|]. now exists x.
Qed.
Lemma all_In {A} (p : A -> bool) l : all p l = true -> forall x, In x l -> p x = true.
Proof.
  induction l as [|y l IH]; cbn [all]; [intros _ x []|]. destruct (p y) eqn:E; [|discriminate].
  intros H x [->|I]; auto.
Qed.
Lemma mem_type_In t l : mem_type t l = true <-> In t l.
Proof.
  unfold mem_type. rewrite any_In. split; [intros (x & I & E); apply nt_same_eq in E; now subst|].
  intro I. exists t. split; [exact I|]. now apply nt_same_eq.
Qed.
Lemma mem_In x l : mem x l = true <-> In x l.
Proof.
  unfold mem. rewrite any_In. split; [intros (y & I & E); apply String.eqb_eq in E; now subst|].
  intro I. exists x. split; [exact I|]. apply String.eqb_refl.
Qed.

(* no child is declared twice *)
Fixpoint distinct (l : list string) : bool :=
  match l with [] => true | k :: r => if mem k r then false else distinct r end.
Lemma distinct_NoDup l : distinct l = true -> NoDup l.
Proof.
  induction l as [|k l IH]; cbn [distinct]; [constructor|]. destruct (mem k l) eqn:E; [discriminate|].
  intro H. constructor; [|auto]. rewrite <- mem_In. congruence.
Qed.
Lemma fields_distinct t : NoDup (map fst (fields_of t)).
Proof. apply distinct_NoDup. destruct t; vm_compute; reflexivity. Qed.
Lemma declares_field n k f : declares n k f <-> field_of (n_type n) k = Some f.
Proof.
  unfold declares, field_of, fields_of. split.
  - intros (d & D & I & P). rewrite D. pose proof (fields_distinct (n_type n)) as ND. unfold fields_of in ND. rewrite D in ND.
    rewrite (In_map_get _ _ _ ND I). unfold is_forbidden. destruct (fd_presence f); congruence.
  - destruct (declared (n_type n)) as [d|]; [|discriminate]. destruct (map_get k (dc_fields d)) as [g|] eqn:E; [|discriminate].
    unfold is_forbidden. intro H. exists d. split; [reflexivity|]. apply map_get_In in E.
    destruct (fd_presence g) eqn:P; [| |discriminate]; injection H as <-; (split; [exact E|congruence]).
Qed.

(* a node conforms if and only if it does not deviate *)
Theorem conforms_iff n : conforms n <-> forall d, ~ deviates n d.
Proof.
  split.
  - intros [C1 C2 C3 C4] d D. destruct D as [E|d E1 E2 E3|d E1 E2 E3|d k E1 E2 E3|k f c E1 E2 E3|k f c l x E1 E2 E3 E4 E5|k f E1 E2 E3].
    + congruence.
    + specialize (C2 _ E1). rewrite E2 in C2. congruence.
    + specialize (C2 _ E1). rewrite E2 in C2. congruence.
    + destruct (child k n) as [c|] eqn:E; [|congruence]. destruct (C3 _ _ E) as (f & F & _). exact (E3 f F).
    + destruct (C3 _ _ E1) as (g & G & K & _). rewrite declares_field in E2, G. congruence.
    + destruct (C3 _ _ E1) as (g & G & _ & T). rewrite declares_field in E2, G.
      assert (g = f) by congruence. subst g. exact (E5 (T _ _ E3 E4)).
    + exact (C4 _ _ E1 E2 E3).
  - intro N. constructor.
    + intro E. exact (N _ (dev_undeclared n E)).
    + intros d D. destruct (dc_token d) eqn:E; [| |exact Logic.I].
      * intro Z. exact (N _ (dev_without_token n d D E Z)).
      * destruct (n_token n) eqn:Z; [|reflexivity]. exfalso. apply (N (With_token (n_type n))). eapply dev_with_token; [exact D|exact E|congruence].
    + intros k c E. destruct (declared (n_type n)) as [d|] eqn:D; [|exfalso; exact (N _ (dev_undeclared n D))].
      destruct (field_of (n_type n) k) as [f|] eqn:F.
      * apply declares_field in F. exists f. split; [exact F|]. split.
        { destruct (content_kind c) eqn:K1, (fd_kind f) eqn:K2; try reflexivity; exfalso;
            apply (N (Wrong_kind (n_type n) k)); eapply dev_wrong_kind; eauto; congruence. }
        intros l x L I. destruct (mem_type (n_type x) l) eqn:M; [now apply mem_type_In|]. exfalso.
        apply (N (Odd_child (n_type n) k (n_type x))). eapply dev_odd_child; eauto. rewrite <- mem_type_In. congruence.
      * exfalso. apply (N (Extra_child (n_type n) k)). apply dev_extra_child with (d := d); [exact D|congruence|].
        intros f F'. apply declares_field in F'. congruence.
    + intros k f D R Z. exact (N _ (dev_missing_child n k f D R Z)).
Qed.

(* ----- the deviations that a description leaves open ----- *)
Definition child_deviations (t : node_type) (k : string) (d : cdesc) : list deviation :=
  match field_of t k with
  | None => [Extra_child t k]
  | Some f =>
      (if match fd_kind f with OneNode => cd_vec d | ManyNodes => cd_node d end then [Wrong_kind t k] else []) ++
      match fd_types f with
      | None => []
      | Some l => map (Odd_child t k) (filter (fun u => if has_type (cd_types d) u then negb (mem_type u l) else false) all_node_types)
      end
  end.
Definition comment_desc : cdesc := CD false true (type_mask N_Comment) None.
(* a node without a token has no comments *)
Definition with_comments (e : entry) : list (string * cdesc) :=
  match en_tok e with Some false => [] | _ => [("leading_comments", comment_desc); ("trailing_comments", comment_desc)] end ++ en_may e.
Definition entry_deviations (e : entry) : list deviation :=
  let t := en_ty e in
  match declared t with
  | None => [Undeclared t]
  | Some d =>
      match dc_token d, en_tok e with
      | TokenRequired, Some true => []
      | TokenRequired, _ => [Without_token t]
      | TokenNull, Some false => []
      | TokenNull, _ => [With_token t]
      | TokenOrNull, _ => []
      end ++
      flat_map (fun kd => child_deviations t (fst kd) (snd kd)) (with_comments e) ++
      flat_map (fun kf => if is_required (snd kf) then if mem (fst kf) (en_must e) then [] else [Missing_child t (fst kf)] else [])
        (dc_fields d)
  end.

Lemma child_deviations_Extra t k d : field_of t k = None -> In (Extra_child t k) (child_deviations t k d).
Proof. intro E. unfold child_deviations. rewrite E. now left. Qed.
Section Sound.
Variable U : unicode.
(* any description of a child *)
Lemma child_dev n t k d c dv : n_type n = t -> child k n = Some c -> child_ok U d c -> 
  deviates n dv -> (dv = Extra_child t k \/ dv = Wrong_kind t k \/ exists u, dv = Odd_child t k u) ->
  In dv (child_deviations t k d).
Proof.
  intros T E O D H.
  assert (declared t <> None -> True) by auto.
  destruct D as [E1|d' E1 E2 E3|d' E1 E2 E3|d' k' E1 E2 E3|k' f c' E1 E2 E3|k' f c' l x E1 E2 E3 E4 E5|k' f E1 E2 E3];
    rewrite ?T in *; (try (destruct H as [H|[H|[u H]]]; discriminate H)).
  - assert (k' = k) by (destruct H as [H|[H|[u H]]]; congruence). subst k'.
    apply child_deviations_Extra. destruct (field_of t k) as [f|] eqn:F; [|reflexivity]. exfalso. apply (E3 f). apply declares_field. congruence.
  - assert (k' = k) by (destruct H as [H|[H|[u H]]]; congruence). subst k'.
    rewrite declares_field, T in E2. unfold child_deviations. rewrite E2. apply in_or_app. left.
    assert (c' = c) by congruence. subst c'.
    destruct c as [x|l]; cbn [content_kind child_ok] in *; destruct O as (O & _); destruct (fd_kind f); try congruence; rewrite O; now left.
  - assert (k' = k) by (destruct H as [H|[H|[u H]]]; congruence). subst k'.
    rewrite declares_field, T in E2. unfold child_deviations. rewrite E2, E3. apply in_or_app. right.
    apply in_map. apply filter_In. split; [apply all_node_types_complete|].
    assert (c' = c) by congruence. subst c'.
    assert (Ht : has_type (cd_types d) (n_type x) = true).
    { destruct c as [y|m]; cbn [content_nodes child_ok] in *; [destruct E4 as [->|[]]; apply O|]. destruct O as (_ & O). auto. }
    rewrite Ht. destruct (mem_type (n_type x) l) eqn:M; [|reflexivity]. apply mem_type_In in M. contradiction.
Qed.
Lemma deviates_child n dv k : deviates n dv ->
  (dv = Extra_child (n_type n) k \/ dv = Wrong_kind (n_type n) k \/ exists u, dv = Odd_child (n_type n) k u) -> child k n <> None.
Proof.
  intros D H. destruct D as [E1|d' E1 E2 E3|d' E1 E2 E3|d' k' E1 E2 E3|k' f c' E1 E2 E3|k' f c' l x E1 E2 E3 E4 E5|k' f E1 E2 E3];
    destruct H as [H|[H|[u H]]]; congruence.
Qed.

Lemma conf_deviates bs n dv : conf U bs schema n -> deviates n dv -> In dv (entry_deviations (schema (n_type n))).
Proof.
  intros [De ND (S1 & S2 & _ & S4 & S5) _ _] D. unfold entry_deviations. rewrite <- S1.
  assert (Kids : forall k, (dv = Extra_child (n_type n) k \/ dv = Wrong_kind (n_type n) k \/ exists u, dv = Odd_child (n_type n) k u) ->
    In dv (flat_map (fun kd => child_deviations (n_type n) (fst kd) (snd kd)) (with_comments (schema (n_type n))))).
  { intros k H. pose proof (deviates_child _ _ _ D H) as Z. destruct (child k n) as [c|] eqn:E; [|congruence]. clear Z.
    apply in_flat_map. destruct (comment_key k) eqn:K.
    - assert (O : child_ok U comment_desc c /\ (k = "leading_comments" \/ k = "trailing_comments")).
      { destruct (comment_key_cases _ K) as [->| ->]; (split; [|auto]); unfold deco in De;
          (destruct (n_token n); [|destruct De; congruence]); destruct De as (b & _ & _ & L1 & L2); rewrite ?L1, ?L2 in E;
          unfold comment_child in E; [destruct (b_lead b) as [|a r]; [discriminate|]|destruct (b_trail b) as [|a r]; [discriminate|]];
          injection E as <-; (split; [reflexivity|]); intros x I; unfold comment_children in I; apply (in_map_iff (fun c => node_new c N_Comment) (a :: r)) in I;
          destruct I as (y & <- & _); reflexivity. }
      destruct O as (O & Ok). exists (k, comment_desc). split; [|].
      { unfold with_comments. apply in_or_app. left. destruct (en_tok (schema (n_type n))) as [[]|] eqn:Et;
          [destruct Ok as [->| ->]; [now left|right; now left]| |destruct Ok as [->| ->]; [now left|right; now left]].
        exfalso. specialize (S2 _ eq_refl). unfold has_token in S2. unfold deco in De.
        destruct (n_token n); [discriminate|]. destruct Ok as [->| ->], De; congruence. }
      eapply child_dev; eauto.
    - destruct (S5 k c (map_get_In _ _ _ E) K) as (d & Md & O). exists (k, d). split; [apply in_or_app; right; now apply map_get_In|].
      eapply child_dev; eauto. }
  destruct D as [E1|d' E1 E2 E3|d' E1 E2 E3|d' k' E1 E2 E3|k' f c' E1 E2 E3|k' f c' l x E1 E2 E3 E4 E5|k' f E1 E2 E3].
  - rewrite E1. now left.
  - rewrite E1, E2. apply in_or_app. left. destruct (en_tok (schema (n_type n))) as [[]|] eqn:Et; [|now left|now left].
    specialize (S2 _ eq_refl). unfold has_token in S2. rewrite E3 in S2. discriminate.
  - rewrite E1, E2. apply in_or_app. left. destruct (en_tok (schema (n_type n))) as [[]|] eqn:Et; [now left| |now left].
    specialize (S2 _ eq_refl). unfold has_token in S2. destruct (n_token n); [discriminate|congruence].
  - rewrite E1. apply in_or_app. right. apply in_or_app. left. apply (Kids k'). auto.
  - destruct E2 as (d & E2 & Q). rewrite E2. apply in_or_app. right. apply in_or_app. left. apply (Kids k'). auto.
  - destruct E2 as (d & E2 & Q). rewrite E2. apply in_or_app. right. apply in_or_app. left. apply (Kids k'). eauto.
  - destruct E1 as (d & E1 & I & Q). rewrite E1. apply in_or_app. right. apply in_or_app. right.
    apply in_flat_map. exists (k', f). split; [exact I|]. cbn [fst snd]. unfold is_required. rewrite E2.
    destruct (mem k' (en_must (schema (n_type n)))) eqn:M; [|now left]. apply mem_In in M. now apply S4 in M.
Qed.
End Sound.

(* ----- the deviations of a concrete node ----- *)
Definition content_is (k : kind) (c : content) : bool :=
  match k, c with OneNode, CNode _ => true | ManyNodes, CVec _ => true | _, _ => false end.
Definition node_deviations (n : node) : list deviation :=
  let t := n_type n in
  match declared t with
  | None => [Undeclared t]
  | Some d =>
      match dc_token d, n_token n with
      | TokenRequired, None => [Without_token t]
      | TokenNull, Some _ => [With_token t]
      | _, _ => []
      end ++
      flat_map (fun kc => match field_of t (fst kc) with
        | None => [Extra_child t (fst kc)]
        | Some f => match child (fst kc) n with
            | None => []
            | Some c =>
              (if content_is (fd_kind f) c then [] else [Wrong_kind t (fst kc)]) ++
              match fd_types f with
              | None => []
              | Some l => map (fun x => Odd_child t (fst kc) (n_type x)) (filter (fun x => negb (mem_type (n_type x) l)) (content_nodes c))
              end end
        end) (n_children n) ++
      flat_map (fun kf => if is_required (snd kf) then match child (fst kf) n with None => [Missing_child t (fst kf)] | _ => [] end else [])
        (dc_fields d)
  end.
Lemma node_deviations_sound n dv : In dv (node_deviations n) -> deviates n dv.
Proof.
  unfold node_deviations. destruct (declared (n_type n)) as [d|] eqn:D; [|intros [<-|[]]; now constructor].
  rewrite !in_app_iff, !in_flat_map. intros [H|[((k & c) & I & H)|((k & f) & I & H)]]; cbn [fst snd] in *.
  - destruct (dc_token d) eqn:E1; [destruct (n_token n) eqn:E2; [destruct H|destruct H as [<-|[]]]| |destruct H].
    + eapply dev_without_token; eauto.
    + destruct (n_token n) eqn:E2; [|destruct H]. destruct H as [<-|[]]. eapply dev_with_token; eauto. congruence.
  - destruct (field_of (n_type n) k) as [f|] eqn:F.
    + destruct (child k n) as [c'|] eqn:E; [|destruct H]. apply declares_field in F. apply in_app_iff in H. destruct H as [H|H].
      * destruct (content_is (fd_kind f) c') eqn:K; [destruct H|]. destruct H as [<-|[]]. eapply dev_wrong_kind; eauto.
        destruct c', (fd_kind f); cbn in *; congruence.
      * destruct (fd_types f) as [l|] eqn:L; [|destruct H]. apply in_map_iff in H. destruct H as (x & <- & H).
        apply filter_In in H. destruct H as (Ix & M). eapply dev_odd_child; eauto. rewrite <- mem_type_In. intro Z. rewrite Z in M. discriminate.
    + destruct H as [<-|[]]. eapply dev_extra_child; eauto.
      * destruct (In_map_get_some _ _ _ I) as (v & V). unfold child. congruence.
      * intros f' F'. apply declares_field in F'. congruence.
  - unfold is_required in H. destruct (fd_presence f) eqn:P; [|destruct H|destruct H].
    destruct (child k n) eqn:E; [destruct H|]. destruct H as [<-|[]].
    eapply dev_missing_child; eauto. exists d. split; [exact D|]. split; [exact I|congruence].
Qed.

(* the nodes of a tree, down to a depth *)
Fixpoint nodes_below (depth : nat) (n : node) : list node :=
  match depth with
  | O => [n]
  | S m => n :: flat_map (fun kc => flat_map (nodes_below m) (content_nodes (snd kc))) (n_children n)
  end.
Lemma nodes_below_within m : forall n x, In x (nodes_below m n) -> within x n.
Proof.
  induction m as [|m IH]; intros n x; cbn [nodes_below]; [intros [<-|[]]; constructor|].
  intros [<-|I]; [constructor|]. apply in_flat_map in I. destruct I as ((k & c) & I & J). cbn [snd] in J.
  apply in_flat_map in J. destruct J as (y & Iy & J). apply IH in J.
  destruct c as [z|l]; cbn [content_nodes] in Iy; [destruct Iy as [->|[]]; eapply within_node; eauto|eapply within_list; eauto].
Qed.

(* the deviations found in the trees of a text *)
Definition text_deviations (U : unicode) (fuel : nat) (code : str) : list deviation :=
  match parse U fuel code with
  | Success ns => flat_map node_deviations (flat_map (nodes_below fuel) ns)
  | _ => []
  end.
Lemma text_deviations_sound U fuel code dv : In dv (text_deviations U fuel code) ->
  exists ns n x, parses U code (Success ns) /\ In n ns /\ within x n /\ deviates x dv.
Proof.
  unfold text_deviations. destruct (parse U fuel code) as [ns| | |] eqn:E; try (intros []).
  intro I. apply in_flat_map in I. destruct I as (x & I & D). apply in_flat_map in I. destruct I as (n & In' & W).
  exists ns, n, x. split; [split; [discriminate|now exists fuel]|]. split; [exact In'|]. split; [now apply nodes_below_within in W|].
  now apply node_deviations_sound.
Qed.

Definition same_deviation (a b : deviation) : bool :=
  match a, b with
  | Undeclared t, Undeclared t' => nt_same t t'
  | Without_token t, Without_token t' => nt_same t t'
  | With_token t, With_token t' => nt_same t t'
  | Extra_child t k, Extra_child t' k' => if nt_same t t' then String.eqb k k' else false
  | Wrong_kind t k, Wrong_kind t' k' => if nt_same t t' then String.eqb k k' else false
  | Missing_child t k, Missing_child t' k' => if nt_same t t' then String.eqb k k' else false
  | Odd_child t k u, Odd_child t' k' u' => if nt_same t t' then if nt_same u u' then String.eqb k k' else false else false
  | _, _ => false
  end.
Lemma same_deviation_eq a b : same_deviation a b = true -> a = b.
Proof.
  destruct a, b; cbn [same_deviation]; try discriminate;
    repeat match goal with |- context [nt_same ?x ?y] => destruct (nt_same x y) eqn:?E; [apply nt_same_eq in E; subst|discriminate] end;
    try (intro H; apply String.eqb_eq in H; now subst); reflexivity.
Qed.
Definition mem_deviation (d : deviation) (l : list deviation) : bool := any (same_deviation d) l.
Lemma mem_deviation_In d l : mem_deviation d l = true -> In d l.
Proof. unfold mem_deviation. rewrite any_In. intros (x & I & E). apply same_deviation_eq in E. now subst. Qed.

Lemma comment_conforms c : conforms (comment_node c).
Proof.
  constructor; [discriminate| | |].
  - intros d E. injection E as <-. discriminate.
  - intros k c' E. discriminate.
  - intros k f D R. rewrite declares_field in D. unfold field_of in D. cbn in D.
    repeat match type of D with context [String.eqb ?a ?b] => destruct (String.eqb a b); [discriminate D|] end. discriminate D.
Qed.
Lemma eof_conforms l : conforms (eof_node_with l).
Proof.
  constructor; [discriminate| | |].
  - intros d E. injection E as <-. reflexivity.
  - intros k c E. destruct l as [|a l]; [discriminate|]. unfold child, eof_node_with in E. cbn [n_children map_get] in E.
    destruct (String.eqb_spec k "leading_comments") as [->|]; [|discriminate]. injection E as <-.
    exists (Field Optional ManyNodes (Some types_0)). split; [apply declares_field; reflexivity|]. split; [reflexivity|].
    intros l' x E I. injection E as <-. cbn [content_nodes] in I. change (In x (map comment_node (a :: l))) in I.
    apply in_map_iff in I. destruct I as (y & <- & _). now left.
  - intros k f D R. rewrite declares_field in D. unfold field_of in D. cbn in D.
    destruct (String.eqb k "leading_comments"); [injection D as <-; discriminate R|].
    destruct (String.eqb k "trailing_comments"); discriminate D.
Qed.

(* every deviation in a tree is one that the table leaves open *)
Theorem parse_deviations U code ns n x dv : ascii_faithful U -> parses U code (Success ns) ->
  In n ns -> within x n -> deviates x dv ->
  en_ty (schema (n_type x)) = n_type x /\ In dv (entry_deviations (schema (n_type x))).
Proof.
  intros HU P I W D. destruct (parse_nodes U HU code ns P) as (bs & stmts & lst & G & T & -> & Il & H).
  assert (Cm : forall c, x = comment_node c -> en_ty (schema (n_type x)) = n_type x /\ In dv (entry_deviations (schema (n_type x)))).
  { intros c ->. exfalso. exact (proj1 (conforms_iff _) (comment_conforms c) _ D). }
  apply in_app_iff in I. destruct I as [I|[<-|[]]].
  - destruct (H n x I W) as [C|(p & k & l & b & c & _ & _ & _ & _ & _ & E & _)]; [|eauto]. split; [|exact (conf_deviates U _ _ _ C D)]. destruct C as [_ _ (S1 & _) _ _]. now symmetry.
  - destruct (within_eof _ _ W) as [->|(c & _ & E & _)]; [|eauto]. exfalso. exact (proj1 (conforms_iff _) (eof_conforms _) _ D).
Qed.
