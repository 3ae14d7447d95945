(* The deviations listed in TypesDeviations.v: all others are excluded, and these occur. *)
From Verif Require Import Chars Token Cst Core MiniRust Lexer Program Api TreeSpec ParserSpec ParserGeneric
  NodeIndex Shape ShapeSound ShapeTable TypesSchema TypesSpec TypesDeviations TypesTheorems.
Local Open Scope string_scope.
Local Open Scope list_scope.

(* the lists of TypesDeviations.v as deviations *)
Definition known_deviations : list deviation :=
  map Undeclared undeclared_types ++ map Without_token tokenless_types ++
  flat_map (fun tl => map (Extra_child (fst tl)) (snd tl)) extra_children ++
  flat_map (fun tl => map (Missing_child (fst tl)) (snd tl)) missing_children ++
  flat_map (fun tl => flat_map (fun tk => map (Odd_child (fst tk) (snd tk)) (snd tl)) (fst tl)) odd_children.
Definition disguised_deviations : list deviation :=
  flat_map (fun tl => flat_map (fun tk => map (Odd_child (fst tk) (snd tk)) (snd tl)) (fst tl)) disguised_odd_children.

Lemma table_deviations : all (fun t => if nt_same (en_ty (schema t)) t then
  all (fun d => mem_deviation d (known_deviations ++ disguised_deviations)) (entry_deviations (schema t)) else true) all_node_types = true.
Proof. vm_compute. reflexivity. Qed.
Lemma deviations_known U code ns n x d : ascii_faithful U -> parses U code (Success ns) ->
  In n ns -> within x n -> deviates x d -> In d (known_deviations ++ disguised_deviations).
Proof.
  intros HU P I W D. destruct (parse_deviations U code ns n x d HU P I W D) as (E & J).
  pose proof (all_In _ _ table_deviations (n_type x) (all_node_types_complete _)) as C. cbv beta in C.
  apply nt_same_eq in E. rewrite E in C. apply mem_deviation_In. exact (all_In _ _ C d J).
Qed.

Definition witness_texts : list string :=
  flat_map (fun e => map (fun a => "select struct(" ++ e ++ " as " ++ a ++ ")")%string sample_exprs) sample_exprs ++ sample_texts.
Definition covers (ds l : list deviation) : bool := all (fun d => mem_deviation d l) ds.
Lemma covers_In ds l d : covers ds l = true -> In d ds -> In d l.
Proof. intros H I. apply mem_deviation_In. exact (all_In _ _ H d I). Qed.
Lemma texts_deviations_sound U texts fuel d : In d (flat_map (text_deviations U fuel) texts) ->
  exists code ns n x, parses U code (Success ns) /\ In n ns /\ within x n /\ deviates x d.
Proof.
  intro M. apply in_flat_map in M. destruct M as (code & _ & J).
  destruct (text_deviations_sound _ _ _ _ J) as (ns & n & x & H). exists code, ns, n, x. exact H.
Qed.
Lemma witnessed : covers known_deviations (flat_map (text_deviations ascii_tables 60) (map s_ witness_texts)) = true.
Proof. vm_compute. reflexivity. Qed.
(* tables that agree with Unicode on ASCII, but in which the upper case of U+00AB is a bracket and
   that of U+2039 a dot; ascii_faithful does not exclude them *)
Definition disguising_tables : unicode :=
  {| u_alphabetic := is_letter_ascii;
     u_upper := fun c => if N.eqb c 171 then s_ "(" else if N.eqb c 8249 then s_ "." else [upper_ascii c] |}.
Lemma disguising_faithful : ascii_faithful disguising_tables.
Proof.
  split; [reflexivity|]. intros c H. unfold is_ascii in H. apply N.ltb_lt in H. cbn [u_upper disguising_tables].
  destruct (N.eqb_spec c 171); [lia|]. destruct (N.eqb_spec c 8249); [lia|reflexivity].
Qed.
Definition disguised_texts : list str :=
  [s_ "SELECT = " ++ [171%N] ++ s_ "1)"; s_ "SELECT = " ++ [8249%N] ++ s_ " a"; s_ "SELECT 1 FROM UNNEST " ++ [171%N] ++ s_ "1)"].
Lemma disguised_witnessed : covers disguised_deviations (flat_map (text_deviations disguising_tables 60) disguised_texts) = true.
Proof. vm_compute. reflexivity. Qed.

Lemma in_keys {C : node_type -> string -> deviation} (HC : forall t k t' k', C t k = C t' k' -> t = t' /\ k = k') l t k :
  In (C t k) (flat_map (fun tl => map (C (fst tl)) (snd tl)) l) <-> listed l t k.
Proof.
  rewrite in_flat_map. unfold listed. split.
  - intros ((t' & ks) & I & J). apply in_map_iff in J. destruct J as (k' & E & J). apply HC in E. destruct E as [<- <-]. now exists ks.
  - intros (ks & I & J). exists (t, ks). split; [exact I|]. apply in_map_iff. now exists k.
Qed.
Lemma in_odds l t k u :
  In (Odd_child t k u) (flat_map (fun tl => flat_map (fun tk => map (Odd_child (fst tk) (snd tk)) (snd tl)) (fst tl)) l) <-> listed_odd l t k u.
Proof.
  rewrite in_flat_map. unfold listed_odd. split.
  - intros ((tks & us) & I & J). apply in_flat_map in J. destruct J as ((t' & k') & J & K). apply in_map_iff in K.
    destruct K as (u' & E & K). injection E as <- <- <-. exists tks, us. auto.
  - intros (tks & us & I & J & K). exists (tks, us). split; [exact I|]. apply in_flat_map. exists (t, k). split; [exact J|].
    apply in_map_iff. now exists u.
Qed.
Lemma not_in_map {A} (C : A -> deviation) l d : (forall a, C a <> d) -> ~ In d (map C l).
Proof. intros H I. apply in_map_iff in I. destruct I as (a & E & _). exact (H a E). Qed.
Lemma not_in_keys (C : node_type -> string -> deviation) l d : (forall t k, C t k <> d) -> ~ In d (flat_map (fun tl => map (C (fst tl)) (snd tl)) l).
Proof. intros H I. apply in_flat_map in I. destruct I as (x & _ & I). apply in_map_iff in I. destruct I as (a & E & _). exact (H _ _ E). Qed.
Lemma not_in_odds l d : (forall t k u, Odd_child t k u <> d) ->
  ~ In d (flat_map (fun tl => flat_map (fun tk => map (Odd_child (fst tk) (snd tk)) (snd tl)) (fst tl)) l).
Proof.
  intros H I. apply in_flat_map in I. destruct I as (x & _ & I). apply in_flat_map in I. destruct I as (y & _ & I).
  apply in_map_iff in I. destruct I as (a & E & _). exact (H _ _ _ E).
Qed.
Ltac pick :=
  repeat match goal with
  | H : In _ (_ ++ _) |- _ => apply in_app_or in H; destruct H as [H|H]
  | H : In _ (map _ _) |- _ => exfalso; revert H; apply not_in_map; discriminate
  | H : In ?d (flat_map (fun tl => map (?C (fst tl)) (snd tl)) _) |- _ => exfalso; revert H; apply not_in_keys; discriminate
  | H : In ?d (flat_map (fun tl => flat_map _ _) _) |- _ => exfalso; revert H; apply not_in_odds; discriminate
  end.
Lemma known_extra t k : In (Extra_child t k) (known_deviations ++ disguised_deviations) -> listed extra_children t k.
Proof.
  unfold known_deviations, disguised_deviations. intro H. apply in_app_or in H. destruct H as [H|H]; [|pick].
  do 2 (apply in_app_or in H; destruct H as [H|H]; [pick|]). apply in_app_or in H. destruct H as [H|H]; [|pick].
  apply (in_keys (C := Extra_child)) in H; [exact H|]. intros ? ? ? ? E. injection E; auto.
Qed.
Lemma known_missing t k : In (Missing_child t k) (known_deviations ++ disguised_deviations) <-> listed missing_children t k.
Proof.
  unfold known_deviations, disguised_deviations. rewrite <- (in_keys (C := Missing_child)); [|intros ? ? ? ? E; injection E; auto].
  split; [|rewrite !in_app_iff; tauto]. intro H. apply in_app_or in H. destruct H as [H|H]; [|pick].
  do 3 (apply in_app_or in H; destruct H as [H|H]; [pick|]). apply in_app_or in H. destruct H as [H|H]; [exact H|pick].
Qed.
Lemma known_odd t k u : In (Odd_child t k u) (known_deviations ++ disguised_deviations) -> listed_odd odd_children t k u \/ listed_odd disguised_odd_children t k u.
Proof.
  unfold known_deviations, disguised_deviations. rewrite <- !in_odds. intro H. apply in_app_or in H. destruct H as [H|H]; [left|right].
  - do 4 (apply in_app_or in H; destruct H as [H|H]; [pick|]). exact H.
  - exact H.
Qed.
Lemma known_token t : In (Without_token t) (known_deviations ++ disguised_deviations) -> In t tokenless_types.
Proof.
  unfold known_deviations, disguised_deviations. intro H. apply in_app_or in H. destruct H as [H|H]; [|pick].
  apply in_app_or in H; destruct H as [H|H]; [pick|]. apply in_app_or in H; destruct H as [H|H]; [|pick].
  apply in_map_iff in H. destruct H as (a & E & H). injection E as <-. exact H.
Qed.
Lemma known_undeclared t : In (Undeclared t) (known_deviations ++ disguised_deviations) -> In t undeclared_types.
Proof.
  unfold known_deviations, disguised_deviations. intro H. apply in_app_or in H. destruct H as [H|H]; [|pick].
  apply in_app_or in H; destruct H as [H|H]; [|pick]. apply in_map_iff in H. destruct H as (a & E & H). injection E as <-. exact H.
Qed.
Lemma known_kind t k : ~ In (Wrong_kind t k) (known_deviations ++ disguised_deviations).
Proof. unfold known_deviations, disguised_deviations. intro H. pick. Qed.
Lemma known_with_token t : ~ In (With_token t) (known_deviations ++ disguised_deviations).
Proof. unfold known_deviations, disguised_deviations. intro H. pick. Qed.

Lemma node_children U code ns n x k c : ascii_faithful U -> parses U code (Success ns) -> In n ns -> within x n ->
  child k x = Some c ->
  (exists f, declares x k f /\ content_kind c = fd_kind f /\
     forall l y, fd_types f = Some l -> In y (content_nodes c) ->
       In (n_type y) l \/ listed_odd odd_children (n_type x) k (n_type y) \/ listed_odd disguised_odd_children (n_type x) k (n_type y)) \/
  listed extra_children (n_type x) k \/ In (n_type x) undeclared_types.
Proof.
  intros HU P I W E. pose proof (fun d => deviations_known U code ns n x d HU P I W) as K.
  destruct (declared (n_type x)) as [d|] eqn:D; [|right; right; apply known_undeclared, K; now constructor].
  destruct (field_of (n_type x) k) as [f|] eqn:F.
  - apply declares_field in F. left. exists f. split; [exact F|]. split.
    + destruct (content_kind c) eqn:K1, (fd_kind f) eqn:K2; try reflexivity; exfalso; apply (known_kind (n_type x) k); apply K;
        eapply dev_wrong_kind; eauto; congruence.
    + intros l y L J. destruct (mem_type (n_type y) l) eqn:M; [left; now apply mem_type_In|]. right. apply known_odd, K.
      eapply dev_odd_child; eauto. rewrite <- mem_type_In. congruence.
  - right. left. apply known_extra, K. eapply dev_extra_child; eauto; [congruence|]. intros f' F'. apply declares_field in F'. congruence.
Qed.
Lemma node_types_and_tokens U code ns n x : ascii_faithful U -> parses U code (Success ns) -> In n ns -> within x n ->
  match declared (n_type x) with
  | None => In (n_type x) undeclared_types
  | Some d =>
      match dc_token d with
      | TokenRequired => n_token x <> None \/ In (n_type x) tokenless_types
      | TokenNull => n_token x = None
      | TokenOrNull => True
      end
  end.
Proof.
  intros HU P I W. pose proof (fun d => deviations_known U code ns n x d HU P I W) as K.
  destruct (declared (n_type x)) as [d|] eqn:D; [|apply known_undeclared, K; now constructor].
  destruct (dc_token d) eqn:Ed; [| |exact Logic.I].
  - destruct (n_token x) eqn:En; [left; discriminate|]. right. apply known_token, K. eapply dev_without_token; eauto.
  - destruct (n_token x) eqn:En; [|reflexivity]. exfalso. apply (known_with_token (n_type x)), K. eapply dev_with_token; eauto. congruence.
Qed.
Lemma node_required U code ns n x k f : ascii_faithful U -> parses U code (Success ns) -> In n ns -> within x n ->
  declares x k f -> fd_presence f = Required ->
  child k x <> None \/ listed missing_children (n_type x) k.
Proof.
  intros HU P I W D R. destruct (child k x) eqn:E; [left; discriminate|]. right. apply known_missing.
  apply (deviations_known U code ns n x _ HU P I W). eapply dev_missing_child; eauto.
Qed.
(* a node none of whose listed children are concerned conforms to its declaration *)
Lemma node_conforms U code ns n x : ascii_faithful U -> parses U code (Success ns) -> In n ns -> within x n ->
  ~ In (n_type x) (undeclared_types ++ tokenless_types ++ map fst extra_children ++ map fst missing_children ++
      map fst (flat_map fst (odd_children ++ disguised_odd_children))) ->
  conforms x.
Proof.
  intros HU P I W N. apply conforms_iff. intros d D. apply N. clear N. rewrite !in_app_iff.
  pose proof (deviations_known U code ns n x d HU P I W D) as K.
  assert (Kk : forall l t k, listed l t k -> In t (map fst l)).
  { intros l t k (ks & J & _). apply in_map_iff. now exists (t, ks). }
  assert (Ko : forall l l' t k u, incl l l' -> listed_odd l t k u -> In t (map fst (flat_map fst l'))).
  { intros l l' t k u Il (tks & us & J & J' & _). apply in_map_iff. exists (t, k). split; [reflexivity|]. apply in_flat_map. exists (tks, us). auto. }
  assert (I1 : incl odd_children (odd_children ++ disguised_odd_children)) by (intros ? ?; apply in_or_app; now left).
  assert (I2 : incl disguised_odd_children (odd_children ++ disguised_odd_children)) by (intros ? ?; apply in_or_app; now right).
  destruct D as [E1|d' E1 E2 E3|d' E1 E2 E3|d' k' E1 E2 E3|k' f c' E1 E2 E3|k' f c' l y E1 E2 E3 E4 E5|k' f E1 E2 E3].
  - apply known_undeclared in K. tauto.
  - apply known_token in K. tauto.
  - now apply known_with_token in K.
  - apply known_extra in K. apply Kk in K. tauto.
  - now apply known_kind in K.
  - apply known_odd in K. destruct K as [K|K]; [apply (Ko _ _ _ _ _ I1) in K|apply (Ko _ _ _ _ _ I2) in K]; tauto.
  - apply known_missing in K. apply Kk in K. tauto.
Qed.
(* the listed deviations do occur *)
Lemma known_deviations_occur d : In d known_deviations ->
  exists code ns n x, parses ascii_tables code (Success ns) /\ In n ns /\ within x n /\ deviates x d.
Proof. intro I. exact (texts_deviations_sound _ _ _ _ (covers_In _ _ _ witnessed I)). Qed.
(* in particular *)
Lemma extra_children_occur t k : listed extra_children t k ->
  exists code ns n x, parses ascii_tables code (Success ns) /\ In n ns /\ within x n /\ deviates x (Extra_child t k).
Proof.
  intro L. apply known_deviations_occur. unfold known_deviations. rewrite !in_app_iff. right. right. left.
  apply (in_keys (C := Extra_child)); [intros ? ? ? ? E; injection E; auto|exact L].
Qed.
Lemma missing_children_occur t k : listed missing_children t k ->
  exists code ns n x, parses ascii_tables code (Success ns) /\ In n ns /\ within x n /\ deviates x (Missing_child t k).
Proof.
  intro L. apply known_deviations_occur. unfold known_deviations. rewrite !in_app_iff. right. right. right. left.
  apply (in_keys (C := Missing_child)); [intros ? ? ? ? E; injection E; auto|exact L].
Qed.
Lemma odd_children_occur t k u : listed_odd odd_children t k u ->
  exists code ns n x, parses ascii_tables code (Success ns) /\ In n ns /\ within x n /\ deviates x (Odd_child t k u).
Proof.
  intro L. apply known_deviations_occur. unfold known_deviations. rewrite !in_app_iff. right. right. right. right.
  apply in_odds. exact L.
Qed.
Lemma disguised_children_occur t k u : listed_odd disguised_odd_children t k u ->
  exists code ns n x, parses disguising_tables code (Success ns) /\ In n ns /\ within x n /\ deviates x (Odd_child t k u).
Proof.
  intro L. apply (in_odds disguised_odd_children) in L. exact (texts_deviations_sound _ _ _ _ (covers_In _ _ _ disguised_witnessed L)).
Qed.
Lemma undeclared_types_occur t : In t undeclared_types ->
  exists code ns n x, parses ascii_tables code (Success ns) /\ In n ns /\ within x n /\ deviates x (Undeclared t).
Proof. intro L. apply known_deviations_occur. unfold known_deviations. rewrite !in_app_iff. left. now apply in_map. Qed.
Lemma tokenless_types_occur t : In t tokenless_types ->
  exists code ns n x, parses ascii_tables code (Success ns) /\ In n ns /\ within x n /\ deviates x (Without_token t).
Proof. intro L. apply known_deviations_occur. unfold known_deviations. rewrite !in_app_iff. right. left. now apply in_map. Qed.
Lemma disjoint_types l l' : all (fun t => negb (mem_type t l')) l = true -> forall t, In t l -> ~ In t l'.
Proof. intros H t I J. pose proof (all_In _ _ H t I) as N. cbv beta in N. apply mem_type_In in J. rewrite J in N. discriminate. Qed.
