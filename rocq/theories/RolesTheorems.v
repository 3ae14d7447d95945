(* The roles of a node hold the words they stand for: proofs of C38. *)
From Verif Require Import Chars Token Cst Core MiniRust Lexer Program Api Bundles TreeSpec ParserSpec ParserGeneric
  ParserView NodeIndex Shape ShapeSound ShapeTable TreeTheorems TypesSchema TypesSpec TypesTheorems RolesSpec RolesTexts.
Local Open Scope string_scope.
Local Open Scope list_scope.

(* ----- the tables of RolesSpec.v, computed ----- *)
Definition is_role_at (t : node_type) (k : string) (e : node_type * string * list string) : bool :=
  if nt_same (fst (fst e)) t then String.eqb (snd (fst e)) k else false.
Definition role_words (t : node_type) (k : string) : list (list string) :=
  match filter (is_role_at t k) words_of_role_at with
  | [] => map snd (filter (fun e => String.eqb (fst e) k) words_of_role)
  | l => map snd l
  end.
Lemma is_role_at_eq t k e : is_role_at t k e = true <-> e = (t, k, snd e).
Proof.
  destruct e as ((t' & k') & ws). unfold is_role_at. cbn [fst snd]. destruct (nt_same t' t) eqn:E.
  - apply nt_same_eq in E. subst. split; intro H; [apply String.eqb_eq in H; now subst|injection H as ->; apply String.eqb_refl].
  - split; [discriminate|]. intro H. injection H as -> ->. assert (nt_same t t = true) by now apply nt_same_eq. congruence.
Qed.
Lemma role_words_spec t k ws : stands_for t k ws <-> In ws (role_words t k).
Proof.
  unfold stands_for, role_words. assert (M : forall ws', In (t, k, ws') words_of_role_at <-> In (t, k, ws') (filter (is_role_at t k) words_of_role_at)).
  { intro ws'. rewrite filter_In. split; [|now intros []]. intro I. split; [exact I|]. now apply is_role_at_eq. }
  assert (N : forall e, In e (filter (is_role_at t k) words_of_role_at) -> e = (t, k, snd e)).
  { intros e I. apply filter_In in I. now apply is_role_at_eq. }
  destruct (filter (is_role_at t k) words_of_role_at) as [|e l] eqn:F.
  - split.
    + intros [I|(_ & I)]; [now apply M in I|]. apply in_map_iff. exists (k, ws). split; [reflexivity|]. apply filter_In. split; [exact I|apply String.eqb_refl].
    + intro I. right. split; [intros ws' J; now apply M in J|]. apply in_map_iff in I. destruct I as ((k' & ws') & <- & I). apply filter_In in I.
      destruct I as (I & E). cbn [fst snd] in *. apply String.eqb_eq in E. now subst.
  - split.
    + intros [I|(Z & _)]; [apply in_map_iff; exists (t, k, ws); split; [reflexivity|now apply M]|]. exfalso. apply (Z (snd e)), M.
      rewrite <- (N e); now left.
    + intro I. left. apply M. apply in_map_iff in I. destruct I as (e' & <- & I). now rewrite <- (N e').
Qed.
Definition is_unchecked (t : node_type) (k : string) : bool :=
  any (fun e => if nt_same (fst e) t then mem k (snd e) else false) unchecked_roles.
Lemma is_unchecked_spec t k : is_unchecked t k = true <-> unchecked t k.
Proof.
  unfold is_unchecked, unchecked. rewrite any_In. split.
  - intros ((t' & l) & I & E). cbn [fst snd] in E. destruct (nt_same t' t) eqn:T; [|discriminate]. apply nt_same_eq in T. subst.
    exists l. split; [exact I|now apply mem_In].
  - intros (l & I & J). exists (t, l). split; [exact I|]. cbn [fst snd]. assert (nt_same t t = true) as -> by now apply nt_same_eq. now apply mem_In.
Qed.

(* ----- every child is as its table entry says ----- *)
Theorem parse_child U code ns n x k y : ascii_faithful U -> parses U code (Success ns) -> In n ns -> within x n ->
  child k x = Some (CNode y) -> exists d, map_get k (en_may (schema (n_type x))) = Some d /\ cd_node d = true /\ node_word U (cd_words d) y.
Proof.
  intros HU P I W C. destruct (parse_nodes U HU code ns P) as (bs & stmts & lst & G & T & -> & Il & H).
  assert (Cm : forall c, x = comment_node c -> False). { intros c ->. discriminate C. }
  apply in_app_iff in I. destruct I as [I|[<-|[]]].
  - destruct (H n x I W) as [[De _ (_ & _ & _ & _ & S5) _ _]|(p & k' & l & b & c & _ & _ & _ & _ & _ & E & _)]; [|now apply Cm in E].
    destruct (comment_key k) eqn:K.
    + exfalso. unfold deco in De. destruct (comment_key_cases _ K) as [->| ->]; (destruct (n_token x); [|destruct De; congruence]);
        destruct De as (b & _ & _ & L1 & L2); rewrite C in *; unfold comment_child in *;
        [destruct (b_lead b)|destruct (b_trail b)]; discriminate.
    + destruct (S5 k _ (map_get_In _ _ _ C) K) as (d & Md & O). exists d. unfold child_ok in O. intuition.
  - destruct (within_eof _ _ W) as [->|(c & _ & E & _)]; [|now apply Cm in E].
    unfold eof_node_with, child in C. cbn [n_children] in C. destruct (b_lead lst); [discriminate|].
    cbn [map_get] in C. destruct (String.eqb k "leading_comments"); discriminate.
Qed.
Theorem parse_own U code ns n x : ascii_faithful U -> parses U code (Success ns) -> In n ns -> within x n ->
  n_type x = N_EOF \/ n_type x = N_Comment \/ node_word U (en_words (schema (n_type x))) x.
Proof.
  intros HU P I W. destruct (parse_nodes U HU code ns P) as (bs & stmts & lst & G & T & -> & Il & H).
  apply in_app_iff in I. destruct I as [I|[<-|[]]].
  - destruct (H n x I W) as [[De _ (_ & _ & S3 & _) _ _]|(p & k' & l & b & c & _ & _ & _ & _ & _ & E & _)]; [|right; left; now rewrite E]. auto.
  - destruct (within_eof _ _ W) as [->|(c & _ & E & _)]; [now left|right; left; now rewrite E].
Qed.

(* ----- the table keeps to the words of RolesSpec.v ----- *)
Lemma table_roles : all (fun t => all (fun kd => if cd_node (snd kd) then
    if is_unchecked t (fst kd) then true else
    all (fun ws => match cd_words (snd kd) with Some l => subset l ws | None => false end) (role_words t (fst kd))
    else true) (en_may (schema t))) all_node_types = true.
Proof. vm_compute. reflexivity. Qed.
Lemma table_own : all (fun e => if nt_same (fst e) N_EOF then false else if nt_same (fst e) N_Comment then false else
  match en_words (schema (fst e)) with Some l => subset l (snd e) | None => false end) own_words = true.
Proof. vm_compute. reflexivity. Qed.

Theorem roles_hold U code ns n x k y ws : ascii_faithful U -> parses U code (Success ns) -> In n ns -> within x n ->
  child k x = Some (CNode y) -> stands_for (n_type x) k ws -> ~ unchecked (n_type x) k -> holds U ws y.
Proof.
  intros HU P I W C S Un. destruct (parse_child U code ns n x k y HU P I W C) as (d & M & N & O).
  pose proof (all_In _ _ (all_In _ _ table_roles (n_type x) (all_node_types_complete _)) (k, d) (map_get_In _ _ _ M)) as A.
  cbv beta in A. cbn [fst snd] in A. rewrite N in A. rewrite <- is_unchecked_spec in Un. destruct (is_unchecked (n_type x) k); [congruence|].
  apply role_words_spec in S. pose proof (all_In _ _ A ws S) as B. cbv beta in B. destruct (cd_words d) as [l|]; [|discriminate].
  destruct O as (t & Et & w & Iw & Ew). exists t, w. split; [exact Et|]. split; [eapply subset_In; eauto|exact Ew].
Qed.
Theorem own_hold U code ns n x ws : ascii_faithful U -> parses U code (Success ns) -> In n ns -> within x n ->
  In (n_type x, ws) own_words -> holds U ws x.
Proof.
  intros HU P I W J. pose proof (all_In _ _ table_own _ J) as A. cbv beta in A. cbn [fst snd] in A.
  destruct (parse_own U code ns n x HU P I W) as [E|[E|O]].
  - rewrite E in A. discriminate.
  - rewrite E in A. discriminate.
  - destruct (nt_same (n_type x) N_EOF); [discriminate|]. destruct (nt_same (n_type x) N_Comment); [discriminate|].
    destruct (en_words (schema (n_type x))) as [l|]; [|discriminate].
    destruct O as (t & Et & w & Iw & Ew). exists t, w. split; [exact Et|]. split; [eapply subset_In; eauto|exact Ew].
Qed.

(* ----- the unchecked roles go wrong in the texts of RolesTexts.v ----- *)
Definition holds_b (ws : list string) (n : node) : bool :=
  match n_token n with None => false | Some t => any (fun w => str_eqb (upper_literal ascii_tables t) (s_ w)) ws end.
Lemma holds_b_spec ws n : holds ascii_tables ws n -> holds_b ws n = true.
Proof.
  intros (t & w & E & I & H). unfold holds_b. rewrite E. apply any_In. exists w. split; [exact I|].
  unfold upper_literal. rewrite H. apply str_eqb_refl.
Qed.
(* the unchecked roles of a node that hold none of their words, and its type if its own word is not as listed *)
Definition slips (n : node) : list (node_type * option string) :=
  let t := n_type n in
  flat_map (fun kc => match child (fst kc) n with
    | Some (CNode y) => if any (fun ws => negb (holds_b ws y)) (role_words t (fst kc)) then [(t, Some (fst kc))] else []
    | _ => [] end) (n_children n) ++
  flat_map (fun e => if nt_same (fst e) t then if holds_b (snd e) n then [] else [(t, None)] else []) unchecked_own_words.
Definition text_slips (fuel : nat) (code : string) : list (node_type * option string) :=
  match parse ascii_tables fuel (s_ code) with
  | Success ns => flat_map slips (flat_map (nodes_below fuel) ns)
  | _ => []
  end.
Definition same_slip (a b : node_type * option string) : bool :=
  if nt_same (fst a) (fst b) then match snd a, snd b with Some k, Some k' => String.eqb k k' | None, None => true | _, _ => false end else false.
Lemma same_slip_eq a b : same_slip a b = true -> a = b.
Proof.
  destruct a as (t & k), b as (t' & k'). unfold same_slip. cbn [fst snd]. destruct (nt_same t t') eqn:E; [|discriminate].
  apply nt_same_eq in E. subst. destruct k, k'; try discriminate; [|reflexivity]. intro H. apply String.eqb_eq in H. now subst.
Qed.
Definition expected_slips : list (node_type * option string) :=
  flat_map (fun e => map (fun k => (fst e, Some k)) (snd e)) unchecked_roles ++ map (fun e => (fst e, None)) unchecked_own_words.
Lemma text_slips_sound fuel code s : In s (text_slips fuel code) -> exists ns n x,
  parses ascii_tables (s_ code) (Success ns) /\ In n ns /\ within x n /\ In s (slips x).
Proof.
  unfold text_slips. destruct (parse ascii_tables fuel (s_ code)) as [ns| | |] eqn:P; try (intros []).
  intro J. apply in_flat_map in J. destruct J as (x & J & K). apply in_flat_map in J. destruct J as (n & Jn & W). apply nodes_below_within in W.
  exists ns, n, x. split; [split; [discriminate|now exists fuel]|]. auto.
Qed.
Definition seen (l seen_ : list (node_type * option string)) : bool := all (fun s => any (same_slip s) seen_) l.
Lemma texts_slips_sound fuel texts l s : seen l (flat_map (text_slips fuel) texts) = true -> In s l ->
  exists code ns n x, parses ascii_tables code (Success ns) /\ In n ns /\ within x n /\ In s (slips x).
Proof.
  intros H I. pose proof (all_In _ _ H s I) as J. cbv beta in J. apply any_In in J.
  destruct J as (s' & J & E). apply same_slip_eq in E. subst s'. apply in_flat_map in J. destruct J as (code & _ & J).
  exists (s_ code). exact (text_slips_sound _ _ _ J).
Qed.
Lemma slips_seen : seen expected_slips (flat_map (text_slips 60) loose_texts) = true.
Proof. vm_compute. reflexivity. Qed.
Lemma single_roles : all (fun e => all (fun k => match role_words (fst e) k with [_] => true | _ => false end) (snd e)) unchecked_roles = true.
Proof. vm_compute. reflexivity. Qed.
Lemma slip_seen s : In s expected_slips -> exists code ns n x,
  parses ascii_tables code (Success ns) /\ In n ns /\ within x n /\ In s (slips x).
Proof. exact (texts_slips_sound 60 loose_texts expected_slips s slips_seen). Qed.
Theorem unchecked_roles_slip t k ws : unchecked t k -> stands_for t k ws -> exists code ns n x y,
  parses ascii_tables code (Success ns) /\ In n ns /\ within x n /\ n_type x = t /\ child k x = Some (CNode y) /\ ~ holds ascii_tables ws y.
Proof.
  intros (l & I & J) S. destruct (slip_seen (t, Some k)) as (code & ns & n & x & P & In' & W & K).
  { apply in_or_app. left. apply in_flat_map. exists (t, l). split; [exact I|]. apply in_map_iff. exists k. split; [reflexivity|exact J]. }
  unfold slips in K. apply in_app_iff in K. destruct K as [K|K].
  - apply in_flat_map in K. destruct K as ((k' & c) & _ & K). cbn [fst] in K. destruct (child k' x) as [[y|yl]|] eqn:C; [|destruct K|destruct K].
    destruct (any _ (role_words (n_type x) k')) eqn:A; [|destruct K]. destruct K as [K|[]]. injection K as K1 ->. rewrite K1 in A.
    exists code, ns, n, x, y. split; [exact P|]. split; [exact In'|]. split; [exact W|]. split; [exact K1|]. split; [exact C|].
    apply any_In in A. destruct A as (ws' & A & B). apply role_words_spec in S.
    pose proof (all_In _ _ (all_In _ _ single_roles _ I) k J) as Z. cbv beta in Z. cbn [fst] in Z.
    destruct (role_words t k) as [|w0 [|]]; [discriminate| |discriminate]. destruct A as [<-|[]]. destruct S as [<-|[]].
    intro Q. apply holds_b_spec in Q. rewrite Q in B. discriminate.
  - apply in_flat_map in K. destruct K as (e & _ & K). destruct (nt_same (fst e) (n_type x)); [|destruct K].
    destruct (holds_b (snd e) x); [destruct K|]. destruct K as [K|[]]. discriminate.
Qed.
Lemma own_once : all (fun e => all (fun e' => if nt_same (fst e) (fst e') then all (fun w => mem w (snd e')) (snd e) else true) unchecked_own_words) unchecked_own_words = true.
Proof. vm_compute. reflexivity. Qed.
Theorem unchecked_own_slip t ws : In (t, ws) unchecked_own_words -> exists code ns n x,
  parses ascii_tables code (Success ns) /\ In n ns /\ within x n /\ n_type x = t /\ ~ holds ascii_tables ws x.
Proof.
  intro I. destruct (slip_seen (t, None)) as (code & ns & n & x & P & In' & W & K).
  { apply in_or_app. right. apply in_map_iff. exists (t, ws). split; [reflexivity|exact I]. }
  unfold slips in K. apply in_app_iff in K. destruct K as [K|K].
  - apply in_flat_map in K. destruct K as ((k' & c) & _ & K). cbn [fst] in K. destruct (child k' x) as [[y|yl]|] eqn:C; [|destruct K|destruct K].
    destruct (any _ (role_words (n_type x) k')) eqn:A; [|destruct K]. destruct K as [K|[]]. discriminate.
  - apply in_flat_map in K. destruct K as (e & Ie & K). destruct (nt_same (fst e) (n_type x)) eqn:T; [|destruct K].
    destruct (holds_b (snd e) x) eqn:B; [destruct K|]. destruct K as [K|[]]. injection K as K. apply nt_same_eq in T.
    exists code, ns, n, x. split; [exact P|]. split; [exact In'|]. split; [exact W|]. split; [exact K|]. intros (tk & w & Et & Iw & Ew).
    pose proof (all_In _ _ (all_In _ _ own_once _ I) _ Ie) as Z. cbv beta in Z. cbn [fst snd] in Z.
    assert (nt_same t (fst e) = true) as Y by (apply nt_same_eq; congruence). rewrite Y in Z. pose proof (all_In _ _ Z w Iw) as V. cbv beta in V.
    apply mem_In in V. assert (holds ascii_tables (snd e) x) as Q by (exists tk, w; auto). apply holds_b_spec in Q. congruence.
Qed.

(* the roles that are checked at every node, under one list of words *)
Definition checked_everywhere (ks : list string) (ws : list string) : bool :=
  all (fun k => all (fun t => if is_unchecked t k then false else
    match role_words t k with [l] => subset l ws | _ => false end) all_node_types) ks.
Lemma checked_everywhere_hold ks ws U code ns n x k y : checked_everywhere ks ws = true -> ascii_faithful U ->
  parses U code (Success ns) -> In n ns -> within x n -> In k ks -> child k x = Some (CNode y) -> holds U ws y.
Proof.
  intros H HU P I W K C. pose proof (all_In _ _ (all_In _ _ H k K) (n_type x) (all_node_types_complete _)) as A. cbv beta in A.
  destruct (is_unchecked (n_type x) k) eqn:Un; [discriminate|].
  destruct (role_words (n_type x) k) as [|l [|]] eqn:R; [discriminate| |discriminate].
  assert (S : stands_for (n_type x) k l) by (apply role_words_spec; rewrite R; now left).
  assert (Un' : ~ unchecked (n_type x) k) by (rewrite <- is_unchecked_spec; congruence).
  destruct (roles_hold U code ns n x k y l HU P I W C S Un') as (t & w & Et & Iw & Ew).
  exists t, w. split; [exact Et|]. split; [eapply subset_In; eauto|exact Ew].
Qed.
