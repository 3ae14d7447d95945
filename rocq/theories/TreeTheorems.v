(* Theorems about the trees of a successful parse: which tokens they hold, which comments
   their nodes carry, how the statements divide the source. *)
From Verif Require Import Chars Token Cst Core MiniRust Lexer Program Api Bundles ParserView ParserGeneric TreeSpec
  LexSpec LexGrammar LexTheorems LexProps AbsInt NodeIndex Shape ShapeSound ShapeTable ShapeCheck ShapeParse ParserInvariance ParserTotal.
From Coq Require Import Permutation Sorted.
Local Open Scope string_scope.
Local Open Scope list_scope.
Local Notation length := List.length.
Local Notation concat := List.concat.

Section WithUnicode.
Context (U : unicode) (HU : ascii_faithful U).
Local Notation reads := (TreeSpec.reads U).
Local Notation replaced := (TreeSpec.replaced U).
Local Notation made_from := (TreeSpec.made_from U).
Local Notation occurrences := (TreeSpec.occurrences U).

(* ---------- from the shape checker ---------- *)
Lemma masks_In l t : has_type (masks l) t = true -> In t l.
Proof.
  unfold masks. assert (G : forall l m, has_type (fold_left (fun m t => N.lor m (type_mask t)) l m) t = true -> has_type m t = true \/ In t l).
  { clear. induction l as [|x l IH]; intros m; cbn [fold_left]; [auto|]. intro H. apply IH in H as [H|H]; [|right; now right].
    rewrite has_type_lor in H. apply orb_true_iff in H as [H|H]; [now left|]. right. left.
    unfold has_type, type_mask in H. apply nt_same_eq. unfold nt_same. rewrite N.shiftl_1_l, N.pow2_bits_eqb in H. exact H. }
  intro H. apply G in H as [H|H]; [|exact H]. unfold has_type in H. rewrite N.bits_0 in H. discriminate.
Qed.
Lemma node_word_reads l n : node_word U (Some l) n -> reads l n.
Proof. intros (t & E & w & I & H). exists t, w. auto. Qed.

Definition to_replacement (x : lost) : replacement := Replacement (lo_parent x) (lo_key x) (lo_node x) (lo_new x).
Lemma lost_replaced BS K x : lost_ok U BS schema rules K x -> replaced (to_replacement x).
Proof.
  intros [(r & Ir & Hp & Hk & (_ & T1 & W1) & (_ & T2 & W2)) _]. unfold to_replacement. rewrite Hk.
  apply node_word_reads in W1, W2.
  destruct Ir as [<-|[<-|[]]]; cbn [ru_parent ru_key ru_types ru_words] in *; apply masks_In in Hp, T1, T2.
  - destruct Hp as [<-|[]]. now apply replaced_enforced.
  - destruct T1 as [T1|[]], T2 as [T2|[]]. apply replaced_semicolon; auto.
Qed.
Lemma lost_weight_trees w L : lost_weight w L = weight w (trees_tokens (map old_child (map to_replacement L))).
Proof.
  unfold lost_weight. induction L as [|x L IH]; [reflexivity|]. cbn [map list_sum fold_right trees_tokens flat_map to_replacement old_child].
  rewrite weight_app. unfold list_sum in IH. rewrite IH. reflexivity.
Qed.
Lemma made_of_from bs n sl : made_of U bs n sl -> made_from n (flats sl).
Proof.
  intros (_ & _ & _ & L & HL & W). exists (map to_replacement L). split.
  - apply Forall_map. eapply Forall_impl; [|exact HL]. intros x. apply lost_replaced.
  - apply weight_permutation. intro w. rewrite weight_app, <- lost_weight_trees. apply W.
Qed.
Lemma statement_types_list t : has_type statement_types t = true -> In t statement_node_types.
Proof. destruct t; vm_compute; intro H; try discriminate H; tauto. Qed.

Lemma grouped_last_trail a lst : grouped (a ++ [lst]) -> b_trail lst = [] /\ Forall (fun c => is_comment c = true) (b_lead lst).
Proof.
  induction a as [|b a IH]; cbn [app]; intro G.
  - inversion G; subst. cbn. auto.
  - apply IH. inversion G; subst; [destruct a; discriminate|]. congruence.
Qed.
Lemma comment_nodes_tokens l : trees_tokens (map comment_node l) = l.
Proof. induction l as [|c l IH]; [reflexivity|]. cbn [map trees_tokens flat_map]. unfold trees_tokens in IH. now rewrite IH. Qed.
Lemma eof_tokens l : tree_tokens (eof_node_with l) = l.
Proof.
  unfold eof_node_with. rewrite tree_tokens_eq. destruct l as [|c l]; [reflexivity|]. cbn [own_token n_token n_children app].
  unfold children_tokens. cbn [flat_map snd content_tokens]. rewrite app_nil_r. apply comment_nodes_tokens.
Qed.

(* ---------- the theorems ---------- *)
Lemma decorate_eof lst : b_trail lst = [] -> decorate lst (node_empty N_EOF) = eof_node_with (b_lead lst).
Proof. intro E. unfold decorate. rewrite E. now destruct (b_lead lst). Qed.

Theorem parse_structure code ns : parses U code (Success ns) ->
  exists stmts slices lst bs, grouped bs /\ bs = concat slices ++ [lst] /\ b_tok lst = eof_token /\ b_trail lst = [] /\
    tokenize U code = Success (flats bs) /\
    ns = stmts ++ [eof_node_with (b_lead lst)] /\ Forall2 (made_of U bs) stmts slices.
Proof.
  intros [_ [fuel P]]. unfold parse in P. destruct (tokenize U code) as [ts|e| |] eqn:T; try discriminate.
  destruct (tokenize_ends U ts code T) as (ts0 & ->).
  destruct (grouped_exists ts0 eof_token eq_refl) as (bs & G & F).
  destruct (parse_tokens_made U HU fuel ts0 eof_token bs ns eq_refl G F P) as (stmts & slices & lst & En & Eb & M).
  exists stmts, slices, lst, bs. assert (Tr : b_trail lst = []) by (rewrite Eb in G; now apply grouped_last_trail in G).
  rewrite (decorate_eof _ Tr) in En.
  refine (conj G (conj Eb (conj _ (conj Tr (conj _ (conj En M)))))); [|now rewrite F].
  rewrite Eb in F. unfold flats in F. rewrite map_app, concat_app in F. cbn [map concat] in F. unfold flat at 2 in F.
  rewrite Tr, app_nil_r, app_assoc in F. now apply app_inj_tail in F.
Qed.

(* the statements, each with its slice of the source *)
Theorem parse_slices code ns : parses U code (Success ns) ->
  exists stmts slices tail,
    ns = stmts ++ [eof_node_with tail] /\ tokenize U code = Success (concat slices ++ tail ++ [eof_token]) /\
    Forall2 (fun n sl => In (n_type n) statement_node_types /\ sl <> [] /\ made_from n sl) stmts slices /\
    comments tail.
Proof.
  intro P. destruct (parse_structure _ _ P) as (stmts & slices & lst & bs & G & Eb & Et & Tr & T & En & M).
  exists stmts, (map flats slices), (b_lead lst).
  split; [exact En|]. split.
  { rewrite T, Eb. f_equal. unfold flats at 1. rewrite map_app, concat_app. cbn [map concat]. unfold flat at 2. rewrite Tr, Et, app_nil_r. f_equal.
    clear. induction slices as [|s l IH]; [reflexivity|]. cbn [concat map]. rewrite map_app, concat_app, IH. reflexivity. }
  split.
  { clear - M. induction M as [|n sl ns slices H M IH]; constructor; [|exact IH].
    split; [apply statement_types_list; apply H|]. split; [|eapply made_of_from; eauto].
    destruct H as (H & _). destruct sl as [|b sl]; [contradiction|]. rewrite flats_cons. unfold flat. destruct (b_lead b); discriminate. }
  rewrite Eb in G. now apply grouped_last_trail in G as [_ C].
Qed.

Theorem parse_result_shape code ns : parses U code (Success ns) ->
  exists stmts tail, ns = stmts ++ [eof_node_with tail] /\
    Forall (fun n => In (n_type n) statement_node_types) stmts /\ ~ In N_EOF statement_node_types.
Proof.
  intro P. destruct (parse_slices _ _ P) as (stmts & slices & tail & E & _ & M & _). exists stmts, tail. split; [exact E|]. split.
  - clear - M. induction M as [|n sl ns slices H M IH]; constructor; [apply H|exact IH].
  - cbn. intuition discriminate.
Qed.

Lemma parse_accounts code ns : parses U code (Success ns) ->
  exists ts L, tokenize U code = Success (ts ++ [eof_token]) /\ Forall replaced L /\
    Permutation (trees_tokens ns ++ trees_tokens (map old_child L)) ts /\
    (forall r w, In r L -> weight w (tree_tokens (old_child r)) + weight w (tree_tokens (new_child r)) <= weight w (ts ++ [eof_token])).
Proof.
  intro P. destruct (parse_structure _ _ P) as (stmts & slices & lst & bs & G & Eb & Et & Tr & T & En & M).
  assert (Fb : flats bs = (flats (concat slices) ++ b_lead lst) ++ [eof_token]).
  { rewrite Eb. unfold flats. rewrite map_app, concat_app. cbn [map concat]. unfold flat at 2. now rewrite Tr, Et, app_nil_r, app_assoc. }
  assert (H : exists L, Forall (lost_ok U bs schema rules (fun w => weight w (flats bs))) L /\
    forall w, weight w (trees_tokens stmts) + lost_weight w L = weight w (flats (concat slices))).
  { clear - M. induction M as [|n sl stmts slices (_ & _ & _ & L1 & HL1 & W1) M (L2 & HL2 & W2)]; [exists []; split; [constructor|reflexivity]|].
    exists (L1 ++ L2). split; [now apply Forall_app|]. intro w. specialize (W1 w). specialize (W2 w).
    rewrite lost_weight_app. cbn [trees_tokens flat_map concat]. unfold flats in *. rewrite map_app, concat_app, !weight_app.
    unfold trees_tokens in W2. lia. }
  destruct H as (L & HL & W). exists (flats (concat slices) ++ b_lead lst), (map to_replacement L).
  split; [now rewrite <- Fb|]. split.
  { apply Forall_map. eapply Forall_impl; [|exact HL]. intros x. apply lost_replaced. }
  split.
  - apply weight_permutation. intro w. rewrite weight_app, <- lost_weight_trees, En, trees_tokens_app, !weight_app.
    cbn [trees_tokens flat_map]. rewrite app_nil_r, eof_tokens. specialize (W w). unfold trees_tokens in W. unfold trees_tokens. lia.
  - rewrite <- Fb. intros r w I. apply in_map_iff in I as (x & <- & I). rewrite Forall_forall in HL. apply HL in I as [_ B]. apply B.
Qed.

Lemma sorted_nodup ts : StronglySorted (fun t u => pos_lt (at_ t) (at_ u)) ts -> NoDup ts.
Proof.
  induction 1 as [|t ts S IH F]; constructor; [|exact IH]. intro I. rewrite Forall_forall in F. apply F in I. unfold pos_lt in I. lia.
Qed.
Theorem parse_no_duplicates code ns : parses U code (Success ns) ->
  exists ts, tokenize U code = Success (ts ++ [eof_token]) /\ NoDup (trees_tokens ns) /\
    incl (trees_tokens ns) ts /\ ~ In eof_token (trees_tokens ns).
Proof.
  intro P. destruct (parse_accounts _ _ P) as (ts & L & T & _ & Pm & _). exists ts. split; [exact T|].
  destruct (tokenize_sorted _ _ _ T) as (ts0 & E & S). apply app_inj_tail in E as [<- _]. apply sorted_nodup in S.
  assert (I : incl (trees_tokens ns) ts) by (intros t I; eapply Permutation_in; [exact Pm|]; rewrite in_app_iff; now left).
  split; [|split; [exact I|]].
  - apply Permutation_sym in Pm. apply (Permutation_NoDup Pm) in S. clear - S.
    remember (trees_tokens (map old_child L)) as r. clear - S. induction (trees_tokens ns) as [|t l IH]; [constructor|].
    cbn [app] in S. inversion S as [|? ? N S']; subst. constructor; [|auto]. intro I. apply N. rewrite in_app_iff. now left.
  - intro J. apply I in J. pose proof (tokenize_visible _ _ _ T) as V. rewrite Forall_forall in V. destruct (V _ J) as (c & l & E & _). discriminate.
Qed.

Theorem parse_tokens_kept code ns : parses U code (Success ns) ->
  exists ts L, tokenize U code = Success (ts ++ [eof_token]) /\ Forall replaced L /\
    Permutation (trees_tokens ns ++ trees_tokens (map old_child L)) ts.
Proof. intro P. destruct (parse_accounts _ _ P) as (ts & L & T & R & Pm & _). eauto. Qed.

Lemma occurrences_weight words ts : occurrences words ts =
  weight (fun t => if existsb (fun w => str_eqb (upper_literal U t) (s_ w)) words then 1 else 0) ts.
Proof.
  unfold TreeSpec.occurrences. induction ts as [|t ts IH]; [reflexivity|]. rewrite weight_cons. cbn [filter].
  destruct (existsb _ words); cbn [length]; rewrite IH; reflexivity.
Qed.
Lemma reads_occurs words n : reads words n -> 1 <= occurrences words (tree_tokens n).
Proof.
  intros (t & w & E & I & H). rewrite occurrences_weight, tree_tokens_eq, weight_app. unfold own_token. rewrite E.
  cbn [app]. rewrite weight_cons. replace (existsb _ words) with true; [lia|]. symmetry. apply existsb_exists. exists w.
  split; [exact I|]. now apply str_eqb_eq.
Qed.
Theorem parse_keeps_all code ns ts : parses U code (Success ns) -> tokenize U code = Success (ts ++ [eof_token]) ->
  occurrences [";"] ts <= 1 -> occurrences ["NOT"; "ENFORCED"] ts <= 1 ->
  Permutation (trees_tokens ns) ts.
Proof.
  intros P T Hs He. destruct (parse_accounts _ _ P) as (ts' & L & T' & R & Pm & B). rewrite T in T'. injection T' as T'. apply app_inj_tail in T' as [<- _].
  destruct L as [|r L]; [cbn in Pm; now rewrite app_nil_r in Pm|]. exfalso.
  assert (A : forall words, reads words (old_child r) -> reads words (new_child r) -> ~ In "" words -> occurrences words ts <= 1 -> False).
  { intros words Ro Rn Ne Le. apply reads_occurs in Ro, Rn.
    specialize (B r (fun t => if existsb (fun w => str_eqb (upper_literal U t) (s_ w)) words then 1 else 0) (or_introl eq_refl)).
    rewrite <- !occurrences_weight in B. unfold TreeSpec.occurrences at 3 in B. rewrite filter_app, app_length in B. cbn [filter] in B.
    replace (existsb _ words) with false in B; [|symmetry].
    - cbn [length] in B. fold (TreeSpec.occurrences U words ts) in B. lia.
    - destruct (existsb _ words) eqn:E; [|reflexivity]. apply existsb_exists in E as (w & I & E). apply str_eqb_eq in E.
      cbn in E. destruct w; [contradiction|discriminate]. }
  inversion R as [|? ? Rr _]; subst. destruct Rr; cbn [old_child new_child] in A.
  - eapply A; [exact H0|exact H2| |exact He]. cbn. intuition discriminate.
  - eapply A; [exact H1|exact H3| |exact Hs]. cbn. intuition discriminate.
Qed.

(* ---------- nodes of the tree ---------- *)
Lemma comment_key_cases k : comment_key k = true -> k = "leading_comments" \/ k = "trailing_comments".
Proof. unfold comment_key. intro Ck. destruct (String.eqb_spec k "leading_comments"); [now left|]. right. now apply String.eqb_eq. Qed.
Lemma deco_comments BS n k l x : deco BS n -> In (k, CVec l) (n_children n) -> NoDup (map fst (n_children n)) ->
  comment_key k = true -> In x l -> exists b c, In b BS /\ x = comment_node c /\ (In c (b_lead b) \/ In c (b_trail b)).
Proof.
  intros D I N Ck J. apply In_map_get in I; [|exact N]. fold (child k n) in I.
  pose proof (comment_key_cases _ Ck) as K.
  unfold deco in D. destruct (n_token n) as [t|].
  - destruct D as (b & Ib & _ & H1 & H2). exists b.
    assert (G : forall m, comment_child m = Some (CVec l) -> exists c, x = comment_node c /\ In c m).
    { intros m E. unfold comment_child in E. destruct m as [|c0 m]; [discriminate|]. injection E as <-.
      change (In x (map comment_node (c0 :: m))) in J. apply in_map_iff in J as (c & <- & Ic). exists c. auto. }
    destruct K as [-> | ->].
    + rewrite H1 in I. apply G in I as (c & -> & Ic). exists c. auto.
    + rewrite H2 in I. apply G in I as (c & -> & Ic). exists c. auto.
  - destruct D as [H1 H2]. destruct K as [-> | ->]; congruence.
Qed.
Lemma deco_no_node BS n k x : deco BS n -> In (k, CNode x) (n_children n) -> NoDup (map fst (n_children n)) -> comment_key k = true -> False.
Proof.
  intros D I N Ck. apply In_map_get in I; [|exact N]. fold (child k n) in I.
  pose proof (comment_key_cases _ Ck) as K.
  unfold deco in D. destruct (n_token n) as [t|].
  - destruct D as (b & Ib & _ & H1 & H2). unfold comment_child in *. destruct K as [-> | ->]; destruct (b_lead b), (b_trail b); congruence.
  - destruct D as [H1 H2]. destruct K as [-> | ->]; congruence.
Qed.
Lemma within_comment x c : within x (comment_node c) -> x = comment_node c.
Proof. intro W. inversion W as [|? ? ? I|? ? ? ? I]; subst; [reflexivity|destruct I|destruct I]. Qed.
Lemma conf_within BS x n : within x n -> conf U BS schema n ->
  conf U BS schema x \/ exists p k l b c, within p n /\ conf U BS schema p /\ In (k, CVec l) (n_children p) /\ comment_key k = true /\ In x l /\
    In b BS /\ x = comment_node c /\ (In c (b_lead b) \/ In c (b_trail b)).
Proof.
  induction 1 as [|n k c I W IH|n k l c I J W IH]; intro C; [now left| |].
  - pose proof C as [D N S K1 K2]. destruct (comment_key k) eqn:Ck; [now destruct (deco_no_node _ _ _ _ D I N Ck)|].
    destruct (IH (K1 _ _ I Ck)) as [H|(p & k' & l & b & c' & Wp & R)]; [now left|]. right. exists p, k', l, b, c'. split; [|exact R].
    eapply within_node; eauto.
  - pose proof C as [D N S K1 K2]. destruct (comment_key k) eqn:Ck.
    + right. destruct (deco_comments _ _ _ _ _ D I N Ck J) as (b & c' & Ib & -> & Ic). apply within_comment in W. subst x.
      exists n, k, l, b, c'. split; [constructor|]. auto 10.
    + destruct (IH (K2 _ _ _ I Ck J)) as [H|(p & k' & l' & b & c' & Wp & R)]; [now left|]. right. exists p, k', l', b, c'. split; [|exact R].
      eapply within_list; eauto.
Qed.

(* what is known of every node of the trees that is not a comment or the EOF node *)
Theorem parse_nodes code ns : parses U code (Success ns) ->
  exists bs stmts lst, grouped bs /\ tokenize U code = Success (flats bs) /\ ns = stmts ++ [eof_node_with (b_lead lst)] /\ In lst bs /\
  forall n x, In n stmts -> within x n -> conf U bs schema x \/
    exists p k l b c, within p n /\ In (k, CVec l) (n_children p) /\ comment_key k = true /\ In x l /\
      In b bs /\ x = comment_node c /\ (In c (b_lead b) \/ In c (b_trail b)).
Proof.
  intro P. destruct (parse_structure _ _ P) as (stmts & slices & lst & bs & G & Eb & Et & Tr & T & En & M).
  exists bs, stmts, lst. split; [exact G|]. split; [exact T|]. split; [exact En|]. split; [rewrite Eb, in_app_iff; right; now left|].
  intros n x I W. assert (C : conf U bs schema n).
  { clear - M I. induction M as [|m sl stmts slices H M IH]; [destruct I|]. destruct I as [->|I]; [apply H|auto]. }
  destruct (conf_within _ _ _ W C) as [H|(p & k & l & b & c & H1 & H2 & H3)]; [now left|]. right. exists p, k, l, b, c. auto.
Qed.
Lemma within_eof x l : within x (eof_node_with l) -> x = eof_node_with l \/ exists c, In c l /\ x = comment_node c /\
  In ("leading_comments", CVec (map comment_node l)) (n_children (eof_node_with l)).
Proof.
  intro W. unfold eof_node_with in *. destruct l as [|c l].
  - inversion W as [|? ? ? I|? ? ? ? I J K]; subst; [now left|destruct I|destruct I].
  - inversion W as [|? ? ? I|? ? ? ? I J K]; subst; [now left| |]; destruct I as [I|[]]; [discriminate|].
    injection I as <- <-. right. apply (in_map_iff comment_node (c :: l)) in J as (c' & <- & Ic). apply within_comment in K. subst x. exists c'.
    split; [exact Ic|]. split; [reflexivity|]. now left.
Qed.

Lemma grouped_comments bs b : grouped bs -> In b bs -> comments (b_lead b) /\ is_comment (b_tok b) = false /\ comments (b_trail b).
Proof.
  induction 1 as [lead t C1 C2|lead t trail b' bs C1 C2 C3 _ _ G IH]; intros [<-|I].
  - cbn. split; [exact C1|]. split; [exact C2|constructor].
  - destruct I.
  - cbn. auto.
  - now apply IH.
Qed.

(* comments *)
Theorem parse_comments code ns : parses U code (Success ns) ->
  exists bs, grouped bs /\ tokenize U code = Success (flats bs) /\
  forall n x, In n ns -> within x n ->
    match n_token x with
    | Some t =>
        if is_comment t
        then x = comment_node t /\
             exists p k l, within p n /\ In (k, CVec l) (n_children p) /\ (k = "leading_comments" \/ k = "trailing_comments") /\ In x l
        else exists b, In b bs /\ b_tok b = t /\ carries x "leading_comments" (b_lead b) /\ carries x "trailing_comments" (b_trail b)
    | None =>
        n_type x <> N_EOF -> carries x "leading_comments" [] /\ carries x "trailing_comments" []
    end.
Proof.
  intro P. destruct (parse_nodes _ _ P) as (bs & stmts & lst & G & T & En & Il & Hn).
  exists bs. split; [exact G|]. split; [exact T|]. intros n x I W.
  assert (Gc : forall c b, In b bs -> In c (b_lead b) \/ In c (b_trail b) -> is_comment c = true).
  { intros c b Ib Hc. destruct (grouped_comments _ _ G Ib) as (C1 & _ & C2). unfold comments in *. rewrite Forall_forall in C1, C2. destruct Hc; auto. }
  rewrite En in I. apply in_app_iff in I as [I|[<-|[]]].
  - destruct (Hn n x I W) as [C|(p & k & l & b & c & Wp & Ip & Ck & Ix & Ib & -> & Ic)].
    + destruct C as [D _ _ _ _]. unfold deco in D. destruct (n_token x) as [t|].
      * destruct D as (b & Ib & <- & D1 & D2). destruct (grouped_comments _ _ G Ib) as (_ & -> & _). exists b. split; [exact Ib|]. auto.
      * intros _. exact D.
    + cbn [comment_node n_token]. rewrite (Gc c b Ib Ic). split; [reflexivity|]. exists p, k, l. split; [exact Wp|]. split; [exact Ip|]. split; [|exact Ix].
      now apply comment_key_cases.
  - destruct (within_eof _ _ W) as [->|(c & Ic & -> & J)].
    + cbn [eof_node_with n_token n_type]. congruence.
    + cbn [comment_node n_token]. rewrite (Gc c lst Il (or_introl Ic)). split; [reflexivity|].
      exists (eof_node_with (b_lead lst)), "leading_comments", (map comment_node (b_lead lst)).
      split; [constructor|]. split; [exact J|]. split; [now left|]. now apply in_map.
Qed.
End WithUnicode.
