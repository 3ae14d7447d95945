(* C41: names and literals may be exchanged for others without changing the tree. *)
From Verif Require Import Chars Token Cst Core MiniRust Lexer Program Api Bundles ParserView ParserGeneric
  ParserSpec ParserSim LexSpec LexGrammar LexProofs LexTheorems LexProps LexClasses LexInvariance ParserInvariance ParserTotal RenameSpec.
Local Open Scope list_scope.
Local Notation length := List.length.

(* ----- the words of the program ----- *)
Definition upper_string (s : string) : str := map upper_ascii (s_ s).
(* the first character says that no string, quoted name, parameter or number is such a word *)
Definition word_head_ok (s : str) : bool :=
  match s with
  | [] => false
  | c :: r => negb (N.eqb c 34 || N.eqb c 39 || N.eqb c 96 || N.eqb c 64 || is_digit_char c) && (negb (N.eqb c 46) || match r with [] => true | _ => false end)
  end.
(* a word that a name could be is listed *)
Definition word_listed (s : str) : bool :=
  match s with
  | [] => false
  | c :: r => if name_start c then existsb (fun w => str_eqb s (s_ w)) (KEYWORDS ++ soft_words) else true
  end.
Lemma known_words_ok : forallb (fun w => forallb is_ascii (s_ w) && word_head_ok (upper_string w) && word_head_ok (s_ w) && word_listed (upper_string w) &&
  (word_listed (s_ w) || existsb is_lower_ascii (s_ w))) known_words = true.
Proof. vm_compute. reflexivity. Qed.

Section WithUnicode.
Context (U : unicode) (HU : ascii_faithful U).

Lemma upper_map s : forallb is_ascii s = true -> to_uppercase U s = map upper_ascii s.
Proof.
  unfold to_uppercase. induction s as [|c s IH]; [reflexivity|]. cbn [forallb flat_map map]. intro H. apply andb_true_iff in H as [H1 H2].
  rewrite (proj2 HU _ H1), IH by assumption. reflexivity.
Qed.
Lemma upper_head c r : is_ascii c = true -> to_uppercase U (c :: r) = upper_ascii c :: to_uppercase U r.
Proof. intro H. unfold to_uppercase. cbn [flat_map]. rewrite (proj2 HU _ H). reflexivity. Qed.

(* a text that is no word of the program *)
Definition unknown (s : str) : Prop := forall w, In w known_words -> to_uppercase U s <> s_ w /\ to_uppercase U s <> to_uppercase U (s_ w).
Lemma word_facts w : In w known_words -> to_uppercase U (s_ w) = upper_string w /\ word_head_ok (upper_string w) = true /\
  word_head_ok (s_ w) = true /\ word_listed (upper_string w) = true /\ (word_listed (s_ w) = true \/ existsb is_lower_ascii (s_ w) = true).
Proof.
  intro I. pose proof known_words_ok as H. rewrite forallb_forall in H. apply H in I. rewrite !andb_true_iff, orb_true_iff in I.
  destruct I as ((((I1 & I2) & I3) & I4) & I5). split; [|auto]. now apply upper_map.
Qed.
Lemma odd_head_unknown c r : is_ascii c = true -> (c = 34 \/ c = 39 \/ c = 96 \/ c = 64 \/ is_digit_char c = true \/ (c = 46 /\ to_uppercase U r <> []))%N ->
  unknown (c :: r).
Proof.
  intros A H w I. destruct (word_facts w I) as (E & H1 & H2 & _). rewrite (upper_head c r A), E.
  assert (UC : upper_ascii c = c).
  { unfold upper_ascii, is_lower_ascii, in_range. destruct H as [->|[->|[->|[->|[D|(-> & _)]]]]]; try reflexivity.
    unfold is_digit_char, in_range in D. apply andb_true_iff in D as [D1 D2]. apply N.leb_le in D1, D2.
    destruct (N.leb_spec 97 c); [lia|reflexivity]. }
  rewrite UC. assert (K : forall s, word_head_ok s = true -> c :: to_uppercase U r <> s).
  { intros s Hs <-. cbn [word_head_ok] in Hs. apply andb_true_iff in Hs as [H3 H4]. apply negb_true_iff in H3. rewrite !orb_false_iff, !N.eqb_neq in H3.
    destruct H3 as ((((X1 & X2) & X3) & X4) & X5). destruct H as [|[|[|[|[|(-> & Z)]]]]]; try congruence.
    destruct (to_uppercase U r); [congruence|]. discriminate. }
  split; now apply K.
Qed.

(* what the parser sees of a token of a kind *)
Record seen (t : token) (i s n p q : bool) : Prop := {
  seen_identifier : is_identifier U t = i; seen_string : is_string t = s; seen_numeric : is_numeric t = n;
  seen_parameter : is_parameter t = p; seen_template : is_template t = false;
  seen_first : first_char (literal t) = Some 96%N <-> q = true; seen_last : last_char (literal t) <> Some 46%N;
  seen_text : literal t <> []; seen_unknown : unknown (literal t)
}.
Lemma literal_word_known w : In w literal_words -> In w known_words.
Proof.
  assert (H : forallb (fun w => existsb (String.eqb w) known_words) literal_words = true) by (vm_compute; reflexivity).
  rewrite forallb_forall in H. intro I. apply H in I. rewrite existsb_exists in I.
  destruct I as (x & I & E). apply String.eqb_eq in E. now subst.
Qed.
Lemma seen_literal t i s n p q w : seen t i s n p q -> In w literal_words -> literal t <> s_ w.
Proof.
  intros S I E. destruct (seen_unknown _ _ _ _ _ _ S w (literal_word_known w I)) as (_ & Z). apply Z. now rewrite E.
Qed.
Lemma seen_like t u i s n p q : seen t i s n p q -> seen u i s n p q -> like U known_words t u.
Proof.
  intros A B. pose proof (fun w => seen_literal _ _ _ _ _ _ w A) as LA. pose proof (fun w => seen_literal _ _ _ _ _ _ w B) as LB.
  destruct A as [A1 A2 A3 A4 A5 A6 A7 A8 A9], B as [B1 B2 B3 B4 B5 B6 B7 B8 B9]. constructor; try congruence.
  - intros w I. destruct (A9 w I), (B9 w I). unfold upper_literal. tauto.
  - intros w I. destruct (A9 w I) as [_ X], (B9 w I) as [_ Y]. unfold is_, upper_literal.
    rewrite (proj2 (str_eqb_neq _ _) X), (proj2 (str_eqb_neq _ _) Y). reflexivity.
  - intros w I. specialize (LA w I). specialize (LB w I). tauto.
  - tauto.
  - tauto.
  - tauto.
Qed.

(* the classes a first character leaves open *)
Lemma not_quoted q t c l : literal t = c :: l -> c <> q -> quoted_by q t = false.
Proof. intros E N. destruct (quoted_by q t) eqn:Q; [|reflexivity]. now rewrite (quoted_hd _ _ _ _ E Q) in N. Qed.
Lemma not_numeric t c l : literal t = c :: l -> tag c <> 3 -> is_numeric t = false.
Proof.
  intros E N. destruct (is_numeric t) eqn:Q; [|reflexivity]. apply is_numeric_spec in Q. rewrite E in Q. now apply number_tag in Q.
Qed.
Lemma not_string t c l : literal t = c :: l -> tag c <> 4 -> is_string t = false.
Proof.
  intros E N. unfold is_string.
  rewrite (not_quoted 34 t c l E), (not_quoted 39 t c l E); [reflexivity| |]; intros ->; now apply N.
Qed.
Lemma not_parameter t c l : literal t = c :: l -> tag c <> 5 -> is_parameter t = false.
Proof.
  intros E N. unfold is_parameter. rewrite E. destruct (N.eqb_spec c 63) as [->|_]; [now destruct N|].
  destruct (N.eqb_spec c 64) as [->|_]; [now destruct N|reflexivity].
Qed.
Lemma not_template t c l : literal t = c :: l -> tag c <> 6 -> is_template t = false.
Proof. intros E N. unfold is_template. rewrite E. destruct (N.eqb_spec c 123) as [->|_]; [now destruct N|reflexivity]. Qed.
Lemma not_identifier t c l : literal t = c :: l -> tag c <> 1 -> tag c <> 2 -> is_identifier U t = false.
Proof.
  intros E N1 N2. unfold is_identifier. rewrite (not_quoted 96 t c l E) by (intros ->; now apply N1).
  destruct (is_reserved_keyword U t); [reflexivity|]. rewrite E. destruct (ident_start c) eqn:S; [|reflexivity].
  destruct N2. unfold tag. rewrite S. destruct (N.eqb_spec c 96) as [->|]; [discriminate S|reflexivity].
Qed.
Lemma not_first t c l : literal t = c :: l -> tag c <> 1 -> (first_char (literal t) = Some 96%N <-> false = true).
Proof. intros E N. rewrite E. cbn [first_char]. split; [intros [= ->]; now destruct N|discriminate]. Qed.
Lemma last_snoc l c : last_char (l ++ [c]) = Some c.
Proof. unfold last_char. rewrite rev_app_distr. reflexivity. Qed.
Lemma last_in l c : last_char l = Some c -> In c l.
Proof.
  unfold last_char. intro H. apply in_rev. destruct (rev l); [discriminate|]. injection H as ->. now left.
Qed.
Lemma enclosed_quoted q t : enclosed q (literal t) -> quoted_by q t = true.
Proof.
  intros (m & E). unfold quoted_by. assert (Nat.ltb (byte_len (literal t)) 2 = false) as ->.
  { apply Nat.ltb_ge. rewrite E. assert (K : forall c, 1 <= utf8_len c).
    { intro c. unfold utf8_len. destruct (N.ltb c 128), (N.ltb c 2048), (N.ltb c 65536); lia. }
    pose proof (K q). clear E. cbn. clear -H. induction m as [|x m IH]; cbn; [lia|]. cbn in IH. lia. }
  rewrite E. change (q :: m ++ [q]) with ((q :: m) ++ [q]). rewrite last_snoc. cbn [app first_char opt_is]. now rewrite !N.eqb_refl.
Qed.
Lemma enclosed_last q s : enclosed q s -> last_char s = Some q.
Proof. intros (m & ->). change (q :: m ++ [q]) with ((q :: m) ++ [q]). apply last_snoc. Qed.
Ltac by_tag := intro; discriminate.
Lemma string_seen t : enclosed 34%N (literal t) \/ enclosed 39%N (literal t) -> seen t false true false false false.
Proof.
  intro H. assert (K : exists q r, literal t = q :: r /\ (q = 34 \/ q = 39)%N /\ enclosed q (literal t)).
  { destruct H as [(m & E)|(m & E)]; [exists 34%N|exists 39%N]; eexists; (split; [exact E|]); (split; [auto|]); exists m; exact E. }
  destruct K as (q & r & E & Q & H2). constructor.
  - destruct Q as [-> | ->]; eapply not_identifier; eauto; by_tag.
  - unfold is_string. pose proof (enclosed_quoted _ _ H2) as Z. destruct Q as [-> | ->]; rewrite Z; [reflexivity|]. now destruct (quoted_by 34 t).
  - destruct Q as [-> | ->]; eapply not_numeric; eauto; by_tag.
  - destruct Q as [-> | ->]; eapply not_parameter; eauto; by_tag.
  - destruct Q as [-> | ->]; eapply not_template; eauto; by_tag.
  - destruct Q as [-> | ->]; eapply not_first; eauto; by_tag.
  - rewrite (enclosed_last _ _ H2). destruct Q; intros [= ->]; discriminate.
  - now rewrite E.
  - rewrite E. apply odd_head_unknown; [destruct Q as [-> | ->]; reflexivity|tauto].
Qed.
Lemma quoted_name_seen t : enclosed 96%N (literal t) -> seen t true false false false true.
Proof.
  intro H. pose proof H as (m & E). constructor.
  - unfold is_identifier. now rewrite (enclosed_quoted _ _ H).
  - eapply not_string; eauto; by_tag.
  - eapply not_numeric; eauto; by_tag.
  - eapply not_parameter; eauto; by_tag.
  - eapply not_template; eauto; by_tag.
  - rewrite E. cbn. tauto.
  - rewrite (enclosed_last _ _ H). discriminate.
  - now rewrite E.
  - rewrite E. apply odd_head_unknown; [reflexivity|tauto].
Qed.
Lemma parameter_seen t : named_parameter (literal t) -> seen t false false false true false.
Proof.
  intros (r & E & D). constructor.
  - eapply not_identifier; eauto; by_tag.
  - eapply not_string; eauto; by_tag.
  - eapply not_numeric; eauto; by_tag.
  - unfold is_parameter. now rewrite E.
  - eapply not_template; eauto; by_tag.
  - eapply not_first; eauto; by_tag.
  - intro L. apply last_in in L. rewrite E in L. destruct L as [L|L]; [discriminate|]. rewrite Forall_forall in D. now apply (D _ L).
  - now rewrite E.
  - rewrite E. apply odd_head_unknown; [reflexivity|tauto].
Qed.
Lemma digit_ascii c : is_digit_char c = true -> is_ascii c = true.
Proof. intro H. apply in_range_true in H. apply N.ltb_lt. lia. Qed.
Lemma digit_tag c : is_digit_char c = true \/ c = 46%N -> tag c = 3.
Proof.
  intros [H| ->]; [|reflexivity]. apply (number_tag c []). exists [c], [], []. split; [|reflexivity].
  split; [|now left]. left. split; [|reflexivity]. split; [discriminate|]. constructor; [exact H|constructor].
Qed.
Lemma digits_end d l : digits d -> last_char (l ++ d) <> Some 46%N.
Proof.
  intros (N & F) L. destruct (exists_last N) as (d' & c & ->). rewrite app_assoc, last_snoc in L. injection L as ->.
  apply Forall_app in F as [_ F]. inversion F as [|? ? X ?]. discriminate X.
Qed.
Lemma number_end s : number s -> last_char s <> Some 46%N.
Proof.
  intros (i & f & e & (Hif & He) & ->). destruct He as [-> |He].
  - rewrite app_nil_r. destruct Hif as [(D & ->)|(_ & d & D & ->)].
    + rewrite app_nil_r. exact (digits_end i [] D).
    + change (46%N :: d) with ([46%N] ++ d). rewrite app_assoc. now apply digits_end.
  - destruct He as (x & sign & d & _ & _ & D & ->). rewrite app_assoc. change (x :: sign ++ d) with ((x :: sign) ++ d).
    rewrite app_assoc. now apply digits_end.
Qed.
Lemma number_seen t : number (literal t) -> seen t false false true false false.
Proof.
  intro H. destruct (literal t) as [|c r] eqn:E.
  { destruct H as (i & f & e & (Hif & He) & X). symmetry in X. apply app_eq_nil in X as [-> X]. apply app_eq_nil in X as [-> _].
    destruct Hif as [((Z & _) & _)|(_ & d & _ & Z)]; [now destruct Z|discriminate Z]. }
  pose proof (number_tag c r H) as T. constructor.
  - eapply not_identifier; [exact E| |]; rewrite T; discriminate.
  - eapply not_string; [exact E|]; rewrite T; discriminate.
  - apply is_numeric_spec. now rewrite E.
  - eapply not_parameter; [exact E|]; rewrite T; discriminate.
  - eapply not_template; [exact E|]; rewrite T; discriminate.
  - eapply not_first; [exact E|]; rewrite T; discriminate.
  - rewrite E. now apply number_end.
  - now rewrite E.
  - rewrite E. destruct H as (i & f & e & (Hif & _) & X). destruct i as [|y i].
    + destruct Hif as [((Z & _) & _)|(_ & d & (D & F) & ->)]; [now destruct Z|]. injection X as -> ->.
      apply odd_head_unknown; [reflexivity|]. right. right. right. right. right. split; [reflexivity|].
      destruct d as [|z d]; [now destruct D|]. inversion F as [|? ? Z ?]; subst. cbn [app]. rewrite (upper_head z _ (digit_ascii _ Z)). discriminate.
    + injection X as <- _. assert (Z : is_digit_char c = true).
      { destruct Hif as [((_ & F) & _)|(F & _)]; now inversion F. }
      apply odd_head_unknown; [now apply digit_ascii|]. right. right. right. right. now left.
Qed.
Lemma letter_ascii c : is_letter_ascii c = true -> is_ascii c = true.
Proof. intro H. apply orb_true_iff in H as [H|H]; apply in_range_true in H; apply N.ltb_lt; lia. Qed.
Lemma name_char_ascii c : name_char c = true -> is_ascii c = true.
Proof.
  intro H. unfold name_char in H. rewrite !orb_true_iff in H. destruct H as [[H|H]|H].
  - now apply letter_ascii. - now apply digit_ascii. - apply N.eqb_eq in H as ->. reflexivity.
Qed.
Lemma name_start_char c : name_start c = true -> name_char c = true.
Proof. unfold name_start, name_char. rewrite !orb_true_iff. tauto. Qed.
Lemma name_start_upper c : name_start c = true -> name_start (upper_ascii c) = true.
Proof.
  intro H. destruct (up_cases c) as [[E _]|[R E]]; rewrite E; [exact H|].
  unfold name_start, is_letter_ascii, is_upper_ascii. rewrite (proj2 (in_range_true _ _ _)) by lia. now rewrite orb_true_r.
Qed.
Lemma no_lower s : existsb is_lower_ascii (map upper_ascii s) = false.
Proof.
  induction s as [|c s IH]; [reflexivity|]. cbn [map existsb]. rewrite IH, orb_false_r.
  destruct (up_cases c) as [[E N]|[R E]]; rewrite E.
  - destruct (is_lower_ascii c) eqn:L; [|reflexivity]. unfold upper_ascii in E. rewrite L in E. apply in_range_true in L. lia.
  - apply in_range_false. lia.
Qed.
Lemma name_unknown s : plain_name U s -> unknown s.
Proof.
  intros ((c & r & -> & C & R) & H) w I. destruct (word_facts w I) as (E & _ & _ & L1 & L2). rewrite E.
  assert (A : forallb is_ascii (c :: r) = true).
  { cbn [forallb]. rewrite (name_char_ascii c (name_start_char c C)). cbn [andb]. apply forallb_forall. intros x X.
    rewrite Forall_forall in R. now apply name_char_ascii, R. }
  assert (K : forall s, word_listed s = true -> to_uppercase U (c :: r) <> s).
  { intros s L X. rewrite (upper_map _ A) in X. subst s. cbn [map word_listed] in L. rewrite (name_start_upper c C) in L.
    apply existsb_exists in L as (v & V & X). apply str_eqb_eq in X. apply (H v V). now rewrite (upper_map _ A). }
  split; [|now apply K]. destruct L2 as [L2|L2]; [now apply K|].
  intro X. rewrite (upper_map _ A) in X. rewrite <- X, no_lower in L2. discriminate.
Qed.
Lemma name_seen t : plain_name U (literal t) -> seen t true false false false false.
Proof.
  intro H. pose proof (name_unknown _ H) as Un. destruct H as ((c & r & E & C & R) & H).
  assert (T : tag c = 2).
  { unfold tag. change (ident_start c) with (name_start c). rewrite C. destruct (N.eqb_spec c 96) as [->|]; [discriminate C|reflexivity]. }
  constructor.
  - unfold is_identifier. rewrite (not_quoted 96 t c r E) by (intros ->; discriminate C).
    destruct (is_reserved_keyword U t) eqn:K.
    { apply existsb_exists in K as (w & K & X). apply str_eqb_eq in X. destruct (H w); [apply in_or_app; now left|exact X]. }
    rewrite E. change (ident_start c) with (name_start c). rewrite C. apply forallb_forall. intros x X. rewrite Forall_forall in R. exact (R x X).
  - eapply not_string; [exact E|]; rewrite T; discriminate.
  - eapply not_numeric; [exact E|]; rewrite T; discriminate.
  - eapply not_parameter; [exact E|]; rewrite T; discriminate.
  - eapply not_template; [exact E|]; rewrite T; discriminate.
  - eapply not_first; [exact E|]; rewrite T; discriminate.
  - intro L. apply last_in in L. rewrite E in L. destruct L as [-> |L]; [discriminate C|]. rewrite Forall_forall in R. discriminate (R _ L).
  - now rewrite E.
  - exact Un.
Qed.

Theorem interchangeable_like t u : interchangeable U (literal t) (literal u) -> like U known_words t u.
Proof.
  intros [E|A B|A B|A B|A B|A B].
  - now apply alike_like, alike_same.
  - eapply seen_like; apply name_seen; assumption.
  - eapply seen_like; apply quoted_name_seen; assumption.
  - eapply seen_like; apply string_seen; assumption.
  - eapply seen_like; apply number_seen; assumption.
  - eapply seen_like; apply parameter_seen; assumption.
Qed.

Theorem parses_renamed a b ta tb oa ob :
  tokenize U a = Success ta -> tokenize U b = Success tb ->
  Forall2 (fun t u => interchangeable U (literal t) (literal u)) (code_tokens ta) (code_tokens tb) ->
  touches (code_tokens ta) = touches (code_tokens tb) ->
  parses U a oa -> parses U b ob ->
  same_outcome (paired (code_tokens ta) (code_tokens tb)) oa ob.
Proof.
  intros Ta Tb HF HT Pa Pb. destruct (parses_at U _ _ _ _ Pa Pb) as (fuel & <- & <-).
  unfold parse. rewrite Ta, Tb. destruct (tokenize_ends U _ _ Ta) as (la & ->). destruct (tokenize_ends U _ _ Tb) as (lb & ->).
  apply parse_tokens_like; [reflexivity|reflexivity| |exact HT].
  clear -HF HU. induction HF; constructor; [now apply interchangeable_like|assumption].
Qed.
End WithUnicode.

(* ----- every soft word matters ----- *)
(* what is left of a tree without the texts of its tokens *)
Fixpoint skeleton (n : node) : list string :=
  match n with
  | Node t _ m =>
      (match t with Some _ => "+" | None => "-" end)%string ::
      (fix pairs (m : list (string * content)) : list string :=
         match m with
         | [] => [")"%string]
         | (k, c) :: r =>
             (if comment_key k then []
              else k :: match c with
                        | CNode x => skeleton x
                        | CVec l => (fix nodes (l : list node) : list string :=
                                       match l with [] => ["]"%string] | x :: r => skeleton x ++ nodes r end) l
                        end) ++ pairs r
         end) m
  end.
Fixpoint skeletons (l : list node) : list string := match l with [] => ["]"%string] | x :: r => skeleton x ++ skeletons r end.
Fixpoint pair_skeletons (m : list (string * content)) : list string :=
  match m with
  | [] => [")"%string]
  | (k, c) :: r => (if comment_key k then [] else k :: match c with CNode x => skeleton x | CVec l => skeletons l end) ++ pair_skeletons r
  end.
Lemma skeleton_node t ty m : skeleton (Node t ty m) = (match t with Some _ => "+" | None => "-" end)%string :: pair_skeletons m.
Proof. reflexivity. Qed.
Lemma pair_skeletons_code m : pair_skeletons (code_children m) = pair_skeletons m.
Proof.
  induction m as [|[k c] m IH]; [reflexivity|]. unfold code_children. cbn [filter fst]. destruct (comment_key k) eqn:K; cbn [negb pair_skeletons]; rewrite ?K.
  - exact IH.
  - fold (code_children m). now rewrite IH.
Qed.
Lemma same_skeletons R :
  (forall a b, same_tree R a b -> skeleton a = skeleton b) /\
  (forall a b, same_children R a b -> pair_skeletons a = pair_skeletons b) /\
  (forall a b, same_trees R a b -> skeletons a = skeletons b).
Proof.
  apply same_mind.
  - intros t1 t2 ty m1 m2 Ht _ IH. rewrite !skeleton_node, <- (pair_skeletons_code m1), <- (pair_skeletons_code m2), IH. now destruct Ht.
  - reflexivity.
  - intros k n1 n2 m1 m2 _ IH1 _ IH2. cbn [pair_skeletons]. now rewrite IH1, IH2.
  - intros k n1 n2 m1 m2 _ IH1 _ IH2. cbn [pair_skeletons]. now rewrite IH1, IH2.
  - reflexivity.
  - intros n1 n2 l1 l2 _ IH1 _ IH2. cbn [skeletons]. now rewrite IH1, IH2.
Qed.
Definition told_apart (o1 o2 : outcome (list node)) : bool :=
  match o1, o2 with
  | Success a, Success b => negb (if list_eq_dec String.string_dec (skeletons a) (skeletons b) then true else false)
  | Success _, Failure _ | Failure _, Success _ => true
  | _, _ => false
  end.
Lemma told_apart_sound R o1 o2 : told_apart o1 o2 = true -> o1 <> NoFuel /\ o2 <> NoFuel /\ ~ same_outcome R o1 o2.
Proof.
  unfold told_apart, same_outcome. destruct o1 as [a|e1| |], o2 as [b|e2| |]; try discriminate; intro H;
    (split; [discriminate|]); (split; [discriminate|]); try tauto.
  intro S. apply (proj2 (proj2 (same_skeletons R))) in S. rewrite S in H. destruct (list_eq_dec _ _ _); [discriminate|congruence].
Qed.
(* a text in which the word (in the middle) is not a name like zz *)
Definition soft_uses : list (string * string * string) :=
  [
   ("ALTER TABLE example ", "ADD", " COLUMN x INT64 ;");
   ("SELECT * FROM t MATCH_RECOGNIZE ( MEASURES a AS b ", "AFTER", " MATCH SKIP TO NEXT ROW DEFINE c AS d = 1 )");
   ("FROM t |> ", "AGGREGATE", " COUNT ( * ) AS cnt DESC NULLS LAST");
   ("", "ALTER", " MODEL ident SET OPTIONS ( )");
   ("", "ASSERT", " ;");
   ("CREATE ", "ASSIGNMENT", " t");
   ("SELECT ", "B", " ""a""");
   ("", "BEGIN", "");
   ("SELECT ", "BIGDECIMAL", " ""a""");
   ("SELECT ", "BIGNUMERIC", " ""a""");
   ("ALTER ", "BI_CAPACITY", " `project.region-us.default` SET OPTIONS ( preferred_tables = [ 'table1' , 'table2' ] )");
   ("SELECT ", "BR", " ""a""");
   ("", "BREAK", " ;");
   ("", "CALL", " ;");
   ("CREATE ", "CAPACITY", " t");
   ("DROP SCHEMA example ", "CASCADE", " ;");
   ("CREATE TABLE from_snap ", "CLONE", " snap");
   ("CREATE TABLE IF NOT EXISTS example ( x INT64 NOT NULL ) ", "CLUSTER", " BY x AS SELECT 1 UNION ALL SELECT 2 ;");
   ("ALTER TABLE example ADD ", "COLUMN", " x INT64 ;");
   ("", "COMMIT", "");
   ("CREATE EXTERNAL SCHEMA dataset_name WITH ", "CONNECTION", " connection_name");
   ("CREATE TABLE e ( x STRING , ", "CONSTRAINT", " i FOREIGN KEY ( x ) )");
   ("", "CONTINUE", " ;");
   ("CREATE TABLE new_table ", "COPY", " source_table");
   ("SELECT 1 UNION ALL ", "CORRESPONDING", " SELECT 2");
   ("ALTER TABLE t ALTER COLUMN int SET ", "DATA", " TYPE NUMERIC ;");
   ("SELECT ", "DATE", " ""a""");
   ("SELECT ", "DATETIME", " ""a""");
   ("SELECT ", "DECIMAL", " ""a""");
   ("", "DECLARE", " x INT64 ;");
   ("", "DELETE", " table_name WHERE TRUE ;");
   ("CREATE FUNCTION abc ( ) RETURNS INT64 ", "DETERMINISTIC", " LANGUAGE js OPTIONS ( library = [ 'dummy' ] ) AS '''return 1''' ;");
   ("", "DROP", " MODEL ident");
   ("IF TRUE THEN SELECT 1 ; ", "ELSEIF", " TRUE THEN END IF ;");
   ("CREATE TABLE e ( FOREIGN KEY ( x ) REFERENCES t ( y ) NOT ", "ENFORCED", " )");
   ("BEGIN ", "EXCEPTION", " WHEN ERROR THEN END ;");
   ("", "EXECUTE", " IMMEDIATE 'SELECT 1'");
   ("", "EXPORT", " MODEL ident");
   ("FROM t |> ", "EXTEND", " 1 AS one , 2 AS two , ;");
   ("DROP ", "EXTERNAL", " TABLE IF EXISTS example ;");
   ("SELECT c1 FROM t ORDER BY c1 NULLS ", "FIRST", " , c2 DESC NULLS LAST");
   ("CREATE TABLE e ( x STRING , ", "FOREIGN", " KEY ( x ) )");
   ("SELECT CAST ( 'Hello' AS BYTES ", "FORMAT", " 'ASCII' )");
   ("DROP TABLE ", "FUNCTION", " ident ;");
   ("", "GRANT", " `r` ON SCHEMA d TO ""u""");
   ("FROM t |> UNPIVOT ", "INCLUDE", " NULLS ( sales FOR quarter IN ( q1 , q2 ) ) AS q");
   ("CREATE PROCEDURE dataset . procede ( x INT64 , ", "INOUT", " y INT64 ) OPTIONS ( dummy = 'dummy' ) BEGIN SELECT 1 ; END ;");
   ("CREATE MODEL ident ", "INPUT", " ( a INT64 , b FLOAT64 ) OUTPUT ( c STRING )");
   ("", "INSERT", " INTO table_name VALUES ( 1 , 2 ) ;");
   ("", "ITERATE", " ;");
   ("SELECT ", "JSON", " ""a""");
   ("CREATE TABLE e ( PRIMARY ", "KEY", " ( x ) )");
   ("CREATE PROCEDURE procedure_ident ( ) WITH CONNECTION connection_ident ", "LANGUAGE", " python AS r 'code'");
   ("FROM t |> ORDER BY col1 DESC NULLS ", "LAST", " , col2");
   ("", "LEAVE", " ;");
   ("", "LOAD", " DATA OVERWRITE ident FROM FILES ( dummy = 'dummy' ) WITH PARTITION COLUMNS ( x STRING )");
   ("", "LOOP", " SELECT 1 ; END LOOP ;");
   ("FROM t |> ", "MATCH_RECOGNIZE", " ( )");
   ("DROP ", "MATERIALIZED", " VIEW example ;");
   ("SELECT * FROM t MATCH_RECOGNIZE ( ", "MEASURES", " a AS b DEFINE c AS d = 1 )");
   ("CREATE ", "MODEL", " t");
   ("SELECT ", "NUMERIC", " ""a""");
   ("FROM t |> LIMIT 1 ", "OFFSET", " 2 ;");
   ("EXPORT MODEL ident ", "OPTIONS", " ( uri = '' ) ;");
   ("ALTER ", "ORGANIZATION", " SET OPTIONS ( `region-us.default_time_zone` = 'Asia/Tokyo' )");
   ("CREATE PROCEDURE p ( ", "OUT", " y INT64) BEGIN END");
   ("CREATE MODEL ident INPUT ( a INT64 , b FLOAT64 ) ", "OUTPUT", " ( c STRING )");
   ("LOAD DATA OVERWRITE ident ", "OVERWRITE", " PARTITIONS ( _PARTITIONTIME = ts ) FROM FILES ( dummy = 'dummy' )");
   ("LOAD DATA OVERWRITE ident ", "PARTITIONS", " ( _PARTITIONTIME = ts ) ( dt date ) FROM FILES ( dummy = 'dummy' )");
   ("SELECT * FROM t MATCH_RECOGNIZE ( ", "PATTERN", " ( symbol1 ) )");
   ("SELECT * FROM t ", "PIVOT", " ( COUNT ( * ) FOR x IN ( 'v1' , 'v2' ) )");
   ("ALTER TABLE example DROP ", "PRIMARY", " KEY , DROP PRIMARY KEY IF EXISTS , DROP CONSTRAINT ident");
   ("CREATE ", "PROCEDURE", " t (a INT64)");
   ("ALTER ", "PROJECT", " `project-id` SET OPTIONS ( `region-us.default_time_zone` = 'Asia/Tokyo' )");
   ("SELECT ", "R", " ""a""");
   ("", "RAISE", "");
   ("SELECT ", "RB", " ""a""");
   ("CREATE TABLE e ( FOREIGN KEY ( x ) ", "REFERENCES", " t ( y ) )");
   ("CREATE MODEL ident ", "REMOTE", " WITH CONNECTION ident OPTIONS ( ENDPOINT = '' )");
   ("ALTER TABLE t ", "RENAME", " COLUMN u TO v");
   ("", "REPEAT", " SELECT 1 ; UNTIL true END REPEAT ;");
   ("SELECT * ", "REPLACE", " ( col1 * 2 AS _col1 )");
   ("CREATE MATERIALIZED VIEW ident1 AS ", "REPLICA", " OF ident2");
   ("CREATE ", "RESERVATION", " t");
   ("DROP SCHEMA e ", "RESTRICT", "");
   ("", "RETURN", "");
   ("CREATE FUNCTION abc ( ) ", "RETURNS", " INT64 LAGUAGE js OPTIONS ( ) AS '''return 1''' ;");
   ("", "REVOKE", " `r` ON SCHEMA d FROM ""u""");
   ("", "ROLLBACK", "");
   ("DROP ", "ROW", " ACCESS POLICY ident ON tablename ;");
   ("SELECT ", "SAFE_CAST", " (a)");
   ("CREATE ", "SCHEMA", " t");
   ("DROP ", "SEARCH", " INDEX ident ON tablename");
   ("CREATE ", "SNAPSHOT", " TABLE snap CLONE source_table");
   ("CREATE OR REPLACE VECTOR INDEX new_index ON tablename ( col ) ", "STORING", " ( a , b , c ) OPTIONS ( dummy = 'dummy' )");
   ("SELECT 1 UNION ALL ", "STRICT", " CORRESPONDING SELECT 2");
   ("CREATE ", "TABLE", " t");
   ("CREATE ", "TEMP", " FUNCTION abc ( x INT64 ) AS ( x ) ;");
   ("CREATE ", "TEMPORARY", " FUNCTION f() AS (x)");
   ("SELECT ", "TIME", " ""a""");
   ("SELECT ", "TIMESTAMP", " ""a""");
   ("CREATE MODEL ident AS ( ", "TRAINING_DATA", " AS ( SELECT 1 ) , custom_holiday AS ( SELECT 1 ) )");
   ("BEGIN BEGIN ; ROLLBACK ", "TRANSACTION", " ; END");
   ("CREATE MODEL ident ", "TRANSFORM", " ( expr_a as alias_a , * , * EXCEPT ( expr_b ) , )");
   ("", "TRUNCATE", " TABLE t ;");
   ("SELECT CAST(x AS STRUCT<a ", "TYPE", " >)");
   ("", "UNDROP", " SCHEMA datasetname ;");
   ("FROM t |> ", "UNPIVOT", " ( sales FOR quarter IN ( q1 , q2 ) ) AS q");
   ("REPEAT SELECT 1 ; ", "UNTIL", " true END REPEAT ;");
   ("", "UPDATE", " TABLE t SET col1 = 1 , col2 = 2 WHERE TRUE ;");
   ("INSERT t (a) ", "VALUES", " (1), (2)");
   ("ALTER ", "VECTOR", " INDEX index_name ON table_name REBUILD ;");
   ("CREATE ", "VIEW", " t");
   ("", "WHILE", " TRUE DO SELECT 1 ; END WHILE ;")]%string.
Definition use_ok (u : string * string * string) : bool :=
  match u with (a, w, b) => told_apart (parse ascii_tables 200 (s_ a ++ s_ w ++ s_ b)) (parse ascii_tables 200 (s_ a ++ s_ "zz" ++ s_ b)) end.
Lemma soft_uses_ok : forallb use_ok soft_uses = true /\ map (fun u => snd (fst u)) soft_uses = soft_words.
Proof. split; [vm_compute|]; reflexivity. Qed.
Lemma soft_word_used w : In w soft_words -> exists a b oa ob,
  parses ascii_tables (s_ a ++ s_ w ++ s_ b) oa /\ parses ascii_tables (s_ a ++ s_ "zz" ++ s_ b) ob /\
  forall R, ~ same_outcome R oa ob.
Proof.
  destruct soft_uses_ok as [H E]. rewrite <- E. intro I. apply in_map_iff in I as ([[a v] b] & <- & I). cbn [fst snd].
  rewrite forallb_forall in H. apply H in I. unfold use_ok in I. exists a, b. do 2 eexists.
  destruct (told_apart_sound (fun _ _ => True) _ _ I) as (N1 & N2 & _).
  split; [split; [exact N1|exists 200; reflexivity]|]. split; [split; [exact N2|exists 200; reflexivity]|].
  intro R. exact (proj2 (proj2 (told_apart_sound R _ _ I))).
Qed.

(* a check for examples *)
Definition plain_name_check (U : unicode) (s : str) : bool :=
  match s with c :: r => name_start c && forallb name_char r | [] => false end &&
  negb (existsb (fun w => str_eqb (to_uppercase U s) (s_ w)) (KEYWORDS ++ soft_words)).
Lemma plain_name_checked U s : plain_name_check U s = true -> plain_name U s.
Proof.
  unfold plain_name_check. intro H. apply andb_true_iff in H as [H1 H2]. split.
  - destruct s as [|c r]; [discriminate|]. apply andb_true_iff in H1 as [A B]. exists c, r. split; [reflexivity|]. split; [exact A|].
    apply Forall_forall. now apply forallb_forall.
  - intros w I E. apply negb_true_iff in H2. rewrite <- not_true_iff_false in H2. apply H2. apply existsb_exists. exists w.
    split; [exact I|]. now apply str_eqb_eq.
Qed.
