(* Rules and tactics for running the parser on the phrases of GrammarSpec.v. *)
From Verif Require Import Chars Token LexProps LexClasses Cst Core MiniRust Program Bundles ParserView ParserGeneric ShapeSound GroupingSpec GroupingExpr
  Forward GrammarSpec.
Local Open Scope string_scope.
Local Open Scope list_scope.
Local Notation length := List.length.

Section WithUnicode.
Context (U : unicode) (HU : ascii_faithful U).

(* ----- nodes ----- *)
Definition comment_key (k : string) : bool := String.eqb k "leading_comments" || String.eqb k "trailing_comments".
Lemma comment_children_list l : comment_children l = map (fun c => Node (Some c) N_Comment []) l.
Proof. reflexivity. Qed.
Lemma decorate_made b ty : decorate b (node_new (b_tok b) ty) = made ty b [].
Proof.
  unfold decorate, made, push_comments, comment_list, node_new. rewrite !comment_children_list.
  destruct (b_lead b), (b_trail b); reflexivity.
Qed.
Lemma insert_comments k v b kids : comment_key k = false ->
  map_insert k v (comment_list "leading_comments" (b_lead b) ++ comment_list "trailing_comments" (b_trail b) ++ kids) =
  comment_list "leading_comments" (b_lead b) ++ comment_list "trailing_comments" (b_trail b) ++ map_insert k v kids.
Proof.
  unfold comment_key. intro K. apply orb_false_iff in K as [K1 K2].
  unfold comment_list. destruct (b_lead b), (b_trail b); cbn [app map_insert]; rewrite ?K1, ?K2; reflexivity.
Qed.
Lemma with_kid_made k v ty b kids : comment_key k = false -> with_kid k v (made ty b kids) = made ty b (map_insert k v kids).
Proof. intro K. unfold with_kid, made. now rewrite insert_comments. Qed.
Lemma push_made k m ty b kids : comment_key k = false -> push_node k m (made ty b kids) = made ty b (map_insert k (CNode m) kids).
Proof. apply with_kid_made. Qed.
Lemma pushvec_made k l ty b kids : comment_key k = false -> push_node_vec k l (made ty b kids) = made ty b (map_insert k (CVec l) kids).
Proof. apply with_kid_made. Qed.
Lemma settype_made ty ty' b kids : set_type ty (made ty' b kids) = made ty b kids. Proof. reflexivity. Qed.

Lemma makes_word ty e b bs : nt_eqb ty N_EOF = false -> nt_eqb ty N_Unknown = false -> makes U (EConstruct ty) e (b :: bs) (made ty b []) e (b :: bs).
Proof.
  intros A B. apply makes_construct. unfold constructed. rewrite <- decorate_made.
  destruct ty; reflexivity || discriminate.
Qed.
Lemma makes_operand e b bs ty : kind U (b_tok b) = Some ty -> makes U (EConstruct N_Unknown) e (b :: bs) (made ty b []) e (b :: bs).
Proof.
  intros K. apply makes_construct. unfold constructed. rewrite <- decorate_made. unfold classify. unfold kind in K.
  repeat match type of K with (if ?x then _ else _) = _ => destruct x; [injection K as <-; reflexivity|] end. discriminate.
Qed.
Lemma makes_unknown e b b' bs : exists ty, makes U (EConstruct N_Unknown) e (b :: b' :: bs) (made ty b []) e (b :: b' :: bs).
Proof.
  enough (X : exists ty, classify U (b_tok b) (tok_at (b' :: bs) 0) = Some ty).
  { destruct X as [ty X]. exists ty. apply makes_construct. unfold constructed. rewrite X. cbn [option_map]. now rewrite decorate_made. }
  unfold classify. cbn [tok_at nth_error option_map]. repeat (destruct (_ : bool); [eauto|]). eauto.
Qed.
Lemma steps_push_made x k ex e bs m e1 bs1 ty b kids kids' e2 : makes U ex e bs m e1 bs1 -> env_get x e1 = Some (VNode (made ty b kids)) ->
  comment_key k = false -> map_insert k (CNode m) kids = kids' ->
  env_set x (VNode (made ty b kids')) e1 = Some e2 -> steps U (Push x k ex) e bs Norm e2 bs1.
Proof. intros M G K <- S. eapply steps_push; [exact M|exact G|]. now rewrite push_made. Qed.
Lemma steps_pushvec_made x k ex e bs l e1 bs1 ty b kids kids' e2 : lists U ex e bs l e1 bs1 -> env_get x e1 = Some (VNode (made ty b kids)) ->
  comment_key k = false -> map_insert k (CVec l) kids = kids' ->
  env_set x (VNode (made ty b kids')) e1 = Some e2 -> steps U (PushVec x k ex) e bs Norm e2 bs1.
Proof. intros M G K <- S. eapply steps_pushvec; [exact M|exact G|]. now rewrite pushvec_made. Qed.
Lemma steps_push_kid x k ex e bs m e1 bs1 n e2 : makes U ex e bs m e1 bs1 -> env_get x e1 = Some (VNode n) ->
  env_set x (VNode (with_kid k (CNode m) n)) e1 = Some e2 -> steps U (Push x k ex) e bs Norm e2 bs1.
Proof. intros M G S. eapply steps_push; eassumption. Qed.
Lemma steps_pushvec_kid x k ex e bs l e1 bs1 n e2 : lists U ex e bs l e1 bs1 -> env_get x e1 = Some (VNode n) ->
  env_set x (VNode (with_kid k (CVec l) n)) e1 = Some e2 -> steps U (PushVec x k ex) e bs Norm e2 bs1.
Proof. intros M G S. eapply steps_pushvec; eassumption. Qed.

(* ----- precedence ----- *)
Lemma prec_view k s bs c : view s bs -> prec_in U bs k = Some c -> get_precedence U k s = Ok c s.
Proof.
  intros V. unfold prec_in, get_precedence, bind, tok_at. rewrite (get_token_view _ _ k V).
  destruct (nth_error bs k) as [b|]; cbn [option_map]; [|discriminate].
  unfold prec_of.
  repeat match goal with |- context [if mem_str (upper_literal U (b_tok b)) ?l then _ else _] =>
    destruct (mem_str (upper_literal U (b_tok b)) l); [try (intros [= <-]; reflexivity)|] end; [|intros [= <-]; reflexivity].
  rewrite (get_token_view _ _ (k + 1) V). destruct (nth_error bs (k + 1)) as [b1|]; cbn [option_map]; [|discriminate].
  destruct (mem_str _ ["IN"; "LIKE"; "BETWEEN"]); [intros [= <-]; reflexivity|].
  destruct (mem_str _ ["ENFORCED"]); [intros [= <-]; reflexivity|discriminate].
Qed.
Lemma decides_prec k x e bs c n v : prec_in U bs k = Some c -> env_get x e = Some (VNum n) -> N.ltb c n = v -> decides U (CPrecLt k x) e bs v.
Proof. intros P G <- s V. cbn [eval_cond]. unfold bind. rewrite (prec_view _ _ _ _ V P), G. reflexivity. Qed.
Lemma counts_prec k e bs c : prec_in U bs k = Some c -> counts U (NumPrec k) e bs c.
Proof. intros P s V. cbn [eval_num]. apply (prec_view _ _ _ _ V P). Qed.
Lemma prec_in_S b bs k : prec_in U (b :: bs) (S k) = prec_in U bs k. Proof. reflexivity. Qed.

(* ----- tokens ahead ----- *)
Lemma tok_at_0 b bs : tok_at (b :: bs) 0 = Some (b_tok b). Proof. reflexivity. Qed.
Lemma tok_at_S b bs k : tok_at (b :: bs) (S k) = tok_at bs k. Proof. reflexivity. Qed.

(* ----- known words ----- *)
Lemma fits_exactly b w : is_word U b w -> fits_known U (Among [w]) (b_tok b).
Proof. unfold is_word, word. cbn [fits_known]. intros ->. unfold mem_pats. cbn [existsb]. now rewrite (proj2 (str_eqb_eq _ _) eq_refl). Qed.
Lemma fits_among b ws : word_in U b ws -> fits_known U (Among ws) (b_tok b).
Proof.
  intros (w & I & E). cbn [fits_known]. unfold mem_pats. apply existsb_exists. exists w. split; [exact I|]. apply str_eqb_eq. exact E.
Qed.
Lemma among_word b ws : fits_known U (Among ws) (b_tok b) -> word_in U b ws.
Proof. cbn [fits_known]. unfold mem_pats. intro H. apply existsb_exists in H as (w & I & E). apply str_eqb_eq in E. exists w. now split. Qed.
Lemma fits_avoids b ws : ~ word_in U b ws -> fits_known U (Avoids ws) (b_tok b).
Proof.
  intros N. cbn [fits_known]. destruct (mem_pats _ ws) eqn:E; [|reflexivity]. elim N. now apply among_word.
Qed.
Lemma fits_weaken kn kn' t : fits_known U kn t ->
  match kn' with Avoids ws => known_in kn ws = Some false | Among ws => known_in kn ws = Some true end -> fits_known U kn' t.
Proof. destruct kn'; intros F K; cbn [fits_known]; eapply known_in_ok; eauto. Qed.

(* a word that is not a name *)
Definition not_name (w : string) : bool :=
  match s_ w with
  | [] => true
  | c :: _ => negb (N.eqb c 96) && (existsb (String.eqb w) KEYWORDS || negb (ident_start c))
  end.
Lemma ident_upper c : ident_start c = true -> is_ascii c = true /\ ident_start (upper_ascii c) = true.
Proof.
  intro H. assert (A : is_ascii c = true).
  { unfold ident_start, is_letter_ascii, is_lower_ascii, is_upper_ascii, in_range, is_ascii in *. apply N.ltb_lt.
    repeat match goal with
      | H : _ || _ = true |- _ => apply orb_prop in H as [H|H]
      | H : _ && _ = true |- _ => apply andb_prop in H as [? ?]
      | H : N.leb _ _ = true |- _ => apply N.leb_le in H
      | H : N.eqb _ _ = true |- _ => apply N.eqb_eq in H end; lia. }
  split; [exact A|].
  assert (F : forallb (fun n => implb (ident_start n) (ident_start (upper_ascii n))) (map N.of_nat (seq 0 128)) = true)
    by (vm_compute; reflexivity).
  rewrite forallb_forall in F. specialize (F c). rewrite H in F. apply F. apply in_map_iff. exists (N.to_nat c).
  split; [apply N2Nat.id|]. apply in_seq. unfold is_ascii in A. apply N.ltb_lt in A. lia.
Qed.
Lemma upper_first t w : upper_literal U t = s_ w -> forall c r, literal t = c :: r -> is_ascii c = true ->
  exists r', s_ w = upper_ascii c :: r'.
Proof.
  intros E c r L A. unfold upper_literal in E. rewrite L in E. unfold to_uppercase in E. cbn [flat_map] in E.
  rewrite (proj2 HU c A) in E. cbn [app] in E. eauto.
Qed.
Lemma not_identifier t w : upper_literal U t = s_ w -> not_name w = true -> is_identifier U t = false.
Proof.
  intros E Nn. unfold is_identifier. destruct (quoted_by 96 t) eqn:Q.
  - exfalso. unfold quoted_by in Q. destruct (Nat.ltb _ _); [discriminate|]. apply andb_prop in Q as [Q _].
    destruct (literal t) as [|c r] eqn:L; [discriminate|]. cbn [first_char opt_is] in Q. apply N.eqb_eq in Q. subst c.
    destruct (upper_first t w E 96%N r L eq_refl) as (r' & W). unfold not_name in Nn. rewrite W in Nn. discriminate.
  - destruct (is_reserved_keyword U t) eqn:R; [reflexivity|]. destruct (literal t) as [|c r] eqn:L; [reflexivity|].
    destruct (ident_start c) eqn:I; [|reflexivity]. exfalso. destruct (ident_upper c I) as [A I'].
    destruct (upper_first t w E c r L A) as (r' & W). unfold not_name in Nn. rewrite W in Nn. apply andb_prop in Nn as [_ Nn].
    rewrite I', orb_false_r in Nn. apply existsb_exists in Nn as (x & J & X). apply String.eqb_eq in X. subst x.
    enough (Y : is_reserved_keyword U t = true) by congruence. unfold is_reserved_keyword. apply existsb_exists. exists w. split; [exact J|].
    apply str_eqb_eq. exact E.
Qed.
Lemma among_not_identifier t ws : fits_known U (Among ws) t -> forallb not_name ws = true -> is_identifier U t = false.
Proof.
  cbn [fits_known]. unfold mem_pats. intros F A. apply existsb_exists in F as (w & I & E). apply str_eqb_eq in E.
  rewrite forallb_forall in A. eapply not_identifier; eauto.
Qed.
Lemma decides_not_identifier k e bs t ws : tok_at bs k = Some t -> fits_known U (Among ws) t -> forallb not_name ws = true ->
  decides U (CTok k TIdentifier) e bs false.
Proof.
  intros T F A. eapply decides_tok; [exact T|]. intro s. cbn [eval_tpred]. unfold ret. now rewrite (among_not_identifier t ws F A).
Qed.
Lemma decides_identifier k e bs t : tok_at bs k = Some t -> is_identifier U t = true -> decides U (CTok k TIdentifier) e bs true.
Proof. intros T F. eapply decides_tok; [exact T|]. intro s. cbn [eval_tpred]. unfold ret. now rewrite F. Qed.
Lemma decides_root x ty e bs n : env_get x e = Some (VNode n) -> dot_root_type n = ty -> decides U (CDotRootIs x ty) e bs true.
Proof. intros G <- s V. rewrite (decides_dot U x _ e bs n G s V). destruct (dot_root_type n); reflexivity. Qed.
Lemma decides_not_literal k w e bs t kn : tok_at bs k = Some t -> fits_known U kn t -> ascii_word w = true ->
  known_in kn [up_string w] = Some false -> decides U (CTok k (TLiteralIs w)) e bs false.
Proof.
  intros T F A K. eapply decides_tok; [exact T|]. intro s. cbn [eval_tpred]. unfold ret. f_equal.
  destruct (str_eqb (literal t) (s_ w)) eqn:E; [|reflexivity]. apply str_eqb_eq in E. apply known_in_ok with (t := t) (U := U) in K; [|exact F].
  rewrite <- (is_mem U HU w t A) in K. unfold is_ in K. unfold upper_literal in K. rewrite E in K.
  enough (X : str_eqb (to_uppercase U (s_ w)) (to_uppercase U (s_ w)) = true) by congruence. now apply str_eqb_eq.
Qed.
Lemma passes_strvar x w u kn t args e bs vs e' v : env_get x e = Some (VStr u) -> u = upper_literal U t -> fits_known U kn t -> known_in kn [w] = Some v ->
  passes U args e bs vs e' -> passes U (ABool (BStrIs x w) :: args) e bs (VBool v :: vs) e'.
Proof.
  intros G -> F K P. eapply passes_bool; [|exact P]. cbn [eval_bexp]. rewrite G. f_equal. rewrite <- (known_in_ok U _ _ _ _ F K).
  unfold mem_pats. cbn [existsb]. now rewrite orb_false_r.
Qed.
Lemma identifier_avoids t ws : is_identifier U t = true -> forallb not_name ws = true -> fits_known U (Avoids ws) t.
Proof.
  intros I A. cbn [fits_known]. destruct (mem_pats (upper_literal U t) ws) eqn:E; [|reflexivity].
  rewrite (among_not_identifier t ws E A) in I. discriminate.
Qed.
Definition operator_words : list string :=
  ["("; "["; "."; "*"; "/"; "||"; "+"; "-"; "<<"; ">>"; "&"; "^"; "|"; "="; "<"; ">"; "<="; ">="; "!="; "<>"; "LIKE"; "BETWEEN"; "IN"; "IS";
   "NOT"; "AND"; "OR"; "=>"].
Lemma prec_avoids bs t : tok_at bs 0 = Some t -> fits_known U (Avoids operator_words) t -> prec_in U bs 0 = Some usize_max.
Proof.
  intros T A. unfold prec_in. rewrite T.
  assert (X : forall ws, forallb (fun w => existsb (String.eqb w) operator_words) ws = true -> mem_str (upper_literal U t) ws = false).
  { intros ws W. destruct (mem_str (upper_literal U t) ws) eqn:E; [|reflexivity]. unfold mem_str in E. apply existsb_exists in E as (w & I & E).
    apply str_eqb_eq in E. rewrite forallb_forall in W. specialize (W w I). apply existsb_exists in W as (w' & I' & E'). apply String.eqb_eq in E'. subst w'.
    cbn [fits_known] in A. unfold mem_pats in A. enough (existsb (fun p => str_eqb (upper_literal U t) (s_ p)) operator_words = true) by congruence.
    apply existsb_exists. exists w. split; [exact I'|]. apply str_eqb_eq. exact E. }
  unfold prec_of. rewrite !X by reflexivity. reflexivity.
Qed.
Lemma prec_name bs t : tok_at bs 0 = Some t -> is_identifier U t = true -> prec_in U bs 0 = Some usize_max.
Proof. intros T I. eapply prec_avoids; [exact T|]. apply identifier_avoids; [exact I|reflexivity]. Qed.

(* words that cannot be read together with the token before *)
Definition plain (w : string) : bool :=
  negb (existsb (String.eqb w) ("EXCEPT" :: "REPLACE" :: string_prefixes)) &&
  match s_ w with c :: _ => negb (N.eqb c 34) && negb (N.eqb c 39) | [] => true end.
Lemma not_string t w : upper_literal U t = s_ w -> match s_ w with c :: _ => negb (N.eqb c 34) && negb (N.eqb c 39) | [] => true end = true ->
  is_string t = false.
Proof.
  intros E P. unfold is_string.
  assert (X : forall q, (q = 34 \/ q = 39)%N -> quoted_by q t = false).
  { intros q Q. destruct (quoted_by q t) eqn:H; [|reflexivity]. exfalso. destruct (literal t) as [|c r] eqn:L.
    - unfold quoted_by in H. rewrite L in H. discriminate.
    - apply quoted_hd with (c := c) (l := r) in H; [|exact L]. subst c.
      assert (A : is_ascii q = true) by (destruct Q as [-> | ->]; reflexivity).
      destruct (upper_first t w E q r L A) as (r' & W). rewrite W in P. destruct Q as [-> | ->]; discriminate. }
  now rewrite !X by auto.
Qed.
Lemma among_not_string t ws : fits_known U (Among ws) t -> forallb plain ws = true -> is_string t = false.
Proof.
  cbn [fits_known]. unfold mem_pats. intros F A. apply existsb_exists in F as (w & I & E). apply str_eqb_eq in E.
  rewrite forallb_forall in A. specialize (A w I). apply andb_prop in A as [_ A]. eapply not_string; eauto.
Qed.
Lemma no_fuse a b ws : fits_known U (Among ws) (b_tok b) -> forallb plain ws = true -> ~ fuses U a b.
Proof.
  intros F A. pose proof (among_not_string _ ws F A) as N. apply among_word in F as (w & I & W).
  rewrite forallb_forall in A. specialize (A w I). apply andb_prop in A as [A _]. apply negb_true_iff in A.
  assert (X : forall ws', word_in U b ws' -> forallb (fun x => existsb (String.eqb x) ("EXCEPT" :: "REPLACE" :: string_prefixes)) ws' = true -> False).
  { intros ws' (w' & I' & W') S. unfold is_word in *. rewrite W in W'.
    rewrite forallb_forall in S. specialize (S w' I'). apply existsb_exists in S as (y & J & S). apply String.eqb_eq in S. subst y.
    enough (existsb (String.eqb w) ("EXCEPT" :: "REPLACE" :: string_prefixes) = true) by congruence. apply existsb_exists. exists w'.
    split; [exact J|]. apply String.eqb_eq. now apply s_inj. }
  intros [[_ H]|[[_ H]|[_ [H|H]]]]; try congruence; (eapply X; [exact H|reflexivity]).
Qed.
Lemma fits_plain b ws : word_in U b ws -> forall a, forallb plain ws = true -> ~ fuses U a b.
Proof. intros W a P. eapply no_fuse; [apply fits_among; exact W|exact P]. Qed.
Lemma decides_string k e bs t v : tok_at bs k = Some t -> is_string t = v -> decides U (CTok k TString) e bs v.
Proof. intros T F. eapply decides_tok; [exact T|]. intro s. cbn [eval_tpred]. unfold ret. now rewrite F. Qed.
Lemma decides_literal k w e bs b : tok_at bs k = Some (b_tok b) -> literally b w -> decides U (CTok k (TLiteralIs w)) e bs true.
Proof.
  intros T F. eapply decides_tok; [exact T|]. intro s. cbn [eval_tpred]. unfold ret, literally in *. rewrite F. f_equal. now apply str_eqb_eq.
Qed.
Lemma literal_word b w : literally b w -> ascii_word w = true -> is_word U b (up_string w).
Proof.
  unfold literally, is_word, word. intros L A. unfold upper_literal. rewrite L. apply str_eqb_eq.
  pose proof (is_mem U HU w (b_tok b) A) as M. unfold is_, upper_literal in M. rewrite L in M.
  rewrite (proj2 (str_eqb_eq _ _) eq_refl) in M. unfold mem_pats in M. cbn [existsb] in M. rewrite orb_false_r in M. now symmetry.
Qed.

(* a reserved word that is written like a function *)
Definition lettered (w : string) : bool :=
  match s_ w with c :: _ => Nat.eqb (tag c) 2 | [] => false end && negb (existsb (String.eqb w) ["TRUE"; "FALSE"; "NULL"]).
Lemma classify_function b lp ws : word_in U b ws -> forallb lettered ws = true -> literally lp "(" -> classify U (b_tok b) (Some (b_tok lp)) = Some N_Identifier.
Proof.
  intros (w & I & W) A L. rewrite forallb_forall in A. specialize (A w I). unfold lettered in A. apply andb_prop in A as [A B].
  unfold is_word, word in W. unfold classify. destruct (is_identifier U (b_tok b)); [reflexivity|].
  apply negb_true_iff in B.
  assert (X : forall v, In v ["TRUE"; "FALSE"; "NULL"] -> str_eqb (upper_literal U (b_tok b)) (s_ v) = false).
  { intros v Iv. rewrite W. destruct (str_eqb (s_ w) (s_ v)) eqn:E; [|reflexivity]. apply str_eqb_eq, s_inj in E. subst v.
    enough (existsb (String.eqb w) ["TRUE"; "FALSE"; "NULL"] = true) by congruence. apply existsb_exists. exists w. split; [exact Iv|apply String.eqb_refl]. }
  destruct (s_ w) as [|k r'] eqn:Ew; [discriminate|]. apply Nat.eqb_eq in A.
  destruct (literal (b_tok b)) as [|c r] eqn:El; [unfold upper_literal in W; rewrite El in W; discriminate|].
  assert (T : tag c = 2 \/ tag c = 8) by (unfold upper_literal in W; rewrite El in W; eapply (upper_hd U HU); eauto).
  assert (Nn : is_numeric (b_tok b) = false).
  { destruct (is_numeric (b_tok b)) eqn:E; [|reflexivity]. apply is_numeric_spec in E. rewrite El in E. apply number_tag in E. destruct T; congruence. }
  assert (Ns : forall q, (q = 34 \/ q = 39)%N -> quoted_by q (b_tok b) = false).
  { intros q Q. destruct (quoted_by q (b_tok b)) eqn:H; [|reflexivity]. apply quoted_hd with (c := c) (l := r) in H; [|exact El]. subst c.
    destruct Q as [-> | ->], T as [T|T]; vm_compute in T; discriminate T. }
  rewrite Nn. unfold is_string. rewrite !Ns by auto. unfold is_boolean. rewrite !X by (cbn; tauto). unfold is_parameter, is_template. rewrite El.
  destruct (N.eqb_spec c 63) as [->|_]; [destruct T as [T|T]; vm_compute in T; discriminate T|].
  destruct (N.eqb_spec c 64) as [->|_]; [destruct T as [T|T]; vm_compute in T; discriminate T|].
  destruct (N.eqb_spec c 123) as [->|_]; [destruct T as [T|T]; vm_compute in T; discriminate T|]. cbn [orb].
  unfold literally in L. rewrite L. reflexivity.
Qed.
Lemma makes_function e b lp bs ws : word_in U b ws -> forallb lettered ws = true -> literally lp "(" ->
  makes U (EConstruct N_Unknown) e (b :: lp :: bs) (made N_Identifier b []) e (b :: lp :: bs).
Proof.
  intros W A L. apply makes_construct. unfold constructed. cbn [tok_at nth_error option_map].
  rewrite (classify_function b lp ws W A L). cbn [option_map]. now rewrite decorate_made.
Qed.
End WithUnicode.

(* ----- tactics ----- *)
(* compute with the environment, leaving nodes alone *)
Ltac envc := cbv [env_get env_set env_leave String.eqb Ascii.eqb Bool.eqb eqb List.length skipn Nat.sub Nat.eqb combine f_params f_body map_insert eval_bexp option_map negb].
Ltac envr := solve [envc; reflexivity].
(* the token [k] ahead; [ahead] is redefined as more phrases are known to begin with a token *)
Ltac ahead := fail.
Ltac tok := repeat rewrite tok_at_S; first [apply tok_at_0 | ahead].
Ltac nonempty := first [discriminate | assumption | let H := fresh in intro H; repeat (apply app_eq_nil in H as [_ H]); discriminate].
(* what is known of the token *)
Ltac by_known HU L :=
  match goal with K : fits_known ?U0 ?kn0 ?t0 |- _ =>
    solve [eapply L with (kn := kn0); try exact HU; [tok | exact K | reflexivity ..]]
  end.
Ltac call := fail.
Ltac decide_ HU :=
  lazymatch goal with
  | |- decides _ (CNot _) _ _ _ => eapply decides_not; decide_ HU
  | |- decides _ (CAnd _ _) _ _ _ => eapply decides_and; [decide_ HU | cbv iota; first [reflexivity | decide_ HU]]
  | |- decides _ (COr _ _) _ _ _ => eapply decides_or; [decide_ HU | cbv iota; first [reflexivity | decide_ HU]]
  | |- decides _ (CVar _) _ _ _ => eapply decides_var; envr
  | |- decides _ (CLenIs1 _) _ _ _ => eapply decides_len; envr
  | |- decides _ (CTypeIs _ _) _ _ _ => eapply decides_type; envr
  | |- decides _ (CTok _ (TIs _)) _ _ _ => by_known HU decides_is
  | |- decides _ (CTok _ (TIn _)) _ _ _ => by_known HU decides_in
  | |- decides _ (CDotRootIs _ _) _ _ _ => eapply decides_root; [envr | eassumption]
  | |- decides _ (CTok _ (TLiteralIs _)) _ _ _ => first [eapply decides_literal; [tok | eassumption] | by_known HU decides_not_literal]
  | |- decides _ (CTok _ TString) _ _ _ =>
      first [eapply decides_string; [tok | eassumption] |
      match goal with K : fits_known ?U0 (Among ?ws0) ?t0 |- _ =>
        solve [eapply decides_string; [tok | eapply among_not_string with (ws := ws0); [exact HU | exact K | reflexivity]]] end]
  | |- decides _ (CTok _ (TUpperIs _)) _ _ _ => by_known HU decides_upperis
  | |- decides _ (CTok _ (TInVar _)) _ _ _ =>
      match goal with K : fits_known ?U0 ?kn0 ?t0 |- _ =>
        solve [eapply decides_invar with (kn := kn0); try exact HU; [envr | tok | exact K | reflexivity ..]] end
  | |- decides _ (CTok _ TIdentifier) _ _ _ =>
      first [eapply decides_identifier; [tok | eassumption] |
      match goal with K : fits_known ?U0 (Among ?ws0) ?t0 |- _ =>
        solve [eapply decides_not_identifier with (ws := ws0); try exact HU; [tok | exact K | reflexivity]] end]
  end.
Ltac num := first [apply counts_const | apply counts_max | eapply counts_var; envr | eapply counts_prec; eassumption].
Ltac args :=
  lazymatch goal with
  | |- passes _ [] _ _ _ _ => apply passes_nil
  | |- passes _ (ABool (BStrIs _ _) :: _) _ _ _ _ =>
      match goal with K : fits_known ?U0 ?kn0 ?t0 |- _ =>
        eapply passes_strvar with (kn := kn0) (t := t0); [envr | reflexivity | exact K | reflexivity | args] end
  | |- passes _ (ABool _ :: _) _ _ _ _ => eapply passes_bool; [envc; reflexivity | args]
  | |- passes _ (ANum _ :: _) _ _ _ _ => eapply passes_num; [num | args]
  | |- passes _ (AStrs _ :: _) _ _ _ _ => eapply passes_strs; args
  | |- passes _ (ANode _ :: _) _ _ _ _ => eapply passes_node; [envr | envr | envc; args]
  end.
Ltac mk :=
  lazymatch goal with
  | |- makes _ (EConstruct _) _ _ _ _ _ => apply makes_word; reflexivity
  | |- makes _ (EEmpty _) _ _ _ _ _ => apply makes_empty
  | |- makes _ (EVar _) _ _ _ _ _ => eapply makes_var; envr
  | |- makes _ (EPop _) _ _ _ _ _ => eapply (makes_pop _ _ _ _ []); envr
  | |- makes _ (ECall _ _) _ _ _ _ _ => eapply makes_call; [args | call]
  end.
Ltac mkl :=
  lazymatch goal with
  | |- lists _ XNew _ _ _ _ _ => apply lists_new
  | |- lists _ (XVar _) _ _ _ _ _ => eapply lists_var; envr
  | |- lists _ (XCall _ _) _ _ _ _ _ => eapply lists_call; [args | call]
  | |- lists _ (XList []) _ _ _ _ _ => apply lists_nil
  | |- lists _ (XList (_ :: _)) _ _ _ _ _ => eapply lists_cons; [mk | envc; mkl]
  end.
Ltac norm := cbv [negb]; cbv iota beta; envc; cbn [app].
(* a rule for the command at hand, tried first *)
Ltac special := fail.
Ltac step HU :=
  first [special |
  lazymatch goal with
  | |- steps _ Skip _ _ _ _ _ => apply steps_skip
  | |- steps _ (Seq _ _) _ _ (Ret _) _ _ => first [eapply steps_seq_ret; solve [step HU] | eapply steps_seq; [step HU | norm; step HU]]
  | |- steps _ (Seq _ _) _ _ _ _ _ => eapply steps_seq; [step HU | norm; step HU]
  | |- steps _ Next _ _ _ _ _ => apply steps_next; nonempty
  | |- steps _ (If _ _ _) _ _ _ _ _ => eapply steps_eq; [eapply steps_if; [decide_ HU | norm; step HU] | envr]
  | |- steps _ (CaseUpper _ _ _ _) _ _ _ _ _ =>
      eapply steps_eq; [match goal with K : fits_known _ ?kn0 _ |- _ =>
        eapply steps_case_known with (kn := kn0); [tok | exact K | reflexivity |] end; norm; step HU | envr]
  | |- steps _ (CaseVar _ _ _ _) _ _ _ _ _ =>
      eapply steps_eq; [match goal with K : fits_known _ ?kn0 _ |- _ =>
        eapply steps_casevar; [envr | eapply known_in_ok; [exact K | reflexivity] |] end; norm; step HU | envr]
  | |- steps _ (LetNode _ _) _ _ _ _ _ => eapply steps_let; mk
  | |- steps _ (SetNode _ _) _ _ _ _ _ => eapply steps_set; [mk | envr]
  | |- steps _ (Push _ _ _) _ _ _ _ _ =>
      first [eapply steps_push_made; [mk | envr | reflexivity | envc; reflexivity | envr] | eapply steps_push_kid; [mk | envr | envr]]
  | |- steps _ (PushVec _ _ _) _ _ _ _ _ => 
      first [eapply steps_pushvec_made; [mkl | envr | reflexivity | envc; reflexivity | envr] | eapply steps_pushvec_kid; [mkl | envr | envr]]
  | |- steps _ (LetVec _ _) _ _ _ _ _ => eapply steps_letvec; mkl
  | |- steps _ (SetVec _ _) _ _ _ _ _ => eapply steps_setvec; [mkl | envr]
  | |- steps _ (VecPush _ _) _ _ _ _ _ => eapply steps_vecpush; [mk | envr | envr]
  | |- steps _ (SetType _ _) _ _ _ _ _ => eapply steps_settype; [envr | rewrite ?settype_made; envr]
  | |- steps _ (Declare _) _ _ _ _ _ => apply steps_declare
  | |- steps _ (LetBool _ _) _ _ _ _ _ => eapply steps_letbool; decide_ HU
  | |- steps _ (LetNum _ _) _ _ _ _ _ => eapply steps_letnum; num
  | |- steps _ (SetNum _ _) _ _ _ _ _ => eapply steps_setnum; [num | envr]
  | |- steps _ (LetUpper _ _) _ _ _ _ _ => eapply steps_letupper; tok
  | |- steps _ (LetStrs _ _) _ _ _ _ _ => apply steps_letstrs
  | |- steps _ Break _ _ _ _ _ => apply steps_break
  | |- steps _ (Return _) _ _ _ _ _ => eapply steps_return; mk
  | |- steps _ (ReturnVec _) _ _ _ _ _ => eapply steps_returnvec; mkl
  | |- _ => idtac
  end].
