(* parse_expr on each form of expression of GrammarSpec.v. *)
From Verif Require Import Chars Token LexClasses Cst Core MiniRust Program Bundles ParserView ParserGeneric ShapeSound GroupingSpec GroupingExpr
  Forward GrammarSpec GrammarTactics GrammarExpr.
Local Open Scope string_scope.
Local Open Scope list_scope.
Local Notation length := List.length.

Section WithUnicode.
Context (U : unicode) (HU : ascii_faithful U).
Local Notation steps := (steps U).
Local Notation calls := (calls U).
Local Notation is_word := (is_word U).
Local Notation word_in := (word_in U).
Local Notation tree := (tree U).
Local Notation wf := (wf U).
Local Notation loosest_left := (loosest_left U).
Local Notation loosest_right := (loosest_right U).
Local Notation fits := (fits_known U).
Local Notation prec_in := (prec_in U).
Local Notation reach := (reach U).
Local Notation after := (after U).
Local Notation stops := (stops U).
Ltac ahead ::= first [apply tok_yield].


(* ----- what an expression begins with ----- *)
Lemma reserved_avoided b : operand U b -> fits (Avoids reserved_here) (b_tok b).
Proof. intros [N _]. now apply fits_avoids. Qed.
Lemma name_avoided b : name U b -> fits (Avoids reserved_here) (b_tok b).
Proof. intros [N _]. now apply fits_avoids. Qed.
Lemma name_operand b : name U b -> operand U b.
Proof. intros [N K]. split; [exact N|]. unfold kind. rewrite K. discriminate. Qed.
Lemma name_kind b : name U b -> kind U (b_tok b) = Some N_Identifier.
Proof. intros [N K]. unfold kind. now rewrite K. Qed.
Lemma dotted_right e : dotted U e -> (loosest_right e <= 1)%N.
Proof. destruct e; cbn [dotted GrammarSpec.loosest_right]; try contradiction; lia. Qed.
Lemma dotted_wf e : dotted U e -> wf e.
Proof.
  induction e; cbn [dotted GrammarSpec.wf]; try contradiction; [apply name_operand|]. intros (P & D & F). repeat split; auto.
  unfold fits_left. pose proof (dotted_right e P). lia.
Qed.
Definition never_first : list string :=
  ["RANGE"; "TABLE"; "MODEL"; "WITH"; "SELECT"; ")"; "]"; ","; ";"; "|>"; "DISTINCT"; "ALL"; "ANY"; "SOME";
   "AS"; "WHEN"; "ELSE"; "END"; "FROM"; "WHERE"; "GROUP"; "HAVING"; "QUALIFY"; "WINDOW"; "ORDER"; "LIMIT"; "UNION"; "INTERSECT";
   "EXCEPT"; "ROLLUP"; "CUBE"; "GROUPING"; "UNBOUNDED"; "CURRENT"; "BETWEEN"; "RECURSIVE"].
Lemma function_first f lp : function_name U f lp -> fits (Avoids never_first) (b_tok (first f)).
Proof.
  assert (B : forall e, dotted U e -> fits (Avoids never_first) (b_tok (first e))).
  { induction e; cbn [dotted first]; try contradiction.
    - intro N. eapply fits_weaken; [now apply name_avoided|reflexivity].
    - intros (P & _). auto. }
  intro F. destruct f; try (destruct F as [F _]; exact (B _ F)).
  destruct F as [F _]. cbn [first]. eapply fits_weaken; [apply fits_among; exact F|reflexivity].
Qed.
Lemma first_avoids e : wf e -> fits (Avoids never_first) (b_tok (first e)).
Proof.
  assert (A : forall b w, is_word b w -> known_in (Among [w]) never_first = Some false -> fits (Avoids never_first) (b_tok b)).
  { intros b w W K. eapply fits_weaken; [exact (fits_word U b w W)|exact K]. }
  assert (A' : forall b ws, word_in b ws -> known_in (Among ws) never_first = Some false -> fits (Avoids never_first) (b_tok b)).
  { intros b ws W K. eapply fits_weaken; [exact (fits_among U b ws W)|exact K]. }
  induction e; cbn [GrammarSpec.wf first]; intro W; repeat match goal with H : _ /\ _ |- _ => destruct H end; auto;
    try (eapply A; [eassumption|reflexivity]); try (eapply A'; [eassumption|reflexivity]); try (eapply function_first; eassumption); try contradiction.
  - eapply fits_weaken; [now apply reserved_avoided|reflexivity].
  - destruct H0 as (q & P & _). destruct (prefix_known U b q P) as [[_ K]|[_ K]]; (eapply fits_weaken; [exact K|reflexivity]).
Qed.

(* ----- the first token ----- *)
Lemma fits_either b ws ws' : fits (Among (ws ++ ws')) (b_tok b) -> fits (Among ws) (b_tok b) \/ fits (Among ws') (b_tok b).
Proof. cbn [fits_known]. unfold mem_pats. rewrite existsb_app. intro H. now apply orb_prop in H. Qed.
Lemma H1_unknown p al od b b' bs : exists ty, steps H1 (frame p al od VUndef) (b :: b' :: bs) Norm (frame p al od (VNode (made ty b []))) (b :: b' :: bs).
Proof.
  destruct (makes_unknown U (frame p al od VUndef) b b' bs) as (ty & M). exists ty. unfold H1, frame in *. cbn [parse_expr f_body].
  eapply steps_eq; [eapply (steps_if U); [decide_ HU|]; norm; eapply steps_set; [exact M|envr]|envr].
Qed.
Lemma H1_operand p al od b bs ty : kind U (b_tok b) = Some ty ->
  steps H1 (frame p al od VUndef) (b :: bs) Norm (frame p al od (VNode (made ty b []))) (b :: bs).
Proof.
  intro K. unfold H1, frame in *. cbn [parse_expr f_body]. 
  eapply steps_eq; [eapply (steps_if U); [decide_ HU|]; norm; eapply steps_set; [exact (makes_operand U _ b bs ty K)|envr]|envr].
Qed.
Ltac head2 := unfold H2, frame; cbn [parse_expr f_body].

(* ----- tokens read together ----- *)
Lemma unfused_type a f : ~ fuses U a f -> fits (Among literal_types) (b_tok a) -> is_string (b_tok f) = false /\ fits (Avoids string_prefixes) (b_tok f).
Proof.
  intros N K. apply among_word in K. split.
  - destruct (is_string (b_tok f)) eqn:E; [|reflexivity]. elim N. right. right. auto.
  - apply fits_avoids. intro W. apply N. right. right. auto.
Qed.
Lemma unfused_prefix a f : ~ fuses U a f -> fits (Among string_prefixes) (b_tok a) -> is_string (b_tok f) = false.
Proof. intros N K. apply among_word in K. destruct (is_string (b_tok f)) eqn:E; [|reflexivity]. elim N. right. left. auto. Qed.
Lemma unfused_star a f : ~ fuses U a f -> fits (Among ["*"]) (b_tok a) -> fits (Avoids ["EXCEPT"; "REPLACE"]) (b_tok f).
Proof. intros N K. apply among_word in K. apply fits_avoids. intro W. apply N. left. auto. Qed.
Lemma fits_or b ws : fits (Among ws) (b_tok b) \/ fits (Avoids ws) (b_tok b).
Proof. cbn [fits_known]. destruct (mem_pats _ ws); auto. Qed.
Lemma atom_head p al od b f r v : fits (Avoids reserved_here) (b_tok b) -> ~ fuses U b f ->
  steps H2 (frame p al od (VNode v)) (b :: f :: r) Norm (frame p al od (VNode v)) (b :: f :: r).
Proof.
  intros F N. destruct (fits_or b literal_types) as [K|K].
  - destruct (unfused_type b f N K) as [S Kf]. head2. step HU.
  - destruct (fits_or b string_prefixes) as [K'|K'].
    + pose proof (unfused_prefix b f N K') as S. head2. step HU.
    + head2. step HU.
Qed.
Lemma reach_atom b : operand U b -> reach (Atom b).
Proof.
  intros O p al od rest ct e2 bs2 L A S. cbn [yield lastb GrammarSpec.tree app] in *.
  destruct O as [O K]. destruct (kind U (b_tok b)) as [ty|] eqn:Ek; [|contradiction].
  eapply steps_seq; [exact (H1_operand p al od b rest ty Ek)|]. eapply steps_seq; [|exact S].
  destruct A as (f & r & c & -> & _ & N & _). apply atom_head; [now apply fits_avoids|exact N].
Qed.

Lemma after_cons e rest : after e rest -> exists f r, rest = f :: r /\ fits (Avoids suffix_words) (b_tok f).
Proof. intros (f & r & _ & E & K & _). eauto. Qed.
Lemma after_apart e rest : after e rest -> exists f r, rest = f :: r /\ fits (Avoids suffix_words) (b_tok f) /\ ~ fuses U (lastb e) f.
Proof. intros (f & r & _ & E & K & N & _). eauto. Qed.
Lemma reach_head e b r : yield e = b :: r ->
  (forall ty p al od rest, after e rest -> steps H2 (frame p al od (VNode (made ty b []))) (b :: r ++ rest) Norm (frame p al od (VNode (tree e))) (lastb e :: rest)) ->
  reach e.
Proof.
  intros Y H p al od rest ct e2 bs2 L A S. rewrite Y. cbn [app]. pose proof A as A'. apply after_cons in A' as (f & r0 & -> & _).
  assert (X : exists b' bs, r ++ f :: r0 = b' :: bs) by (destruct r; cbn; eauto). destruct X as (b' & bs & X).
  pose proof (H1_unknown p al od b b' bs) as H1'. rewrite <- X in H1'. destruct H1' as [ty H1'].
  eapply steps_seq; [exact H1'|]. eapply steps_seq; [|exact S]. now apply H.
Qed.
Lemma reach_star b : is_word b "*" -> reach (Star b).
Proof.
  intros W. apply reach_head with (b := b) (r := []); [reflexivity|]. intros ty p al od rest A.
  apply after_apart in A as (f & r & -> & K & N). apply fits_word in W. apply unfused_star in N; [|exact W]. cbn [app lastb GrammarSpec.tree]. head2. step HU.
Qed.

(* ----- prefix operators ----- *)
Ltac call ::= eassumption.
(* the operand of an operator at level [q], when a phrase that ends with it comes before [rest] *)
Lemma operand_last e' q e od rest : reach e -> (loosest_left e < q)%N -> (2 <= q)%N -> loosest_right e' = N.max q (loosest_right e) -> lastb e' = lastb e -> after e' rest ->
  calls F_parse_expr [VNum (100 + q); VBool false; VBool false; VBool false; VBool od] (yield e ++ rest) (VNode (tree e)) (lastb e :: rest).
Proof.
  intros R F Q Er El A. destruct A as (f & r & c & -> & A1 & A2 & _ & A4 & A5 & A6). rewrite Er in A5, A6. rewrite El in A2.
  apply operand_call; try assumption; [lia| |].
  - exists f, r, c. repeat split; try assumption; [|lia|].
    + intros _. apply (prec_paren U f r c A4). lia.
    + intros _. apply A6. lia.
  - exists f, r, c. repeat split; try assumption; [|lia]. apply A6. lia.
Qed.
Lemma reach_prefix b e : reach e -> (exists q, prefix_level U b = Some q /\ fits_right U e q) -> reach (Prefix b e).
Proof.
  intros R (q & P & F). apply reach_head with (b := b) (r := yield e); [reflexivity|]. intros ty p al od rest A.
  assert (C : calls F_parse_expr [VNum (100 + q); VBool false; VBool false; VBool false; VBool true] (yield e ++ rest) (VNode (tree e)) (lastb e :: rest)).
  { apply operand_last with (e' := Prefix b e); try assumption; [|cbn [GrammarSpec.loosest_right]; now rewrite P|reflexivity].
    destruct (prefix_known U b q P) as [[-> _]|[-> _]]; lia. }
  apply after_cons in A as (f & r & -> & _). cbn [lastb GrammarSpec.tree].
  destruct (prefix_known U b q P) as [[-> K]|[-> K]]; cbn in C; head2; step HU.
Qed.

(* ----- literals with a type ----- *)
Lemma string_kind b : is_string (b_tok b) = true -> kind U (b_tok b) = Some N_StringLiteral.
Proof.
  intro S. pose proof (classes_exclusive U HU (b_tok b)) as X. unfold classes in X. cbn [filter] in X. rewrite S in X. unfold kind.
  destruct (is_identifier U (b_tok b)); [|destruct (is_numeric (b_tok b)); [|now rewrite S]].
  - destruct (is_numeric _), (is_boolean U _), (is_parameter _), (is_template _), (is_comment _); cbn in X; lia.
  - destruct (is_boolean U _), (is_parameter _), (is_template _), (is_comment _); cbn in X; lia.
Qed.
Lemma string_avoids b ws : is_string (b_tok b) = true -> forallb plain ws = true -> fits (Avoids ws) (b_tok b).
Proof. intros S A. cbn [fits_known]. destruct (mem_pats _ ws) eqn:E; [|reflexivity]. rewrite (among_not_string U HU _ ws E A) in S. discriminate. Qed.
Lemma string_operand b : is_string (b_tok b) = true -> operand U b.
Proof.
  intro S. split; [|now rewrite (string_kind b S)]. intro W.
  destruct (fits_or b ["EXCEPT"]) as [K|K].
  - apply among_word in K as (w & [<-|[]] & K). unfold GrammarSpec.is_word, word in K. rewrite (not_string U HU _ _ K eq_refl) in S. discriminate.
  - assert (X : fits (Avoids reserved_here) (b_tok b)); [|apply fits_among in W; cbn [fits_known] in W, X; congruence].
    cbn [fits_known]. destruct (mem_pats _ reserved_here) eqn:E; [|reflexivity]. apply fits_among in W.
    assert (Y : is_string (b_tok b) = false); [|congruence]. apply among_word in E as (w & I & Hw).
    eapply (not_string U HU); [exact Hw|]. repeat (destruct I as [<-|I]; [reflexivity|]). destruct I.
Qed.
Lemma string_apart a f : is_string (b_tok a) = true -> ~ fuses U a f.
Proof.
  intros S. assert (X : forall ws, forallb (fun w => match s_ w with c :: _ => negb (N.eqb c 34) && negb (N.eqb c 39) | [] => true end) ws = true -> ~ word_in a ws).
  { intros ws A (w & I & W). rewrite forallb_forall in A. rewrite (not_string U HU _ w W (A w I)) in S. discriminate. }
  intros [[H _]|[[H _]|[H _]]]; revert H; apply X; reflexivity.
Qed.
(* a string on its own, read with a precedence that no operator has *)
Lemma string_call p s rest : is_string (b_tok s) = true -> (p <= 101)%N -> stops p rest ->
  calls F_parse_expr [VNum p; VBool false; VBool false; VBool false; VBool true] (s :: rest) (VNode (made N_StringLiteral s [])) (s :: rest).
Proof.
  intros S L (f & r & c & -> & A1 & A2 & A3). eapply expr_body.
  eapply steps_seq; [exact (H1_operand p false true s (f :: r) _ (string_kind s S))|].
  eapply steps_seq; [apply atom_head; [apply reserved_avoided, string_operand, S|now apply string_apart]|].
  eapply steps_seq; [apply loop_ends; exists f, r, c; auto|]. apply (tail_ends U HU p). exists f, r, c; auto.
Qed.
Lemma prec_low f r c : prec_in (f :: r) 0 = Some c -> (101 <= c)%N.
Proof.
  unfold GroupingExpr.prec_in. cbn [tok_at nth_error option_map]. unfold prec_of.
  repeat match goal with |- context [if ?x then _ else _] => destruct x end;
    try (intros [= <-]; unfold usize_max; lia); cbn [tok_at nth_error option_map];
    destruct (tok_at (f :: r) (0 + 1)); try discriminate;
    repeat match goal with |- context [if ?x then _ else _] => destruct x end; try discriminate; intros [= <-]; unfold usize_max; lia.
Qed.
Lemma after_stops e rest p : after e rest -> loosest_right e <> 0%N -> (p <= 101)%N -> stops p rest.
Proof.
  intros (f & r & c & -> & A1 & A2 & A3 & A4 & A5 & A6) N L. exists f, r, c. repeat split; auto. pose proof (prec_low f r c A4). lia.
Qed.
Lemma reach_typed k s : word_in k (literal_types ++ string_prefixes) -> is_string (b_tok s) = true -> reach (Typed k s).
Proof.
  intros K S. apply reach_head with (b := k) (r := [s]); [reflexivity|]. intros ty p al od rest A.
  assert (C : forall p, (p <= 101)%N -> calls F_parse_expr [VNum p; VBool false; VBool false; VBool false; VBool true] (s :: rest) (VNode (made N_StringLiteral s [])) (s :: rest)).
  { intros p' L. apply string_call; [exact S|exact L|]. eapply after_stops; [exact A|discriminate|exact L]. }
  pose proof (C 2%N ltac:(lia)) as C2. pose proof (C 1%N ltac:(lia)) as C1. clear C.
  apply after_cons in A as (f & r & -> & _). cbn [lastb GrammarSpec.tree app]. apply fits_among in K.
  apply fits_either in K as [K|K]; head2; step HU.
Qed.
Lemma reach_typed_raw k r s : word_in k literal_types -> word_in r string_prefixes -> is_string (b_tok s) = true -> reach (TypedRaw k r s).
Proof.
  intros K Kr S. apply reach_head with (b := k) (r := [r; s]); [reflexivity|]. intros ty p al od rest A.
  pose proof (after_stops _ _ 2%N A ltac:(discriminate) ltac:(lia)) as S2.
  pose proof (string_call 1%N s rest S ltac:(lia) (after_stops _ _ 1%N A ltac:(discriminate) ltac:(lia))) as C1.
  apply fits_among in K, Kr.
  assert (C : calls F_parse_expr [VNum 2; VBool false; VBool false; VBool false; VBool true] (r :: s :: rest)
    (VNode (made N_UnaryOperator r [("right", CNode (made N_StringLiteral s []))])) (s :: rest)).
  { eapply expr_body. destruct (H1_unknown 2%N false true r s rest) as (ty' & H). eapply steps_seq; [exact H|].
    apply after_cons in A as (f & r' & -> & _).
    eapply steps_seq; [head2; step HU|]. norm. eapply steps_seq; [apply loop_ends; exact S2|]. apply (tail_ends U HU 2%N). exact S2. }
  assert (Ks : fits (Avoids ["("]) (b_tok s)) by (apply string_avoids; [exact S|reflexivity]).
  assert (Nr : is_string (b_tok r) = false).
  { apply among_word in Kr as (w & I & W). eapply (not_string U HU); [exact W|]. repeat (destruct I as [<-|I]; [reflexivity|]). destruct I. }
  apply after_cons in A as (f & r' & -> & _). cbn [lastb GrammarSpec.tree app]. head2. step HU.
Qed.
Lemma reach_interval k e q : is_word k "INTERVAL" -> reach e -> is_identifier U (b_tok q) = true -> ~ fuses U (lastb e) q -> reach (Interval k e q).
Proof.
  intros K R I N. apply reach_head with (b := k) (r := yield e ++ [q]); [reflexivity|]. intros ty p al od rest A.
  rewrite <- app_assoc. cbn [app lastb GrammarSpec.tree]. pose proof (name_call U HU e true q rest R I N) as C. apply fits_word in K.
  apply after_cons in A as (f & r & -> & Kf). head2. step HU.
Qed.
Lemma reach_interval_to k e q t q' : is_word k "INTERVAL" -> reach e -> is_identifier U (b_tok q) = true -> ~ fuses U (lastb e) q -> is_word t "TO" ->
  reach (IntervalTo k e q t q').
Proof.
  intros K R I N Kt. apply reach_head with (b := k) (r := yield e ++ [q; t; q']); [reflexivity|]. intros ty p al od rest A.
  rewrite <- app_assoc. cbn [app lastb GrammarSpec.tree]. pose proof (name_call U HU e true q (t :: q' :: rest) R I N) as C. apply fits_word in K, Kt.
  apply after_cons in A as (f & r & -> & Kf). head2. step HU.
Qed.

(* ----- lists of expressions ----- *)
Definition list_enders : list string :=
  [")"; "]"; "FROM"; "WHERE"; "GROUP"; "HAVING"; "QUALIFY"; "WINDOW"; "ORDER"; "LIMIT"; "UNION"; "INTERSECT"; "EXCEPT"; "IGNORE"; "RESPECT"; "ROWS"; "RANGE";
   ";"; ""; "SET"; "ON"; "WHEN"; "FOR"; "|>"].
(* the words after a list; [al]: whether the expressions of the list can be given names *)
Definition ends_of (al : bool) : list string := if al then list_enders else "AS" :: "OFFSET" :: "OPTIONS" :: "CLUSTER" :: list_enders.
Definition first_item (i : item) : bundle := match i with Plain e | Named e _ _ | Called e _ | Ordered e _ _ => first e end.
Definition first_items (es : items) : bundle := match es with One i | Trailing i _ | More i _ _ => first_item i end.
Lemma tok_item i rest : tok_at (yield_item i ++ rest) 0 = Some (b_tok (first_item i)).
Proof. destruct i; cbn [yield_item first_item]; rewrite <- ?app_assoc; apply tok_yield. Qed.
Lemma tok_items es rest : tok_at (yields es ++ rest) 0 = Some (b_tok (first_items es)).
Proof. destruct es; cbn [yields first_items]; rewrite <- ?app_assoc; apply tok_item. Qed.
Lemma tok_query q rest : tok_at (yield_query q ++ rest) 0 = Some (b_tok (first_query q)).
Proof. revert rest. induction q; intro rest; cbn [yield_query first_query]; rewrite <- ?app_assoc; try reflexivity; apply IHq || apply IHq1. Qed.
Lemma tok_type t rest : tok_at (yield_type t ++ rest) 0 = Some (b_tok (first_type t)).
Proof. destruct t; reflexivity. Qed.
Lemma first_items_avoids al tr es : wfs U al tr es -> fits (Avoids never_first) (b_tok (first_items es)).
Proof.
  assert (A : forall i, wf_item U al i -> fits (Avoids never_first) (b_tok (first_item i))).
  { intros []; cbn [wf_item first_item]; intro W; repeat match goal with H : _ /\ _ |- _ => destruct H end; now apply first_avoids. }
  destruct es; cbn [wfs first_items]; [apply A|intros (_ & W & _)|intros (W & _)]; now apply A.
Qed.
Fixpoint trails (es : items) : bool := match es with One _ => false | Trailing _ _ => true | More _ _ r => trails r end.
Lemma trails_false al es : wfs U al false es -> trails es = false.
Proof. induction es; cbn [wfs trails]; [reflexivity|now intros [? _]|]. intros (_ & _ & W). auto. Qed.
Definition exprs_ok (al : bool) (es : items) : Prop := forall u f rest,
  fits (Among (ends_of al)) (b_tok f) -> apart_from U (yields es) f ->
  forallb ascii_word u = true -> known_in (Avoids never_first) (map up_string u) = Some false -> (trails es = true -> fits (Among (map up_string u)) (b_tok f) \/ rest = []) ->
  exists b, calls F_parse_exprs [VStrs u; VBool al; VBool true] (yields es ++ f :: rest) (VVec (trees U es)) (b :: f :: rest).
(* before a word that cannot be read with the token before it *)
Lemma exprs_plain al es u ws f rest : exprs_ok al es -> fits (Among ws) (b_tok f) -> forallb (fun w => existsb (String.eqb w) (ends_of al) && plain w) ws = true ->
  forallb ascii_word u = true -> known_in (Avoids never_first) (map up_string u) = Some false -> (trails es = true -> fits (Among (map up_string u)) (b_tok f)) ->
  exists b, calls F_parse_exprs [VStrs u; VBool al; VBool true] (yields es ++ f :: rest) (VVec (trees U es)) (b :: f :: rest).
Proof.
  intros C K A Hu Hk Ht. assert (A' : forallb plain ws = true).
  { apply forallb_forall. intros w I. rewrite forallb_forall in A. specialize (A w I). now apply andb_prop in A as [_ A]. }
  apply C; try assumption; [| |auto].
  - eapply fits_weaken; [exact K|]. cbn [known_in]. replace (forallb _ ws) with true; [reflexivity|]. symmetry. apply forallb_forall. intros w I.
    rewrite forallb_forall in A. specialize (A w I). now apply andb_prop in A as [A _].
  - unfold apart_from. eapply (no_fuse U HU); [exact K|exact A'].
Qed.
(* [f]: the token after the query *)
Definition query_ok (q : query) (f : bundle) : Prop := forall rest,
  exists b, calls F_parse_select_statement [VBool false; VBool true] (yield_query q ++ f :: rest) (VNode (tree_query U q None)) (b :: f :: rest).
Definition opens_query (q : query) : Prop := fits (Among ["SELECT"; "WITH"]) (b_tok (first_query q)).
Lemma wf_first_query q next : wf_query U q next -> word_in (first_query q) ["SELECT"; "WITH"; "("].
Proof.
  revert next. induction q; intro next; cbn [wf_query first_query]; intros W; repeat match goal with H : _ /\ _ |- _ => destruct H end; eauto;
    (eexists; split; [|eassumption]; cbn; tauto).
Qed.
Lemma wf_opens q next : wf_query U q next -> ~ is_word (first_query q) "(" -> opens_query q.
Proof.
  intros W N. apply fits_among. destruct (wf_first_query q next W) as (w & I & K). exists w. split; [|exact K].
  cbn in *. intuition (subst; tauto).
Qed.
Ltac ahead ::= first [apply tok_yield | apply tok_items | apply tok_query | apply tok_type | eassumption].

(* parse_grouped_exprs *)
Lemma grouped_call al tr lp es rp rest : is_word lp "(" -> wfs U al tr es -> exprs_ok al es -> is_word rp ")" ->
  calls F_parse_grouped_exprs [VBool al] (lp :: yields es ++ rp :: rest)
    (VNode (made N_GroupedExprs lp [("exprs", CVec (trees U es)); ("rparen", symbol rp)])) (rp :: rest).
Proof.
  intros Kl We Ce Kr. apply fits_word in Kl, Kr. apply first_items_avoids in We.
  destruct (exprs_plain al es [")"] [")"] rp rest Ce Kr) as (b & C); try reflexivity; [now destruct al|intros _; exact Kr|].
  eapply calls_body; [reflexivity|]. cbn [prog parse_grouped_exprs f_body f_params combine]. step HU.
Qed.
Lemma reach_star_but b k lp es rp : is_word b "*" -> word_in k ["EXCEPT"; "REPLACE"] -> is_word lp "(" ->
  (is_word k "EXCEPT" -> wfs U false true es /\ exprs_ok false es) -> (is_word k "REPLACE" -> wfs U true true es /\ exprs_ok true es) -> is_word rp ")" ->
  reach (StarBut b k lp es rp).
Proof.
  intros K Kk Kl X R Kr. apply reach_head with (b := b) (r := k :: lp :: yields es ++ [rp]); [reflexivity|]. intros ty p al od rest A.
  cbn [app]. rewrite <- app_assoc. cbn [app lastb GrammarSpec.tree]. apply fits_word in K.
  destruct Kk as (w & I & Kk). destruct I as [<-|[<-|[]]].
  - destruct (X Kk) as (W & C). pose proof (grouped_call false true lp es rp rest Kl W C Kr) as C'.
    unfold GrammarSpec.is_word in Kk. rewrite Kk. change (str_eqb (s_ "EXCEPT") (s_ "REPLACE")) with false. cbv iota. apply fits_word in Kk, Kl, Kr.
    apply after_cons in A as (f & r & -> & _). head2. step HU.
  - destruct (R Kk) as (W & C). pose proof (grouped_call true true lp es rp rest Kl W C Kr) as C'.
    unfold GrammarSpec.is_word in Kk. rewrite Kk. change (str_eqb (s_ "REPLACE") (s_ "REPLACE")) with true. cbv iota. apply fits_word in Kk, Kl, Kr.
    apply after_cons in A as (f & r & -> & _). head2. step HU.
Qed.
Lemma reach_paren lp e rp : wf e -> is_word lp "(" -> exprs_ok true (One (Plain e)) -> is_word rp ")" -> reach (Paren lp e rp).
Proof.
  intros W K C K'. apply reach_head with (b := lp) (r := yield e ++ [rp]); [reflexivity|]. intros ty p al od rest A.
  rewrite <- app_assoc. cbn [app lastb GrammarSpec.tree]. apply fits_word in K, K'. apply first_avoids in W.
  destruct (exprs_plain _ _ [] [")"] rp rest C K') as (b & C'); try reflexivity; [discriminate|]. cbn [yields yield_item trees tree_item] in C'.
  apply after_cons in A as (f & r & -> & _). head2. step HU.
Qed.
Lemma trees_cons es : exists n l, trees U es = n :: l. Proof. destruct es; cbn [trees]; eauto. Qed.
Lemma reach_tuple lp i c es rp : is_word lp "(" -> wfs U true false (More i c es) -> exprs_ok true (More i c es) -> is_word rp ")" ->
  reach (Tuple lp i c es rp).
Proof.
  intros K W C K'. apply reach_head with (b := lp) (r := yields (More i c es) ++ [rp]); [reflexivity|]. intros ty p al od rest A.
  rewrite <- app_assoc. cbn [app lastb]. apply fits_word in K, K'. pose proof (trails_false _ _ W) as T. apply first_items_avoids in W.
  change (tree (Tuple lp i c es rp)) with (made N_StructLiteral lp [("exprs", CVec (with_kid "comma" (symbol c) (tree_item U i) :: trees U es)); ("rparen", symbol rp)]).
  destruct (exprs_plain _ _ [] [")"] rp rest C K') as (b & C'); try reflexivity; [congruence|].
  change (trees U (More i c es)) with (with_kid "comma" (symbol c) (tree_item U i) :: trees U es) in C'.
  destruct (trees_cons es) as (n & l & E). rewrite E in *.
  apply after_cons in A as (f & r & -> & _). head2. step HU.
Qed.
Lemma reach_empty_tuple lp rp : is_word lp "(" -> is_word rp ")" -> reach (EmptyTuple lp rp).
Proof.
  intros K K'. apply reach_head with (b := lp) (r := [rp]); [reflexivity|]. intros ty p al od rest A.
  cbn [app lastb GrammarSpec.tree]. apply fits_word in K, K'. apply after_cons in A as (f & r & -> & _). head2. step HU.
Qed.
Lemma reach_array lp es rp : wfs U false false es -> is_word lp "[" -> exprs_ok false es -> is_word rp "]" -> reach (Array lp es rp).
Proof.
  intros W K C K'. apply reach_head with (b := lp) (r := yields es ++ [rp]); [reflexivity|]. intros ty p al od rest A.
  rewrite <- app_assoc. cbn [app lastb GrammarSpec.tree]. apply fits_word in K, K'. pose proof (trails_false _ _ W) as T. apply first_items_avoids in W.
  destruct (exprs_plain _ _ [] ["]"] rp rest C K') as (b & C'); try reflexivity; [congruence|].
  apply after_cons in A as (f & r & -> & _). head2. step HU.
Qed.
Lemma reach_empty_array lp rp : is_word lp "[" -> is_word rp "]" -> reach (EmptyArray lp rp).
Proof.
  intros K K'. apply reach_head with (b := lp) (r := [rp]); [reflexivity|]. intros ty p al od rest A.
  cbn [app lastb GrammarSpec.tree]. apply fits_word in K, K'. apply after_cons in A as (f & r & -> & _). head2. step HU.
Qed.
Lemma reach_sub lp q rp : is_word lp "(" -> opens_query q -> query_ok q rp -> is_word rp ")" -> reach (Sub lp q rp).
Proof.
  intros K Ks C K'. apply reach_head with (b := lp) (r := yield_query q ++ [rp]); [reflexivity|]. intros ty p al od rest A.
  rewrite <- app_assoc. cbn [app lastb GrammarSpec.tree]. apply fits_word in K, K'. unfold opens_query in Ks.
  destruct (C rest) as (b & C').
  apply after_cons in A as (f & r & -> & _). head2. step HU.
Qed.

(* ----- CASE ----- *)
Definition case_loop : cmd fn := (
  While (CTok 0 (TIs "WHEN"))
    (LetNode "arm" (EConstruct N_CaseExprArm) ;;
     Next ;;
     Push "arm" "expr" (ECall F_parse_expr [ANum NumMax; ABool (BConst false); ABool (BConst false); ABool (BConst false); ABool (BConst true)]) ;;
     Next ;;
     Push "arm" "then" (EConstruct N_Keyword) ;;
     Next ;;
     Push "arm" "result" (ECall F_parse_expr [ANum NumMax; ABool (BConst false); ABool (BConst false); ABool (BConst false); ABool (BConst true)]) ;;
     Next ;;
     VecPush "arms" (EVar "arm")))%cmd.
Definition case_else : cmd fn := (
  If (CTok 0 (TIs "ELSE"))
    (LetNode "else_" (EConstruct N_CaseExprArm) ;;
     Next ;;
     Push "else_" "result" (ECall F_parse_expr [ANum NumMax; ABool (BConst false); ABool (BConst false); ABool (BConst false); ABool (BConst true)]) ;;
     VecPush "arms" (EVar "else_") ;;
     Next)
    Skip)%cmd.
Definition case_end : cmd fn := (PushVec "left" "arms" (XVar "arms") ;; Push "left" "end" (EConstruct N_Keyword))%cmd.
Definition arms_ok (ws : arms) : Prop := forall p al od v l b rest ct e2 bs2, fits (Among ["END"]) (b_tok b) -> rest <> [] ->
  steps case_end (("arms", VVec (l ++ tree_arms U ws)) :: frame p al od v) (b :: rest) ct e2 bs2 ->
  steps (Seq case_loop (Seq case_else case_end)) (("arms", VVec l) :: frame p al od v) (yield_arms ws ++ b :: rest) ct e2 bs2.
Lemma arm_more w c t r : fits (Among ["WHEN"]) (b_tok w) -> reach c -> fits (Among ["THEN"]) (b_tok t) -> reach r ->
  forall p al od v l f rest k ct e2 bs2, fits (Among ["WHEN"; "ELSE"; "END"]) (b_tok f) ->
  steps (Seq case_loop k) (("arms", VVec (l ++ [made N_CaseExprArm w [("expr", CNode (tree c)); ("then", keyword t); ("result", CNode (tree r))]])) ::
    frame p al od v) (f :: rest) ct e2 bs2 ->
  steps (Seq case_loop k) (("arms", VVec l) :: frame p al od v) (w :: yield c ++ t :: yield r ++ f :: rest) ct e2 bs2.
Proof.
  intros Kw Rc Kt Rr p al od v l f rest k ct e2 bs2 Kf S.
  pose proof (plain_call U HU _ c true t (yield r ++ f :: rest) Rc Kt eq_refl) as Cc.
  pose proof (plain_call U HU _ r true f rest Rr Kf eq_refl) as Cr.
  unfold case_loop in *. eapply steps_while_more_seq; [decide_ HU|unfold frame; step HU|]. norm. exact S.
Qed.
Lemma arms_when w c t r ws : is_word w "WHEN" -> reach c -> is_word t "THEN" -> reach r -> wf_arms U ws -> arms_ok ws -> arms_ok (When w c t r ws).
Proof.
  intros Kw Rc Kt Rr W A p al od v l b rest ct e2 bs2 Kb Ne S. cbn [yield_arms tree_arms] in *.
  cbn [app]. rewrite <- !app_assoc. cbn [app]. rewrite <- !app_assoc.
  assert (X : exists f r', yield_arms ws ++ b :: rest = f :: r' /\ fits (Among ["WHEN"; "ELSE"; "END"]) (b_tok f)).
  { destruct ws; cbn [wf_arms] in W; destruct W as (W & _); apply fits_word in W; cbn [yield_arms app]; do 2 eexists;
      (split; [reflexivity|eapply fits_weaken; [exact W|reflexivity]]). }
  destruct X as (f & r' & X & Kf). specialize (A p al od v (l ++ [made N_CaseExprArm w [("expr", CNode (tree c)); ("then", keyword t); ("result", CNode (tree r))]])
    b rest ct e2 bs2 Kb Ne). rewrite X in A |- *. eapply arm_more; try (apply fits_word; eassumption); try assumption. apply A.
  rewrite <- app_assoc. exact S.
Qed.
Lemma arms_last w c t r : is_word w "WHEN" -> reach c -> is_word t "THEN" -> reach r -> arms_ok (LastWhen w c t r).
Proof.
  intros Kw Rc Kt Rr p al od v l b rest ct e2 bs2 Kb Ne S. cbn [yield_arms tree_arms] in *.
  cbn [app]. rewrite <- !app_assoc. cbn [app].
  eapply arm_more; try (apply fits_word; eassumption); try assumption; [eapply fits_weaken; [exact Kb|reflexivity]|].
  eapply steps_seq; [apply steps_while_end; decide_ HU|]. eapply steps_seq; [unfold case_else, frame; step HU|]. exact S.
Qed.
Lemma arms_else w c t r el x : is_word w "WHEN" -> reach c -> is_word t "THEN" -> reach r -> is_word el "ELSE" -> reach x ->
  arms_ok (LastElse w c t r el x).
Proof.
  intros Kw Rc Kt Rr Ke Rx p al od v l b rest ct e2 bs2 Kb Ne S. cbn [yield_arms tree_arms] in *.
  cbn [app]. rewrite <- !app_assoc. cbn [app]. rewrite <- !app_assoc. cbn [app]. apply fits_word in Ke.
  pose proof (plain_call U HU _ x true b rest Rx Kb eq_refl) as Cx.
  eapply arm_more; try (apply fits_word; eassumption); try assumption; [eapply fits_weaken; [exact Ke|reflexivity]|].
  eapply steps_seq; [apply steps_while_end; decide_ HU|]. eapply steps_seq; [unfold case_else, frame; step HU|].
  norm. rewrite <- app_assoc. exact S.
Qed.
Lemma arms_first ws : wf_arms U ws -> exists w r, yield_arms ws = w :: r /\ fits (Among ["WHEN"]) (b_tok w).
Proof. destruct ws; cbn [wf_arms yield_arms]; intros (W & _); apply fits_word in W; do 2 eexists; (split; [reflexivity|exact W]). Qed.
Ltac special ::=
  lazymatch goal with
  | A : arms_ok ?ws |- Forward.steps _ (Seq (While (CTok 0 (TIs "WHEN")) _) _) ?e _ _ _ _ =>
      eapply A; [eassumption | discriminate | unfold case_end, frame; step HU]
  end.
Lemma reach_case c ws e : is_word c "CASE" -> wf_arms U ws -> arms_ok ws -> is_word e "END" -> reach (Case c ws e).
Proof.
  intros K W A Ke. apply reach_head with (b := c) (r := yield_arms ws ++ [e]); [reflexivity|]. intros ty p al od rest Af.
  rewrite <- app_assoc. cbn [app lastb GrammarSpec.tree]. apply fits_word in K, Ke. destruct (arms_first ws W) as (w & r0 & E & Kw).
  assert (T : tok_at (yield_arms ws ++ e :: rest) 0 = Some (b_tok w)) by now rewrite E. clear E r0.
  apply after_cons in Af as (f & r & -> & _). head2. step HU.
Qed.
Lemma reach_caseof c s ws e : is_word c "CASE" -> wf s -> reach s -> wf_arms U ws -> arms_ok ws -> is_word e "END" -> reach (CaseOf c s ws e).
Proof.
  intros K Ws Rs W A Ke. apply reach_head with (b := c) (r := yield s ++ yield_arms ws ++ [e]); [reflexivity|]. intros ty p al od rest Af.
  rewrite <- !app_assoc. cbn [app lastb GrammarSpec.tree]. apply fits_word in K, Ke. apply first_avoids in Ws.
  destruct (arms_first ws W) as (w & r0 & E & Kw).
  assert (T : tok_at (yield_arms ws ++ e :: rest) 0 = Some (b_tok w)) by now rewrite E.
  assert (Cs : calls F_parse_expr [VNum usize_max; VBool false; VBool false; VBool false; VBool true] (yield s ++ yield_arms ws ++ e :: rest)
    (VNode (tree s)) (lastb s :: yield_arms ws ++ e :: rest)).
  { rewrite E. cbn [app]. apply (plain_call U HU _ s true w _ Rs Kw eq_refl). }
  clear E r0.
  apply after_cons in Af as (f & r & -> & _). head2. step HU.
Qed.
End WithUnicode.
