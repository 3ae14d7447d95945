(* Lists of expressions, and the clauses of a query, of GrammarSpec.v. *)
From Verif Require Import Chars Token Cst Core MiniRust Program Bundles ParserView ParserGeneric ShapeSound GroupingSpec GroupingExpr
  Forward GrammarSpec GrammarTactics GrammarExpr GrammarReach GrammarOps.
Local Open Scope string_scope.
Local Open Scope list_scope.
Local Notation length := List.length.

Section WithUnicode.
Context (U : unicode) (HU : ascii_faithful U).
Local Notation steps := (steps U).
Local Notation calls := (calls U).
Local Notation is_word := (is_word U).
Local Notation word_in := (word_in U).
Local Notation tree := (tree U).
Local Notation wf := (wf U).
Local Notation loosest_left := (loosest_left U).
Local Notation loosest_right := (loosest_right U).
Local Notation fits := (fits_known U).
Local Notation prec_in := (prec_in U).
Local Notation reach := (reach U).
Local Notation after := (after U).
Local Notation stops := (stops U).
Ltac ahead ::= first [apply tok_yield | apply tok_items | apply tok_query | eassumption].
Ltac call ::= eassumption.
Ltac special ::= fail.

Lemma item_trees : (forall e, tree_item U (Plain e) = tree e) /\
  (forall e k a, tree_item U (Named e k a) = with_kid "alias" (ident a) (with_kid "as" (keyword k) (tree e))) /\
  (forall e a, tree_item U (Called e a) = with_kid "alias" (ident a) (tree e)) /\
  (forall e d ns, tree_item U (Ordered e d ns) = with_words "null_order" ns (with_word "order" d (tree e))) /\
  (forall i, trees U (One i) = [tree_item U i]) /\
  (forall i c, trees U (Trailing i c) = [with_kid "comma" (symbol c) (tree_item U i)]) /\
  (forall i c r, trees U (More i c r) = with_kid "comma" (symbol c) (tree_item U i) :: trees U r).
Proof. repeat split; reflexivity. Qed.
Lemma item_yields : (forall e, yield_item (Plain e) = yield e) /\ (forall e k a, yield_item (Named e k a) = yield e ++ [k; a]) /\
  (forall e a, yield_item (Called e a) = yield e ++ [a]) /\
  (forall e d ns, yield_item (Ordered e d ns) = yield e ++ opt d ++ opt2 ns) /\ (forall i, yields (One i) = yield_item i) /\
  (forall i c, yields (Trailing i c) = yield_item i ++ [c]) /\ (forall i c r, yields (More i c r) = yield_item i ++ c :: yields r).
Proof. repeat split; reflexivity. Qed.
Ltac spread :=
  destruct item_trees as (?T1 & ?T2 & ?T3 & ?T4 & ?T5 & ?T6 & ?T7); destruct item_yields as (?Y1 & ?Y2 & ?Y3 & ?Y4 & ?Y5 & ?Y6 & ?Y7);
  rewrite ?T1, ?T2, ?T3, ?T4, ?T5, ?T6, ?T7, ?Y1, ?Y2, ?Y3, ?Y4, ?Y5, ?Y6, ?Y7; clear T1 T2 T3 T4 T5 T6 T7 Y1 Y2 Y3 Y4 Y5 Y6 Y7.
Definition item_ok (al : bool) (i : item) : Prop := forall f rest, fits (Among ("," :: ends_of al)) (b_tok f) -> apart_from U (yield_item i) f ->
  exists b, calls F_parse_expr [VNum usize_max; VBool al; VBool false; VBool false; VBool true] (yield_item i ++ f :: rest) (VNode (tree_item U i)) (b :: f :: rest).

Lemma item_plain al e : reach e -> item_ok al (Plain e).
Proof.
  intros R f rest K A. exists (lastb e). revert A. spread. unfold apart_from. rewrite last_yield. intro A.
  destruct al; (eapply expr_body; apply R; [apply left_small|apply ends_after|]).
  1, 4: eapply fits_weaken; [exact K|reflexivity].
  1, 3: exact A.
  all: eapply steps_seq; [apply loop_ends, ends_stops; [eapply fits_weaken; [exact K|reflexivity]|reflexivity]|];
    unfold Tail, frame; cbn [parse_expr f_body]; step HU.
Qed.
Lemma item_named e as_ a : reach e -> is_word as_ "AS" -> name U a -> item_ok true (Named e as_ a).
Proof.
  intros R Ka Na f rest K A. exists a. revert A. spread. unfold apart_from. rewrite last_end. cbn [last]. intro A. rewrite <- app_assoc. cbn [app].
  assert (P : prec_in (as_ :: a :: f :: rest) 0 = Some usize_max) by (eapply prec_word1; [exact Ka|reflexivity]).
  apply fits_word in Ka.
  assert (C : calls F_parse_expr [VNum usize_max; VBool false; VBool false; VBool false; VBool false] (a :: f :: rest) (VNode (made N_Identifier a [])) (a :: f :: rest)).
  { pose proof (whole_call U HU (Atom a) false f rest (reach_atom U HU a (name_operand U a Na)) ltac:(eapply fits_weaken; [exact K|reflexivity]) A) as C.
    cbn [GrammarSpec.tree lastb yield app] in C. now rewrite (name_kind U a Na) in C. }
  eapply expr_body. apply R; [apply left_small| |].
  { apply ends_after; [eapply fits_weaken; [exact Ka|reflexivity]|eapply (no_fuse U HU); [exact Ka|reflexivity]]. }
  eapply steps_seq; [apply loop_ends; exists as_, (a :: f :: rest), usize_max; repeat split; [eapply fits_weaken; [exact Ka|reflexivity]|exact P|reflexivity]|].
  unfold Tail, frame. cbn [parse_expr f_body]. step HU.
Qed.
Lemma item_called e a : reach e -> name U a -> apart_from U (yield e) a -> item_ok true (Called e a).
Proof.
  intros R Na Ae f rest K A. exists a. revert Ae. clear A. spread. unfold apart_from. rewrite last_yield. intro Ae. rewrite <- app_assoc. cbn [app].
  destruct Na as (Na & Ia). assert (Ka : fits (Avoids ["AS"]) (b_tok a)).
  { apply fits_avoids. intros (w & [<-|[]] & W). apply Na. exists "AS". split; [cbn; tauto|exact W]. }
  eapply expr_body. apply R; [apply left_small|now apply name_after|].
  eapply steps_seq; [apply loop_ends, name_stops; [exact HU|exact Ia|reflexivity]|].
  unfold Tail, frame. cbn [parse_expr f_body]. step HU.
Qed.
Lemma item_ordered al e d ns : reach e -> loosest_right e = 0%N -> perhaps U d ["ASC"; "DESC"] -> perhaps2 U ns ["NULLS"] ["FIRST"; "LAST"] ->
  item_ok al (Ordered e d ns).
Proof.
  intros R L0 Kd Kn f rest K A. destruct d as [d|]; [|destruct ns as [[n1 n2]|]].
  - spread. rewrite <- !app_assoc. cbn [opt app perhaps with_word] in *. apply fits_among in Kd.
    assert (Aft : forall r, after e (d :: r)).
    { intro r. exists d, r, usize_max. split; [reflexivity|]. split; [eapply fits_weaken; [exact Kd|reflexivity]|].
      split; [eapply (no_fuse U HU); [exact Kd|reflexivity]|]. split; [intros _; eapply fits_weaken; [exact Kd|reflexivity]|].
      split; [eapply prec_word; [apply tok_at_0|exact Kd|reflexivity]|]. rewrite L0. split; [unfold usize_max; lia|contradiction]. }
    assert (P : forall r, prec_in (d :: r) 0 = Some usize_max) by (intro r; eapply prec_word; [apply tok_at_0|exact Kd|reflexivity]).
    destruct ns as [[n1 n2]|]; cbn [perhaps2 opt2 app with_words] in *; [destruct Kn as (Kn1 & Kn2); apply fits_among in Kn1, Kn2; exists n2|exists d];
      destruct al; eapply expr_body; (apply R; [apply left_small|apply Aft|]);
      (eapply steps_seq; [rewrite loop_parts; apply steps_while_end; eapply decides_prec; [rewrite prec_in_S; apply P|envr|reflexivity]|]);
      unfold Tail, frame; cbn [parse_expr f_body]; step HU.
  - exists n2. spread. rewrite <- !app_assoc. cbn [opt opt2 app perhaps perhaps2 with_word with_words] in *. destruct Kn as (Kn1 & Kn2). apply fits_among in Kn1, Kn2.
    assert (Aft : forall r, after e (n1 :: r)).
    { intro r. exists n1, r, usize_max. split; [reflexivity|]. split; [eapply fits_weaken; [exact Kn1|reflexivity]|].
      split; [eapply (no_fuse U HU); [exact Kn1|reflexivity]|]. split; [intros _; eapply fits_weaken; [exact Kn1|reflexivity]|].
      split; [eapply prec_word; [apply tok_at_0|exact Kn1|reflexivity]|]. rewrite L0. split; [unfold usize_max; lia|contradiction]. }
    assert (P : forall r, prec_in (n1 :: r) 0 = Some usize_max) by (intro r; eapply prec_word; [apply tok_at_0|exact Kn1|reflexivity]).
    destruct al; eapply expr_body; (apply R; [apply left_small|apply Aft|]);
      (eapply steps_seq; [rewrite loop_parts; apply steps_while_end; eapply decides_prec; [rewrite prec_in_S; apply P|envr|reflexivity]|]);
      unfold Tail, frame; cbn [parse_expr f_body]; step HU.
  - destruct (item_plain al e R f rest K) as (b & C); [|exists b]; revert A || clear A; spread; cbn [opt opt2 app with_word with_words]; rewrite ?app_nil_r; auto.
Qed.

(* ----- parse_exprs ----- *)
Definition exprs_loop : cmd fn := match f_body parse_exprs with Seq _ (Seq _ (Seq _ (Seq _ (Seq a _)))) => a | _ => Skip end.
Definition exprs_end : cmd fn := match f_body parse_exprs with Seq _ (Seq _ (Seq _ (Seq _ (Seq _ a)))) => a | _ => Skip end.
Definition list_frame (u : list string) (al : bool) (v : value) : env :=
  [("expr", VUndef); ("exprs", v); ("until", VStrs u); ("alias", VBool al); ("order", VBool true)].
Fixpoint all_items (P : item -> Prop) (es : items) : Prop :=
  match es with One i | Trailing i _ => P i | More i _ r => P i /\ all_items P r end.
Lemma item_nonempty i : yield_item i <> [].
Proof. intro H. pose proof (tok_item i []) as T. rewrite H in T. discriminate. Qed.
Lemma items_nonempty es : yields es <> [].
Proof. intro H. pose proof (tok_items es []) as T. rewrite H in T. discriminate. Qed.
Lemma not_eof e c es f rest : decides U (CEof 1) e (c :: yields es ++ f :: rest) false.
Proof.
  pose proof (items_nonempty es) as Ne. destruct (yields es) as [|x l]; [contradiction|].
  intros s V. rewrite (decides_eof U 1 e _ s V). cbn [app length]. rewrite app_length. cbn [length].
  now rewrite (proj2 (Nat.leb_gt _ _)) by lia.
Qed.
Lemma decides_not_false c e bs : decides U c e bs false -> decides U (CNot c) e bs true.
Proof. exact (decides_not U c e bs false). Qed.
Lemma wfs_more al tr i c r : wfs U al tr (More i c r) -> wf_item U al i /\ is_word c "," /\ wfs U al tr r. Proof. exact (fun H => H). Qed.
Lemma wfs_trailing al tr i c : wfs U al tr (Trailing i c) -> wf_item U al i /\ is_word c ",". Proof. exact (fun H => proj2 H). Qed.
Lemma known_self l : known_in (Among l) l = Some true.
Proof.
  cbn [known_in]. replace (forallb _ l) with true; [reflexivity|]. symmetry. apply forallb_forall. intros w I.
  apply existsb_exists. exists w. split; [exact I|apply String.eqb_refl].
Qed.
(* a comma at the end *)
Lemma list_ends u al v f rest c : forallb ascii_word u = true -> fits (Among (map up_string u)) (b_tok f) \/ rest = [] ->
  steps exprs_loop (list_frame u al v) (c :: f :: rest) Norm (list_frame u al v) (c :: f :: rest).
Proof.
  intros Hu Ht. unfold exprs_loop. cbn [parse_exprs f_body]. unfold list_frame. apply steps_while_end. destruct Ht as [Ht|Ht].
  - eapply decides_and_false. eapply (decides_not U _ _ _ true).
    eapply decides_invar; [exact HU|envr|rewrite tok_at_S; apply tok_at_0|exact Ht|exact Hu|apply known_self].
  - subst rest. eapply decides_and; [eapply decides_not; eapply decides_tok; [rewrite tok_at_S; apply tok_at_0|intro s; cbn [eval_tpred env_get String.eqb Ascii.eqb Bool.eqb]; reflexivity]|].
    destruct (negb _); [|reflexivity]. apply (decides_not U _ _ _ true). eapply decides_eq; [apply decides_eof|reflexivity].
Qed.
Lemma apart_comma l c f : is_word c "," -> apart_from U (l ++ [c]) f.
Proof.
  intro K. unfold apart_from. rewrite last_end. cbn [last]. intros [(A & _)|[(A & _)|(A & _)]];
    destruct A as (w & I & E); unfold GrammarSpec.is_word in K, E; rewrite K in E;
    cbn in I; repeat (destruct I as [<-|I]; [discriminate|]); contradiction.
Qed.
Lemma apart_more l c l' f : l' <> [] -> apart_from U (l ++ c :: l') f -> apart_from U l' f.
Proof. intros N. unfold apart_from. rewrite last_end. now rewrite last_cons. Qed.
Lemma loop_items al tr u es : wfs U al tr es -> all_items (item_ok al) es -> forall f rest l c,
  fits (Among (ends_of al)) (b_tok f) -> apart_from U (yields es) f -> forallb ascii_word u = true -> known_in (Avoids never_first) (map up_string u) = Some false ->
  (trails es = true -> fits (Among (map up_string u)) (b_tok f) \/ rest = []) ->
  exists b, steps (Seq exprs_loop exprs_end) (list_frame u al (VVec l)) (c :: yields es ++ f :: rest) (Ret (VVec (l ++ trees U es)))
    (list_frame u al VUndef) (b :: f :: rest).
Proof.
  induction es as [i|i cm|i cm r IH]; intros W A f rest l c K Ap Hu Hk Ht.
  - cbn [all_items] in *. revert Ap. spread. intro Ap. destruct (A f rest) as (b & C); [eapply fits_weaken; [exact K|now destruct al]|exact Ap|].
    assert (K' : fits (Avoids [","]) (b_tok f)) by (eapply fits_weaken; [exact K|now destruct al]).
    exists b. unfold exprs_loop, exprs_end. cbn [parse_exprs f_body]. unfold list_frame.
    eapply steps_seq; [|shelve]. eapply steps_eq; [eapply steps_while_brk|].
    + eapply decides_and.
      * eapply decides_not. eapply decides_invar; [exact HU|envr|rewrite tok_at_S; apply tok_item| |exact Hu|exact Hk].
        apply (first_items_avoids U al tr (One i)). exact W.
      * cbn [negb]. apply decides_not_false. apply (not_eof _ _ (One i)).
    + step HU.
    + envr.
    Unshelve. step HU.
  - cbn [all_items] in *. spread. destruct (wfs_trailing al tr i cm W) as (Wi & Kc). pose proof (apart_comma [] cm f Kc) as Ac. apply fits_word in Kc.
    rewrite <- app_assoc. cbn [app].
    destruct (A cm (f :: rest)) as (b1 & C); [eapply fits_weaken; [exact Kc|reflexivity]|eapply (no_fuse U HU); [exact Kc|reflexivity]|].
    pose proof (list_ends u al (VVec (l ++ [with_kid "comma" (symbol cm) (tree_item U i)])) f rest cm Hu (Ht eq_refl)) as S.
    exists cm. unfold exprs_loop in *. cbn [parse_exprs f_body] in *. unfold list_frame in *.
    eapply steps_while_more_seq.
    + eapply decides_and.
      * eapply decides_not. eapply decides_invar; [exact HU|envr|rewrite tok_at_S; apply tok_item| |exact Hu|exact Hk].
        apply (first_items_avoids U al tr (One i)). exact Wi.
      * cbn [negb]. apply decides_not_false. apply (not_eof _ _ (One i)).
    + step HU.
    + norm. eapply steps_seq; [exact S|]. unfold exprs_end. cbn [parse_exprs f_body]. step HU.
  - cbn [all_items] in *. revert Ap. spread. intro Ap. destruct (wfs_more al tr i cm r W) as (Wi & Kc & Wr). destruct A as (Ai & Ar). apply fits_word in Kc.
    rewrite <- app_assoc. cbn [app].
    destruct (Ai cm (yields r ++ f :: rest)) as (b1 & C); [eapply fits_weaken; [exact Kc|reflexivity]|eapply (no_fuse U HU); [exact Kc|reflexivity]|].
    apply apart_more in Ap; [|apply items_nonempty].
    destruct (IH Wr Ar f rest (l ++ [with_kid "comma" (symbol cm) (tree_item U i)]) cm K Ap Hu Hk Ht) as (b & S). exists b.
    unfold exprs_loop in *. cbn [parse_exprs f_body] in *. unfold list_frame in *.
    rewrite <- app_assoc in S. cbn [app] in S.
    eapply steps_while_more_seq.
    + eapply decides_and.
      * eapply decides_not. eapply decides_invar; [exact HU|envr|rewrite tok_at_S; apply tok_item| |exact Hu|exact Hk].
        apply (first_items_avoids U al tr (One i)). exact Wi.
      * cbn [negb]. apply decides_not_false. pose proof (not_eof (list_frame u al (VVec l)) c (More i cm r) f rest) as X. revert X. spread. intro X.
        rewrite <- app_assoc in X. exact X.
    + step HU.
    + norm. exact S.
Qed.
Lemma exprs_items al tr es : wfs U al tr es -> all_items (item_ok al) es -> exprs_ok U al es.
Proof.
  intros W A u f rest K Ap Hu Hk Ht. destruct es as [i|i cm|i cm r]; cbn [all_items] in *; revert Ap; spread; intro Ap.
  - destruct (A f rest) as (b & C); [eapply fits_weaken; [exact K|now destruct al]|exact Ap|].
    assert (K' : fits (Avoids [","]) (b_tok f)) by (eapply fits_weaken; [exact K|now destruct al]). exists b.
    eapply calls_body; [reflexivity|]. cbn [prog parse_exprs f_body f_params combine]. step HU.
  - destruct (wfs_trailing al tr i cm W) as (Wi & Kc). apply fits_word in Kc. rewrite <- app_assoc. cbn [app].
    destruct (A cm (f :: rest)) as (b1 & C); [eapply fits_weaken; [exact Kc|reflexivity]|eapply (no_fuse U HU); [exact Kc|reflexivity]|].
    pose proof (list_ends u al (VVec [with_kid "comma" (symbol cm) (tree_item U i)]) f rest cm Hu (Ht eq_refl)) as S. exists cm.
    eapply calls_body; [reflexivity|]. cbn [prog parse_exprs f_body f_params combine].
    eapply steps_seq; [step HU|]. eapply steps_seq; [step HU|]. norm. eapply steps_seq; [step HU|]. norm. eapply steps_seq; [step HU|]. norm.
    eapply steps_seq; [exact S|]. step HU.
  - destruct (wfs_more al tr i cm r W) as (Wi & Kc & Wr). destruct A as (Ai & Ar). apply fits_word in Kc. rewrite <- app_assoc. cbn [app].
    destruct (Ai cm (yields r ++ f :: rest)) as (b1 & C); [eapply fits_weaken; [exact Kc|reflexivity]|eapply (no_fuse U HU); [exact Kc|reflexivity]|].
    apply apart_more in Ap; [|apply items_nonempty].
    destruct (loop_items al tr u r Wr Ar f rest [with_kid "comma" (symbol cm) (tree_item U i)] cm K Ap Hu Hk Ht) as (b & S). exists b.
    eapply calls_body; [reflexivity|]. cbn [prog parse_exprs f_body f_params combine].
    eapply steps_seq; [step HU|]. eapply steps_seq; [step HU|]. norm. eapply steps_seq; [step HU|]. norm. eapply steps_seq; [step HU|]. norm. exact S.
Qed.
End WithUnicode.
