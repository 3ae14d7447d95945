(* parse_select_statement on the queries of GrammarSpec.v, clause by clause. *)
From Verif Require Import Chars Token Cst Core MiniRust Program Bundles ParserView ParserGeneric ShapeSound GroupingSpec GroupingExpr
  Forward GrammarSpec GrammarTactics GrammarExpr GrammarReach GrammarOps GrammarBinary GrammarItems GrammarTypes GrammarCalls GrammarQuery GrammarClauses.
Local Open Scope string_scope.
Local Open Scope list_scope.
Local Notation length := List.length.

Section WithUnicode.
Context (U : unicode) (HU : ascii_faithful U).
Local Notation steps := (steps U).
Local Notation calls := (calls U).
Local Notation is_word := (is_word U).
Local Notation word_in := (word_in U).
Local Notation tree := (tree U).
Local Notation wf := (wf U).
Local Notation fits := (fits_known U).
Local Notation reach := (reach U).
Local Notation led := (led U).
Local Notation clause_ok := (clause_ok U).
Local Notation by_ok := (by_ok U).
Ltac ahead ::= first [apply tok_yield | apply tok_items | apply tok_query | apply tok_type | apply tok_table | eassumption].
Ltac call ::= eassumption.
Ltac special ::= fail.

(* the [k]th command of parse_select_statement, from 0, and the rest from there *)
Definition select_part (k : nat) : cmd fn := part k (f_body parse_select_statement).
Definition select_from (k : nat) : cmd fn := drop k (f_body parse_select_statement).
Lemma select_seq k : (k < 18)%nat -> select_from k = Seq (select_part k) (select_from (S k)).
Proof. intro L. do 18 (destruct k as [|k]; [reflexivity|]). lia. Qed.
(* the same for what it does after an opening parenthesis *)
Definition group_body : cmd fn := match select_part 0 with If _ c _ => c | c => c end.
Definition group_part (k : nat) : cmd fn := part k group_body.
Definition group_from (k : nat) : cmd fn := drop k group_body.
Lemma group_seq k : (k < 10)%nat -> group_from k = Seq (group_part k) (group_from (S k)).
Proof. intro L. do 10 (destruct k as [|k]; [reflexivity|]). lia. Qed.
Definition sframe (sp root : bool) (n : node) : env := [("node", VNode n); ("semicolon", VBool sp); ("root", VBool root)].
Ltac here := unfold group_part, group_from, group_body, select_part, select_from, sframe; cbn [part drop parse_select_statement f_body].

Definition query_enders : list string := [")"; ";"; ""; "UNION"; "INTERSECT"; "EXCEPT"].
Definition limit_ok (l : limit) : Prop := match l with NoLimit => True | Limit _ e => reach e | LimitOffset _ e _ x => reach e /\ reach x end.

Lemma from_part sp root n c b f rest : wf_from U c f -> match c with NoFrom => True | From _ t => table_ok U t end -> led (yield_from c) from_enders (f :: rest) ->
  exists b', steps (select_part 8) (sframe sp root n) (b :: yield_from c ++ f :: rest) Norm (sframe sp root (with_from U c n)) (b' :: f :: rest).
Proof.
  destruct c as [|k t]; intros W O L.
  - exists b. destruct L as (? & ? & [= <- <-] & K & _). cbn [yield_from app]. here. step HU.
  - destruct W as [Wk Wt]. destruct (O f rest Wt (led_more U _ _ after_tables _ (led_cons U _ _ _ _ L) eq_refl)) as (b' & C). exists b'.
    change (yield_from (From k t)) with (k :: yield_table t). cbn [app].
    change (with_from U (From k t) n) with (with_kid "from" (CNode (made N_KeywordWithExpr k [("expr", CNode (tree_table U t))])) n).
    apply fits_word in Wk. here. step HU.
Qed.
Ltac clause_ WORD L :=
  lazymatch goal with
  | b : bundle |- context [sframe _ _ (with_clause U ?ty ?key (Clause ?k ?e) ?n)] =>
      exists (lastb e); apply (led_cons U) in L; change (yield_clause (Clause k e)) with (k :: yield e); cbn [app];
      change (with_clause U ty key (Clause k e) n) with (with_kid key (CNode (made ty k [("expr", CNode (tree e))])) n)
  end.
Lemma where_part sp root n c b l : wf_clause U "WHERE" c -> clause_ok c -> led (yield_clause c) ["GROUP"; "HAVING"; "QUALIFY"; "WINDOW"; "ORDER"; "LIMIT"; ")"; ";"; ""; "UNION"; "INTERSECT"; "EXCEPT"] l ->
  exists b', steps (select_part 9) (sframe sp root n) (b :: yield_clause c ++ l) Norm (sframe sp root (with_clause U N_KeywordWithExpr "where" c n)) (b' :: l).
Proof.
  destruct c as [|k e]; intros W O L.
  - exists b. destruct L as (f & r & -> & K & _). cbn [yield_clause app]. here. step HU.
  - destruct W as [Wk We]. clause_ "WHERE" L. pose proof (led_expr U HU e true _ _ O L eq_refl) as C. destruct L as (f & r & -> & K & _).
    apply fits_word in Wk. here. step HU.
Qed.
Lemma having_part sp root n c b l : wf_clause U "HAVING" c -> clause_ok c -> led (yield_clause c) ["QUALIFY"; "WINDOW"; "ORDER"; "LIMIT"; ")"; ";"; ""; "UNION"; "INTERSECT"; "EXCEPT"] l ->
  exists b', steps (select_part 11) (sframe sp root n) (b :: yield_clause c ++ l) Norm (sframe sp root (with_clause U N_KeywordWithExpr "having" c n)) (b' :: l).
Proof.
  destruct c as [|k e]; intros W O L.
  - exists b. destruct L as (f & r & -> & K & _). cbn [yield_clause app]. here. step HU.
  - destruct W as [Wk We]. clause_ "HAVING" L. pose proof (led_expr U HU e true _ _ O L eq_refl) as C. destruct L as (f & r & -> & K & _).
    apply fits_word in Wk. here. step HU.
Qed.
Lemma qualify_part sp root n c b l : wf_clause U "QUALIFY" c -> clause_ok c -> led (yield_clause c) ["WINDOW"; "ORDER"; "LIMIT"; ")"; ";"; ""; "UNION"; "INTERSECT"; "EXCEPT"] l ->
  exists b', steps (select_part 12) (sframe sp root n) (b :: yield_clause c ++ l) Norm (sframe sp root (with_clause U N_KeywordWithExpr "qualify" c n)) (b' :: l).
Proof.
  destruct c as [|k e]; intros W O L.
  - exists b. destruct L as (f & r & -> & K & _). cbn [yield_clause app]. here. step HU.
  - destruct W as [Wk We]. clause_ "QUALIFY" L. pose proof (led_expr U HU e true _ _ O L eq_refl) as C. destruct L as (f & r & -> & K & _).
    apply fits_word in Wk. here. step HU.
Qed.
Lemma by_parts k b' es n ty key : with_by U ty key (By k b' es) n = with_kid key (CNode (made ty k [("by", keyword b'); ("exprs", CVec (trees U es))])) n.
Proof. reflexivity. Qed.
Lemma order_call k b1 es ws l : is_word b1 "BY" -> wfs U false false es -> exprs_ok U false es -> led (yields es) ws l -> forallb (fun w => existsb (String.eqb w) (ends_of false)) ws = true ->
  exists b', calls F_parse_xxxby_exprs [] (k :: b1 :: yields es ++ l) (VNode (made N_XXXByExprs k [("by", keyword b1); ("exprs", CVec (trees U es))])) (b' :: l).
Proof.
  intros Wb We O L I. destruct (by_list U es ws l We O L I) as (b' & C). exists b'. destruct L as (f & r & -> & K & _). apply fits_word in Wb.
  eapply calls_body; [reflexivity|]. cbn [prog parse_xxxby_exprs f_body f_params combine]. step HU.
Qed.
Lemma group_by_part sp root n c b l : wf_by U "GROUP" c -> by_ok c -> led (yield_by c) ["HAVING"; "QUALIFY"; "WINDOW"; "ORDER"; "LIMIT"; ")"; ";"; ""; "UNION"; "INTERSECT"; "EXCEPT"] l ->
  exists b', steps (select_part 10) (sframe sp root n) (b :: yield_by c ++ l) Norm (sframe sp root (with_by U N_GroupByExprs "groupby" c n)) (b' :: l).
Proof.
  intros W O L. destruct (group_by_call U HU c _ l W O L eq_refl) as [->|(t & b' & f & r & T & E & K & C)].
  - exists b. destruct L as (f & r & -> & K & _). cbn [yield_by app]. here. step HU.
  - exists b'. rewrite T. rewrite E in *. apply fits_word in K. destruct L as (f' & r' & -> & _). here. step HU.
Qed.
Lemma order_part sp root n c b l : wf_by U "ORDER" c -> by_ok c -> led (yield_by c) ["LIMIT"; ")"; ";"; ""; "UNION"; "INTERSECT"; "EXCEPT"] l ->
  exists b', steps (select_part 14) (sframe sp root n) (b :: yield_by c ++ l) Norm (sframe sp root (with_by U N_XXXByExprs "orderby" c n)) (b' :: l).
Proof.
  destruct c as [|k b1 es|k b1 h es|k b1 h s es|k b1 a]; intros W O L; [| |exfalso; destruct W as (_ & E & _); discriminate E..].
  - exists b. destruct L as (f & r & -> & K & _). cbn [yield_by app]. here. step HU.
  - destruct W as (Wk & Wb & We). change (yield_by (By k b1 es)) with (k :: b1 :: yields es) in *. apply (led_cons U), (led_cons U) in L.
    destruct (order_call k b1 es _ l Wb We O L eq_refl) as (b' & C). exists b'. destruct L as (f & r & -> & K & _). cbn [app]. rewrite by_parts.
    apply fits_word in Wk. here. step HU.
Qed.
Lemma limit_part sp root n c b l : wf_limit U c -> limit_ok c -> led (yield_limit c) query_enders l ->
  exists b', steps (select_part 15) (sframe sp root n) (b :: yield_limit c ++ l) Norm (sframe sp root (with_limit U c n)) (b' :: l).
Proof.
  destruct c as [|k e|k e o x]; intros W O L.
  - exists b. destruct L as (f & r & -> & K & _). cbn [yield_limit app]. here. step HU.
  - destruct W as [Wk We]. exists (lastb e). change (yield_limit (Limit k e)) with (k :: yield e) in *. apply (led_cons U) in L.
    pose proof (led_expr U HU e true _ _ O L eq_refl) as C. destruct L as (f & r & -> & K & _).
    change (with_limit U (Limit k e) n) with (with_kid "limit" (CNode (made N_LimitClause k [("expr", CNode (tree e))])) n). cbn [app].
    apply fits_word in Wk. here. step HU.
  - destruct W as (Wk & We & Wo & Wx). destruct O as (Oe & Ox). exists (lastb x). change (yield_limit (LimitOffset k e o x)) with (k :: yield e ++ o :: yield x) in *.
    apply (led_cons U), (led_right U), (led_cons U) in L. pose proof (led_expr U HU x true _ _ Ox L eq_refl) as C. destruct L as (f & r & -> & K & _).
    cbn [app]. rewrite <- app_assoc. cbn [app]. apply fits_word in Wk, Wo.
    pose proof (plain_call U HU _ e true o (yield x ++ f :: r) Oe Wo eq_refl) as C'.
    change (with_limit U (LimitOffset k e o x) n) with
      (with_kid "limit" (CNode (made N_LimitClause k [("expr", CNode (tree e)); ("offset", CNode (made N_KeywordWithExpr o [("expr", CNode (tree x))]))])) n).
    here. step HU.
Qed.
Lemma window_part sp root n ws b l : wf_windows U "WINDOW" ws -> windows_ok U ws -> led (yield_windows ws) window_enders l ->
  exists b', steps (select_part 13) (sframe sp root n) (b :: yield_windows ws ++ l) Norm (sframe sp root (with_windows ws (tree_windows U ws) n)) (b' :: l).
Proof.
  intros W O (f & r & -> & K & _). assert (D : ws = NoWindow \/ ws <> NoWindow) by (destruct ws; [now left|right; discriminate..]). destruct D as [->|D].
  - exists b. cbn [yield_windows app]. here. step HU.
  - destruct (windows_call U HU ws f r D W O K) as (k & t & b' & E & Kk & T & C). exists b'. rewrite T, E. apply fits_word in Kk. set (l := tree_windows U ws) in *. clearbody l. here. step HU.
Qed.

Definition list_until : list string :=
  ["FROM"; "WHERE"; "GROUP"; "HAVING"; "QUALIFY"; "WINDOW"; "ORDER"; "LIMIT"; "UNION"; "INTERSECT"; "EXCEPT"; ";"; ")"].
(* only the end of the text has no word *)
Definition ended (l : list bundle) : Prop := forall g r, l = g :: r -> is_word g "" -> r = [].
Lemma ended_left A B ks l : (B = [] \/ led A ks (B ++ l)) -> existsb (String.eqb "") ks = false -> ended l -> ended (B ++ l).
Proof.
  intros [->|(g & r & E & K & _)] N L; [exact L|]. intros g' r' E' K'. rewrite E in E'. injection E' as <- <-. exfalso.
  apply among_word in K as (w & I & W). unfold GrammarSpec.is_word in *. rewrite W in K'. assert (w = "") as -> by now apply s_inj in K'.
  rewrite <- not_true_iff_false in N. apply N. apply existsb_exists. exists "". split; [exact I|reflexivity].
Qed.
Definition select_node (s : bundle) (d : option bundle) (a : option (bundle * bundle)) (es : items) : node :=
  with_kid "exprs" (CVec (trees U es)) (with_words "as_struct_or_value" a (with_word "distinct_or_all" d (made N_SelectStatement s []))).
Lemma head_part sp root s d a es l : is_word s "SELECT" -> perhaps U d ["ALL"; "DISTINCT"] -> perhaps2 U a ["AS"] ["STRUCT"; "VALUE"] ->
  wfs U true true es -> exprs_ok U true es -> led (yields es) ("FROM" :: from_enders) l -> ended l ->
  exists b, forall ct e2 bs2,
    steps (select_from 8) (sframe sp root (select_node s d a es)) (b :: l) ct e2 bs2 ->
    steps (select_from 0) [("semicolon", VBool sp); ("root", VBool root)] (s :: opt d ++ opt2 a ++ yields es ++ l) ct e2 bs2.
Proof.
  intros Ws Kd Ka We O L N.
  assert (C : exists b, calls F_parse_exprs [VStrs list_until; VBool true; VBool true] (yields es ++ l) (VVec (trees U es)) (b :: l)).
  { destruct L as (f & r & -> & K & A). apply O; try reflexivity; [eapply fits_weaken; [exact K|reflexivity]|apply A; apply items_nonempty|]. intros _.
    apply among_word in K as (w & I & W). destruct (String.eqb w "") eqn:E; [apply String.eqb_eq in E; subst w; right; now apply (N f)|left].
    apply fits_among. exists w. split; [|exact W]. apply String.eqb_neq in E. assert (E' : "" <> w) by congruence. cbn in *. tauto. }
  destruct C as (b & C). exists b. intros ct e2 bs2 S. unfold select_node in S.
  destruct L as (f & r & -> & K & A). apply fits_word in Ws. apply first_items_avoids in We.
  destruct d as [d|]; [cbn [perhaps] in Kd; apply fits_among in Kd|]; (destruct a as [[a a']|]; [destruct Ka as (Ka & _); apply fits_among in Ka|]); cbn [opt opt2 app with_word with_words] in *;
  (rewrite (select_seq 0) by lia; (eapply steps_seq; [here; step HU|]); norm;
  rewrite (select_seq 1) by lia; (eapply steps_seq; [here; step HU|]); norm;
  rewrite (select_seq 2) by lia; (eapply steps_seq; [here; step HU|]); norm;
  rewrite (select_seq 3) by lia; (eapply steps_seq; [here; step HU|]); norm;
  rewrite (select_seq 4) by lia; (eapply steps_seq; [here; step HU|]); norm;
  rewrite (select_seq 5) by lia; (eapply steps_seq; [here; step HU|]); norm;
  rewrite (select_seq 6) by lia; (eapply steps_seq; [here; step HU|]); norm;
  rewrite (select_seq 7) by lia; (eapply steps_seq; [here; step HU|]); norm; rewrite !with_kid_made in S by reflexivity; exact S).
Qed.

Lemma head_is (l : list bundle) f rest h t : l ++ f :: rest = h :: t -> hd f l = h.
Proof. destruct l; cbn; congruence. Qed.
Lemma clause_starts A k c l : wf_clause U k c -> plain k = true -> yield_clause c = [] \/ led A [k] (yield_clause c ++ l).
Proof. destruct c as [|b e]; intros W P; [now left|right]. destruct W as [W _]. now apply led_word. Qed.
Lemma by_starts A k c l : wf_by U k c -> plain k = true -> yield_by c = [] \/ led A [k] (yield_by c ++ l).
Proof. destruct c; intros W P; [now left|right..]; destruct W as [W _]; now apply led_word. Qed.
Lemma limit_starts A c l : wf_limit U c -> yield_limit c = [] \/ led A ["LIMIT"] (yield_limit c ++ l).
Proof. destruct c as [|k e|k e o x]; intros W; [now left|right..]; destruct W as [W _]; now apply led_word. Qed.
Lemma from_starts A c f l : wf_from U c f -> yield_from c = [] \/ led A ["FROM"] (yield_from c ++ l).
Proof. destruct c as [|k t]; intros W; [now left|right]. destruct W as [W _]. now apply led_word. Qed.

Definition select_parts (q : query) : Prop :=
  match q with
  | Select s d a es f w g h qf ws o l => exprs_ok U true es /\ match f with NoFrom => True | From _ t => table_ok U t end /\
      clause_ok w /\ by_ok g /\ clause_ok h /\ clause_ok qf /\ windows_ok U ws /\ by_ok o /\ limit_ok l
  | _ => False
  end.
Lemma select_clauses q next rest : wf_query U q next -> select_parts q -> led (yield_query q) query_enders (next :: rest) -> ended (next :: rest) ->
  forall sp root, exists b, forall ct e2 bs2,
  steps (select_from 16) (sframe sp root (tree_query U q None)) (b :: next :: rest) ct e2 bs2 ->
  steps (select_from 0) [("semicolon", VBool sp); ("root", VBool root)] (yield_query q ++ next :: rest) ct e2 bs2.
Proof.
  destruct q as [s d a es f w g h qf ws o l| | | | ]; intros W C Lq N sp root; try contradiction.
  destruct W as (Ws & Wd & Wa & Wes & Wf & Ww & Wg & Wh & Wq & Wws & Wo & Wl). destruct C as (Oes & Of & Ow & Og & Oh & Oq & Ows & Oo & Ol).
  change (yield_query (Select s d a es f w g h qf ws o l)) with
    (s :: opt d ++ opt2 a ++ yields es ++ yield_from f ++ yield_clause w ++ yield_by g ++ yield_clause h ++ yield_clause qf ++ yield_windows ws ++ yield_by o ++ yield_limit l) in *.
  apply (led_cons U) in Lq. rewrite !app_assoc in Lq.
  pose proof (led_right U _ _ _ _ Lq) as Ll. apply (led_left U _ _ ["LIMIT"]) in Lq; [|now apply limit_starts].
  apply (ended_left [] (yield_limit l) ["LIMIT"]) in N; [|now apply limit_starts|reflexivity].
  remember (yield_limit l ++ next :: rest) as l1 eqn:E1.
  pose proof (led_right U _ _ _ _ Lq) as Lo. apply (led_left U _ _ ["ORDER"]) in Lq; [|now apply by_starts].
  apply (ended_left [] (yield_by o) ["ORDER"]) in N; [|now apply by_starts|reflexivity].
  remember (yield_by o ++ l1) as l2' eqn:E2'.
  pose proof (led_right U _ _ _ _ Lq) as Lws. apply (led_left U _ _ ["WINDOW"]) in Lq; [|now apply windows_starts].
  apply (ended_left [] (yield_windows ws) ["WINDOW"]) in N; [|now apply windows_starts|reflexivity].
  remember (yield_windows ws ++ l2') as l2 eqn:E2.
  pose proof (led_right U _ _ _ _ Lq) as Lqf. apply (led_left U _ _ ["QUALIFY"]) in Lq; [|now apply clause_starts].
  apply (ended_left [] (yield_clause qf) ["QUALIFY"]) in N; [|now apply clause_starts|reflexivity].
  remember (yield_clause qf ++ l2) as l3 eqn:E3.
  pose proof (led_right U _ _ _ _ Lq) as Lh. apply (led_left U _ _ ["HAVING"]) in Lq; [|now apply clause_starts].
  apply (ended_left [] (yield_clause h) ["HAVING"]) in N; [|now apply clause_starts|reflexivity].
  remember (yield_clause h ++ l3) as l4 eqn:E4.
  pose proof (led_right U _ _ _ _ Lq) as Lg. apply (led_left U _ _ ["GROUP"]) in Lq; [|now apply by_starts].
  apply (ended_left [] (yield_by g) ["GROUP"]) in N; [|now apply by_starts|reflexivity].
  remember (yield_by g ++ l4) as l5 eqn:E5.
  pose proof (led_right U _ _ _ _ Lq) as Lw. apply (led_left U _ _ ["WHERE"]) in Lq; [|now apply clause_starts].
  apply (ended_left [] (yield_clause w) ["WHERE"]) in N; [|now apply clause_starts|reflexivity].
  remember (yield_clause w ++ l5) as l6 eqn:E6.
  pose proof (led_right U _ _ _ _ Lq) as Lf. cbn [app query_enders] in *. 
  assert (E : exists f6 r6, l6 = f6 :: r6) by (destruct Lf as (? & ? & -> & _); eauto). destruct E as (f6 & r6 & E).
  assert (Hf : hd next (yield_clause w ++ yield_by g ++ yield_clause h ++ yield_clause qf ++ yield_windows ws ++ yield_by o ++ yield_limit l) = f6).
  { apply head_is with (rest := rest) (t := r6). rewrite <- !app_assoc, <- E1, <- E2', <- E2, <- E3, <- E4, <- E5, <- E6. exact E. }
  rewrite Hf in Wf.
  apply (led_left U _ _ ["FROM"]) in Lq; [|eapply from_starts; exact Wf].
  apply (ended_left [] (yield_from f) ["FROM"]) in N; [|eapply from_starts; exact Wf|reflexivity].
  apply (led_right U) in Lq. cbn [app] in Lq.
  destruct (head_part sp root s d a es _ Ws Wd Wa Wes Oes Lq N) as (b0 & P0).
  rewrite E in Lf. destruct (from_part sp root (select_node s d a es) f b0 f6 r6 Wf Of Lf) as (b1 & P1).
  match type of P1 with Forward.steps _ _ _ _ _ (sframe _ _ ?n) _ => destruct (where_part sp root n w b1 l5 Ww Ow Lw) as (b2 & P2) end.
  match type of P2 with Forward.steps _ _ _ _ _ (sframe _ _ ?n) _ => destruct (group_by_part sp root n g b2 l4 Wg Og Lg) as (b3 & P3) end.
  match type of P3 with Forward.steps _ _ _ _ _ (sframe _ _ ?n) _ => destruct (having_part sp root n h b3 l3 Wh Oh Lh) as (b4 & P4) end.
  match type of P4 with Forward.steps _ _ _ _ _ (sframe _ _ ?n) _ => destruct (qualify_part sp root n qf b4 l2 Wq Oq Lqf) as (b5 & P5) end.
  match type of P5 with Forward.steps _ _ _ _ _ (sframe _ _ ?n) _ => destruct (window_part sp root n ws b5 l2' Wws Ows Lws) as (b5' & P6) end.
  match type of P6 with Forward.steps _ _ _ _ _ (sframe _ _ ?n) _ => destruct (order_part sp root n o b5' l1 Wo Oo Lo) as (b6 & P7) end.
  match type of P7 with Forward.steps _ _ _ _ _ (sframe _ _ ?n) _ => destruct (limit_part sp root n l b6 (next :: rest) Wl Ol Ll) as (b7 & P8) end.
  exists b7. intros ct e2 bs2 S. cbn [app]. rewrite <- !app_assoc, <- E1, <- E2', <- E2, <- E3, <- E4, <- E5, <- E6.
  apply P0. rewrite E, (select_seq 8) by lia. eapply steps_seq; [exact P1|].
  rewrite <- E, E6, (select_seq 9) by lia. eapply steps_seq; [exact P2|].
  rewrite E5, (select_seq 10) by lia. eapply steps_seq; [exact P3|].
  rewrite E4, (select_seq 11) by lia. eapply steps_seq; [exact P4|].
  rewrite E3, (select_seq 12) by lia. eapply steps_seq; [exact P5|].
  rewrite E2, (select_seq 13) by lia. eapply steps_seq; [exact P6|].
  rewrite E2', (select_seq 14) by lia. eapply steps_seq; [exact P7|].
  rewrite E1, (select_seq 15) by lia. eapply steps_seq; [exact P8|]. exact S.
Qed.

(* ----- after the clauses ----- *)
(* [next] ends a query: a semicolon, if one is wanted, is part of the query *)
Definition closes (sp : bool) (so : option bundle) (next : bundle) (rest : list bundle) : Prop :=
  match so with
  | None => is_word next ")" \/ is_word next "" /\ rest = [] \/ is_word next ";" /\ sp = false
  | Some s => s = next /\ sp = true /\ is_word s ";"
  end.
Definition left_over (so : option bundle) (b next : bundle) (rest : list bundle) : list bundle :=
  match so with None => b :: next :: rest | Some _ => next :: rest end.
Lemma closes_known sp so next rest : closes sp so next rest -> fits (Among (match so with None => [")"; ""; ";"] | Some _ => [";"] end)) (b_tok next) /\ (so = None /\ (fits (Among [")"; ""]) (b_tok next) \/ fits (Among [";"]) (b_tok next) /\ sp = false) \/ so = Some next /\ sp = true).
Proof.
  destruct so as [s|]; cbn [closes].
  - intros (-> & -> & K). split; [now apply fits_word|auto].
  - intros K. split.
    + apply fits_among. destruct K as [K|[[K _]|[K _]]]; [exists ")"|exists ""|exists ";"]; (split; [cbn; auto|exact K]).
    + left. split; [reflexivity|]. destruct K as [K|[[K _]|[K E]]]; [left|left|right; split; [now apply fits_word|exact E]]; apply fits_among; [exists ")"|exists ""]; (split; [cbn; auto|exact K]).
Qed.
Lemma select_end sp so n b next rest : closes sp so next rest ->
  exists e, steps (select_from 16) (sframe sp true n) (b :: next :: rest) (Ret (VNode (with_semi so n))) e (left_over so b next rest).
Proof.
  intros C. destruct (closes_known _ _ _ _ C) as (K & S). clear C. rewrite (select_seq 16) by lia. 
  destruct S as [(-> & S)|(-> & ->)]; cbn [with_semi left_over] in *.
  - clear K. destruct S as [K|(K & ->)]; [destruct (fits_either U next [")"] [""] K) as [K1|K1]; clear K|];
    (eexists; eapply steps_seq; [here; apply steps_while_end; decide_ HU|]; rewrite (select_seq 17) by lia; (eapply steps_seq; [here; step HU|]); norm; here; step HU).
  - eexists; eapply steps_seq; [here; apply steps_while_end; decide_ HU|]; rewrite (select_seq 17) by lia; (eapply steps_seq; [here; step HU|]); norm; here; step HU.
Qed.
Lemma group_order_part sp n c b l : wf_by U "ORDER" c -> by_ok c -> led (yield_by c) ["LIMIT"; ")"; ";"; ""] l ->
  exists b', steps (group_part 7) (sframe sp true n) (b :: yield_by c ++ l) Norm (sframe sp true (with_by U N_XXXByExprs "orderby" c n)) (b' :: l).
Proof.
  destruct c as [|k b1 es|k b1 h es|k b1 h s es|k b1 a]; intros W O L; [| |exfalso; destruct W as (_ & E & _); discriminate E..].
  - exists b. destruct L as (f & r & -> & K & _). cbn [yield_by app]. here. step HU.
  - destruct W as (Wk & Wb & We). change (yield_by (By k b1 es)) with (k :: b1 :: yields es) in *. apply (led_cons U), (led_cons U) in L.
    destruct (order_call k b1 es _ l Wb We O L eq_refl) as (b' & C). exists b'. destruct L as (f & r & -> & K & _). cbn [app]. rewrite by_parts.
    apply fits_word in Wk. here. step HU.
Qed.
Lemma group_limit_part sp n c b l : wf_limit U c -> limit_ok c -> led (yield_limit c) [")"; ";"; ""] l ->
  exists b', steps (group_part 8) (sframe sp true n) (b :: yield_limit c ++ l) Norm (sframe sp true (with_limit U c n)) (b' :: l).
Proof.
  destruct c as [|k e|k e o x]; intros W O L.
  - exists b. destruct L as (f & r & -> & K & _). cbn [yield_limit app]. here. step HU.
  - destruct W as [Wk We]. exists (lastb e). change (yield_limit (Limit k e)) with (k :: yield e) in *. apply (led_cons U) in L.
    pose proof (led_expr U HU e true _ _ O L eq_refl) as C. destruct L as (f & r & -> & K & _).
    change (with_limit U (Limit k e) n) with (with_kid "limit" (CNode (made N_LimitClause k [("expr", CNode (tree e))])) n). cbn [app].
    apply fits_word in Wk. here. step HU.
  - destruct W as (Wk & We & Wo & Wx). destruct O as (Oe & Ox). exists (lastb x). change (yield_limit (LimitOffset k e o x)) with (k :: yield e ++ o :: yield x) in *.
    apply (led_cons U), (led_right U), (led_cons U) in L. pose proof (led_expr U HU x true _ _ Ox L eq_refl) as C. destruct L as (f & r & -> & K & _).
    cbn [app]. rewrite <- app_assoc. cbn [app]. apply fits_word in Wk, Wo.
    pose proof (plain_call U HU _ e true o (yield x ++ f :: r) Oe Wo eq_refl) as C'.
    change (with_limit U (LimitOffset k e o x) n) with
      (with_kid "limit" (CNode (made N_LimitClause k [("expr", CNode (tree e)); ("offset", CNode (made N_KeywordWithExpr o [("expr", CNode (tree x))]))])) n).
    here. step HU.
Qed.
Lemma closes_led A sp so next rest : closes sp so next rest -> led A [")"; ";"; ""] (next :: rest).
Proof.
  intros C. destruct (closes_known _ _ _ _ C) as (K & _). apply (led_words U HU); [|reflexivity]. apply among_word in K as (w & I & K). exists w. split; [|exact K].
  destruct so; cbn in *; tauto.
Qed.
Lemma group_end sp so n o l b next rest : wf_by U "ORDER" o -> by_ok o -> wf_limit U l -> limit_ok l -> closes sp so next rest ->
  exists b' e, steps (group_from 6) (sframe sp true n) (b :: yield_by o ++ yield_limit l ++ next :: rest)
    (Ret (VNode (with_semi so (with_limit U l (with_by U N_XXXByExprs "orderby" o n))))) e (left_over so b' next rest).
Proof.
  intros Wo Oo Wl Ol C. pose proof (closes_led (yield_by o ++ yield_limit l) _ _ _ _ C) as L.
  pose proof (led_right U _ _ _ _ L) as Ll. apply (led_left U _ _ ["LIMIT"]) in L; [|now apply limit_starts].
  destruct (group_order_part sp n o b _ Wo Oo L) as (b1 & P1).
  destruct (group_limit_part sp (with_by U N_XXXByExprs "orderby" o n) l b1 (next :: rest) Wl Ol Ll) as (b2 & P2). exists b2.
  assert (H : exists h t, yield_by o ++ yield_limit l ++ next :: rest = h :: t /\ fits (Among ["ORDER"; "LIMIT"; ")"; ";"; ""]) (b_tok h)).
  { apply (led_left U []  _ ["ORDER"]) in L; [|now apply by_starts]. destruct L as (h & t & E & K & _). exists h, t. split; [exact E|exact K]. }
  destruct H as (h & t & E & K). destruct (closes_known _ _ _ _ C) as (Kn & S). clear C.
  assert (P0 : steps (group_part 6) (sframe sp true n) (b :: yield_by o ++ yield_limit l ++ next :: rest) Norm (sframe sp true n) (b :: yield_by o ++ yield_limit l ++ next :: rest)).
  { rewrite E. here. apply steps_while_end. decide_ HU. }
  clear E K. set (m := with_limit U l _) in *. 
  assert (P3 : exists e, steps (group_from 9) (sframe sp true m) (b2 :: next :: rest) (Ret (VNode (with_semi so m))) e (left_over so b2 next rest)).
  { destruct S as [(-> & S)|(-> & ->)]; cbn [with_semi left_over] in *.
    - clear Kn. destruct S as [K|(K & ->)]; [destruct (fits_either U next [")"] [""] K) as [K1|K1]; clear K|];
      (eexists; rewrite (group_seq 9) by lia; (eapply steps_seq; [here; step HU|]); norm; here; step HU).
    - eexists; rewrite (group_seq 9) by lia; (eapply steps_seq; [here; step HU|]); norm; here; step HU. }
  destruct P3 as (e & P3). exists e. rewrite (group_seq 6) by lia. eapply steps_seq; [exact P0|]. rewrite (group_seq 7) by lia. eapply steps_seq; [exact P1|].
  rewrite (group_seq 8) by lia. eapply steps_seq; [exact P2|]. exact P3.
Qed.

(* ----- combined queries ----- *)
Lemma query_first q next rest : wf_query U q next -> exists t, yield_query q ++ next :: rest = first_query q :: t.
Proof.
  revert next rest. induction q as [s d a es f w g h q ws o l|lp q IH rp|q1 IH k d m q2 IH2|q IH o l|w r cs q IH]; intros next rest Wq; cbn [yield_query first_query app] in *; rewrite <- ?app_assoc; eauto.
  - destruct Wq as (_ & Wq & _). cbn [app]. rewrite <- app_assoc. exact (IH k (d :: yield_matching m ++ yield_query q2 ++ next :: rest) Wq).
  - destruct Wq as (_ & _ & Wq & _). destruct (yield_by o ++ yield_limit l ++ next :: rest) as [|f1 r1] eqn:E; [destruct (yield_by o), (yield_limit l); discriminate|].
    assert (hd next (yield_by o ++ yield_limit l) = f1) as <- by (eapply head_is; rewrite <- app_assoc; exact E). exact (IH _ _ Wq).
Qed.
Definition set_loop : cmd fn := select_part 16.
(* where reading goes on after the first query of a combination *)
Fixpoint loop_from (q : query) : cmd fn := match q with Combined l _ _ _ _ => loop_from l | Grouped _ _ _ => group_from 6 | _ => select_from 16 end.
Lemma loop_seq q : exists c, loop_from q = Seq set_loop c.
Proof. induction q; cbn [loop_from]; eauto; eexists; reflexivity. Qed.
Lemma loop_grouped q : starts_grouped q -> loop_from q = group_from 6.
Proof. induction q; cbn [starts_grouped loop_from]; try contradiction; auto. Qed.
Lemma loop_select q : ~ starts_grouped q -> loop_from q = select_from 16.
Proof. induction q; cbn [starts_grouped loop_from]; auto. intros []. exact Logic.I. Qed.
Definition follows (q : query) (next : bundle) (rest : list bundle) : Prop :=
  led (yield_query q) query_enders (next :: rest) /\ ended (next :: rest) \/ ends_grouped q /\ fits (Avoids ["|>"]) (b_tok next).
Definition right_ok (q : query) : Prop := forall next rest, wf_query U q next -> follows q next rest ->
  exists b, calls F_parse_select_statement [VBool false; VBool false] (yield_query q ++ next :: rest) (VNode (tree_query U q None)) (b :: next :: rest).
Definition chain_ok (q : query) : Prop := forall sp next rest, wf_query U q next -> follows q next rest ->
  exists b, forall v bs2, (exists e2, steps (loop_from q) (sframe sp true (tree_query U q None)) (b :: next :: rest) (Ret v) e2 bs2) ->
  exists e2, steps (select_from 0) [("semicolon", VBool sp); ("root", VBool true)] (yield_query q ++ next :: rest) (Ret v) e2 bs2.
Definition whole_ok (q : query) : Prop := forall sp so next rest, wf_query U q next -> closes sp so next rest ->
  exists b, calls F_parse_select_statement [VBool sp; VBool true] (yield_query q ++ next :: rest) (VNode (tree_query U q so)) (left_over so b next rest).

Lemma select_right q : select_parts q -> right_ok q.
Proof.
  intros P next rest W F. assert (L : led (yield_query q) query_enders (next :: rest) /\ ended (next :: rest)) by (destruct F as [F|(F & _)]; [exact F|destruct q; contradiction]).
  destruct L as (L & N). destruct (select_clauses q next rest W P L N false false) as (b & C). exists b. destruct L as (? & ? & [= <- <-] & K & _).
  eapply calls_body; [reflexivity|]. change (f_body (prog F_parse_select_statement)) with (select_from 0). apply C.
  rewrite (select_seq 16) by lia. eapply steps_seq; [here; apply steps_while_end; eapply decides_off_in; [tok|envr]|].
  rewrite (select_seq 17) by lia. eapply steps_seq.
  { here. eapply steps_eq; [eapply (steps_if U) with (v := false); [eapply decides_off_is; [tok|envr]|]|].
    - cbv iota. eapply (steps_if U) with (v := false); [eapply decides_off_is; [tok|envr]|apply steps_skip].
    - envr. }
  norm. here. step HU.
Qed.
Lemma select_chain q : select_parts q -> chain_ok q.
Proof.
  intros P sp next rest W F. assert (L : led (yield_query q) query_enders (next :: rest) /\ ended (next :: rest)) by (destruct F as [F|(F & _)]; [exact F|destruct q; contradiction]).
  destruct L as (L & N). destruct (select_clauses q next rest W P L N sp true) as (b & C). exists b. intros v bs2 (e2 & S). exists e2. apply C.
  destruct q; try contradiction. exact S.
Qed.
Lemma follows_grouped lp q rp next rest : follows (Grouped lp q rp) next rest -> fits (Avoids ["|>"]) (b_tok next).
Proof. intros [[(? & ? & [= <- <-] & K & _) _]|(_ & K)]; [eapply fits_weaken; [exact K|reflexivity]|exact K]. Qed.
Lemma grouped_right lp q rp : query_ok U q rp -> right_ok (Grouped lp q rp).
Proof.
  intros C next rest (Kl & W & Kr) F. apply follows_grouped in F. exists rp.
  change (yield_query (Grouped lp q rp)) with (lp :: yield_query q ++ [rp]). cbn [app]. rewrite <- app_assoc. cbn [app].
  now apply (grouped_alone U HU).
Qed.
Lemma grouped_chain lp q rp : query_ok U q rp -> chain_ok (Grouped lp q rp).
Proof.
  intros C sp next rest (Kl & W & Kr) F. apply follows_grouped in F. exists rp. intros v bs2 (e2 & S).
  change (yield_query (Grouped lp q rp)) with (lp :: yield_query q ++ [rp]). cbn [app]. rewrite <- app_assoc. cbn [app].
  change (tree_query U (Grouped lp q rp) None) with (made N_GroupedStatement lp [("stmt", CNode (tree_query U q None)); ("rparen", symbol rp)]) in S.
  change (loop_from (Grouped lp q rp)) with (group_from 6) in S.
  destruct (C (next :: rest)) as (b & C'). apply wf_first_query in W. apply fits_among in W. apply fits_word in Kl, Kr.
  eexists. rewrite (select_seq 0) by lia. eapply steps_seq_ret. unfold select_part. cbn [part parse_select_statement f_body].
  eapply (steps_if U) with (v := true); [decide_ HU|]. cbv iota.
  do 6 (eapply steps_seq; [step HU|]; norm). exact S.
Qed.
Lemma operator_call k d m r n next rest : word_in k ["UNION"; "INTERSECT"; "EXCEPT"] -> word_in d ["ALL"; "DISTINCT"] -> wf_matching U m -> wf_query U r next -> right_ok r -> follows r next rest ->
  exists b, calls F_parse_set_operator [VNode n] (k :: d :: yield_matching m ++ yield_query r ++ next :: rest)
    (VNode (made N_SetOperator k (("distinct_or_all", keyword d) :: kid_matching m ++ [("left", CNode n); ("right", CNode (tree_query U r None))]))) (b :: next :: rest).
Proof.
  intros Kk Kd Wm W R F. destruct (R next rest W F) as (b & C). exists b. apply fits_among in Kk, Kd.
  assert (H : exists t, yield_query r ++ next :: rest = first_query r :: t) by (eapply query_first; exact W). destruct H as (t & H). rewrite H in *.
  apply wf_first_query in W. apply fits_among in W. set (q := tree_query U r None) in *. clearbody q.
  destruct (matching_shape U HU m (first_query r) t Wm W) as [(Em & ->)|(b' & u & y & r' & Em & [(Ky & -> & Cm)|(Ky & -> & Cm)])]; rewrite Em in *; clear Em Wm; cbn [app];
  (eapply calls_body; [reflexivity|]; cbn [prog parse_set_operator f_body f_params combine]; step HU).
Qed.
Lemma combined_chain l k d m r : chain_ok l -> right_ok r -> chain_ok (Combined l k d m r).
Proof.
  intros Cl Rr sp next rest (Hc & Wl & Al & Kk & Kd & Wm & Hs & Wr) F.
  change (yield_query (Combined l k d m r)) with (yield_query l ++ k :: d :: yield_matching m ++ yield_query r). rewrite <- app_assoc. cbn [app]. rewrite <- app_assoc.
  destruct (Cl sp k (d :: yield_matching m ++ yield_query r ++ next :: rest) Wl) as (b1 & P1).
  { left. split.
    - exists k, (d :: yield_matching m ++ yield_query r ++ next :: rest). split; [reflexivity|]. split; [|intros _; exact Al]. apply fits_among in Kk. eapply fits_weaken; [exact Kk|reflexivity].
    - intros g r' [= <- <-] E. exfalso. destruct Kk as (w & I & Kk). unfold GrammarSpec.is_word in *. rewrite Kk in E.
      cbn in I. repeat (destruct I as [<-|I]; [discriminate|]). contradiction. }
  assert (Fr : follows r next rest).
  { destruct F as [(L & N)|(G & K)]; [left|right].
    - split; [|exact N]. change (yield_query (Combined l k d m r)) with (yield_query l ++ k :: d :: yield_matching m ++ yield_query r) in L. apply (led_right U), (led_cons U), (led_cons U), (led_right U) in L. exact L.
    - split; [|exact K]. destruct r; try contradiction; exact Logic.I. }
  destruct (operator_call k d m r (tree_query U l None) next rest Kk Kd Wm Wr Rr Fr) as (b & C). exists b. intros v bs2 (e2 & S).
  apply P1. exists e2. change (loop_from (Combined l k d m r)) with (loop_from l) in S. destruct (loop_seq l) as (c & E). rewrite E in *.
  apply fits_among in Kk. unfold set_loop in *. unfold select_part in *. cbn [part parse_select_statement f_body] in *. unfold sframe in *.
  eapply steps_while_more_seq; [decide_ HU|step HU|]. norm. exact S.
Qed.
Lemma with_semi_chain q so : chain q -> tree_query U q so = with_semi so (tree_query U q None).
Proof. destruct q; cbn [chain simple]; try contradiction; destruct so; reflexivity. Qed.
Lemma chain_whole q : chain q -> chain_ok q -> whole_ok q.
Proof.
  intros H C sp so next rest W E.
  destruct (C sp next rest W) as (b & P).
  { left. split; [eapply led_more; [eapply closes_led; exact E|reflexivity]|]. intros g r [= <- <-] K. destruct so as [s|].
    - destruct E as (-> & _ & E). unfold GrammarSpec.is_word in *. rewrite E in K. discriminate.
    - destruct E as [E|[[_ E]|[E _]]]; [|exact E|]; unfold GrammarSpec.is_word in *; rewrite E in K; discriminate. }
  rewrite with_semi_chain by exact H.
  assert (X : exists b', exists e2, steps (loop_from q) (sframe sp true (tree_query U q None)) (b :: next :: rest) (Ret (VNode (with_semi so (tree_query U q None)))) e2 (left_over so b' next rest)).
  { assert (G : starts_grouped q \/ ~ starts_grouped q) by (clear; induction q; cbn [starts_grouped]; tauto). destruct G as [G|G].
    - rewrite loop_grouped by exact G. exact (group_end sp so (tree_query U q None) NoBy NoLimit b next rest Logic.I Logic.I Logic.I Logic.I E).
    - rewrite loop_select by exact G. exists b. now apply select_end. }
  destruct X as (b' & e2 & X). destruct (P _ _ (ex_intro _ e2 X)) as (e3 & Y). exists b'. eapply calls_body; [reflexivity|].
  change (f_body (prog F_parse_select_statement)) with (select_from 0). exact Y.
Qed.
Lemma sorted_whole q o l : chain_ok q -> by_ok o -> limit_ok l -> whole_ok (Sorted q o l).
Proof.
  intros C Oo Ol sp so next rest (G & G' & W & Wo & Wl) E.
  change (yield_query (Sorted q o l)) with (yield_query q ++ yield_by o ++ yield_limit l). rewrite <- !app_assoc.
  change (tree_query U (Sorted q o l) so) with (with_semi so (with_limit U l (with_by U N_XXXByExprs "orderby" o (tree_query U q None)))).
  assert (H : exists t, yield_by o ++ yield_limit l ++ next :: rest = hd next (yield_by o ++ yield_limit l) :: t).
  { rewrite app_assoc. destruct (yield_by o ++ yield_limit l); cbn [app hd]; eauto. }
  destruct H as (t & H).
  destruct (C sp (hd next (yield_by o ++ yield_limit l)) t W) as (b & P).
  { right. split; [exact G'|]. pose proof (closes_led (yield_by o ++ yield_limit l) _ _ _ _ E) as L. apply (led_left U _ _ ["LIMIT"]) in L; [|now apply limit_starts].
    apply (led_left U []  _ ["ORDER"]) in L; [|now apply by_starts]. rewrite H in L. destruct L as (? & ? & [= <- <-] & K & _). eapply fits_weaken; [exact K|reflexivity]. }
  destruct (group_end sp so (tree_query U q None) o l b next rest Wo Oo Wl Ol E) as (b' & e2 & X). rewrite H in *. rewrite loop_grouped in P by exact G.
  destruct (P _ _ (ex_intro _ e2 X)) as (e3 & Y). exists b'. eapply calls_body; [reflexivity|].
  change (f_body (prog F_parse_select_statement)) with (select_from 0). exact Y.
Qed.

(* ----- WITH ----- *)
Fixpoint ctes_ok (cs : ctes) : Prop :=
  match cs with LastCte _ _ _ q rp => query_ok U q rp | MoreCtes _ _ _ q rp _ r => query_ok U q rp /\ ctes_ok r end.
Definition cte_node (n as_ lp : bundle) (q : query) (rp : bundle) : node :=
  made N_WithQuery n [("as", keyword as_); ("stmt", CNode (made N_GroupedStatement lp [("stmt", CNode (tree_query U q None)); ("rparen", symbol rp)]))].
Lemma cte_call n as_ lp q rp next rest : is_word lp "(" -> wf_query U q rp -> query_ok U q rp -> is_word rp ")" -> fits (Avoids [","]) (b_tok next) ->
  calls F_parse_cte [] (n :: as_ :: lp :: yield_query q ++ rp :: next :: rest) (VNode (cte_node n as_ lp q rp)) (rp :: next :: rest).
Proof.
  intros Kl W C Kr K. destruct (C (next :: rest)) as (b & C'). apply wf_first_query in W. apply fits_among in W. apply fits_word in Kl, Kr. unfold cte_node.
  eapply calls_body; [reflexivity|]. cbn [prog parse_cte f_body f_params combine]. step HU.
Qed.
Definition cte_node' (n as_ lp : bundle) (q : query) (rp c : bundle) : node :=
  made N_WithQuery n [("as", keyword as_); ("stmt", CNode (made N_GroupedStatement lp [("stmt", CNode (tree_query U q None)); ("rparen", symbol rp)])); ("comma", symbol c)].
Lemma cte_comma n as_ lp q rp c rest : is_word lp "(" -> wf_query U q rp -> query_ok U q rp -> is_word rp ")" -> literally c "," -> rest <> [] ->
  calls F_parse_cte [] (n :: as_ :: lp :: yield_query q ++ rp :: c :: rest) (VNode (cte_node' n as_ lp q rp c)) (c :: rest).
Proof.
  intros Kl W C Kr K Ne. destruct (C (c :: rest)) as (b & C'). apply wf_first_query in W. apply fits_among in W. apply fits_word in Kl, Kr. unfold cte_node'.
  eapply calls_body; [reflexivity|]. cbn [prog parse_cte f_body f_params combine].
  do 11 (eapply steps_seq; [step HU|]; norm).
  eapply steps_seq; [eapply steps_eq; [eapply (steps_if U) with (v := true); [eapply decides_literal; [tok|exact K]|cbv iota; step HU]|envr]|]. norm. step HU.
Qed.
Definition with_loop : cmd fn := part 3 (f_body parse_with_clause).
Definition wframe (l : list node) (n : node) : env := [("queries", VVec l); ("with", VNode n)].
Lemma name_goes e b rest m : name U b -> decides U (CAnd (CAnd (CAnd (CNot (CTok 1 (TUpperIs "SELECT"))) (CNot (CTok 1 (TLiteralIs "(")))) (CNot (CTok 1 (TLiteralIs "|>")))) (CNot (CTok 1 (TUpperIs "FROM")))) e (m :: b :: rest) true.
Proof.
  intros (N & _). apply fits_avoids in N. 
  repeat (eapply decides_and; [|cbv iota]); apply decides_not_false; decide_ HU.
Qed.
Lemma with_steps cs : forall l n b next rest, wf_ctes U cs -> ctes_ok cs -> is_word next "SELECT" \/ literally next "(" \/ literally next "|>" ->
  exists b', steps with_loop (wframe l n) (b :: yield_ctes cs ++ next :: rest) Norm (wframe (l ++ tree_ctes U cs) n) (b' :: next :: rest).
Proof.
  induction cs as [c as_ lp q rp|c as_ lp q rp cm r IH]; intros l n b next rest W C K; cbn [ctes_ok] in C.
  - destruct W as (Nc & Ka & Kl & W & Kr). change (yield_ctes (LastCte c as_ lp q rp)) with (c :: as_ :: lp :: yield_query q ++ [rp]).
    change (tree_ctes U (LastCte c as_ lp q rp)) with [cte_node c as_ lp q rp].
    assert (Kn : fits (Among ["SELECT"; "("; "|>"]) (b_tok next)).
    { apply fits_among. destruct K as [K|[K|K]]; [exists "SELECT"; cbn; auto|exists "("|exists "|>"]; (split; [cbn; auto|]);
        [exact (literal_word U HU next "(" K eq_refl)|exact (literal_word U HU next "|>" K eq_refl)]. }
    cbn [app]. rewrite <- app_assoc. cbn [app].
    pose proof (cte_call c as_ lp q rp next rest Kl W C Kr ltac:(eapply fits_weaken; [exact Kn|reflexivity])) as C'. exists rp.
    unfold with_loop, wframe. cbn [part parse_with_clause f_body].
    eapply steps_while_more; [now apply name_goes|step HU|]. norm. apply steps_while_end. destruct K as [K|[K|K]].
    + apply fits_word in K. clear Kn. do 3 apply decides_and_false. apply (decides_not U _ _ _ true). decide_ HU.
    + pose proof (fits_word U _ _ (literal_word U HU next "(" K eq_refl)) as Kp. clear Kn. do 2 apply decides_and_false. eapply decides_and; [apply decides_not_false; decide_ HU|]. cbv iota. apply (decides_not U _ _ _ true). eapply decides_literal; [tok|exact K].
    + pose proof (fits_word U _ _ (literal_word U HU next "|>" K eq_refl)) as Kp. clear Kn. apply decides_and_false. eapply decides_and;
        [eapply decides_and; [apply decides_not_false; decide_ HU|cbv iota; apply decides_not_false; decide_ HU]|]. cbv iota. apply (decides_not U _ _ _ true). eapply decides_literal; [tok|exact K].
  - destruct W as (Nc & Ka & Kl & W & Kr & Kc & Wr). destruct C as (C & Cr). change (yield_ctes (MoreCtes c as_ lp q rp cm r)) with (c :: as_ :: lp :: yield_query q ++ rp :: cm :: yield_ctes r).
    change (tree_ctes U (MoreCtes c as_ lp q rp cm r)) with (cte_node' c as_ lp q rp cm :: tree_ctes U r).
    cbn [app]. rewrite <- app_assoc. cbn [app]. assert (Ne : yield_ctes r ++ next :: rest <> []) by now destruct r.
    pose proof (cte_comma c as_ lp q rp cm _ Kl W C Kr Kc Ne) as C'.
    destruct (IH (l ++ [cte_node' c as_ lp q rp cm]) n cm next rest Wr Cr K) as (b' & S). exists b'.
    rewrite <- app_assoc in S. cbn [app] in S. unfold with_loop, wframe in *. cbn [part parse_with_clause f_body] in *.
    eapply steps_while_more; [now apply name_goes|step HU|]. norm. exact S.
Qed.
Definition with_node (w : bundle) (r : option bundle) (cs : ctes) : node :=
  with_kid "queries" (CVec (tree_ctes U cs)) (with_word "recursive" r (made N_WithClause w [])).
Lemma with_call w r cs next rest : perhaps U r ["RECURSIVE"] -> wf_ctes U cs -> ctes_ok cs -> is_word next "SELECT" \/ literally next "(" \/ literally next "|>" ->
  exists b, calls F_parse_with_clause [] (w :: opt r ++ yield_ctes cs ++ next :: rest) (VNode (with_node w r cs)) (b :: next :: rest).
Proof.
  intros Kr W C K.
  assert (F : exists f t, yield_ctes cs ++ next :: rest = f :: t /\ name U f) by (destruct cs; destruct W as (W & _); cbn [yield_ctes app]; eauto).
  destruct F as (f & t & E & (N & _)). apply fits_avoids in N.
  destruct r as [r|]; cbn [opt app perhaps with_word] in *; [apply fits_among in Kr|].
  - destruct (with_steps cs [] (with_kid "recursive" (keyword r) (made N_WithClause w [])) r next rest W C K) as (b & S). exists b. unfold with_node. cbn [with_word].
    unfold with_loop, wframe in S. cbn [part parse_with_clause f_body app] in S. rewrite E in *.
    eapply calls_body; [reflexivity|]. cbn [prog parse_with_clause f_body f_params combine].
    eapply steps_seq; [step HU|]. norm. eapply steps_seq; [step HU|]. norm. eapply steps_seq; [step HU|]. norm. rewrite with_kid_made in S by reflexivity. eapply steps_seq; [exact S|].
    rewrite !with_kid_made by reflexivity. step HU.
  - destruct (with_steps cs [] (made N_WithClause w []) w next rest W C K) as (b & S). exists b. unfold with_node. cbn [with_word].
    unfold with_loop, wframe in S. cbn [part parse_with_clause f_body app] in S. rewrite E in *.
    eapply calls_body; [reflexivity|]. cbn [prog parse_with_clause f_body f_params combine].
    eapply steps_seq; [step HU|]. norm. eapply steps_seq; [step HU|]. norm. eapply steps_seq; [step HU|]. norm. eapply steps_seq; [exact S|].
    rewrite !with_kid_made by reflexivity. step HU.
Qed.
Lemma with_whole w r cs q : ctes_ok cs -> whole_ok q -> whole_ok (With w r cs q).
Proof.
  intros Cc Cq sp so next rest (Kw & Kr & Wc & Wq & Kq) E. destruct (Cq sp so next rest Wq E) as (b & C). exists b.
  change (yield_query (With w r cs q)) with (w :: opt r ++ yield_ctes cs ++ yield_query q). cbn [app]. rewrite <- !app_assoc.
  change (tree_query U (With w r cs q) so) with (with_kid "with" (CNode (with_node w r cs)) (tree_query U q so)).
  assert (H : exists t, yield_query q ++ next :: rest = first_query q :: t).
  { eapply query_first. exact Wq. }
  destruct H as (t & H). rewrite H in *. destruct (with_call w r cs (first_query q) t Kr Wc Cc ltac:(tauto)) as (b1 & C1).
  assert (Kn : fits (Among ["SELECT"; "("]) (b_tok (first_query q))).
  { apply fits_among. destruct Kq as [K|K]; [exists "SELECT"; cbn; auto|]. exists "(". split; [cbn; auto|]. exact (literal_word U HU _ "(" K eq_refl). }
  apply fits_word in Kw. eapply calls_body; [reflexivity|]. cbn [prog parse_select_statement f_body f_params combine]. step HU.
Qed.

(* ----- every phrase ----- *)
Scheme expr_mind := Induction for expr Sort Prop
with item_mind := Induction for item Sort Prop
with items_mind := Induction for items Sort Prop
with arms_mind := Induction for arms Sort Prop
with over_mind := Induction for over Sort Prop
with rows_mind := Induction for rows Sort Prop
with bound_mind := Induction for bound Sort Prop
with type_mind := Induction for type_ Sort Prop
with field_mind := Induction for field Sort Prop
with fields_mind := Induction for fields Sort Prop
with query_mind := Induction for query Sort Prop
with windows_mind := Induction for windows Sort Prop
with ctes_mind := Induction for ctes Sort Prop
with from_mind := Induction for from Sort Prop
with table_mind := Induction for table Sort Prop
with source_mind := Induction for source Sort Prop
with as_of_mind := Induction for as_of Sort Prop
with place_mind := Induction for place Sort Prop
with condition_mind := Induction for condition Sort Prop
with clause_mind := Induction for clause Sort Prop
with by_clause_mind := Induction for by_clause Sort Prop
with limit_mind := Induction for limit Sort Prop.
Combined Scheme phrase_mind from expr_mind, item_mind, items_mind, arms_mind, over_mind, rows_mind, bound_mind, type_mind, field_mind, fields_mind,
  query_mind, windows_mind, ctes_mind, from_mind, table_mind, source_mind, as_of_mind, place_mind, condition_mind, clause_mind, by_clause_mind, limit_mind.

Definition query_all (q : query) : Prop := (simple q -> right_ok q) /\ (chain q -> chain_ok q) /\ whole_ok q.
Lemma all_query q rp : query_all q -> wf_query U q rp -> is_word rp ")" -> query_ok U q rp.
Proof. intros (_ & _ & W) Wq K rest. exact (W false None rp rest Wq (or_introl K)). Qed.
Lemma chain_all q : simple q -> right_ok q -> chain_ok q -> query_all q.
Proof. intros S R C. assert (chain q) by (destruct q; try contradiction; exact S). repeat split; auto. now apply chain_whole. Qed.
Lemma opens_of q next : wf_query U q next -> ~ is_word (first_query q) "(" -> opens_query U q.
Proof.
  intros W N. apply wf_first_query in W as (w & I & W). unfold opens_query. apply fits_among. exists w. split; [|exact W].
  cbn in *. destruct I as [?|[?|[<-|[]]]]; try contradiction; auto.
Qed.
Lemma phrases :
  (forall e, wf e -> reach e) /\
  (forall i al, wf_item U al i -> item_ok U al i) /\
  (forall es al tr, wfs U al tr es -> all_items (item_ok U al) es) /\
  (forall ws, wf_arms U ws -> arms_ok U ws) /\
  (forall ov, wf_over U ov -> over_parts U ov) /\
  (forall f, wf_rows U f -> rows_ok U f) /\
  (forall x, wf_bound U x -> bound_ok U x) /\
  (forall t, wf_type U t -> type_ok U t) /\
  (forall f, wf_field U f -> field_ok U f) /\
  (forall fs, wf_fields U fs -> fields_ok U fs) /\
  (forall q next, wf_query U q next -> query_all q) /\
  (forall ws k, wf_windows U k ws -> windows_ok U ws) /\
  (forall cs, wf_ctes U cs -> ctes_ok cs) /\
  (forall f next, wf_from U f next -> match f with NoFrom => True | From _ t => table_ok U t end) /\
  (forall t next, wf_table U t next -> parts_ok U t) /\
  (forall s next, wf_source U s next -> source_ok U s) /\
  (forall t, wf_as_of U t -> as_of_ok U t) /\
  (forall b next, wf_place U b next -> place_ok U b) /\
  (forall c, wf_condition U c -> condition_ok U c) /\
  (forall c k, wf_clause U k c -> clause_ok c) /\
  (forall c k, wf_by U k c -> by_ok c) /\
  (forall c, wf_limit U c -> limit_ok c).
Proof.
  assert (L : forall al tr es, wfs U al tr es -> all_items (item_ok U al) es -> exprs_ok U al es) by (intros; eapply exprs_items; eassumption).
  assert (L' : forall al tr es, (forall al tr, wfs U al tr es -> all_items (item_ok U al) es) -> wfs U al tr es -> exprs_ok U al es) by eauto.
  assert (Q : forall q rp, (forall next, wf_query U q next -> query_all q) -> wf_query U q rp -> is_word rp ")" -> query_ok U q rp).
  { intros q rp H W K. apply all_query; eauto. }
  apply phrase_mind; auto.
  - intros b W. now apply reach_atom.
  - intros b W. contradiction.
  - intros b W. now apply reach_star.
  - intros b k lp es IH rp (W1 & W2 & W3 & W4 & W5 & W6). apply reach_star_but; auto; intro K;
      [exact (conj (W4 K) (L' false true es IH (W4 K)))|exact (conj (W5 K) (L' true true es IH (W5 K)))].
  - intros k s (W1 & W2). now apply reach_typed.
  - intros k r s (W1 & W2 & W3). now apply reach_typed_raw.
  - intros k e IH p (W1 & W2 & W3 & W4). apply reach_interval; auto; [apply W3|]. unfold apart_from in W4. now rewrite last_yield in W4.
  - intros k e IH p t p' (W1 & W2 & W3 & W4 & W5 & W6). apply reach_interval_to; auto; [apply W3|]. unfold apart_from in W4. now rewrite last_yield in W4.
  - intros e IH d b (W1 & W2 & W3 & W4). apply reach_field; auto.
  - intros e IH d s IHs (W1 & W2 & W3 & W4 & W5). apply reach_all_of; auto.
  - intros b bs [].
  - intros e IH d b bs [].
  - intros lp e IH rp (W1 & W2 & W3). apply reach_paren; auto. apply L with (tr := false); [exact W2|]. apply item_plain; auto.
  - intros lp i IHi c es IHe rp (W1 & W2 & W3 & W4 & W5).
    assert (Wm : wfs U true false (More i c es)) by (split; [exact W2|split; [exact W3|exact W4]]).
    apply reach_tuple; auto. apply L with (tr := false); [exact Wm|]. exact (conj (IHi true W2) (IHe true false W4)).
  - intros lp rp (W1 & W2). now apply reach_empty_tuple.
  - intros b e IH (W & X). apply reach_prefix; auto.
  - intros l IHl b r IHr (W1 & W2 & W3 & W4). apply reach_infix; auto.
  - intros l IHl b n r IHr (W1 & W2 & W3 & W4 & W5 & W6). apply reach_is_not; auto.
  - intros l IHl b n d f r IHr (W1 & W2 & W3 & W4 & W5 & W6 & W7 & W8). apply reach_is_distinct; auto.
  - intros l IHl n b r IHr (W1 & W2 & W3 & W4 & W5 & W6). apply reach_not_like; auto.
  - intros l IHl n b k r IHr (W1 & W2 & W3 & W4 & W5 & W6 & W7). eapply reach_like_some; eauto.
  - intros l IHl n b lo IHlo a hi IHhi (W1 & W2 & W3 & W4 & W5 & W6 & W7 & W8 & W9 & W10). apply reach_between; auto.
  - intros l IHl n b lp es IHe rp (W1 & W2 & W3 & W4 & W5 & W6 & W7). apply reach_in; auto. exact (L' false true es IHe W5).
  - intros l IHl n b lp q IHq rp (W1 & W2 & W3 & W4 & W5 & W6 & W7 & W8). apply reach_in_query; auto. eapply opens_of; eassumption.
  - intros l IHl n b c IHc (W1 & W2 & W3 & W4 & W5 & W6). apply reach_in_unnest; auto.
  - intros f IHf lp rp ov IHo (W1 & W2 & W3 & W4). apply reach_call0; auto.
  - intros f IHf lp d es IHe ig o IHo l IHl rp ov IHov (W1 & W2 & W3 & W4 & W5 & W6 & W7 & W8 & W9). apply reach_call; auto; [exact (L' false false es IHe W4)|exact (IHo "ORDER" W6)|exact (IHl "LIMIT" W7)].
  - intros f IHf lp d es IHe h m e IHx rp ov IHov (W1 & W2 & W3 & W4 & W5 & W6 & W7 & W8 & W9). apply reach_call_most; auto. exact (L' false false es IHe W4).
  - intros f IHf lp q IHq rp (W1 & W2 & W3 & W4 & W5). apply reach_call_query; auto.
  - intros f lp e IHe a t IHt rp (W1 & W2 & W3 & W4 & W5 & W6). apply reach_cast; auto.
  - intros f lp e IHe a t IHt k x IHx rp (W1 & W2 & W3 & W4 & W5 & W6 & W7 & W8). apply reach_cast_format; auto.
  - intros f lp p IHp a e IHe rp (W1 & W2 & W3 & W4 & W5 & W6). apply reach_extract; auto.
  - intros f lp p IHp a e IHe at_ t z x IHx rp (W1 & W2 & W3 & W4 & W5 & W6 & W7 & W8 & W9 & W10). apply reach_extract_at; auto.
  - intros e IHe lp i IHi rp (W1 & W2 & W3 & W4 & W5). apply reach_index; auto.
  - intros lp es IHe rp (W1 & W2 & W3). apply reach_array; auto. exact (L' false false es IHe W2).
  - intros lp rp (W1 & W2). now apply reach_empty_array.
  - intros t IHt lp es IHe rp (W1 & W2 & W3 & W4 & W5). apply reach_typed_array; auto. exact (L' false false es IHe W4).
  - intros t IHt lp es IHe rp (W1 & W2 & W3 & W4 & W5). apply reach_struct; auto. exact (IHe true false W4).
  - intros c ws IHw e (W1 & W2 & W3). apply reach_case; auto.
  - intros c s IHs ws IHw e (W1 & W2 & W3 & W4). apply reach_caseof; auto.
  - intros lp q IHq rp (W1 & W2 & W3 & W4). apply reach_sub; auto. eapply opens_of; eassumption.
  - intros e IH al W. apply item_plain; auto.
  - intros e IH as_ a al (-> & W & Ka & Na). apply item_named; auto.
  - intros e IH a al (-> & W & Na & Ap). apply item_called; auto.
  - intros e IH d ns al (W & Z & D & N). apply item_ordered; auto.
  - intros i IHi al tr W. exact (IHi al W).
  - intros i IHi c al tr (W1 & W2 & W3). exact (IHi al W2).
  - intros i IHi c es IHe al tr (W1 & W2 & W3). exact (conj (IHi al W1) (IHe al tr W3)).
  - intros w c IHc t r IHr ws IHw (W1 & W2 & W3 & W4 & W5). apply arms_when; auto.
  - intros w c IHc t r IHr (W1 & W2 & W3 & W4). apply arms_last; auto.
  - intros w c IHc t r IHr el x IHx (W1 & W2 & W3 & W4 & W5 & W6). apply arms_else; auto.
  - intros k b W. exact Logic.I.
  - intros k lp n p IHp o IHo f IHf rp (W1 & W2 & W3 & W4 & W5 & W6 & W7). exact (conj (IHp _ W4) (conj (IHo _ W5) (IHf W6))).
  - intros k W. exact Logic.I.
  - intros k s IHs (W1 & W2). exact (IHs W2).
  - intros k b s IHs a e IHe (W1 & W2 & W3 & W4 & W5). split; auto.
  - intros u p W. exact Logic.I.
  - intros e IHe p (W1 & W2). exact (IHe W1).
  - intros b (W1 & W2). now apply ok_name.
  - intros b lp es IHe rp (W1 & W2 & W3 & W4 & W5). apply ok_param; auto. exact (L' false true es IHe W4).
  - intros b W. now apply ok_bare.
  - intros b lt t IHt gt (W1 & W2 & W3 & W4). apply ok_array; auto.
  - intros b lt fs IHf gt (W1 & W2 & W3 & W4). apply ok_struct; auto.
  - intros t IHt (W1 & W2). exact (IHt W1).
  - intros b t IHt (W1 & W2). exact (IHt W2).
  - intros f IHf c r IHr (W1 & W2 & W3). split; auto.
  - intros s d a es IHe f IHf w IHw g IHg h IHh qf IHq ws IHws o IHo l IHl next (W1 & W2 & W3 & W4 & W5 & W6 & W7 & W8 & W9 & W10 & W11 & W12).
    assert (P : select_parts (Select s d a es f w g h qf ws o l)) by exact (conj (L' _ _ es IHe W4) (conj (IHf _ W5) (conj (IHw _ W6) (conj (IHg _ W7) (conj (IHh _ W8) (conj (IHq _ W9) (conj (IHws _ W10) (conj (IHo _ W11) (IHl W12))))))))).
    apply chain_all; [exact Logic.I|now apply select_right|now apply select_chain].
  - intros lp q IHq rp next (W1 & W2 & W3). apply chain_all; [exact Logic.I|apply grouped_right; auto|apply grouped_chain; auto].
  - intros l IHl k d m r IHr next (W1 & W2 & W3 & W4 & W5 & W6 & W7 & W8). destruct (IHl k W2) as (_ & Cl & _). destruct (IHr next W8) as (Rr & _ & _).
    assert (C : chain_ok (Combined l k d m r)) by (apply combined_chain; auto). repeat split; [intros []|auto|]. apply chain_whole; [exact Logic.I|exact C].
  - intros q IHq o IHo l IHl next (W1 & W2 & W3 & W4 & W5). destruct (IHq _ W3) as (_ & C & _). repeat split; [intros []|intros []|].
    apply sorted_whole; [|exact (IHo _ W4)|exact (IHl W5)]. apply C. destruct q; try contradiction; exact Logic.I.
  - intros w r cs IHc q IHq next (W1 & W2 & W3 & W4 & W5). destruct (IHq _ W4) as (_ & _ & C). repeat split; [intros []|intros []|]. apply with_whole; auto.
  - intros k n a m r IHr kw (W1 & W2 & W3 & W4 & W5). exact (IHr _ W5).
  - intros k n a lp m p IHp o IHo f IHf rp r IHr kw (W1 & W2 & W3 & W4 & W5 & W6 & W7 & W8 & W9 & W10). exact (conj (IHp _ W6) (conj (IHo _ W7) (conj (IHf W8) (IHr _ W10)))).
  - intros n a lp q IHq rp (W1 & W2 & W3 & W4 & W5). apply (Q q rp); auto.
  - intros n a lp q IHq rp c r IHr (W1 & W2 & W3 & W4 & W5 & W6 & W7). split; [apply (Q q rp); auto|auto].
  - intros k t IHt next (W1 & W2). apply table_parts; [exact HU|]. exact (IHt next W2).
  - intros t IHt j s IHs c IHc next (W1 & W2 & W3 & W4). exact (conj (IHt _ W1) (conj (IHs _ W3) (IHc W4))).
  - intros b IHb a t IHt o s next (W1 & W2 & W3 & W4 & W5). exact (conj (IHb _ W1) (IHt W3)).
  - intros b IHb a k lp es IHe f n i lq vs IHv rq rp a2 s next (W1 & W2 & W3 & W4 & W5 & W6 & W7 & W8 & W9 & W10 & W11). exact (conj (IHb _ W1) (conj (L' true false es IHe W5) (L' true true vs IHv W10))).
  - intros f s a o e IHe (W1 & W2 & W3 & W4 & W5). exact (IHe W5).
  - intros p IHp next W. apply place_path; auto.
  - intros c IHc next (W1 & W2). apply place_unnest; auto.
  - intros lp q IHq rp next (W1 & W2 & W3 & W4). apply place_sub; auto.
  - intros lp t IHt rp next (W1 & W2 & W3 & W4). apply place_group; auto. apply table_parts; [exact HU|]. exact (IHt rp W2).
  - intros k e IHe (W1 & W2). exact (IHe W2).
  - intros c IHc (W1 & W2). exact (IHc W1).
  - intros k e IH kw (W1 & W2). exact (IH W2).
  - intros k b es IH kw (W1 & W2 & W3). exact (L' false false es IH W3).
  - intros k b h es IH kw (W1 & W2 & W3 & W4 & W5). exact (L' false false es IH W5).
  - intros k b h s es IH kw (W1 & W2 & W3 & W4 & W5 & W6). exact (L' false false es IH W6).
  - intros k b a kw W. exact Logic.I.
  - intros k e IHe (W1 & W2). exact (IHe W2).
  - intros k e IHe o x IHx (W1 & W2 & W3 & W4). split; auto.
Qed.
Lemma every_query q next : wf_query U q next -> whole_ok q.
Proof. intro W. exact (proj2 (proj2 (proj1 (proj2 (proj2 (proj2 (proj2 (proj2 (proj2 (proj2 (proj2 (proj2 (proj2 phrases)))))))))) q next W))). Qed.
End WithUnicode.
