(* Function calls and windows of GrammarSpec.v. *)
From Verif Require Import Chars Token Cst Core MiniRust Program Bundles ParserView ParserGeneric ShapeSound GroupingSpec GroupingExpr
  Forward GrammarSpec GrammarTactics GrammarExpr GrammarReach GrammarOps GrammarItems GrammarTypes.
Local Open Scope string_scope.
Local Open Scope list_scope.
Local Notation length := List.length.

(* the parts of the branch of parse_expr for calls, parser.rs:567-690: everything after the opening
   parenthesis, then IGNORE NULLS, ORDER BY, LIMIT, HAVING, OVER *)
Definition CallBranch : cmd fn := match LoopBody with CaseUpper _ _ a _ => a | _ => Skip end.
Definition CallArgs : cmd fn := match CallBranch with Seq _ (Seq _ (Seq _ (Seq _ (Seq _ (Seq _ (Seq (If _ a _) _)))))) => a | _ => Skip end.
Definition CallNulls : cmd fn := match CallArgs with Seq _ (Seq a _) => a | _ => Skip end.
Definition CallOrder : cmd fn := match CallArgs with Seq _ (Seq _ (Seq a _)) => a | _ => Skip end.
Definition CallLimit : cmd fn := match CallArgs with Seq _ (Seq _ (Seq _ (Seq a _))) => a | _ => Skip end.
Definition CallHaving : cmd fn := match CallArgs with Seq _ (Seq _ (Seq _ (Seq _ (Seq a _)))) => a | _ => Skip end.
Definition CallOver : cmd fn := match CallBranch with Seq _ (Seq _ (Seq _ (Seq _ (Seq _ (Seq _ (Seq _ (Seq _ (Seq a _)))))))) => a | _ => Skip end.
Definition call_frame (n : node) (u : str) (p : N) (al od : bool) : env := ("node", VNode n) :: ("func", VStr u) :: frame p al od VUndef.
(* the parts of parse_window_expr, parser.rs:1560-1636 *)
Definition WindowBody : cmd fn := match f_body parse_window_expr with If _ a _ => a | _ => Skip end.
Definition WindowName : cmd fn := match WindowBody with Seq _ (Seq a _) => a | _ => Skip end.
Definition WindowPartition : cmd fn := match WindowBody with Seq _ (Seq _ (Seq a _)) => a | _ => Skip end.
Definition WindowOrder : cmd fn := match WindowBody with Seq _ (Seq _ (Seq _ (Seq a _))) => a | _ => Skip end.
Definition WindowFrame : cmd fn := match WindowBody with Seq _ (Seq _ (Seq _ (Seq _ (Seq a _)))) => a | _ => Skip end.

Section WithUnicode.
Context (U : unicode) (HU : ascii_faithful U).
Local Notation steps := (steps U).
Local Notation calls := (calls U).
Local Notation is_word := (is_word U).
Local Notation word_in := (word_in U).
Local Notation tree := (tree U).
Local Notation wf := (wf U).
Local Notation loosest_left := (loosest_left U).
Local Notation loosest_right := (loosest_right U).
Local Notation fits := (fits_known U).
Local Notation prec_in := (prec_in U).
Local Notation reach := (reach U).
Local Notation after := (after U).
Ltac ahead ::= first [apply tok_yield | apply tok_items | apply tok_item | apply tok_query | apply tok_type | eassumption].
Ltac call ::= eassumption.
Ltac special ::= fail.

(* ----- what a list of tokens begins with ----- *)
Definition heads (ws : list string) (l : list bundle) : Prop := exists f r, l = f :: r /\ fits (Among ws) (b_tok f).
Lemma heads_in ws ws' l : heads ws l -> forallb (fun w => existsb (String.eqb w) ws') ws = true -> heads ws' l.
Proof. intros (f & r & -> & K) A. exists f, r. split; [reflexivity|]. eapply fits_weaken; [exact K|]. cbn [known_in]. now rewrite A. Qed.
Lemma heads_word b w r : is_word b w -> heads [w] (b :: r).
Proof. intro K. exists b, r. split; [reflexivity|now apply fits_word]. Qed.
Lemma heads_words b ws r : word_in b ws -> heads ws (b :: r).
Proof. intro K. exists b, r. split; [reflexivity|now apply fits_among]. Qed.
Lemma among_cat l r : forallb (fun w => existsb (String.eqb w) (l ++ r)) l = true.
Proof.
  apply forallb_forall. intros w I. apply existsb_exists. exists w. split; [apply in_or_app; now left|apply String.eqb_refl].
Qed.
Lemma among_cat_r l r : forallb (fun w => existsb (String.eqb w) (l ++ r)) r = true.
Proof.
  apply forallb_forall. intros w I. apply existsb_exists. exists w. split; [apply in_or_app; now right|apply String.eqb_refl].
Qed.
Lemma heads_clause k c ws l : wf_clause U k c -> heads ws l -> heads ([k] ++ ws) (yield_clause c ++ l).
Proof.
  destruct c as [|b e]; intros W H; [eapply heads_in; [exact H|apply among_cat_r]|].
  destruct W as (K & _). eapply heads_in; [|apply among_cat]. now apply heads_word.
Qed.
Lemma heads_by k c ws l : wf_by U k c -> heads ws l -> heads ([k] ++ ws) (yield_by c ++ l).
Proof.
  destruct c as [|b b' es|b b' h es|b b' h s es|b b' a]; intros W H; [eapply heads_in; [exact H|apply among_cat_r]|..];
    (destruct W as (K & _); eapply heads_in; [|apply among_cat]; now apply heads_word).
Qed.
Lemma heads_opt o ks ws l : perhaps U o ks -> heads ws l -> heads (ks ++ ws) (opt o ++ l).
Proof.
  destruct o as [b|]; intros W H; [|eapply heads_in; [exact H|apply among_cat_r]].
  eapply heads_in; [|apply among_cat]. now apply heads_words.
Qed.
Lemma heads_opt2 o ks ks' ws l : perhaps2 U o ks ks' -> heads ws l -> heads (ks ++ ws) (opt2 o ++ l).
Proof.
  destruct o as [[b b']|]; intros W H; [|eapply heads_in; [exact H|apply among_cat_r]].
  destruct W as (W & _). eapply heads_in; [|apply among_cat]. now apply heads_words.
Qed.

(* ----- the clauses in a call ----- *)
Definition by_ok (c : by_clause) : Prop := match c with By _ _ es | ByEach _ _ _ es | BySets _ _ _ _ es => exprs_ok U false es | NoBy | ByAll _ _ _ => True end.
Definition clause_ok (c : clause) : Prop := match c with Clause _ e => reach e | NoClause => True end.
Lemma nulls_part ig n u p al od b rest : perhaps2 U ig ["IGNORE"; "RESPECT"] ["NULLS"] -> heads ["ORDER"; "LIMIT"; ")"] rest ->
  exists b', steps CallNulls (call_frame n u p al od) (b :: opt2 ig ++ rest) Norm (call_frame (with_words "ignore_nulls" ig n) u p al od) (b' :: rest).
Proof.
  intros W (f & r & -> & K). unfold CallNulls, CallArgs, CallBranch, LoopBody, Loop, call_frame, frame. cbn [parse_expr f_body].
  destruct ig as [[i k]|]; cbn [opt2 app with_words perhaps2] in *; [destruct W as (W & W'); apply fits_among in W, W'|]; eexists; step HU.
Qed.
Lemma order_part o n u p al od b rest : wf_by U "ORDER" o -> by_ok o -> heads ["LIMIT"; ")"] rest ->
  exists b', steps CallOrder (call_frame n u p al od) (b :: yield_by o ++ rest) Norm (call_frame (with_by U N_XXXByExprs "orderby" o n) u p al od) (b' :: rest).
Proof.
  intros W Ce (f & r & -> & K). unfold CallOrder, CallArgs, CallBranch, LoopBody, Loop, call_frame, frame. cbn [parse_expr f_body].
  destruct o as [|k k' es|k k' h es|k k' h s es|k k' a]; cbn [yield_by app with_by by_ok] in *; [eexists; step HU| |exfalso; destruct W as (_ & E & _); discriminate E..].
  destruct W as (Kk & Kb & We). apply fits_word in Kk. pose proof (trails_false U _ _ We) as Tr.
  destruct (exprs_plain U HU _ _ [] _ f r Ce K) as (b2 & C2); try reflexivity; [congruence|]. exists b2.
  assert (Ne : yields es ++ f :: r <> []) by (destruct (yields es); discriminate). step HU.
Qed.
Lemma limit_part l n u p al od b rest : wf_clause U "LIMIT" l -> clause_ok l -> heads [")"] rest ->
  exists b', steps CallLimit (call_frame n u p al od) (b :: yield_clause l ++ rest) Norm (call_frame (with_clause U N_KeywordWithExpr "limit" l n) u p al od) (b' :: rest).
Proof.
  intros W Ce (f & r & -> & K). unfold CallLimit, CallArgs, CallBranch, LoopBody, Loop, call_frame, frame. cbn [parse_expr f_body].
  destruct l as [|k e]; cbn [yield_clause app with_clause clause_ok] in *; [eexists; step HU|].
  destruct W as (Kk & We). apply fits_word in Kk.
  pose proof (plain_call U HU _ e true f r Ce K eq_refl) as C. exists (lastb e).
  assert (Ne : yield e ++ f :: r <> []) by (destruct (yield e); discriminate). step HU.
Qed.
Lemma having_part h m e n u p al od b rest : is_word h "HAVING" -> reach e -> heads [")"] rest ->
  exists b', steps CallHaving (call_frame n u p al od) (b :: h :: m :: yield e ++ rest) Norm
    (call_frame (with_kid "having" (CNode (before h (made N_KeywordWithExpr m [("expr", CNode (tree e))]))) n) u p al od) (b' :: rest).
Proof.
  intros Kh Ce (f & r & -> & K). unfold CallHaving, CallArgs, CallBranch, LoopBody, Loop, call_frame, frame. cbn [parse_expr f_body].
  apply fits_word in Kh. pose proof (plain_call U HU _ e true f r Ce K eq_refl) as C. exists (lastb e).
  assert (Ne : yield e ++ f :: r <> []) by (destruct (yield e); discriminate). unfold before. step HU.
Qed.

(* ----- windows ----- *)
Definition bound_ok (x : bound) : Prop := match x with Away e _ => reach e | Edge _ _ => True end.
Definition rows_ok (f : rows) : Prop :=
  match f with RowsFrom _ s => bound_ok s | RowsBetween _ _ s _ e => bound_ok s /\ bound_ok e | _ => True end.
Definition over_parts (ov : over) : Prop :=
  match ov with OverSpec _ _ _ p o f _ => by_ok p /\ by_ok o /\ rows_ok f | _ => True end.
Lemma window_name w n b rest : match w with Some b => name U b | None => True end -> heads ["PARTITION"; "ORDER"; "ROWS"; "RANGE"; ")"] rest ->
  exists b', steps WindowName [("window", VNode n)] (b :: opt w ++ rest) Norm
    [("window", VNode (match w with Some b => with_kid "name" (ident b) n | None => n end))] (b' :: rest).
Proof.
  intros W (f & r & -> & K). unfold WindowName, WindowBody. cbn [parse_window_expr f_body].
  destruct w as [w|]; cbn [opt app]; [destruct W as (_ & W)|]; eexists; step HU.
Qed.
Lemma window_partition c n b rest : wf_by U "PARTITION" c -> by_ok c -> heads ["ORDER"; "ROWS"; "RANGE"; ")"] rest ->
  exists b', steps WindowPartition [("window", VNode n)] (b :: yield_by c ++ rest) Norm [("window", VNode (with_by U N_XXXByExprs "partitionby" c n))] (b' :: rest).
Proof.
  intros W Ce (f & r & -> & K). unfold WindowPartition, WindowBody. cbn [parse_window_expr f_body].
  destruct c as [|k k' es|k k' h es|k k' h s es|k k' a]; cbn [yield_by app with_by by_ok] in *; [eexists; step HU| |exfalso; destruct W as (_ & E & _); discriminate E..].
  destruct W as (Kk & Kb & We). apply fits_word in Kk. pose proof (trails_false U _ _ We) as Tr.
  destruct (exprs_plain U HU _ _ [] _ f r Ce K) as (b2 & C2); try reflexivity; [congruence|]. exists b2.
  assert (Ne : yields es ++ f :: r <> []) by (destruct (yields es); discriminate). step HU.
Qed.
Lemma window_order c n b rest : wf_by U "ORDER" c -> by_ok c -> heads ["ROWS"; "RANGE"; ")"] rest ->
  exists b', steps WindowOrder [("window", VNode n)] (b :: yield_by c ++ rest) Norm [("window", VNode (with_by U N_XXXByExprs "orderby" c n))] (b' :: rest).
Proof.
  intros W Ce (f & r & -> & K). unfold WindowOrder, WindowBody. cbn [parse_window_expr f_body].
  destruct c as [|k k' es|k k' h es|k k' h s es|k k' a]; cbn [yield_by app with_by by_ok] in *; [eexists; step HU| |exfalso; destruct W as (_ & E & _); discriminate E..].
  destruct W as (Kk & Kb & We). apply fits_word in Kk. pose proof (trails_false U _ _ We) as Tr.
  destruct (exprs_plain U HU _ _ [] _ f r Ce K) as (b2 & C2); try reflexivity; [congruence|]. exists b2.
  assert (Ne : yields es ++ f :: r <> []) by (destruct (yields es); discriminate). step HU.
Qed.
Lemma window_frame c n b rest : wf_rows U c -> rows_ok c -> heads [")"] rest ->
  exists b', steps WindowFrame [("window", VNode n)] (b :: yield_rows c ++ rest) Norm [("window", VNode (with_rows U c n))] (b' :: rest).
Proof.
  intros W Ce (f & r & -> & K). unfold WindowFrame, WindowBody. cbn [parse_window_expr f_body].
  destruct c as [|k|k s|k bt s a e]; cbn [yield_rows app with_rows rows_ok] in *.
  - eexists; step HU.
  - apply fits_among in W. eexists; step HU.
  - destruct W as (Kk & Ws). apply fits_among in Kk. destruct s as [u p|e p]; cbn [yield_bound tree_bound bound_ok app] in *; destruct Ws as (Wu & Wp); apply fits_among in Wp.
    + apply fits_among in Wu. eexists; step HU.
    + apply first_avoids in Wu. rewrite <- app_assoc. cbn [app]. pose proof (plain_call U HU _ e true p (f :: r) Ce Wp eq_refl) as C.
      assert (Ne : yield e ++ p :: f :: r <> []) by (destruct (yield e); discriminate). eexists; step HU.
  - destruct W as (Kk & Kb & Ws & Ka & We). destruct Ce as (Cs & Ce). apply fits_among in Kk. apply fits_word in Kb, Ka.
    destruct s as [us ps|s ps]; cbn [yield_bound tree_bound bound_ok app] in *; destruct Ws as (Wus & Wps); apply fits_among in Wps;
      [apply fits_among in Wus|apply first_avoids in Wus];
      (destruct e as [ue pe|e pe]; cbn [yield_bound tree_bound bound_ok app] in *; destruct We as (Wue & Wpe); apply fits_among in Wpe;
        [apply fits_among in Wue|apply first_avoids in Wue]); rewrite <- ?app_assoc; cbn [app]; rewrite <- ?app_assoc; cbn [app].
    + eexists; step HU.
    + pose proof (plain_call U HU _ e true pe (f :: r) Ce Wpe eq_refl) as C.
      assert (Ne : yield e ++ pe :: f :: r <> []) by (destruct (yield e); discriminate). eexists; step HU.
    + pose proof (plain_call U HU _ s true ps (a :: ue :: pe :: f :: r) Cs Wps eq_refl) as C.
      assert (Ne : yield s ++ ps :: a :: ue :: pe :: f :: r <> []) by (destruct (yield s); discriminate). eexists; step HU.
    + pose proof (plain_call U HU _ s true ps (a :: yield e ++ pe :: f :: r) Cs Wps eq_refl) as C.
      pose proof (plain_call U HU _ e true pe (f :: r) Ce Wpe eq_refl) as C'.
      assert (Ne : yield s ++ ps :: a :: yield e ++ pe :: f :: r <> []) by (destruct (yield s); discriminate).
      assert (Ne' : yield e ++ pe :: f :: r <> []) by (destruct (yield e); discriminate). eexists; step HU.
Qed.
Lemma rows_head f ws l : wf_rows U f -> heads ws l -> heads (["ROWS"; "RANGE"] ++ ws) (yield_rows f ++ l).
Proof.
  destruct f; intros W H; [eapply heads_in; [exact H|apply among_cat_r]|..]; (eapply heads_in; [|apply among_cat]); cbn [yield_rows app wf_rows] in *;
    apply heads_words; [exact W|apply W..].
Qed.
Lemma window_call lp w p o f rp rest : is_word lp "(" -> match w with Some b => name U b | None => True end ->
  wf_by U "PARTITION" p -> wf_by U "ORDER" o -> wf_rows U f -> by_ok p -> by_ok o -> rows_ok f -> is_word rp ")" ->
  calls F_parse_window_expr [] (lp :: opt w ++ yield_by p ++ yield_by o ++ yield_rows f ++ rp :: rest)
    (VNode (with_kid "rparen" (symbol rp) (with_rows U f (with_by U N_XXXByExprs "orderby" o (with_by U N_XXXByExprs "partitionby" p
      (match w with Some b => with_kid "name" (ident b) (made N_WindowSpecification lp []) | None => made N_WindowSpecification lp [] end)))))) (rp :: rest).
Proof.
  intros Kl W1 W2 W3 W4 C2 C3 C4 Kr.
  pose proof (heads_word rp ")" rest Kr) as A4. pose proof (rows_head f _ _ W4 A4) as A3.
  pose proof (heads_by _ o _ _ W3 A3) as A2. pose proof (heads_by _ p _ _ W2 A2) as A1. cbn [app] in A1, A2, A3.
  destruct (window_name w (made N_WindowSpecification lp []) lp _ W1 A1) as (b1 & S1).
  destruct (window_partition p (match w with Some b => with_kid "name" (ident b) (made N_WindowSpecification lp []) | None => made N_WindowSpecification lp [] end) b1 _ W2 C2 A2) as (b2 & S2).
  match type of S2 with Forward.steps _ _ _ _ _ [("window", VNode ?n)] _ => destruct (window_order o n b2 _ W3 C3 A3) as (b3 & S3) end.
  match type of S3 with Forward.steps _ _ _ _ _ [("window", VNode ?n)] _ => destruct (window_frame f n b3 _ W4 C4 A4) as (b4 & S4) end.
  apply fits_word in Kl, Kr. clear A1 A2 A3 A4.
  eapply calls_body; [reflexivity|]. cbn [prog parse_window_expr f_body f_params combine].
  eapply steps_eq; [eapply steps_if; [decide_ HU|]|envr]. cbv iota.
  eapply steps_seq; [step HU|]. eapply steps_seq; [exact S1|]. eapply steps_seq; [exact S2|]. eapply steps_seq; [exact S3|]. eapply steps_seq; [exact S4|].
  step HU.
Qed.
Lemma window_named b rest : name U b -> calls F_parse_window_expr [] (b :: rest) (VNode (made N_Identifier b [])) (b :: rest).
Proof.
  intros (N & I). assert (K : fits (Avoids ["("]) (b_tok b)) by (apply identifier_avoids; [exact HU|exact I|reflexivity]).
  eapply calls_body; [reflexivity|]. cbn [prog parse_window_expr f_body f_params combine]. step HU.
Qed.
Lemma over_part ov n u p al od rp f r : wf_over U ov -> over_parts ov -> fits (Avoids suffix_words) (b_tok f) ->
  steps CallOver (call_frame n u p al od) (rp :: yield_over ov ++ f :: r) Norm (call_frame (with_over U ov n) u p al od) (last_over ov rp :: f :: r).
Proof.
  intros W C K. unfold CallOver, CallBranch, LoopBody, Loop, call_frame, frame. cbn [parse_expr f_body].
  destruct ov as [|k b|k lp w pt o fr rp']; cbn [yield_over app with_over last_over wf_over over_parts] in *.
  - step HU.
  - destruct W as (Kk & N). pose proof (window_named b (f :: r) N) as D. apply fits_word in Kk. step HU.
  - destruct W as (Kk & Kl & W1 & W2 & W3 & W4 & Kr). destruct C as (C2 & C3 & C4).
    pose proof (window_call lp w pt o fr rp' (f :: r) Kl W1 W2 W3 W4 C2 C3 C4 Kr) as D. apply fits_word in Kk.
    rewrite <- !app_assoc. cbn [app]. step HU.
Qed.

(* ----- the function ----- *)
Lemma dotted_reach e : dotted U e -> reach e.
Proof.
  induction e; cbn [dotted]; try contradiction.
  - intros N. apply reach_atom; [exact HU|now apply name_operand].
  - intros (P & D & F). apply reach_field; try assumption; [now apply IHe|]. unfold fits_left. pose proof (dotted_right U e P). lia.
Qed.
(* words with a meaning of their own at the start of an expression *)
Definition head_words : list string :=
  ["*"; "("; "STRUCT"; "RANGE"; "["; "-"; "+"; "~"; "INTERVAL"; "TABLE"; "MODEL"; "B"; "R"; "BR"; "RB"; "SELECT"; "NOT"; "CASE"; "WITH";
    "DATE"; "TIME"; "DATETIME"; "TIMESTAMP"; "NUMERIC"; "BIGNUMERIC"; "DECIMAL"; "BIGDECIMAL"; "JSON"].
Lemma starts_word b lp ws : word_in b ws -> forallb lettered ws = true -> literally lp "(" ->
  forallb (fun w => negb (existsb (String.eqb w) head_words)) ws = true ->
  starts U (Fn b) lp 101.
Proof.
  intros W A L D p al od r ct e2 bs2 Lp P S. cbn [yield lastb GrammarSpec.tree app] in *.
  eapply steps_seq.
  { unfold H1, frame. cbn [parse_expr f_body]. eapply steps_eq; [eapply (steps_if U); [decide_ HU|]; norm; eapply steps_set; [exact (makes_function U HU _ b lp r ws W A L)|envr]|envr]. }
  eapply steps_seq; [|exact S].
  assert (Kl : is_word lp "(") by exact (literal_word U HU lp "(" L eq_refl). apply fits_word in Kl.
  assert (X : fits (Avoids head_words) (b_tok b)).
  { apply fits_avoids. intros (w & I & Kw). destruct W as (w' & I' & Kw'). rewrite forallb_forall in D. specialize (D _ I').
    assert (w = w') by (apply s_inj; unfold GrammarSpec.is_word in *; congruence). subst w'.
    rewrite (proj2 (existsb_exists _ _)) in D; [discriminate|]. exists w. split; [exact I|apply String.eqb_refl]. }
  destruct (fits_or U b ["ARRAY"]) as [K|K].
  - clear X. unfold H2, frame. cbn [parse_expr f_body]. step HU.
  - unfold H2, frame. cbn [parse_expr f_body]. step HU.
Qed.
Lemma function_facts f lp : function_name U f lp -> is_word lp "(" -> starts U f lp 101 /\ fits (Avoids odd_functions) (b_tok (lastb f)) /\ (loosest_left f <= 2)%N.
Proof.
  assert (P : dotted U f /\ (exists b, last_name f = Some b /\ ~ word_in b odd_functions) -> is_word lp "(" -> starts U f lp 101 /\ fits (Avoids odd_functions) (b_tok (lastb f)) /\ (loosest_left f <= 2)%N).
  { intros (P & b & L & N) K. assert (E : b = lastb f) by (destruct f; cbn [dotted last_name lastb] in *; try contradiction; now injection L).
    subst b. split; [|split; [now apply fits_avoids|]].
    - apply (starts_reach U HU ["("]); [now apply dotted_reach|now apply fits_word|reflexivity|reflexivity| |pose proof (dotted_right U f P); lia].
      intro O. destruct f; cbn [opened dotted] in *; try contradiction. now destruct P as (P & _).
    - clear L N K. induction f; cbn [dotted GrammarSpec.loosest_left] in *; try contradiction; [lia|]. destruct P as (P & _). specialize (IHf P). lia. }
  intros F K. destruct f; try exact (P F K).
  destruct F as (W & L). split; [|split; [|cbn; lia]].
  - apply starts_word with (ws := function_words); [exact W|reflexivity|exact L|reflexivity].
  - cbn [lastb]. eapply fits_weaken; [apply fits_among; exact W|reflexivity].
Qed.
Lemma reach_call0 f lp rp ov : function_name U f lp -> is_word lp "(" -> is_word rp ")" -> wf_over U ov -> over_parts ov -> reach (Call0 f lp rp ov).
Proof.
  intros Fn Kl Kr Wo Co. destruct (function_facts f lp Fn Kl) as (St & K & Lf).
  apply reach_op with (l := f) (o := lp) (ops := rp :: yield_over ov) (c := 101%N); try assumption.
  - reflexivity.
  - intro rest. eapply prec_word1; [exact Kl|reflexivity].
  - cbn [GrammarSpec.loosest_left]. lia.
  - cbn [GrammarSpec.loosest_left]. lia.
  - intros p al od rest A. cbn [app lastb GrammarSpec.tree]. apply fits_word in Kl, Kr.
    destruct A as (f' & r & c & -> & A1 & _).
    pose proof (over_part ov (made N_CallingFunction lp [("func", CNode (tree f)); ("rparen", symbol rp)]) (upper_literal U (b_tok (lastb f))) p al od rp f' r Wo Co A1) as S.
    unfold CallOver, CallBranch, LoopBody, Loop, call_frame, frame in S. cbn [parse_expr f_body] in S.
    unfold LoopBody, Loop, frame. cbn [parse_expr f_body].
    Ltac special ::= lazymatch goal with |- Forward.steps _ (If (CTok 1 (TIs "over")) _ _) _ _ _ _ _ => eassumption end.
    step HU.
Qed.
Definition CallDistinct : cmd fn := match CallBranch with Seq _ (Seq _ (Seq _ (Seq a _))) => a | _ => Skip end.
Lemma distinct_part d n u v b b' rest e : perhaps U d ["DISTINCT"] -> fits (Avoids ["DISTINCT"]) (b_tok b') -> e = ("node", VNode n) :: ("func", VStr u) :: v ->
  exists b0, steps CallDistinct e (b :: opt d ++ b' :: rest) Norm (("node", VNode (with_word "distinct" d n)) :: ("func", VStr u) :: v) (b0 :: b' :: rest).
Proof.
  intros W K ->. unfold CallDistinct, CallBranch, LoopBody, Loop. cbn [parse_expr f_body].
  destruct d as [d|]; cbn [opt app with_word perhaps] in *; [apply fits_among in W|]; eexists.
  - eapply steps_eq; [eapply steps_if; [decide_ HU|]|]; cbv iota; [step HU|]. unfold env_leave. cbn [length]. now rewrite Nat.sub_diag.
  - eapply steps_eq; [eapply steps_if; [decide_ HU|]|]; cbv iota; [step HU|]. unfold env_leave. cbn [length]. now rewrite Nat.sub_diag.
Qed.
Lemma yields_first es rest : exists r, yields es ++ rest = first_items es :: r.
Proof.
  pose proof (tok_items es rest) as T. destruct (yields es ++ rest) as [|b r] eqn:E; [discriminate|]. exists r. f_equal.
  destruct es as [i|i c|i c r0]; cbn [yields first_items] in *; destruct i; cbn [yield_item first_item] in *;
    rewrite <- ?app_assoc in E; destruct (first_yield e) as (r1 & Y); rewrite Y in E; now injection E.
Qed.
Lemma reach_call f lp d es ig o l rp ov : function_name U f lp -> is_word lp "(" -> perhaps U d ["DISTINCT"] -> wfs U false false es -> exprs_ok U false es ->
  perhaps2 U ig ["IGNORE"; "RESPECT"] ["NULLS"] -> wf_by U "ORDER" o -> by_ok o -> wf_clause U "LIMIT" l -> clause_ok l ->
  is_word rp ")" -> wf_over U ov -> over_parts ov -> reach (Call f lp d es ig o l rp ov).
Proof.
  intros Fn Kl Kd We Ce Wi Wb Cb Wc Cc Kr Wo Co. destruct (function_facts f lp Fn Kl) as (St & K & Lf).
  apply reach_op with (l := f) (o := lp) (ops := opt d ++ yields es ++ opt2 ig ++ yield_by o ++ yield_clause l ++ rp :: yield_over ov) (c := 101%N); try assumption.
  - reflexivity.
  - intro rest. eapply prec_word1; [exact Kl|reflexivity].
  - cbn [GrammarSpec.loosest_left]. lia.
  - cbn [GrammarSpec.loosest_left]. lia.
  - intros p al od rest A. rewrite <- !app_assoc. cbn [app]. cbn [lastb GrammarSpec.tree]. 
    destruct A as (f' & r & c & -> & A1 & _).
    remember (made N_CallingFunction lp []) as n0 eqn:En. set (u := upper_literal U (b_tok (lastb f))).
    set (n1 := with_kid "args" (CVec (trees U es)) (with_kid "func" (CNode (tree f)) (with_word "distinct" d n0))).
    pose proof (heads_word rp ")" (yield_over ov ++ f' :: r) Kr) as H3.
    pose proof (heads_clause _ l _ _ Wc H3) as H2. pose proof (heads_by _ o _ _ Wb H2) as H1. pose proof (heads_opt2 _ _ _ _ _ Wi H1) as H0. cbn [app] in H0, H1, H2.
    destruct H0 as (g & R0 & E0 & K0). pose proof (trails_false U _ _ We) as Tr.
    destruct (exprs_plain U HU _ _ [] _ g R0 Ce K0) as (b0 & C0); try reflexivity; [congruence|]. rewrite <- E0 in C0.
    destruct (nulls_part ig n1 u p al od b0 _ Wi H1) as (b1 & S1).
    destruct (order_part o (with_words "ignore_nulls" ig n1) u p al od b1 _ Wb Cb H2) as (b2 & S2).
    destruct (limit_part l (with_by U N_XXXByExprs "orderby" o (with_words "ignore_nulls" ig n1)) u p al od b2 _ Wc Cc H3) as (b3 & S3).
    pose proof (over_part ov (with_kid "rparen" (symbol rp) (with_clause U N_KeywordWithExpr "limit" l (with_by U N_XXXByExprs "orderby" o (with_words "ignore_nulls" ig n1)))) u p al od rp f' r Wo Co A1) as S4.
    clear E0 K0 H1 H2 H3. apply first_items_avoids in We.
    destruct (yields_first es (opt2 ig ++ yield_by o ++ yield_clause l ++ rp :: yield_over ov ++ f' :: r)) as (R1 & E1). rewrite !E1 in *.
    destruct (distinct_part d n0 u (frame p al od (VNode (tree f))) lp (first_items es) R1 _ Kd ltac:(eapply fits_weaken; [exact We|reflexivity]) eq_refl) as (bd & S0).
    apply fits_word in Kl, Kr.
    unfold CallDistinct, CallNulls, CallOrder, CallLimit, CallOver, CallArgs, CallBranch, LoopBody, Loop, call_frame, frame in S0, S1, S2, S3, S4. cbn [parse_expr f_body] in S0, S1, S2, S3, S4.
    unfold LoopBody, Loop, frame. cbn [parse_expr f_body].
    eapply steps_eq; [eapply steps_case_known; [tok|exact Kl|reflexivity|]|]; norm.
    { eapply steps_seq; [step HU|]. eapply steps_seq; [step HU|]. norm. eapply steps_seq; [step HU|]. norm. rewrite <- En.
      eapply steps_seq; [exact S0|]. eapply steps_seq; [step HU|]. eapply steps_seq; [step HU|]. norm.
      eapply steps_seq.
      { eapply steps_eq; [eapply steps_if with (v := true); [apply (decides_not U _ _ _ false); decide_ HU|]; cbv iota|].
        - eapply steps_seq; [step HU|]. norm. eapply steps_seq; [exact S1|]. eapply steps_seq; [exact S2|]. eapply steps_seq; [exact S3|]. step HU.
        - envr. }
      eapply steps_seq; [step HU|]. norm. eapply steps_seq; [exact S4|]. step HU. }
    envr.
Qed.
Lemma reach_call_most f lp d es h m x rp ov : function_name U f lp -> is_word lp "(" -> perhaps U d ["DISTINCT"] -> wfs U false false es -> exprs_ok U false es ->
  is_word h "HAVING" -> reach x -> is_word rp ")" -> wf_over U ov -> over_parts ov -> reach (CallMost f lp d es h m x rp ov).
Proof.
  intros Fn Kl Kd We Ce Kh Rx Kr Wo Co. destruct (function_facts f lp Fn Kl) as (St & K & Lf).
  apply reach_op with (l := f) (o := lp) (ops := opt d ++ yields es ++ h :: m :: yield x ++ rp :: yield_over ov) (c := 101%N); try assumption.
  - reflexivity.
  - intro rest. eapply prec_word1; [exact Kl|reflexivity].
  - cbn [GrammarSpec.loosest_left]. lia.
  - cbn [GrammarSpec.loosest_left]. lia.
  - intros p al od rest A. rewrite <- !app_assoc. cbn [app]. rewrite <- !app_assoc. cbn [app]. cbn [lastb GrammarSpec.tree].
    destruct A as (f' & r & c & -> & A1 & _).
    remember (made N_CallingFunction lp []) as n0 eqn:En. set (u := upper_literal U (b_tok (lastb f))).
    set (n1 := with_kid "args" (CVec (trees U es)) (with_kid "func" (CNode (tree f)) (with_word "distinct" d n0))).
    pose proof (trails_false U _ _ We) as Tr. pose proof (fits_word U _ _ Kh) as Kh'.
    destruct (exprs_plain U HU _ _ [] _ h (m :: yield x ++ rp :: yield_over ov ++ f' :: r) Ce Kh') as (b0 & C0); try reflexivity; [congruence|].
    destruct (having_part h m x n1 u p al od b0 _ Kh Rx (heads_word rp ")" (yield_over ov ++ f' :: r) Kr)) as (b3 & S3).
    match type of S3 with Forward.steps _ _ _ _ _ (call_frame ?n _ _ _ _) _ =>
      pose proof (over_part ov (with_kid "rparen" (symbol rp) n) u p al od rp f' r Wo Co A1) as S4 end.
    apply first_items_avoids in We.
    destruct (yields_first es (h :: m :: yield x ++ rp :: yield_over ov ++ f' :: r)) as (R1 & E1). rewrite !E1 in *.
    destruct (distinct_part d n0 u (frame p al od (VNode (tree f))) lp (first_items es) R1 _ Kd ltac:(eapply fits_weaken; [exact We|reflexivity]) eq_refl) as (bd & S0).
    apply fits_word in Kl, Kr.
    unfold CallDistinct, CallHaving, CallOver, CallArgs, CallBranch, LoopBody, Loop, call_frame, frame in S0, S3, S4. cbn [parse_expr f_body] in S0, S3, S4.
    unfold LoopBody, Loop, frame. cbn [parse_expr f_body].
    eapply steps_eq; [eapply steps_case_known; [tok|exact Kl|reflexivity|]|]; norm.
    { eapply steps_seq; [step HU|]. eapply steps_seq; [step HU|]. norm. eapply steps_seq; [step HU|]. norm. rewrite <- En.
      eapply steps_seq; [exact S0|]. eapply steps_seq; [step HU|]. eapply steps_seq; [step HU|]. norm.
      eapply steps_seq.
      { eapply steps_eq; [eapply steps_if with (v := true); [apply (decides_not U _ _ _ false); decide_ HU|]; cbv iota|].
        - eapply steps_seq; [step HU|]. norm. eapply steps_seq; [step HU|]. eapply steps_seq; [step HU|]. eapply steps_seq; [step HU|]. eapply steps_seq; [exact S3|]. step HU.
        - envr. }
      eapply steps_seq; [step HU|]. norm. eapply steps_seq; [exact S4|]. step HU. }
    envr.
Qed.
Lemma reach_cast_format f lp e a t k x rp : word_in f ["CAST"; "SAFE_CAST"] -> literally lp "(" -> wf e -> reach e -> is_word a "AS" -> wf_type U t -> type_ok U t ->
  is_word k "FORMAT" -> reach x -> is_word rp ")" -> reach (CastFormat f lp e a t k x rp).
Proof.
  intros Kf Ll We Re Ka Wt Ct Kk Rx Kr. assert (Kl : is_word lp "(") by exact (literal_word U HU lp "(" Ll eq_refl).
  apply reach_op with (l := Fn f) (o := lp) (ops := yield e ++ a :: yield_type t ++ k :: yield x ++ [rp]) (c := 101%N).
  - apply starts_word with (ws := ["CAST"; "SAFE_CAST"]); [exact Kf|reflexivity|exact Ll|reflexivity].
  - reflexivity.
  - intro rest. eapply prec_word1; [exact Kl|reflexivity].
  - cbn [GrammarSpec.loosest_left]. lia.
  - cbn [GrammarSpec.loosest_left]. lia.
  - intros p al od rest A. do 3 (rewrite <- !app_assoc; cbn [app]). cbn [lastb GrammarSpec.tree]. apply fits_word in Kl, Kr, Ka, Kk. apply fits_among in Kf.
    destruct A as (f' & r & c & -> & A1 & _). apply first_avoids in We.
    assert (K1 : fits (Avoids ["OVER"]) (b_tok f')).
    { eapply fits_weaken; [exact A1|reflexivity]. }
    destruct (Ct k (yield x ++ rp :: f' :: r)) as (b1 & C1); [eapply fits_weaken; [exact Kk|reflexivity]|intros _; eapply fits_weaken; [exact Kk|reflexivity]|].
    pose proof (plain_call U HU ["AS"] e true a (yield_type t ++ k :: yield x ++ rp :: f' :: r) Re ltac:(assumption) eq_refl) as C0.
    pose proof (plain_call U HU [")"] x true rp (f' :: r) Rx ltac:(assumption) eq_refl) as C2.
    assert (Ne : yield x ++ rp :: f' :: r <> []) by (destruct (yield x); discriminate).
    unfold LoopBody, Loop, frame. cbn [parse_expr f_body].
    step HU.
Qed.
Lemma reach_extract_at f lp q a e at_ tm z x rp : is_word f "EXTRACT" -> literally lp "(" -> wf q -> reach q -> is_word a "FROM" -> wf e -> reach e ->
  is_word at_ "AT" -> reach x -> is_word rp ")" -> reach (ExtractAt f lp q a e at_ tm z x rp).
Proof.
  intros Kf Ll Wq Rq Ka We Re Kt Rx Kr. assert (Kl : is_word lp "(") by exact (literal_word U HU lp "(" Ll eq_refl).
  apply reach_op with (l := Fn f) (o := lp) (ops := yield q ++ a :: yield e ++ at_ :: tm :: z :: yield x ++ [rp]) (c := 101%N).
  - apply starts_word with (ws := ["EXTRACT"]); [eexists; split; [now left|exact Kf]|reflexivity|exact Ll|reflexivity].
  - reflexivity.
  - intro rest. eapply prec_word1; [exact Kl|reflexivity].
  - cbn [GrammarSpec.loosest_left]. lia.
  - cbn [GrammarSpec.loosest_left]. lia.
  - intros p al od rest A. do 3 (rewrite <- !app_assoc; cbn [app]). cbn [lastb GrammarSpec.tree]. apply fits_word in Kl, Kr, Ka, Kf, Kt.
    destruct A as (f' & r & c & -> & A1 & _). apply first_avoids in We, Wq.
    assert (K1 : fits (Avoids ["OVER"]) (b_tok f')).
    { eapply fits_weaken; [exact A1|reflexivity]. }
    pose proof (plain_call U HU ["FROM"] q true a (yield e ++ at_ :: tm :: z :: yield x ++ rp :: f' :: r) Rq ltac:(assumption) eq_refl) as C0.
    pose proof (plain_call U HU ["AT"] e true at_ (tm :: z :: yield x ++ rp :: f' :: r) Re ltac:(assumption) eq_refl) as C1.
    pose proof (plain_call U HU [")"] x true rp (f' :: r) Rx ltac:(assumption) eq_refl) as C2.
    assert (Ne : yield x ++ rp :: f' :: r <> []) by (destruct (yield x); discriminate).
    unfold LoopBody, Loop, frame. cbn [parse_expr f_body].
    step HU.
Qed.
Lemma reach_cast f lp e a t rp : word_in f ["CAST"; "SAFE_CAST"] -> literally lp "(" -> wf e -> reach e -> is_word a "AS" -> wf_type U t -> type_ok U t -> is_word rp ")" ->
  reach (Cast f lp e a t rp).
Proof.
  intros Kf Ll We Re Ka Wt Ct Kr. assert (Kl : is_word lp "(") by exact (literal_word U HU lp "(" Ll eq_refl).
  apply reach_op with (l := Fn f) (o := lp) (ops := yield e ++ a :: yield_type t ++ [rp]) (c := 101%N).
  - apply starts_word with (ws := ["CAST"; "SAFE_CAST"]); [exact Kf|reflexivity|exact Ll|reflexivity].
  - reflexivity.
  - intro rest. eapply prec_word1; [exact Kl|reflexivity].
  - cbn [GrammarSpec.loosest_left]. lia.
  - cbn [GrammarSpec.loosest_left]. lia.
  - intros p al od rest A. rewrite <- !app_assoc. cbn [app]. rewrite <- !app_assoc. cbn [app lastb GrammarSpec.tree]. apply fits_word in Kl, Kr, Ka. apply fits_among in Kf.
    destruct A as (f' & r & c & -> & A1 & _). apply first_avoids in We.
    assert (K1 : fits (Avoids ["OVER"]) (b_tok f')).
    { eapply fits_weaken; [exact A1|reflexivity]. }
    destruct (Ct rp (f' :: r)) as (b1 & C1); [eapply fits_weaken; [exact Kr|reflexivity]|intros _; eapply fits_weaken; [exact Kr|reflexivity]|].
    pose proof (plain_call U HU ["AS"] e true a (yield_type t ++ rp :: f' :: r) Re ltac:(assumption) eq_refl) as C0.
    unfold LoopBody, Loop, frame. cbn [parse_expr f_body].
    step HU.
Qed.
Lemma reach_extract f lp q a e rp : is_word f "EXTRACT" -> literally lp "(" -> wf q -> reach q -> is_word a "FROM" -> wf e -> reach e -> is_word rp ")" ->
  reach (Extract f lp q a e rp).
Proof.
  intros Kf Ll Wq Rq Ka We Re Kr. assert (Kl : is_word lp "(") by exact (literal_word U HU lp "(" Ll eq_refl).
  apply reach_op with (l := Fn f) (o := lp) (ops := yield q ++ a :: yield e ++ [rp]) (c := 101%N).
  - apply starts_word with (ws := ["EXTRACT"]); [eexists; split; [now left|exact Kf]|reflexivity|exact Ll|reflexivity].
  - reflexivity.
  - intro rest. eapply prec_word1; [exact Kl|reflexivity].
  - cbn [GrammarSpec.loosest_left]. lia.
  - cbn [GrammarSpec.loosest_left]. lia.
  - intros p al od rest A. rewrite <- !app_assoc. cbn [app]. rewrite <- !app_assoc. cbn [app lastb GrammarSpec.tree]. apply fits_word in Kl, Kr, Ka, Kf.
    destruct A as (f' & r & c & -> & A1 & _). apply first_avoids in We, Wq.
    assert (K1 : fits (Avoids ["OVER"]) (b_tok f')).
    { eapply fits_weaken; [exact A1|reflexivity]. }
    pose proof (plain_call U HU ["FROM"] q true a (yield e ++ rp :: f' :: r) Rq ltac:(assumption) eq_refl) as C0.
    pose proof (plain_call U HU [")"] e true rp (f' :: r) Re ltac:(assumption) eq_refl) as C1.
    unfold LoopBody, Loop, frame. cbn [parse_expr f_body].
    step HU.
Qed.
Lemma starts_grouped_first q next : wf_query U q next -> starts_grouped q -> is_word (first_query q) "(".
Proof. revert next. induction q; intros next W G; cbn [wf_query first_query starts_grouped] in *; try contradiction; [tauto|]. eapply IHq1; [|exact G]. apply W. Qed.
(* the token after WITH is not a parenthesis *)
Lemma with_second q next : wf_query U q next -> ~ is_word (first_query q) "(" -> exists b b' r, yield_query q ++ [next] = b :: b' :: r /\ b = first_query q /\ (is_word b "WITH" -> fits (Avoids ["("]) (b_tok b')).
Proof.
  revert next. induction q as [s d a es f w g h q ws o l|lp q IH rp|q1 IH k d m q2 IH2|q IH o l|w r cs q IH]; intros next W N; cbn [wf_query first_query yield_query] in *.
  - destruct W as (Ks & _). cbn [app]. destruct ((opt d ++ _) ++ [next]) as [|b' r] eqn:E.
    + apply (f_equal (@length _)) in E. rewrite app_length in E. cbn in E. lia.
    + exists s, b', r. repeat split. intro K. unfold GrammarSpec.is_word in *. rewrite Ks in K. discriminate.
  - now destruct W.
  - destruct W as (_ & W & _). destruct (IH k W N) as (b & b' & r & E & Eb & P). rewrite <- app_assoc. cbn [app].
    exists b, b'. destruct (yield_query q1) as [|x y]; [discriminate|]. cbn [app] in E. injection E as -> E.
    destruct y as [|y z]; cbn [app] in *; injection E as -> _; cbn [app]; eauto.
  - destruct W as (G & _ & W & _). exfalso. apply N. eapply starts_grouped_first; eassumption.
  - destruct W as (_ & Kr & Wc & _). destruct r as [r|]; cbn [opt app perhaps] in *.
    + eexists _, _, _. repeat split. intros _. apply fits_among in Kr. eapply fits_weaken; [exact Kr|reflexivity].
    + destruct cs as [n a lp q' rp|n a lp q' rp c cs]; cbn [yield_ctes app wf_ctes] in *; (eexists _, _, _; repeat split; intros _; destruct Wc as ((_ & I) & _);
        apply (identifier_avoids U HU); [exact I|reflexivity]).
Qed.
Lemma reach_call_query f lp q rp : function_name U f lp -> is_word lp "(" -> wf_query U q rp -> query_ok U q rp -> ~ is_word (first_query q) "(" -> is_word rp ")" ->
  reach (CallQuery f lp q rp).
Proof.
  intros Fn Kl Wq Cq Np Kr. destruct (function_facts f lp Fn Kl) as (St & K & Lf).
  apply reach_op with (l := f) (o := lp) (ops := yield_query q ++ [rp]) (c := 101%N); try assumption.
  - reflexivity.
  - intro rest. eapply prec_word1; [exact Kl|reflexivity].
  - cbn [GrammarSpec.loosest_left]. lia.
  - cbn [GrammarSpec.loosest_left]. lia.
  - intros p al od rest A. rewrite <- app_assoc. cbn [app lastb GrammarSpec.tree]. pose proof (wf_opens U q rp Wq Np) as Ks. unfold opens_query in Ks. apply fits_word in Kl, Kr.
    destruct A as (f' & r & c & -> & A1 & _).
    assert (K1 : fits (Avoids ["OVER"]) (b_tok f')).
    { eapply fits_weaken; [exact A1|reflexivity]. }
    destruct (Cq (f' :: r)) as (b1 & C1).
    assert (C2 : exists b, calls F_parse_exprs [VStrs []; VBool false; VBool true] (yield_query q ++ rp :: f' :: r) (VVec [tree_query U q None]) (b :: rp :: f' :: r)).
    { destruct (with_second q rp Wq Np) as (b & b' & r' & E & Eb & P).
      assert (E' : yield_query q ++ rp :: f' :: r = b :: b' :: r' ++ f' :: r).
      { change (rp :: f' :: r) with ([rp] ++ f' :: r). rewrite app_assoc, E. reflexivity. }
      rewrite E' in *. rewrite <- Eb in Ks.
      assert (C3 : calls F_parse_expr [VNum usize_max; VBool false; VBool false; VBool false; VBool true] (b :: b' :: r' ++ f' :: r) (VNode (tree_query U q None)) (b1 :: rp :: f' :: r)).
      { eapply expr_body. destruct (H1_unknown U usize_max false true b b' (r' ++ f' :: r)) as (ty' & H). eapply steps_seq; [exact H|].
        assert (S2 : stops U usize_max (rp :: f' :: r)) by (apply ends_stops; [eapply fits_weaken; [exact Kr|reflexivity]|lia]).
        eapply steps_seq with (e1 := frame usize_max false true (VNode (tree_query U q None))) (bs1 := b1 :: rp :: f' :: r).
        - destruct (fits_either U b ["SELECT"] ["WITH"] Ks) as [K3|K3].
          + clear P. unfold H2, frame. cbn [parse_expr f_body]. step HU.
          + assert (P' := P ltac:(apply among_word in K3 as (w & [<-|[]] & K3); exact K3)). clear P. unfold H2, frame. cbn [parse_expr f_body]. step HU.
        - eapply steps_seq; [apply loop_ends; exact S2|]. apply (tail_ends U HU usize_max). exact S2. }
      exists b1. eapply calls_body; [reflexivity|]. cbn [prog parse_exprs f_body f_params combine]. step HU. }
    clear C1. destruct C2 as (b2 & C2).
    unfold LoopBody, Loop, frame. cbn [parse_expr f_body].
    step HU.
Qed.
End WithUnicode.
