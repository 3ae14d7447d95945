(* Whole texts made of the queries of GrammarSpec.v are accepted, and give the trees these denote. *)
From Verif Require Import Chars Token Cst Core MiniRust Lexer Program Api Bundles ParserView ParserGeneric ShapeSound GroupingSpec GroupingExpr
  ParserTotal ParserInvariance Forward GrammarSpec GrammarTactics GrammarExpr GrammarReach GrammarOps GrammarBinary GrammarItems GrammarTypes GrammarCalls GrammarQuery GrammarSelect.
Local Open Scope string_scope.
Local Open Scope list_scope.
Local Notation length := List.length.

Section WithUnicode.
Context (U : unicode) (HU : ascii_faithful U).
Local Notation steps := (steps U).
Local Notation calls := (calls U).
Local Notation is_word := (is_word U).
Local Notation fits := (fits_known U).
Ltac ahead ::= first [apply tok_yield | apply tok_items | apply tok_query | eassumption].
Ltac call ::= eassumption.
Ltac special ::= fail.

Lemma statement_of_query l q so bs : (exists next, wf_query U q next) -> calls F_parse_select_statement [VBool true; VBool true] (yield_query q ++ l) (VNode (tree_query U q so)) bs ->
  calls F_parse_statement [VBool true] (yield_query q ++ l) (VNode (tree_query U q so)) bs.
Proof.
  intros (next & W) C. apply wf_first_query in W. apply fits_among in W.
  eapply calls_body; [reflexivity|]. cbn [prog parse_statement f_body f_params combine]. step HU.
Qed.
Lemma query_last q eof : wf_query U q eof -> is_word eof "" -> 
  exists b, calls F_parse_statement [VBool true] (yield_query q ++ [eof]) (VNode (tree_query U q None)) [b; eof].
Proof.
  intros W K. destruct (every_query U HU q eof W true None eof [] W) as (b & C); [right; auto|]. exists b. apply statement_of_query; eauto.
Qed.
Lemma query_then q semi rest : wf_query U q semi -> is_word semi ";" ->
  calls F_parse_statement [VBool true] (yield_query q ++ semi :: rest) (VNode (tree_query U q (Some semi))) (semi :: rest).
Proof.
  intros W K. destruct (every_query U HU q semi W true (Some semi) semi rest W) as (b & C); [repeat split; auto|]. apply statement_of_query; eauto.
Qed.
Definition code_loop : cmd fn := match f_body parse_code with Seq _ (Seq a _) => a | _ => Skip end.
Lemma query_nonempty q : yield_query q <> [].
Proof. induction q; cbn [yield_query]; try discriminate; intro E; apply app_eq_nil in E as (E & _); contradiction. Qed.
Lemma not_end e bs : (2 <= length bs)%nat -> decides U (CNot (CEof 0)) e bs true.
Proof.
  intros L. apply decides_not_false. eapply decides_eq; [apply decides_eof|]. apply Nat.leb_gt. lia.
Qed.
Lemma script_loop sc : forall eof l, wf_script U sc eof -> is_word eof "" ->
  steps code_loop [("stmts", VVec l)] (yield_script sc ++ [eof]) Norm [("stmts", VVec (l ++ tree_script U sc))] [eof].
Proof.
  induction sc as [|q|q semi r IH]; intros eof l W K.
  - cbn [yield_script app tree_script]. rewrite app_nil_r. unfold code_loop. cbn [parse_code f_body]. apply steps_while_end.
    apply (decides_not U _ _ _ true). eapply decides_eq; [apply decides_eof|reflexivity].
  - cbn [yield_script tree_script]. destruct (query_last q eof W K) as (b & C). unfold code_loop. cbn [parse_code f_body].
    eapply steps_while_more; [apply not_end; rewrite app_length; pose proof (query_nonempty q); destruct (yield_query q); cbn; [congruence|lia]|step HU|].
    norm. apply steps_while_end. apply (decides_not U _ _ _ true). eapply decides_eq; [apply decides_eof|reflexivity].
  - destruct W as (W & Ks & Wr). cbn [yield_script tree_script]. rewrite <- app_assoc. cbn [app].
    pose proof (query_then q semi (yield_script r ++ [eof]) W Ks) as C. specialize (IH eof (l ++ [tree_query U q (Some semi)]) Wr K).
    rewrite <- app_assoc in IH. cbn [app] in IH. unfold code_loop in *. cbn [parse_code f_body] in *.
    eapply steps_while_more; [apply not_end; rewrite app_length; pose proof (query_nonempty q); destruct (yield_query q); cbn; [congruence|rewrite app_length; cbn; lia]|step HU|].
    norm. exact IH.
Qed.
Lemma makes_eof e eof : b_trail eof = [] -> makes U (EConstruct N_EOF) e [eof] (eof_tree eof) e [eof].
Proof.
  intros T. apply makes_construct. unfold constructed, decorate. rewrite T. unfold eof_tree, comment_list. destruct (b_lead eof); reflexivity.
Qed.
Lemma script_call sc eof : wf_script U sc eof -> is_word eof "" -> b_trail eof = [] ->
  calls F_parse_code [] (yield_script sc ++ [eof]) (VVec (tree_script U sc ++ [eof_tree eof])) [eof].
Proof.
  intros W K T. pose proof (script_loop sc eof [] W K) as L. pose proof (makes_eof [("stmts", VVec (tree_script U sc))] eof T) as M.
  eapply calls_body; [reflexivity|]. cbn [prog parse_code f_body f_params combine]. unfold code_loop in L. cbn [parse_code f_body app] in L.
  eapply steps_seq; [step HU|]. eapply steps_seq; [exact L|]. eapply steps_seq; [eapply steps_vecpush; [exact M|envr|envr]|]. step HU.
Qed.
Lemma grouped_end bs eof : grouped (bs ++ [eof]) -> b_trail eof = [].
Proof.
  induction bs as [|b bs IH]; cbn [app]; intro G; inversion G; subst; try reflexivity.
  - destruct bs; discriminate.
  - apply IH. match goal with H : _ :: _ = _ |- _ => rewrite <- H | H : _ = _ :: _ |- _ => rewrite H end. assumption.
Qed.
Theorem script_parses code sc eof : tokenize U code = Success (flats (yield_script sc ++ [eof])) -> grouped (yield_script sc ++ [eof]) ->
  wf_script U sc eof -> parses U code (Success (tree_script U sc ++ [eof_tree eof])).
Proof.
  intros T G W. pose proof (grouped_end _ _ G) as Et.
  assert (E : b_tok eof = eof_token).
  { destruct (tokenize_ends U _ _ T) as (ts0 & E). unfold flats in E. rewrite map_app, concat_app in E. cbn [map List.concat] in E. rewrite app_nil_r in E.
    unfold flat in E. rewrite Et in E. rewrite app_assoc in E. now apply app_inj_tail in E as [_ E]. }
  assert (K : is_word eof "") by (unfold GrammarSpec.is_word, word; rewrite E; reflexivity).
  destruct (script_call sc eof W K Et) as (n & C). destruct (parser_new_view _ G) as (s & N & V & _).
  destruct (C s V) as (s' & R & _). split; [discriminate|]. exists n. unfold parse. rewrite T. unfold parse_tokens. now rewrite N, R.
Qed.
End WithUnicode.
