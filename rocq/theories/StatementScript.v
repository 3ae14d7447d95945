(* Whole texts made of the statements of StatementSpec.v are accepted, and give the trees these denote. *)
From Verif Require Import Chars Token Cst Core MiniRust Lexer Program Api Bundles ParserView ParserGeneric ShapeSound GroupingSpec GroupingExpr
  ParserTotal ParserInvariance Forward GrammarSpec GrammarTactics GrammarExpr GrammarReach GrammarOps GrammarBinary GrammarItems GrammarTypes GrammarCalls GrammarQuery GrammarSelect
  GrammarScript StatementSpec StatementDeeds StatementDml StatementInsert StatementMerge StatementBlocks StatementControl.
Local Open Scope string_scope.
Local Open Scope list_scope.
Local Notation length := List.length.

Section WithUnicode.
Context (U : unicode) (HU : ascii_faithful U).
Local Notation steps := (steps U).
Local Notation calls := (calls U).
Local Notation is_word := (is_word U).
Local Notation fits := (fits_known U).
Ltac ahead ::= eassumption.
Ltac call ::= eassumption.
Ltac special ::= fail.

Lemma stmt_last s eof : wf_stmt U s eof -> is_word eof "" ->
  exists b, calls F_parse_statement [VBool true] (yield_stmt s ++ [eof]) (VNode (tree_stmt U s None)) [b; eof].
Proof.
  intros W K. destruct (every_stmt U HU s true None eof [] W) as (b & C); [|exists b; exact C].
  split; [right; apply fits_word in K; eapply fits_weaken; [exact K|reflexivity]|destruct s; try exact Logic.I; split; auto].
Qed.
Lemma stmt_then s semi rest : wf_stmt U s semi -> is_word semi ";" ->
  calls F_parse_statement [VBool true] (yield_stmt s ++ semi :: rest) (VNode (tree_stmt U s (Some semi))) (semi :: rest).
Proof.
  intros W K. destruct (every_stmt U HU s true (Some semi) semi rest W) as (b & C); [|exact C].
  split; [|destruct s; try exact Logic.I]; repeat split; auto.
Qed.
Lemma stmt_nonempty s next : wf_stmt U s next -> yield_stmt s <> [].
Proof. intro W. destruct (stmt_starts U HU s next W) as (f & r & -> & _). discriminate. Qed.
Lemma program_loop p : forall eof l, wf_program U p eof -> is_word eof "" ->
  steps code_loop [("stmts", VVec l)] (yield_program p ++ [eof]) Norm [("stmts", VVec (l ++ tree_program U p))] [eof].
Proof.
  induction p as [|s|s semi r IH]; intros eof l W K; cbn [wf_program] in W.
  - cbn [yield_program app tree_program]. rewrite app_nil_r. unfold code_loop. cbn [parse_code f_body]. apply steps_while_end.
    apply (decides_not U _ _ _ true). eapply decides_eq; [apply decides_eof|reflexivity].
  - cbn [yield_program tree_program]. destruct (stmt_last s eof W K) as (b & C). unfold code_loop. cbn [parse_code f_body].
    pose proof (stmt_nonempty s eof W) as Ne. eapply steps_while_more; [apply not_end; rewrite app_length; destruct (yield_stmt s); cbn; [congruence|lia]|step HU|].
    norm. apply steps_while_end. apply (decides_not U _ _ _ true). eapply decides_eq; [apply decides_eof|reflexivity].
  - destruct W as (W & Ks & Wr). cbn [yield_program tree_program]. rewrite <- app_assoc. cbn [app].
    pose proof (stmt_then s semi (yield_program r ++ [eof]) W Ks) as C. specialize (IH eof (l ++ [tree_stmt U s (Some semi)]) Wr K).
    rewrite <- app_assoc in IH. cbn [app] in IH. unfold code_loop in *. cbn [parse_code f_body] in *. pose proof (stmt_nonempty s semi W) as Ne.
    eapply steps_while_more; [apply not_end; rewrite app_length; destruct (yield_stmt s); cbn; [congruence|rewrite app_length; cbn; lia]|step HU|].
    norm. exact IH.
Qed.
Lemma program_call p eof : wf_program U p eof -> is_word eof "" -> b_trail eof = [] ->
  calls F_parse_code [] (yield_program p ++ [eof]) (VVec (tree_program U p ++ [eof_tree eof])) [eof].
Proof.
  intros W K T. pose proof (program_loop p eof [] W K) as L. pose proof (makes_eof U [("stmts", VVec (tree_program U p))] eof T) as M.
  eapply calls_body; [reflexivity|]. cbn [prog parse_code f_body f_params combine]. unfold code_loop in L. cbn [parse_code f_body app] in L.
  eapply steps_seq; [step HU|]. eapply steps_seq; [exact L|]. eapply steps_seq; [eapply steps_vecpush; [exact M|envr|envr]|]. step HU.
Qed.
Theorem program_parses code p eof : tokenize U code = Success (flats (yield_program p ++ [eof])) -> grouped (yield_program p ++ [eof]) ->
  wf_program U p eof -> parses U code (Success (tree_program U p ++ [eof_tree eof])).
Proof.
  intros T G W. pose proof (grouped_end _ _ G) as Et.
  assert (E : b_tok eof = eof_token).
  { destruct (tokenize_ends U _ _ T) as (ts0 & E). unfold flats in E. rewrite map_app, concat_app in E. cbn [map List.concat] in E. rewrite app_nil_r in E.
    unfold flat in E. rewrite Et in E. rewrite app_assoc in E. now apply app_inj_tail in E as [_ E]. }
  assert (K : is_word eof "") by (unfold GrammarSpec.is_word, word; rewrite E; reflexivity).
  destruct (program_call p eof W K Et) as (n & C). destruct (parser_new_view _ G) as (s & N & V & _).
  destruct (C s V) as (s' & R & _). split; [discriminate|]. exists n. unfold parse. rewrite T. unfold parse_tokens. now rewrite N, R.
Qed.
End WithUnicode.
