(* The statements of DefinitionSpec.v that begin with CREATE or LOAD. *)
From Verif Require Import Chars Token Cst Core MiniRust Program Bundles ParserView ParserGeneric ShapeSound GroupingSpec GroupingExpr
  Forward GrammarSpec GrammarTactics GrammarExpr GrammarReach GrammarOps GrammarBinary GrammarItems GrammarTypes GrammarCalls GrammarQuery GrammarSelect
  DefinitionSpec StatementSpec StatementDeeds StatementDml DefinitionRules DefinitionPhrases DefinitionTypes StatementInsert.
Local Open Scope string_scope.
Local Open Scope list_scope.
Local Notation length := List.length.

Section WithUnicode.
Context (U : unicode) (HU : ascii_faithful U).
Local Notation steps := (steps U).
Local Notation calls := (calls U).
Local Notation is_word := (is_word U).
Local Notation word_in := (word_in U).
Local Notation tree := (tree U).
Local Notation wf := (wf U).
Local Notation fits := (fits_known U).
Local Notation led := (led U).
Local Notation wf_part := (wf_part U).
Local Notation wf_parts := (wf_parts U).
Local Notation kids_part := (kids_part U).
Local Notation kids_parts := (kids_parts U).
Local Notation stops := (stops U).
Local Notation tails := (tails U).
Local Notation runs := (runs U).
Local Notation finishes := (finishes U).
Local Notation inside := (inside U).
Ltac ahead ::= first [apply tok_coltype | apply tok_yield | apply tok_items | apply tok_query | apply tok_type | apply tok_table | eassumption].
Ltac call ::= eassumption.
Ltac special ::= fail.



Local Notation reads_as := (reads_as U).
Ltac phrase_ := phrase HU.
Ltac word_name := enters; a_path HU; shown HU.
Ltac call ::= first [eassumption | apply (two_call U) | apply (three_call U) | apply (four_call U) | apply (one_call U)].

Lemma string_fact s ws f R : is_string (b_tok s) = true -> fits (Among ws) (b_tok f) -> forallb (fun w => existsb (String.eqb w) enders && plain w) ws = true ->
  calls F_parse_expr [VNum usize_max; VBool false; VBool false; VBool false; VBool true] (s :: f :: R) (VNode (made N_StringLiteral s [])) (s :: f :: R).
Proof.
  intros S K A. pose proof (expr_call U HU (Atom s) true ws f R (string_operand U HU s S)) as C. cbn [yield app lastb GrammarSpec.tree] in C. rewrite (string_kind U HU s S) in C. now apply C.
Qed.
(* a guard that looks at more than one token of the phrase *)
Ltac settle := lazymatch goal with
  | |- decides _ (CNot _) _ _ _ => apply decides_flip; cbn [negb]; settle
  | |- decides _ (CAnd _ _) _ _ _ => eapply decides_and; [decide_ HU | cbv iota; cbn [negb]; first [reflexivity | settle]]
  | |- _ => decide_ HU end.
Ltac guards_ := cbv beta; settle.
Ltac guarded HU ::= unfold guards; intros; cbv beta; settle.
Ltac not_remote := repeat match goal with r : option bundle |- _ => destruct r; [exfalso; match goal with H : false = true /\ _ |- _ => destruct H; discriminate end|] end; cbn [opt app yield_part].
Ltac mayp_ t := add_phrase HU; [eapply (runs_may_ U);
  [let p := fresh "p" in let L := fresh "L" in let W := fresh "W" in intros ? ? p ? ? ? ? L W; open_part W; led_by L; facts; not_remote; guards_
  | let L := fresh "L" in intros ? ? ? ? ? ? L; led_by L; guards_ | t]|].
Ltac a_string := match goal with S : is_string (b_tok ?s) = true, L : fits_known _ (Among ?ws) (b_tok ?f) |- context [?s :: ?f :: ?R] =>
  pose proof (string_fact s ws f R S L eq_refl) end.
Lemma create_schema_reads : reads_as F_parse_create_schema_statement CreateSchema.
Proof.
  reads_. do 4 phrase_. may_ HU ltac:(enters; a_string; shown HU). mayp_ ltac:(inside_ HU). phrase_. ends HU.
Qed.
Ltac calls_ HU ::= first [apply (name_calls _ HU); reflexivity | apply (options_calls _ HU) | apply (group_calls _ HU) | eapply (by_calls _ HU); reflexivity
  | apply (connection_calls _ HU); reflexivity | apply (declared_calls _ HU); first [reflexivity | discriminate]].
Ltac declares := match goal with W : wf_declared _ ?sc ?fn ?g |- context [yield_declared ?g ++ ?f :: ?R] =>
  destruct (declared_call _ HU sc fn g f R ltac:(first [reflexivity | discriminate]) W) as (? & ?) end.
(* and the parenthesis can be seen *)
Ltac paren := match goal with W : wf_declared _ _ _ ?g |- _ => let K := fresh "K" in destruct g; pose proof (proj1 W) as K; apply fits_word in K; cbn [yield_declared app] in * end.
Lemma create_policy_reads : reads_as F_parse_create_row_access_policy_statement CreatePolicy.
Proof.
  reads_. do 4 phrase_. leaving HU 4 "on"; [word_name|]. may_ HU ltac:(enters; a_group HU; shown HU). phrase_.
  leaving HU 4 "using"; [enters; an_expr HU; shown HU|]. ends HU.
Qed.
Ltac three HU := lazymatch goal with |- DefinitionRules.finishes ?U (Seq ?c ?k) ?E (?a :: ?b :: ?d :: ?gs) => apply (finishes_more U HU c E [a; b; d] E gs k) end.
Lemma create_reservation_json_reads : reads_as F_parse_create_reservation_statement CreateReservationJson.
Proof.
  reads_. do 2 phrase_. three HU; [|ends HU]. apply (runs_branch U HU true); [guarded HU|]. enters. an_expr HU. shown HU.
Qed.
Lemma create_reservation_reads : reads_as F_parse_create_reservation_statement CreateReservation.
Proof.
  reads_. do 2 phrase_. one HU; [eapply (runs_branch U HU false); [guarded HU|]|ends HU].
  eapply inside_runs; [eapply (runs_may U HU); [guarded HU|guarded HU|inside_ HU]|reflexivity].
Qed.
Lemma load_reads : reads_as F_parse_load_statement LoadData.
Proof.
  reads_. do 11 phrase_. mayp_ ltac:(enters; match goal with g : option declared |- _ => destruct g end; [declares; paren|]; shown HU). phrase_. ends HU.
Qed.
Lemma load_through_reads : reads_as F_parse_load_statement LoadThrough.
Proof.
  reads_. do 11 phrase_. add_phrase HU; [eapply (runs_may_ U)|].
  - intros sp0 n p b f R T L W. open_part W; led_by L; facts; not_remote; guards_.
  - intros sp0 n b f R T L. apply tails_need in T as (p & l & E & T & W). apply tails_need in T as (p1 & l1 & E1 & T & W1). open_part W. open_part W1. facts. subst l. injection E as -> ->. guards_.
  - enters; match goal with g : option declared |- _ => destruct g end; [declares; paren|]; shown HU.
  - three HU; [enters; a_path HU; shown HU|ends HU].
Qed.
Lemma second_of_query q ws vs f R : match yield_query q with _ :: b :: _ => ~ word_in b ws | _ => True end -> fits (Among vs) (b_tok f) ->
  known_in (Among vs) ws = Some false -> exists t, tok_at (yield_query q ++ f :: R) 1 = Some t /\ fits (Avoids ws) t.
Proof.
  intros H L A. pose proof (tok_query q []) as N. destruct (yield_query q) as [|b1 [|b2 r]]; [discriminate N| |].
  - exists (b_tok f). split; [reflexivity|]. eapply fits_weaken; [exact L|exact A].
  - exists (b_tok b2). split; [reflexivity|]. now apply fits_avoids.
Qed.
Ltac second_token := match goal with L : fits_known _ (Among ?vs) (b_tok ?f), H : context [~ GrammarSpec.word_in _ _ ?ws] |- context [yield_query ?q ++ ?f :: ?R] =>
  destruct (second_of_query q ws vs f R H L eq_refl) as (? & ? & ?) end.
Lemma create_model_reads : reads_as F_parse_create_model_statement CreateModel.
Proof.
  reads_. do 5 phrase_. do 2 may_ HU ltac:(enters; declares; shown HU).
  may_ HU ltac:(enters; match goal with r : option bundle, Q : match ?r with Some _ => _ | None => true = false end |- _ => destruct r; [destruct Q as (_ & Q); apply fits_word in Q; cbn [opt app] | discriminate] end;
    match goal with x : connection |- _ => destruct x; facts; [|match goal with P : GrammarSpec.path _ ?p |- _ => pose proof (path_first_avoids U HU p ["DEFAULT"] P eq_refl) end; a_path HU] end; shown HU).
  phrase_. may_ HU ltac:(enters; second_token; a_query HU; shown HU). ends HU.
Qed.
(* the token after the parenthesis of a group *)
Lemma group_second named g f R : wf_group U named g -> exists t, tok_at (yield_group g ++ f :: R) 1 = Some t /\ fits (Avoids ["ALL"]) t.
Proof.
  destruct g as [lp [es|] rp]; intros (_ & W & Kr); cbn [yield_group app].
  - exists (b_tok (first_items es)). split; [rewrite tok_at_S, <- app_assoc; apply tok_items|]. eapply fits_weaken; [eapply (first_items_avoids U); exact W|reflexivity].
  - exists (b_tok rp). split; [reflexivity|]. apply fits_word in Kr. eapply fits_weaken; [exact Kr|reflexivity].
Qed.
Lemma create_index_reads : reads_as F_parse_create_search_index_statement CreateIndex.
Proof.
  reads_. phrase_. leaving HU 4 "what"; [enters; shown HU|]. do 4 phrase_. keeping HU 1; [|do 3 phrase_; ends HU].
  intros sp0 n ps0 b f R T L W. open_parts W; led_by L; facts; [|shown HU].
  match goal with W : wf_group _ false ?g |- _ => destruct (group_second false g f R W) as (? & ? & ?) end. a_group HU. shown HU.
Qed.
Lemma create_procedure_reads : reads_as F_parse_create_procedure_statement CreateForeignProcedure.
Proof.
  reads_. do 5 phrase_. may_ HU ltac:(enters; shown HU). do 2 phrase_. need_ HU ltac:(enters; shown HU).
  one HU; [|ends HU]. eapply (runs_branch U HU false); [guarded HU|].
  eapply inside_runs; [eapply (runs_may U HU); [guarded HU|guarded HU|enters; an_expr HU; shown HU]|reflexivity].
Qed.
(* variables that hold a truth value *)
Ltac special ::= lazymatch goal with
  | |- Forward.steps _ (LetBool _ (CNot CTrue)) _ _ _ _ _ => eapply steps_letbool; apply decides_flip, decides_true
  | |- Forward.steps _ (SetBool _ CTrue) _ _ _ _ _ => eapply steps_setbool; [apply decides_true|envr]
  end.
Ltac flag y := lazymatch goal with |- DefinitionRules.finishes ?U (Seq ?c ?k) ?E ?gs => let E' := eval cbv beta in (fun (sp : bool) (n : node) => (y, VBool false) :: E sp n) in
  apply (finishes_none U HU c E E' gs k); [enters; shown HU|] end.
Lemma create_table_reads : reads_as F_parse_create_table_statement CreateTable.
Proof.
  reads_. flag "external". flag "snapshot". do 9 phrase_. may_ HU ltac:(enters; shown HU). do 6 phrase_. may_ HU ltac:(enters; a_query HU; shown HU). ends HU.
Qed.
Lemma create_table_like_reads : reads_as F_parse_create_table_statement CreateTableLike.
Proof.
  reads_. flag "external". flag "snapshot". do 7 phrase_. need_ HU ltac:(enters; a_path HU; shown HU). do 8 phrase_. may_ HU ltac:(enters; a_query HU; shown HU). ends HU.
Qed.
Ltac raise y := lazymatch goal with |- DefinitionRules.finishes ?U (Seq ?c ?k) ?E (?s :: ?gs) => let E' := eval cbv beta iota delta [env_set String.eqb Ascii.eqb Bool.eqb] in (fun (sp : bool) (n : node) => match env_set y (VBool true) (E sp n) with Some e => e | None => [] end) in
  apply (finishes_cons U HU c E s E' gs k); [apply (runs_branch U HU true); [guarded HU|enters; shown HU]|] end.
(* CLONE *)
Ltac a_source HU := match goal with W : wf_source _ ?s ?f, L : fits_known _ (Among ?ws) (b_tok ?f) |- context [yield_source ?s ++ ?f :: ?R] =>
  destruct (table_call _ HU (Base s) ws f R W L eq_refl) as (? & ?) end.
Lemma create_clone_reads : reads_as F_parse_create_table_statement CreateClone.
Proof.
  reads_. flag "external". flag "snapshot". do 14 phrase_. need_ HU ltac:(enters; a_source HU; shown HU). do 2 phrase_. ends HU.
Qed.
Lemma create_snapshot_reads : reads_as F_parse_create_table_statement CreateSnapshot.
Proof.
  reads_. flag "external". flag "snapshot". do 3 phrase_. raise "snapshot". do 10 phrase_. need_ HU ltac:(enters; a_source HU; shown HU). do 2 phrase_. ends HU.
Qed.
Lemma create_external_table_reads : reads_as F_parse_create_table_statement CreateExternalTable.
Proof.
  reads_. flag "external". flag "snapshot". do 2 phrase_. raise "external". do 9 phrase_.
  add_phrase HU; [eapply (runs_may_ U)|].
  - intros sp0 n p b f R T L W. open_part W; led_by L; facts; not_remote; guards_.
  - intros sp0 n b f R T L. apply tails_may in T as [T|(p & l & E & T & W)].
    + apply (tails_lead U HU) in T as (f' & r & E & K). injection E as <- <-. led_by K. guards_.
    + open_part W. facts. injection E as -> ->. guards_.
  - inside_ HU.
  - mayp_ ltac:(enters; match goal with g : option declared |- _ => destruct g end; [declares; paren|]; shown HU). do 3 phrase_. ends HU.
Qed.
(* the first token of the query *)
Ltac first_token := match goal with Q : wf_query _ ?q _ |- _ => let K := fresh in pose proof (wf_first_query _ _ _ Q) as K; apply fits_among in K end.
(* the columns of a view *)
Definition view_frame (l : list node) (lp : bundle) (kids : list (string * content)) (sp : bool) (n : node) : env :=
  [("idents", VVec l); ("column_name_list", VNode (made N_GroupedIdentWithOptions lp kids)); ("materialized", VBool false); ("create", VNode n); ("semicolon", VBool sp)].
Definition view_loop : cmd fn := MiniRust.While CTrue
  (Seq Next (Seq (MiniRust.If (CTok 0 (TIs ")")) (Seq (Push "column_name_list" "rparen" (EConstruct N_Symbol)) Break) Skip)
  (Seq (LetNode "ident" (ECall F_parse_identifier [])) (Seq (SetType "ident" N_IdentWithOptions)
  (Seq (MiniRust.If (CTok 1 (TIs "OPTIONS")) (Seq Next (Push "ident" "options" (ECall F_parse_keyword_with_grouped_exprs [ABool (BConst false)]))) Skip)
  (Seq (MiniRust.If (CTok 1 (TIs ",")) (Seq Next (Push "ident" "comma" (EConstruct N_Symbol))) Skip) (VecPush "idents" (EVar "ident")))))))).
Lemma viewcols_steps lp rp R sp n : is_word rp ")" -> forall cs l b, wf_viewcols U cs rp ->
  steps view_loop (view_frame l lp [] sp n) (b :: yield_viewcols cs ++ rp :: R) Norm (view_frame (l ++ tree_viewcols U cs) lp [("rparen", symbol rp)] sp n) (rp :: R).
Proof.
  intros Kr. apply fits_word in Kr.
  assert (End : forall l b, steps view_loop (view_frame l lp [] sp n) (b :: rp :: R) Norm (view_frame l lp [("rparen", symbol rp)] sp n) (rp :: R)).
  { intros l b. unfold view_loop, view_frame. eapply steps_eq; [eapply steps_while_brk; [apply decides_true|]|].
    - eapply steps_seq; [step HU|]. eapply steps_seq_brk. eapply steps_eq; [eapply (steps_if U) with (v := true); [decide_ HU|]|]; [cbv iota; eapply steps_seq; [step HU|]; apply steps_break|]. envr.
    - reflexivity. }
  induction cs as [x o|x o m r IH]; intros l b W; cbn [wf_viewcols yield_viewcols tree_viewcols] in *.
  - destruct W as (Nx & Sx & Wo). pose proof (identifier_avoids U HU (b_tok x) [")"] (proj2 Nx) eq_refl) as Kx.
    destruct o as [(k & g)|]; cbn [yield_viewoptions hd app tree_viewcol] in *.
    + destruct Wo as (Kk & Wg). apply fits_word in Kk. destruct (with_group_call U HU k false g rp R Wg) as (b1 & C).
      pose proof (one_name_call U HU x k (yield_group g ++ rp :: R) Nx Sx ltac:(eapply fits_weaken; [exact Kk|reflexivity])) as Cx.
      eapply steps_while_more; [apply decides_true|unfold view_frame; step HU|]. exact (End (l ++ [tree_viewcol U x (Some (k, g)) None]) b1).
    + pose proof (one_name_call U HU x rp R Nx Sx ltac:(eapply fits_weaken; [exact Kr|reflexivity])) as Cx.
      eapply steps_while_more; [apply decides_true|unfold view_frame; step HU|]. exact (End (l ++ [tree_viewcol U x None None]) x).
  - destruct W as ((Nx & Sx & Wo) & Km & W). pose proof (identifier_avoids U HU (b_tok x) [")"] (proj2 Nx) eq_refl) as Kx. apply fits_word in Km.
    replace (l ++ tree_viewcol U x o (Some m) :: tree_viewcols U r) with ((l ++ [tree_viewcol U x o (Some m)]) ++ tree_viewcols U r) by now rewrite <- app_assoc.
    destruct o as [(k & g)|]; cbn [yield_viewoptions hd app] in *.
    + destruct Wo as (Kk & Wg). apply fits_word in Kk. rewrite <- !app_assoc. cbn [app]. destruct (with_group_call U HU k false g m (yield_viewcols r ++ rp :: R) Wg) as (b1 & C).
      pose proof (one_name_call U HU x k (yield_group g ++ m :: yield_viewcols r ++ rp :: R) Nx Sx ltac:(eapply fits_weaken; [exact Kk|reflexivity])) as Cx.
      eapply steps_while_more; [apply decides_true|unfold view_frame; step HU|]. 
      replace (l ++ tree_viewcol U x (Some (k, g)) (Some m) :: tree_viewcols U r) with ((l ++ [tree_viewcol U x (Some (k, g)) (Some m)]) ++ tree_viewcols U r) by now rewrite <- app_assoc.
      exact (IH (l ++ [tree_viewcol U x (Some (k, g)) (Some m)]) m W).
    + pose proof (one_name_call U HU x m (yield_viewcols r ++ rp :: R) Nx Sx ltac:(eapply fits_weaken; [exact Km|reflexivity])) as Cx.
      eapply steps_while_more; [apply decides_true|unfold view_frame; step HU|]. exact (IH (l ++ [tree_viewcol U x None (Some m)]) m W).
Qed.
Lemma create_view_reads : reads_as F_parse_create_view_statement CreateView.
Proof.
  reads_. flag "materialized". do 5 phrase_.
  may_ HU idtac.
  - intros sp0 n ps0 b0 f R T L W. open_parts W. led_by L. destruct Wp as (Kl & Wc & Kr). pose proof (viewcols_steps lp rp (f :: R) sp0 n Kr cs [] lp Wc) as St.
    unfold view_loop, view_frame in St. facts. eexists. eexists. split; [|].
    + do 3 (eapply steps_seq; [step HU|]). eapply steps_seq; [exact St|]. step HU.
    + kids. reflexivity.
  - do 3 phrase_. need_ HU ltac:(enters; first_token; a_query HU; shown HU). ends HU.
Qed.
Lemma create_materialized_view_reads : reads_as F_parse_create_view_statement CreateMaterializedView.
Proof.
  reads_. flag "materialized". phrase_. raise "materialized". do 7 phrase_. need_ HU ltac:(enters; first_token; a_query HU; shown HU). ends HU.
Qed.
Lemma create_replica_view_reads : reads_as F_parse_create_view_statement CreateReplicaView.
Proof.
  reads_. flag "materialized". phrase_. raise "materialized". do 7 phrase_. need_ HU ltac:(enters; a_path HU; shown HU). ends HU.
Qed.
Ltac returns_ := enters; match goal with W : wf_coltype _ true false false ?t, L : fits_known _ _ (b_tok ?f) |- context [yield_coltype ?t ++ ?f :: ?R] =>
  destruct (returns_call U HU t f R W ltac:(eapply fits_weaken; [exact L|reflexivity])) as (? & ?) end; shown HU.
Lemma create_sql_function_reads : reads_as F_parse_create_function_statement CreateSqlFunction.
Proof.
  reads_. flag "is_tvf". do 8 phrase_. may_ HU returns_. one HU; [|ends HU]. enters. an_expr HU. shown HU.
Qed.
Lemma create_table_function_reads : reads_as F_parse_create_function_statement CreateTableFunction.
Proof.
  reads_. flag "is_tvf". do 2 phrase_. raise "is_tvf". do 5 phrase_. may_ HU returns_. one HU; [|ends HU]. enters. a_query HU. shown HU.
Qed.
Ltac a_connection := match goal with x : connection |- _ => destruct x; facts; [discriminate|a_path HU] end.
Lemma create_remote_function_reads : reads_as F_parse_create_function_statement CreateRemoteFunction.
Proof.
  reads_. flag "is_tvf". do 8 phrase_. may_ HU returns_. three HU; [|ends HU].
  apply (runs_branch U HU true); [guarded HU|]. eapply inside_runs with (E1 := fun sp n => [("connection", VUndef); ("with", VUndef); ("is_tvf", VBool false); ("node", VNode n); ("semicolon", VBool sp)]); [|reflexivity].
  phrase_. chunk 7. eapply (runs_cons U HU _ _ _ (fun sp n => [("connection", VUndef); ("with", VUndef); ("is_tvf", VBool false); ("node", VNode n); ("semicolon", VBool sp)])).
  - enters. not_remote. a_connection. shown HU.
  - eapply (runs_may U HU); [guarded HU|guarded HU|inside_ HU].
Qed.
Ltac five HU := lazymatch goal with |- DefinitionRules.finishes ?U (Seq ?c ?k) ?E (?a :: ?b :: ?d :: ?e :: ?f :: ?gs) => apply (finishes_more U HU c E [a; b; d; e; f] E gs k) end.
Lemma create_foreign_function_reads : reads_as F_parse_create_function_statement CreateForeignFunction.
Proof.
  reads_. flag "is_tvf". do 8 phrase_. may_ HU returns_. five HU; [|ends HU].
  apply (runs_branch U HU false); [guarded HU|].
  eapply inside_runs with (E1 := fun sp n => [("is_tvf", VBool false); ("node", VNode n); ("semicolon", VBool sp)]); [|reflexivity].
  apply (runs_branch U HU false); [guarded HU|].
  eapply inside_runs with (E1 := fun sp n => [("as_", VUndef); ("language", VUndef); ("is_tvf", VBool false); ("node", VNode n); ("semicolon", VBool sp)]); [|reflexivity].
  may_ HU ltac:(enters; shown HU). leaving HU 4 "language"; [enters; shown HU|].
  may_ HU ltac:(enters; not_remote; a_connection; shown HU). phrase_. enters. an_expr HU. shown HU.
Qed.
End WithUnicode.
