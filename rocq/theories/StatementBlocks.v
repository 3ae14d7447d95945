(* BEGIN, LOOP, REPEAT, WHILE and FOR are read as written. *)
From Verif Require Import Chars Token Cst Core MiniRust Program Bundles ParserView ParserGeneric ShapeSound GroupingSpec GroupingExpr
  Forward GrammarSpec GrammarTactics GrammarExpr GrammarReach GrammarOps GrammarBinary GrammarItems GrammarTypes GrammarCalls GrammarQuery GrammarSelect
  DefinitionSpec StatementSpec StatementDeeds StatementDml StatementInsert StatementMerge.
Local Open Scope string_scope.
Local Open Scope list_scope.
Local Notation length := List.length.

Section WithUnicode.
Context (U : unicode) (HU : ascii_faithful U).
Local Notation steps := (steps U).
Local Notation calls := (calls U).
Local Notation is_word := (is_word U).
Local Notation word_in := (word_in U).
Local Notation tree := (tree U).
Local Notation wf := (wf U).
Local Notation fits := (fits_known U).
Local Notation led := (led U).
Local Notation stops := (stops U).
Local Notation shut := (shut U).
Local Notation reads := (reads U).
Local Notation deed_ok := (deed_ok U).
Local Notation expr_call := (expr_call U HU).
Local Notation list_call := (list_call U HU).
Local Notation group_call := (group_call U HU).
Local Notation path_call := (path_call U HU).
Local Notation tuples_read := (tuples_read U HU).
Local Notation names_steps := (names_steps U HU).
Local Notation stops_known := (stops_known U).
Local Notation stops_shut := (stops_shut U).
Local Notation tail_steps := (tail_steps U HU).
Ltac ahead ::= first [apply tok_yield | apply tok_items | apply tok_query | apply tok_type | apply tok_table | eassumption].
Ltac call ::= first [eassumption | apply two_call].
Ltac body f := eapply calls_body; [reflexivity|]; cbn [prog f f_body f_params combine].
Ltac dispatch := body parse_statement; step HU.
Ltac starts := intros sp so next rest W S; pose proof (stops_known _ _ _ _ S) as Kn; pose proof (stops_shut _ _ _ _ S) as Sh; unfold StatementDeeds.reads; cbn [yield_deed tree_deed wf_deed] in *.
(* the statement is read by [f] *)
Ltac via f :=
  lazymatch goal with |- Forward.calls _ _ ?a ?l ?v ?bs => let C' := fresh "C'" in assert (C' : calls f a l v bs); [|dispatch] end.
Ltac words := repeat match goal with H : GrammarSpec.is_word _ _ _ |- _ => apply fits_word in H | H : GrammarSpec.word_in _ _ _ |- _ => apply fits_among in H
  | H : perhaps _ _ _ |- _ => apply fits_among in H | H : perhaps2 _ (Some (_, _)) _ _ |- _ => destruct H | H : perhaps2 _ None _ _ |- _ => clear H
  | H : perhaps _ None _ |- _ => clear H end.

Ltac special ::=
  lazymatch goal with
  | |- Forward.steps _ (Seq (MiniRust.If (CAnd (CTok 1 (TIs ";")) (CVar "semicolon")) _ _) (MiniRust.Return (EVar ?x))) _ _ _ _ _ =>
      eapply (tail_steps x); [envr | envr | eassumption]
  | L : forall e, Forward.steps _ (MiniRust.While ?c ?a) _ _ _ _ _ |- Forward.steps _ (MiniRust.While ?c ?a) _ _ _ _ _ => apply L
  end.

(* ----- the first word of a statement ----- *)
Definition block_words : list string := ["END"; "EXCEPTION"; "ELSE"; "ELSEIF"; "WHEN"; "UNTIL"; "TRANSACTION"; ";"].
Lemma deed_starts d next : wf_deed U d next -> exists f r, yield_deed d = f :: r /\ fits (Avoids block_words) (b_tok f).
Proof.
  destruct d; cbn [wf_deed yield_deed].
  1: { intro W. destruct (query_starts q) as (r & ->). exists (first_query q), r. split; [reflexivity|]. apply wf_first_query in W. apply fits_among in W. eapply fits_weaken; [exact W|reflexivity]. }
  18: { intros (W & _). eexists _, _. split; [reflexivity|]. apply fits_word in W. destruct d; cbn [form fst] in W; (eapply fits_weaken; [exact W|reflexivity]). }
  all: intro W; eexists _, _; (split; [reflexivity|]); try destruct W as (W & _); words; (eapply fits_weaken; [exact W|reflexivity]).
Qed.
Lemma stmt_starts s next : wf_stmt U s next -> exists f r, yield_stmt s = f :: r /\ fits (Avoids block_words) (b_tok f).
Proof.
  destruct s; cbn [wf_stmt yield_stmt].
  1: apply deed_starts.
  8: { intros ((N & L) & _). eexists _, _. split; [reflexivity|]. apply (fits_weaken U (Avoids (statement_words ++ [";"]))); [|reflexivity].
       apply avoids_both; [now apply fits_avoids|]. apply identifier_avoids; [exact HU|apply N|reflexivity]. }
  all: intro W; eexists _, _; (split; [reflexivity|]); destruct W as (W & _); words; (eapply fits_weaken; [exact W|reflexivity]).
Qed.

(* ----- lists of statements ----- *)
Definition ends (s : stmt) (sp : bool) (so : option bundle) (next : bundle) (rest : list bundle) : Prop :=
  shut sp so next /\ match s with Do _ => stops sp so next rest | _ => True end.
Definition stmt_ok (s : stmt) : Prop := forall sp so next rest, wf_stmt U s next -> ends s sp so next rest ->
  reads F_parse_statement sp so (yield_stmt s) (tree_stmt U s so) next rest.
Fixpoint block_all (b : block) : Prop := match b with Done => True | Step s _ b => stmt_ok s /\ block_all b end.
Definition block_loop (c : cond) : cmd fn := MiniRust.While c (Seq Next (VecPush "stmts" (ECall F_parse_statement [ABool (BConst true)]))).
Lemma block_steps c e next rest : (forall l b f r, fits (Avoids block_words) (b_tok f) -> decides U c (("stmts", VVec l) :: e) (b :: f :: r) true) ->
  (forall l b, decides U c (("stmts", VVec l) :: e) (b :: next :: rest) false) ->
  forall bl, wf_block U bl -> block_all bl -> forall b, exists b', forall l,
    steps (block_loop c) (("stmts", VVec l) :: e) (b :: yield_block bl ++ next :: rest) Norm (("stmts", VVec (l ++ tree_block U bl)) :: e) (b' :: next :: rest).
Proof.
  intros Dt Df. fix IH 1. intros [|s semi bl] W A b; cbn [wf_block yield_block block_all tree_block] in *.
  - exists b. intro l. rewrite app_nil_r. apply steps_while_end, Df.
  - destruct W as (Ws & Ks & Wb), A as (As & Ab).
    destruct (As true (Some semi) semi (yield_block bl ++ next :: rest) Ws) as (b1 & C). { split; [|destruct s; [|exact Logic.I ..]]; repeat split; exact Ks. }
    cbn [left_over] in C. destruct (IH bl Wb Ab semi) as (b' & St). exists b'. intro l. specialize (St (l ++ [tree_stmt U s (Some semi)])). rewrite <- app_assoc in St. cbn [app] in St.
    destruct (stmt_starts s semi Ws) as (f & r & E & K). rewrite <- app_assoc. cbn [app]. rewrite E in *. cbn [app] in *.
    eapply steps_while_more; [apply Dt; exact K|step HU|]. eapply steps_eq; [|reflexivity]. rewrite env_leave_same by reflexivity. exact St.
Qed.
Lemma kws_call k bl ws f rest : wf_block U bl -> block_all bl -> fits (Among ws) (b_tok f) -> forallb ascii_word ws = true -> known_in (Among ws) (map up_string ws) = Some true ->
  known_in (Avoids block_words) (map up_string ws) = Some false ->
  exists b', calls F_parse_keyword_with_statements [VStrs ws] (k :: yield_block bl ++ f :: rest) (VNode (made N_KeywordWithStatements k [("stmts", CVec (tree_block U bl))])) (b' :: f :: rest).
Proof.
  intros W A K Aw Ki Ka. set (e := [("node", VNode (made N_KeywordWithStatements k [])); ("until", VStrs ws)]).
  destruct (block_steps (CNot (CTok 1 (TInVar "until"))) e f rest) with (bl := bl) (b := k) as (b' & St); [| |exact W|exact A|].
  { intros l b g r Kg. apply (decides_not U _ _ _ false). eapply decides_invar; [exact HU|reflexivity|reflexivity|exact Kg|exact Aw|exact Ka]. }
  { intros l b. apply (decides_not U _ _ _ true). eapply decides_invar; [exact HU|reflexivity|reflexivity|exact K|exact Aw|exact Ki]. }
  exists b'. specialize (St []). cbn [app] in St. unfold block_loop, e in *. body parse_keyword_with_statements. 
  do 2 (eapply steps_seq; [step HU|norm]). eapply steps_seq; [exact St|norm]. step HU.
Qed.
Ltac kws k bl ws f rest b C := destruct (kws_call k bl ws f rest) as (b & C); [eassumption | eassumption | eassumption | reflexivity ..|].
Ltac begin_stmt := intros sp so next rest W (Sh & _); unfold StatementDeeds.reads; cbn [yield_stmt tree_stmt wf_stmt] in *; repeat (progress (cbn [app]; rewrite <- ?app_assoc)).

Lemma loop_ok k b e l : block_all b -> stmt_ok (Loop k b e l).
Proof.
  intro A. begin_stmt. destruct W as (Kk & Wb & Ke & Kl). words. kws k b ["END"] e (l :: next :: rest) b1 C.
  eexists. via F_parse_loop_statement. body parse_loop_statement. step HU.
Qed.
Lemma repeat_ok k b u c e r : block_all b -> stmt_ok (Repeat k b u c e r).
Proof.
  intro A. begin_stmt. destruct W as (Kk & Wb & Ku & Wc & Ke & Kr). words. kws k b ["UNTIL"] u (yield c ++ e :: r :: next :: rest) b1 C.
  pose proof (expr_call c true _ e (r :: next :: rest) Wc Ke eq_refl) as C1.
  eexists. via F_parse_repeat_statement. body parse_repeat_statement. step HU.
Qed.
Lemma while_ok k c d b e w : block_all b -> stmt_ok (While k c d b e w).
Proof.
  intro A. begin_stmt. destruct W as (Kk & Wc & Kd & Wb & Ke & Kw). words. kws d b ["END"] e (w :: next :: rest) b1 C.
  pose proof (expr_call c true _ d (yield_block b ++ e :: w :: next :: rest) Wc Kd eq_refl) as C1.
  eexists. via F_parse_while_statement. body parse_while_statement. step HU.
Qed.
Lemma group_then_do lp q rp d rest : is_word lp "(" -> wf_query U q rp -> is_word rp ")" -> is_word d "DO" ->
  calls F_parse_select_statement [VBool false; VBool true] (lp :: yield_query q ++ rp :: d :: rest) (VNode (tree_query U (Grouped lp q rp) None)) (rp :: d :: rest).
Proof.
  intros Kl Wq Kr Kd. destruct (every_query U HU q rp Wq false None rp (d :: rest) Wq (or_introl Kr)) as (b & C). cbn [left_over] in C.
  apply (wf_first_query U) in Wq. words. change (tree_query U (Grouped lp q rp) None) with (made N_GroupedStatement lp [("stmt", CNode (tree_query U q None)); ("rparen", symbol rp)]).
  body parse_select_statement. eapply steps_seq_ret. eapply steps_eq; [eapply (steps_if U) with (v := true); [decide_ HU|]|]; cbv iota.
  { do 6 (eapply steps_seq; [step HU|]; norm). eapply steps_seq; [apply steps_while_end; decide_ HU|]. norm. step HU. }
  envr.
Qed.
Lemma for_ok k v i lp q rp d b e f : block_all b -> stmt_ok (For k v i lp q rp d b e f).
Proof.
  intro A. begin_stmt. destruct W as (Kk & Nv & Ki & Kl & Wq & Kr & Kd & Wb & Ke & Kf).
  pose proof (group_then_do lp q rp d (yield_block b ++ e :: f :: next :: rest) Kl Wq Kr Kd) as C1. words. kws d b ["END"] e (f :: next :: rest) b1 C.
  eexists. via F_parse_for_statement. body parse_for_statement. step HU.
Qed.

(* ----- BEGIN ----- *)
Lemma nonempty_block b : decides U (CNonEmpty "stmts") [("stmts", VVec (tree_block U b))] [] (match b with Done => false | _ => true end).
Proof. eapply decides_eq; [eapply (decides_nonempty U); reflexivity|]. now destruct b. Qed.
Lemma block_starts b f r : wf_block U b -> fits (Among ["END"; "EXCEPTION"]) (b_tok f) ->
  exists g r', yield_block b ++ f :: r = g :: r' /\ fits (Avoids ["TRANSACTION"; ";"]) (b_tok g).
Proof.
  destruct b as [|s semi b]; cbn [wf_block yield_block app]; intros W K.
  - eexists _, _. split; [reflexivity|]. eapply fits_weaken; [exact K|reflexivity].
  - destruct W as (W & _). destruct (stmt_starts s semi W) as (g & r' & -> & Kg). cbn [app]. eexists _, _. split; [reflexivity|]. eapply fits_weaken; [exact Kg|reflexivity].
Qed.
Definition handler_all (h : handler) : Prop := match h with NoHandler => True | Handler _ _ _ _ b => block_all b end.
(* the end of the statements *)
Lemma handler_first h e next rest : wf_handler U h -> is_word e "END" ->
  exists f r, yield_handler h ++ e :: next :: rest = f :: r /\ fits (Among ["END"; "EXCEPTION"]) (b_tok f) /\ (2 <= length (f :: r)).
Proof.
  intros Wh Ke. words. destruct h as [|x w r t b0]; cbn [yield_handler app wf_handler] in *; (eexists _, _; split; [reflexivity|]); cbn [length]; (split; [|lia]).
  - eapply fits_weaken; [exact Ke|reflexivity].
  - destruct Wh as (Kx & _). words. eapply fits_weaken; [exact Kx|reflexivity].
Qed.
Definition tree_begin (k : bundle) (b : block) (h : handler) (e : bundle) : node :=
  made N_BeginStatement k ((match b with Done => [] | _ => [("stmts", CVec (tree_block U b))] end) ++ kid_handler U h ++ [("end", keyword e)]).
Lemma begin_calls k b h e sp so next rest : block_all b -> handler_all h -> wf_block U b -> wf_handler U h -> is_word e "END" -> shut sp so next ->
  exists b1, calls F_parse_begin_statement [VBool sp] (k :: yield_block b ++ yield_handler h ++ e :: next :: rest) (VNode (with_semi so (tree_begin k b h e))) (left_over so b1 next rest).
Proof.
  intros A Ah Wb Wh Ke Sh. destruct (handler_first h e next rest Wh Ke) as (f & r & X & Kf & Lf). words. unfold tree_begin.
  destruct (block_steps (CNot (CTok 1 (TIn ["END"; "EXCEPTION"]))) [("begin", VNode (made N_BeginStatement k [])); ("semicolon", VBool sp)] f r) with (bl := b) (b := k) as (b' & St); [| |exact Wb|exact A|].
  { intros l b1 g r1 Kg. apply (decides_not U _ _ _ false). decide_ HU. }
  { intros l b1. apply (decides_not U _ _ _ true). decide_ HU. }
  specialize (St []). cbn [app] in St. unfold block_loop in St. rewrite <- X in *.
  assert (M : exists v, steps (MiniRust.If (CNonEmpty "stmts") (PushVec "begin" "stmts" (XVar "stmts")) Skip)
    [("stmts", VVec (tree_block U b)); ("begin", VNode (made N_BeginStatement k [])); ("semicolon", VBool sp)] (b' :: yield_handler h ++ e :: next :: rest) Norm
    [("stmts", v); ("begin", VNode (made N_BeginStatement k (match b with Done => [] | _ => [("stmts", CVec (tree_block U b))] end))); ("semicolon", VBool sp)] (b' :: yield_handler h ++ e :: next :: rest)).
  { destruct b as [|s semi b]; eexists; (eapply steps_eq; [eapply steps_if; [eapply (decides_nonempty U); reflexivity|]|]).
    - cbn [tree_block length Nat.ltb Nat.leb]. apply steps_skip.
    - reflexivity.
    - cbn [tree_block length Nat.ltb Nat.leb]. step HU.
    - reflexivity. }
  destruct M as (v & M).
  destruct h as [|x w r0 t hb]; cbn [yield_handler wf_handler handler_all kid_handler app] in *.
  - destruct b; eexists; body parse_begin_statement; do 2 (eapply steps_seq; [step HU|norm]); (eapply steps_seq; [exact St|norm]); (eapply steps_seq; [exact M|norm]); cbn [app]; step HU.
  - destruct Wh as (Kx & Kw & Kr & Kt & Wh). words. kws t hb ["END"] e (next :: rest) b1 C. 
    destruct b; eexists; body parse_begin_statement; do 2 (eapply steps_seq; [step HU|norm]); (eapply steps_seq; [exact St|norm]); (eapply steps_seq; [exact M|norm]); cbn [app]; step HU.
Qed.
Lemma begin_ok k b h e : block_all b -> handler_all h -> stmt_ok (Begin k b h e).
Proof.
  intros A Ah. begin_stmt. destruct W as (Kk & Wb & Wh & Ke).
  destruct (begin_calls k b h e sp so next rest A Ah Wb Wh Ke Sh) as (b1 & D). destruct (handler_first h e next rest Wh Ke) as (f & r & X & Kf & Lf). words. unfold tree_begin in D.
  exists b1. cbn [app]. rewrite X in *. destruct (block_starts b f r Wb Kf) as (g & r' & E & Kg).
  assert (De : forall e0, decides U (COr (CTok 1 (TIn ["TRANSACTION"; ";"])) (CEof 1)) e0 (k :: yield_block b ++ f :: r) false).
  { intro e0. rewrite E. apply decides_or_false; [decide_ HU|]. eapply decides_eq; [apply decides_eof|]. rewrite <- E. cbn [length] in *. rewrite app_length. cbn [length].
    apply Nat.leb_gt. lia. }
  body parse_statement. eapply steps_seq; [step HU|norm]. eapply steps_seq.
  Ltac special ::= lazymatch goal with
    | De : forall e, decides _ ?c e _ _ |- Forward.steps _ (MiniRust.If ?c _ _) _ _ _ _ _ => eapply steps_eq; [eapply steps_if; [apply De | apply steps_skip] | envr]
    end.
  - step HU.
  - norm. step HU.
Qed.
End WithUnicode.
