(* parse_from_statement and parse_pipe_statement on the pipes of PipeSpec.v. *)
From Verif Require Import Chars Token Cst Core MiniRust Program Bundles ParserView ParserGeneric ShapeSound GroupingSpec GroupingExpr
  Forward GrammarSpec PipeSpec StatementSpec GrammarTactics GrammarExpr GrammarReach GrammarOps GrammarBinary GrammarItems GrammarTypes GrammarCalls GrammarQuery GrammarClauses GrammarSelect StatementDeeds.
Local Open Scope string_scope.
Local Open Scope list_scope.
Local Notation length := List.length.

Section WithUnicode.
Context (U : unicode) (HU : ascii_faithful U).
Local Notation steps := (steps U).
Local Notation calls := (calls U).
Local Notation is_word := (is_word U).
Local Notation word_in := (word_in U).
Local Notation tree := (tree U).
Local Notation wf := (wf U).
Local Notation fits := (fits_known U).
Local Notation led := (led U).
Local Notation stops := (stops U).
Local Notation deed_ok := (deed_ok U).
Ltac ahead ::= first [apply tok_yield | apply tok_items | apply tok_query | apply tok_type | apply tok_table | eassumption].
Ltac call ::= eassumption.
Ltac special ::= fail.
Ltac body f := eapply calls_body; [reflexivity|]; cbn [prog f f_body f_params combine].
Ltac words := repeat match goal with H : GrammarSpec.is_word _ _ _ |- _ => apply fits_word in H | H : GrammarSpec.word_in _ _ _ |- _ => apply fits_among in H
  | H : perhaps _ _ _ |- _ => apply fits_among in H | H : perhaps2 _ (Some (_, _)) _ _ |- _ => destruct H | H : perhaps2 _ None _ _ |- _ => clear H
  | H : perhaps _ None _ |- _ => clear H end.

(* ----- while let Some(x) = v.pop() ----- *)
Lemma steps_pop_end x v c e bs : env_get v e = Some (VVec []) -> steps (WhilePop x v c) e bs Norm e bs.
Proof. intros G. exists 1. intros s V. exists s. split; [|exact V]. cbn [exec iterate]. unfold bind. now rewrite G. Qed.
Lemma pop_more n m x v body e s r s' : n <= m ->
  iterate n (fun e => match env_get v e with
    | Some (VVec l) => match rev l with [] => ret (false, Norm, e) | a :: r =>
        e1 <- set_or_stuck v (VVec (rev r)) e ;; r <- exec U (run U prog n) n body ((x, VNode a) :: e1) ;; ret (after_body (length e) r) end
    | _ => stuck end) e s = Ok r s' ->
  forall k, n <= k -> iterate k (fun e => match env_get v e with
    | Some (VVec l) => match rev l with [] => ret (false, Norm, e) | a :: r =>
        e1 <- set_or_stuck v (VVec (rev r)) e ;; r <- exec U (run U prog m) m body ((x, VNode a) :: e1) ;; ret (after_body (length e) r) end
    | _ => stuck end) e s = Ok r s'.
Proof.
  intros L E k Lk. match type of E with ?A = _ => match goal with |- ?B = _ => assert (H : less A B) end end.
  { apply (iterate_less n m L); [exact Lk|]. intros e0 s0. destruct (env_get v e0) as [[]|]; try apply less_refl.
    match goal with |- context [rev ?l] => destruct (rev l) as [|a l'] end; [apply less_refl|]. apply less_bind; [apply less_refl|]. intros e1 s1. apply less_bind; [|intros; apply less_refl].
    eapply exec_less; [apply run_less; exact L|exact L]. }
  destruct H as [H|H]; [rewrite H in E; discriminate|rewrite <- H; exact E].
Qed.
Lemma steps_pop_more x v body e bs l a e1 e2 bs2 ct e3 bs3 : env_get v e = Some (VVec (l ++ [a])) -> env_set v (VVec l) e = Some e1 ->
  steps body ((x, VNode a) :: e1) bs Norm e2 bs2 -> steps (WhilePop x v body) (env_leave (length e) e2) bs2 ct e3 bs3 -> steps (WhilePop x v body) e bs ct e3 bs3.
Proof.
  intros G Se [n B] [m W]. exists (S (n + m)). intros s V.
  destruct (B s V) as (s1 & E1 & V1). destruct (W s1 V1) as (s2 & E2 & V2). exists s2. split; [|exact V2].
  cbn [exec]. cbn [iterate]. cbn [exec] in E2. unfold bind at 1. rewrite G, rev_app_distr. cbn [rev app]. rewrite rev_involutive. unfold set_or_stuck. rewrite Se. unfold bind at 1. cbn [ret].
  unfold bind at 1. rewrite (exec_more U n (S (n + m)) _ _ _ _ _ ltac:(lia) E1). cbn [ret after_body].
  eapply pop_more; [|exact E2|]; lia.
Qed.

(* what comes after an operator *)
Definition pipe_enders : list string := ["|>"; ";"; ""].
Definition choose : cmd fn := part 4 (f_body parse_pipe_statement).
Definition pframe (n v : value) : env := [("operator", v); ("pipe", n); ("left", VUndef)].
Definition operator_ok (o : operator) : Prop := forall n f rest, wf_operator U o f -> fits (Among pipe_enders) (b_tok f) ->
  exists b, steps choose (pframe n VUndef) (yield_operator o ++ f :: rest) Norm (pframe n (VNode (tree_operator U o))) (b :: f :: rest).
(* the list of an operator *)
Lemma some_exprs u al es ws f rest : wfs U al false es -> fits (Among ws) (b_tok f) -> forallb (fun w => existsb (String.eqb w) (ends_of al) && plain w) ws = true ->
  forallb ascii_word u = true -> known_in (Avoids never_first) (map up_string u) = Some false ->
  exists b, calls F_parse_exprs [VStrs u; VBool al; VBool true] (yields es ++ f :: rest) (VVec (trees U es)) (b :: f :: rest).
Proof.
  intros W K A Hu Hk. eapply (exprs_plain U HU); [eapply (list_ok U HU); exact W|exact K|exact A|exact Hu|exact Hk|]. apply trails_false in W. congruence.
Qed.
Ltac chooses := unfold choose, pframe; cbn [part parse_pipe_statement f_body].
Ltac via f a := lazymatch goal with |- Forward.steps _ _ _ ?l _ [("operator", VNode ?v); _; _] ?bs => let C' := fresh "C'" in assert (C' : calls f a l (VNode v) bs); [|chooses; step HU] end.
Lemma apply_ok k es : operator_ok (Apply k es).
Proof.
  intros n f rest (Kk & W) Kf. destruct (some_exprs [";"] true es _ f rest W Kf) as (b & C); try reflexivity. exists b. words. unfold pframe. cbn [yield_operator app tree_operator].
  via F_parse_base_pipe_operator [VBool false]. body parse_base_pipe_operator. step HU.
Qed.
Lemma arrange_ok k b' es : operator_ok (Arrange k b' es).
Proof.
  intros n f rest (Kk & Kb & W) Kf. destruct (some_exprs [";"] true es _ f rest W Kf) as (b & C); try reflexivity. exists b. words. unfold pframe. cbn [yield_operator app tree_operator].
  via F_parse_base_pipe_operator [VBool true]. body parse_base_pipe_operator. step HU.
Qed.
Ltac special ::= lazymatch goal with
  | |- Forward.steps _ (WhilePop _ _ _) _ _ _ _ _ =>
      first [eapply steps_pop_end; solve [envr]
            |eapply (steps_pop_more _ _ _ _ _ []); [envr|envr|step HU|norm; step HU]
            |eapply (steps_pop_more _ _ _ _ _ [_]); [envr|envr|step HU|norm; step HU]]
  | |- Forward.steps _ (LetNode _ (EPop _)) _ _ _ _ _ =>
      eapply steps_let; first [eapply (makes_pop _ _ _ _ []); [envr|envr]|eapply (makes_pop _ _ _ _ [_]); [envr|envr]|eapply (makes_pop _ _ _ _ [_; _]); [envr|envr]]
  | |- Forward.steps _ (MiniRust.If (CNonEmpty _) _ _) _ _ _ _ _ =>
      eapply steps_eq; [eapply steps_if; [eapply decides_nonempty; envr|cbn [List.length Nat.ltb Nat.leb]; cbv iota; norm; step HU]|envr]
  end.
Lemma project_ok k d a es : operator_ok (Project k d a es).
Proof.
  intros n f rest (Kk & Kd & Ka & W) Kf. destruct (some_exprs [";"; "WINDOW"] true es _ f rest W Kf) as (b & C); try reflexivity. exists b. apply first_items_avoids in W.
  words. unfold pframe. cbn [yield_operator app tree_operator]. rewrite <- !app_assoc.
  destruct d as [d|], a as [[a1 a2]|]; cbn [opt opt2 kid_words app] in *; words;
    (via F_parse_select_pipe_operator (@nil value); body parse_select_pipe_operator; step HU).
Qed.
Lemma one_expr u e ws f rest : wf e -> fits (Among ws) (b_tok f) -> forallb (fun w => existsb (String.eqb w) ("OFFSET" :: pipe_enders)) ws = true ->
  calls F_parse_exprs [VStrs u; VBool false; VBool true] (yield e ++ f :: rest) (VVec [tree e]) (lastb e :: f :: rest).
Proof.
  intros W K A. assert (K' : fits (Among ("OFFSET" :: pipe_enders)) (b_tok f)).
  { apply among_word in K as (w & I & E). apply fits_among. exists w. split; [|exact E]. rewrite forallb_forall in A. specialize (A w I).
    apply existsb_exists in A as (w' & I' & E'). apply String.eqb_eq in E' as ->. exact I'. }
  pose proof (expr_call U HU e true _ f rest W K' eq_refl) as C. clear K A. body parse_exprs. step HU.
Qed.
Lemma take_ok k e o : operator_ok (Take k e o).
Proof.
  intros n f rest (Kk & W & Wo) Kf. destruct o as [[o x]|].
  - destruct Wo as (Ko & Wx). words. pose proof (one_expr [";"; "OFFSET"] e _ o (yield x ++ f :: rest) W Ko eq_refl) as C.
    pose proof (expr_call U HU x true _ f rest Wx Kf eq_refl) as C2. eexists. cbn [yield_operator app tree_operator]. rewrite <- !app_assoc. cbn [app]. unfold pframe.
    via F_parse_limit_pipe_operator (@nil value). body parse_limit_pipe_operator. step HU.
  - pose proof (one_expr [";"; "OFFSET"] e _ f rest W Kf eq_refl) as C. eexists. words. unfold pframe. cbn [yield_operator app tree_operator]. rewrite <- !app_assoc. cbn [app].
    via F_parse_limit_pipe_operator (@nil value). body parse_limit_pipe_operator. step HU.
Qed.
Lemma grouping_call k b es f rest : is_word k "GROUP" -> is_word b "BY" -> wfs U true false es -> fits (Among pipe_enders) (b_tok f) ->
  exists b', calls F_parse_groupby_exprs [VBool true] (k :: b :: yields es ++ f :: rest)
    (VNode (made N_GroupByExprs k [("by", keyword b); ("exprs", CVec (trees U es))])) (b' :: f :: rest).
Proof.
  intros Kk Kb W Kf. destruct (list_call U HU true es _ f rest W Kf eq_refl) as (b' & C). exists b'. apply first_items_avoids in W. words. body parse_groupby_exprs. step HU.
Qed.
Lemma aggregate_ok k es g : operator_ok (Aggregate k es g).
Proof.
  intros n f rest (Kk & W & Wg) Kf. destruct g as [|k' b' es']; cbn [yield_operator yield_grouping tree_operator kid_grouping].
  - destruct (some_exprs [";"; "GROUP"] true es _ f rest W Kf) as (b & C); try reflexivity. eexists. words. unfold pframe. cbn [app]. rewrite <- !app_assoc. cbn [app].
    via F_parse_aggregate_pipe_operator (@nil value). body parse_aggregate_pipe_operator. step HU.
  - destruct Wg as (Kg & Kb & W'). destruct (grouping_call k' b' es' f rest Kg Kb W' Kf) as (b1 & C1). words.
    destruct (some_exprs [";"; "GROUP"] true es _ k' (b' :: yields es' ++ f :: rest) W Kg) as (b & C); try reflexivity. eexists. unfold pframe. cbn [app]. rewrite <- !app_assoc. cbn [app].
    via F_parse_aggregate_pipe_operator (@nil value). body parse_aggregate_pipe_operator. step HU.
Qed.
Lemma dedup_ok k : operator_ok (Dedup k).
Proof. intros n f rest Kk Kf. exists k. cbn [wf_operator yield_operator tree_operator app] in *. words. chooses. step HU. Qed.
Lemma sample_ok k s lp e p rp : operator_ok (PipeSpec.Sample k s lp e p rp).
Proof.
  intros n f rest (Kk & Ks & Kl & W & Kp & Kr) Kf. words. pose proof (expr_call U HU e true _ p (rp :: f :: rest) W Kp eq_refl) as C. exists rp.
  cbn [yield_operator app tree_operator]. rewrite <- !app_assoc. cbn [app]. unfold pframe.
  via F_parse_tablesample_pipe_operator (@nil value). 
  lazymatch goal with |- context [("group", CNode ?g)] => assert (C1 : calls F_parse_table_sample_ratio [] (lp :: yield e ++ p :: rp :: f :: rest) (VNode g) (rp :: f :: rest)) by (body parse_table_sample_ratio; step HU) end.
  body parse_tablesample_pipe_operator. step HU.
Qed.
Lemma pivot_ok k lp es fo x i lq vs rq rp a : operator_ok (PivotOn k lp es fo x i lq vs rq rp a).
Proof.
  intros n f rest (Kk & Kl & W & Kfo & Nx & Ki & Klq & Wv & Krq & Kr & Wa) Kf.
  pose proof (grouped_call U HU true true lq vs rq (rp :: yield_alias a ++ f :: rest) Klq Wv (list_ok U HU _ _ _ Wv) Krq) as Cg.
  words. destruct (list_call U HU true es _ fo (x :: i :: lq :: yields vs ++ rq :: rp :: yield_alias a ++ f :: rest) W Kfo eq_refl) as (b & C).
  lazymatch type of Cg with Forward.calls _ _ _ ?l (VNode ?g) ?bs =>
    assert (Ci : calls F_parse_keyword_with_grouped_exprs [VBool true] (i :: l) (VNode (made N_KeywordWithGroupedXXX i [("group", CNode g)])) bs)
      by (body parse_keyword_with_grouped_exprs; step HU) end. clear Cg.
  cbn [yield_operator app tree_operator].
  lazymatch goal with |- context [with_alias a ?m] => 
    destruct (alias_call U HU a m rp f rest Wa ltac:(eapply fits_weaken; [exact Kf|reflexivity])) as (b' & Ca) end. exists b'.
  rewrite <- !app_assoc. cbn [app]. rewrite <- !app_assoc. cbn [app]. unfold pframe.
  via F_parse_pivot_pipe_operator (@nil value).
  lazymatch type of Ca with context [("config", CNode ?g)] => assert (C1 : calls F_parse_pivot_config_clause [] (lp :: yields es ++ fo :: x :: i :: lq :: yields vs ++ rq :: rp :: yield_alias a ++ f :: rest) (VNode g) (rp :: yield_alias a ++ f :: rest)) by (body parse_pivot_config_clause; step HU) end.
  clear C Ci. body parse_pivot_pipe_operator. step HU.
Qed.
Lemma common_ok w r cs : operator_ok (Common w r cs).
Proof.
  intros n f rest (Kk & Kr & Wc & L) Kf. destruct (with_call U HU w r cs f rest Kr Wc (proj1 (proj2 (proj2 (proj2 (proj2 (proj2 (proj2 (proj2 (proj2 (proj2 (proj2 (proj2 (proj2 (phrases U HU))))))))))))) cs Wc)) as (b & C); [tauto|].
  exists b. unfold with_node in C. cbn [yield_operator app tree_operator]. rewrite <- !app_assoc. unfold pframe.
  destruct r as [r|]; cbn [opt app with_word] in *; rewrite !with_kid_made in * by reflexivity; words;
    (via F_parse_with_pipe_operator (@nil value); body parse_with_pipe_operator; step HU).
Qed.
(* ----- set operators ----- *)
Ltac special ::= lazymatch goal with
  | |- Forward.steps _ (SetBool _ CTrue) _ _ _ _ _ => eapply steps_setbool; [apply decides_true|envr]
  | |- Forward.steps _ (LetBool _ (CNot CTrue)) _ _ _ _ _ => eapply steps_letbool; apply (decides_not U _ _ _ true); apply decides_true
  end.
Lemma unite_ok s k d m es : operator_ok (Unite s k d m es).
Proof.
  intros n f rest (Ws & Kk & Kd & Wm & W & Kp) Kf. destruct (some_exprs [";"] true es _ f rest W Kf) as (b & C); try reflexivity. exists b.
  assert (F : exists x r, yields es ++ f :: rest = x :: r /\ is_word x "(").
  { destruct (yields es) as [|x r]; cbn [hd app] in *; [eexists f, _|eexists x, _]; (split; [reflexivity|exact Kp]). }
  destruct F as (x & r & E & Kx). clear Kp W. cbn [yield_operator tree_operator]. unfold pframe.
  repeat (rewrite <- app_assoc; cbn [app]). rewrite E in *. clear E. words.
  destruct (matching_shape U HU m x r Wm ltac:(eapply fits_weaken; [exact Kx|reflexivity])) as [(Em & ->)|(b' & t & y & r' & Em & [(Ky & -> & Cm)|(Ky & -> & Cm)])]; rewrite Em in *; clear Em Wm;
  (destruct s as [|k'|k' o]; cbn [wf_side yield_side kid_side app] in *; [|words|destruct Ws as (Ws & Ko); words]); unfold before;
    (via F_parse_union_pipe_operator (@nil value); body parse_union_pipe_operator; step HU).
Qed.
Ltac joins :=
  lazymatch goal with |- context [match ?j with Joined _ => _ | JoinedBy _ _ => _ | JoinedOuter _ _ _ => _ end] =>
    destruct j as [j|? j|? o j]; cbn [wf_joining yield_joining hd app] in *;
    [lazymatch goal with W : GrammarSpec.word_in _ j _ |- _ =>
       let Kj := fresh "Kj" in assert (Kj : is_word j "JOIN"); [let v := fresh in let I := fresh in let K := fresh in destruct W as (v & I & K); cbn in I; destruct I as [<-|[<-|[]]]; [exact K|contradiction]|];
       clear W end
    |lazymatch goal with W : GrammarSpec.word_in _ _ _ /\ _ |- _ => destruct W end
    |lazymatch goal with W : GrammarSpec.word_in _ _ _ /\ _ /\ _ |- _ => destruct W as (? & ? & ?) end];
    words; unfold before; rewrite ?with_kid_made by reflexivity; (via F_parse_join_pipe_operator (@nil value); body parse_join_pipe_operator; step HU)
  end.
Lemma attach_ok j s c : operator_ok (Attach j s c).
Proof.
  intros n f rest (Wj & Nj & Ws & Wc) Kf.
  pose proof (phrases U HU) as Ph. assert (Os : source_ok U s) by (eapply Ph; exact Ws). assert (Oc : condition_ok U c) by (eapply Ph; exact Wc). clear Ph.
  assert (Ls : led (yield_source s) source_enders (yield_condition c ++ f :: rest)).
  { destruct c as [|k e|c]; cbn [yield_condition wf_condition app] in *.
    - exists f, rest. split; [reflexivity|]. split; [eapply fits_weaken; [exact Kf|reflexivity]|]. intros _. unfold apart_from. eapply (no_fuse U HU); [exact Kf|reflexivity].
    - eapply led_more; [apply led_word; [exact HU|apply Wc|reflexivity]|reflexivity].
    - destruct (call_of_facts U _ c (proj2 Wc)) as (F & _). destruct (first_yield c) as (r & ->). cbn [app].
      eapply led_more; [apply led_word; [exact HU|exact F|reflexivity]|reflexivity]. }
  assert (Ec : exists g r, yield_condition c ++ f :: rest = g :: r /\ g = hd f (yield_condition c)) by (destruct (yield_condition c); cbn; eauto).
  destruct Ec as (g & r & Ec & Hg). rewrite <- Hg in Ws. rewrite Ec in Ls. destruct (source_call U HU s g r Ws Os Ls) as (b1 & C1). rewrite <- Ec in C1. clear Ls Ec Hg Ws Os.
  cbn [yield_operator tree_operator]. unfold pframe. repeat (rewrite <- app_assoc; cbn [app]).
  destruct c as [|k e|c]; cbn [yield_condition wf_condition condition_ok with_condition app] in *.
  - exists b1. joins.
  - destruct Wc as (Kc & We). pose proof (expr_call U HU e true _ f rest We Kf eq_refl) as C. eexists. joins.
  - destruct Wc as (We & Cc). pose proof (call_of_call U HU "USING" c f rest We Cc Oc ltac:(left; eapply fits_weaken; [exact Kf|reflexivity])) as C'.
    destruct (call_of_facts U _ c Cc) as (F & _). pose proof (yield_nonempty c) as Ne.
    assert (Ne' : yield c ++ f :: rest <> []) by (destruct (yield c); discriminate).
    exists (lastb c). joins.
Qed.
Lemma every_operator o : operator_ok o.
Proof.
  destruct o; [apply apply_ok|apply arrange_ok|apply project_ok|apply take_ok|apply aggregate_ok|apply unite_ok|apply attach_ok|apply sample_ok|apply pivot_ok|apply common_ok|apply dedup_ok].
Qed.

(* ----- one operator after the other ----- *)
Lemma operators_call os : forall b o left so next rest, wf_operators U ((b, o) :: os) next -> stops true so next rest ->
  exists b', calls F_parse_pipe_statement [VNode left] (yield_operators ((b, o) :: os) ++ next :: rest)
    (VNode (with_semi so (tree_operators U left ((b, o) :: os)))) (left_over so b' next rest).
Proof.
  induction os as [|[b2 o2] os IH]; intros b o left so next rest (Lb & Wo & Wr) S.
  - pose proof (stops_known U _ _ _ _ S) as Kn. cbn [yield_operators hd app tree_operators] in *.
    destruct (every_operator o (VNode (made N_PipeStatement b [("left", CNode left)])) next rest Wo ltac:(eapply fits_weaken; [exact Kn|reflexivity])) as (b1 & St).
    exists b1. rewrite app_nil_r. unfold choose, pframe in St. cbn [part parse_pipe_statement f_body] in St.
    body parse_pipe_statement.
    do 4 (eapply steps_seq; [step HU|]; norm). eapply steps_seq; [exact St|]. norm. clear St.
    destruct so as [sm|]; cbn [StatementDeeds.stops with_semi left_over] in *.
    + destruct S as (-> & _ & Ks). clear Kn. words. rewrite with_kid_made by reflexivity. step HU.
    + destruct S as (Ks & _). clear Kn. words. step HU.
  - destruct (IH b2 o2 (made N_PipeStatement b [("left", CNode left); ("right", CNode (tree_operator U o))]) so next rest Wr S) as (b' & C). exists b'.
    pose proof (fits_word U _ _ (literal_word U HU b2 "|>" (proj1 Wr) eq_refl)) as K2.
    cbn [yield_operators hd tree_operators] in *. cbn [app] in *. rewrite <- app_assoc. cbn [app].
    destruct (every_operator o (VNode (made N_PipeStatement b [("left", CNode left)])) b2 ((yield_operator o2 ++ yield_operators os) ++ next :: rest) Wo ltac:(eapply fits_weaken; [exact K2|reflexivity])) as (b1 & St).
    unfold choose, pframe in St. cbn [part parse_pipe_statement f_body] in St.
    body parse_pipe_statement.
    do 4 (eapply steps_seq; [step HU|]; norm). eapply steps_seq; [exact St|]. norm. clear St. step HU.
Qed.
Lemma piped_ok k t os : deed_ok (Piped k t os).
Proof.
  intros sp so next rest (Kk & Wt & Wo) S. assert (St : stops true so next rest) by (destruct so; cbn [StatementDeeds.stops] in *; tauto).
  pose proof (stops_known U _ _ _ _ S) as Kn. unfold reads. cbn [yield_deed tree_deed app]. rewrite <- app_assoc.
  assert (T : table_ok U t) by (apply (table_parts U HU); eapply (phrases U HU); exact Wt).
  destruct os as [|[b o] os].
  - cbn [yield_operators hd app tree_operators] in *.
    destruct (T next rest Wt) as (b1 & C).
    { exists next, rest. split; [reflexivity|]. split; [eapply fits_weaken; [exact Kn|reflexivity]|]. intros _. unfold apart_from. eapply (no_fuse U HU); [exact Kn|reflexivity]. }
    exists b1.
    assert (C' : calls F_parse_from_statement [] (k :: yield_table t ++ next :: rest) (VNode (with_semi so (made N_FromStatement k [("expr", CNode (tree_table U t))]))) (left_over so b1 next rest)).
    { body parse_from_statement. destruct so as [sm|]; cbn [StatementDeeds.stops with_semi left_over] in *.
      - destruct St as (-> & _ & Ks). clear Kn. words. rewrite with_kid_made by reflexivity. step HU.
      - destruct St as (Ks & _). clear Kn. words. step HU. }
    clear Kn. words. body parse_statement. step HU.
  - destruct (operators_call os b o (made N_FromStatement k [("expr", CNode (tree_table U t))]) so next rest Wo St) as (b' & C2). exists b'.
    pose proof (fits_word U _ _ (literal_word U HU b "|>" (proj1 Wo) eq_refl)) as Kb.
    cbn [yield_operators hd] in *. cbn [app] in *.
    destruct (T b ((yield_operator o ++ yield_operators os) ++ next :: rest) Wt) as (b1 & C).
    { eexists b, _. split; [reflexivity|]. split; [eapply fits_weaken; [exact Kb|reflexivity]|]. intros _. unfold apart_from. eapply (no_fuse U HU); [exact Kb|reflexivity]. }
    lazymatch type of C2 with Forward.calls _ _ _ ?l ?v ?bs =>
      assert (C' : calls F_parse_from_statement [] (k :: yield_table t ++ l) v bs) by (clear Kn; body parse_from_statement; step HU) end.
    clear Kn C2 C. words. body parse_statement. step HU.
Qed.
End WithUnicode.
