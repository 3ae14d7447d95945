(* The clauses of a query of GrammarSpec.v that are read in a loop or by a function of their own: the
   columns a set operator compares, GROUP BY, and WINDOW. *)
From Verif Require Import Chars Token Cst Core MiniRust Program Bundles ParserView ParserGeneric ShapeSound GroupingSpec GroupingExpr
  Forward GrammarSpec GrammarTactics GrammarExpr GrammarReach GrammarOps GrammarBinary GrammarItems GrammarTypes GrammarCalls GrammarQuery.
Local Open Scope string_scope.
Local Open Scope list_scope.
Local Notation length := List.length.

Section WithUnicode.
Context (U : unicode) (HU : ascii_faithful U).
Local Notation steps := (steps U).
Local Notation calls := (calls U).
Local Notation is_word := (is_word U).
Local Notation word_in := (word_in U).
Local Notation tree := (tree U).
Local Notation wf := (wf U).
Local Notation fits := (fits_known U).
Local Notation reach := (reach U).
Local Notation led := (led U).
Local Notation by_ok := (by_ok U).
Ltac ahead ::= first [apply tok_yield | apply tok_items | apply tok_query | apply tok_type | apply tok_table | eassumption].
Ltac call ::= eassumption.
Ltac special ::= fail.
Ltac body f := eapply calls_body; [reflexivity|]; cbn [prog f f_body f_params combine].
Ltac words := repeat match goal with H : GrammarSpec.is_word _ _ _ |- _ => apply fits_word in H | H : GrammarSpec.word_in _ _ _ |- _ => apply fits_among in H
  | H : perhaps _ _ _ |- _ => apply fits_among in H | H : perhaps2 _ (Some (_, _)) _ _ |- _ => destruct H | H : perhaps2 _ None _ _ |- _ => clear H
  | H : perhaps _ None _ |- _ => clear H end.

(* ----- keywords in a row ----- *)
Lemma steps_for1 n body e bs : env_get n e = Some (VNum 1) -> steps (ForFrom1 n body) e bs Norm e bs.
Proof. intros G. exists 0. intros s V. exists s. split; [|exact V]. cbn [exec]. rewrite G. reflexivity. Qed.
Lemma steps_for2 n body e bs e1 bs1 : env_get n e = Some (VNum 2) -> steps body e bs Norm e1 bs1 -> steps (ForFrom1 n body) e bs Norm (env_leave (length e) e1) bs1.
Proof.
  intros G [k B]. exists k. intros s V. destruct (B s V) as (s1 & E1 & V1). exists s1. split; [|exact V1]. cbn [exec]. rewrite G.
  change (N.to_nat 2 - 1) with 1. cbn [repeat_body]. unfold bind. rewrite E1. reflexivity.
Qed.
Lemma one_call a rest : calls F_parse_n_keywords [VNum 1] (a :: rest) (VVec [keyword_ a]) (a :: rest).
Proof.
  eapply calls_body; [reflexivity|]. cbn [prog parse_n_keywords f_body f_params combine].
  eapply steps_seq; [step HU|]. eapply steps_seq; [step HU|]. eapply steps_seq; [apply steps_for1; envr|]. step HU.
Qed.
Lemma two_call a b rest : calls F_parse_n_keywords [VNum 2] (a :: b :: rest) (VVec [keyword_ a; keyword_ b]) (b :: rest).
Proof.
  eapply calls_body; [reflexivity|]. cbn [prog parse_n_keywords f_body f_params combine].
  eapply steps_seq; [step HU|]. eapply steps_seq; [step HU|]. eapply steps_seq; [eapply steps_eq; [eapply steps_for2; [envr|step HU]|envr]|]. step HU.
Qed.

(* ----- the columns of a set operator ----- *)
Fixpoint of_columns (cs : columns) : items :=
  match cs with LastColumn b => One (Plain (Atom b)) | MoreColumns b c r => More (Plain (Atom b)) c (of_columns r) end.
Lemma columns_yield cs : yields (of_columns cs) = yield_columns cs.
Proof. induction cs as [b|b c r IH]; [reflexivity|]. change (yields (of_columns (MoreColumns b c r))) with (b :: c :: yields (of_columns r)). now rewrite IH. Qed.
Lemma columns_tree cs : wf_columns U cs -> trees U (of_columns cs) = tree_columns cs.
Proof.
  induction cs as [b|b c r IH]; cbn [wf_columns of_columns tree_columns GrammarSpec.trees GrammarSpec.tree_item GrammarSpec.tree].
  - intros (_ & I). unfold kind. now rewrite I.
  - intros ((_ & I) & _ & W). unfold kind. rewrite I, (IH W). now rewrite with_kid_made.
Qed.
Lemma column_wf b : name U b -> wf (Atom b).
Proof. intros (N & I). split; [exact N|]. unfold kind. now rewrite I. Qed.
Lemma columns_wf cs : wf_columns U cs -> wfs U false true (of_columns cs).
Proof.
  induction cs as [b|b c r IH]; cbn [wf_columns of_columns].
  - apply column_wf.
  - intros (N & K & W). split; [now apply column_wf|]. split; [exact K|exact (IH W)].
Qed.
Lemma columns_ok cs : wf_columns U cs -> exprs_ok U false (of_columns cs).
Proof.
  intro W. eapply (exprs_items U HU); [now apply columns_wf|]. induction cs as [b|b c r IH]; cbn [of_columns all_items].
  - apply item_plain; [exact HU|]. apply reach_atom; [exact HU|]. now apply column_wf.
  - destruct W as (N & K & W). split; [|exact (IH W)]. apply item_plain; [exact HU|]. apply reach_atom; [exact HU|]. now apply column_wf.
Qed.
Lemma columns_call lp cs rp rest : is_word lp "(" -> wf_columns U cs -> is_word rp ")" ->
  calls F_parse_grouped_exprs [VBool false] (lp :: yield_columns cs ++ rp :: rest)
    (VNode (made N_GroupedExprs lp [("exprs", CVec (tree_columns cs)); ("rparen", symbol rp)])) (rp :: rest).
Proof.
  intros Kl W Kr. pose proof (grouped_call U HU false true lp _ rp rest Kl (columns_wf _ W) (columns_ok _ W) Kr) as C.
  rewrite columns_yield, columns_tree in C by exact W. exact C.
Qed.
Lemma steps_setbool x c e bs v e' : decides U c e bs v -> env_set x (VBool v) e = Some e' -> steps (SetBool x c) e bs Norm e' bs.
Proof.
  intros D G. exists 0. intros s V. exists s. split; [|exact V]. specialize (D s V). cbn [exec]. unfold bind. rewrite D. unfold MiniRust.norm, bind, set_or_stuck. now rewrite G.
Qed.
Ltac special ::= lazymatch goal with
  | |- Forward.steps _ (SetBool _ CTrue) _ _ _ _ _ => eapply steps_setbool; [apply decides_true|envr]
  | |- Forward.steps _ (LetBool _ (CNot CTrue)) _ _ _ _ _ => eapply steps_letbool; apply (decides_not U _ _ _ true); apply decides_true
  end.
Lemma matching_calls m x rest : wf_matching U m ->
  match m with
  | InOrder => True
  | ByName b n | ByNameOn b n _ _ _ _ => exists b' t, kid_matching m = [("by", CNode t)] /\ (fits (Avoids ["ON"]) (b_tok x) -> calls F_parse_by_name_clause [] (yield_matching m ++ x :: rest) (VNode t) (b' :: x :: rest))
  | Corresponding _ _ | CorrespondingBy _ _ _ _ _ _ => exists b' t, kid_matching m = [("corresponding", CNode t)] /\
      (fits (Avoids ["BY"]) (b_tok x) -> calls F_parse_corresponding_clause [] (yield_matching m ++ x :: rest) (VNode t) (b' :: x :: rest))
  end.
Proof.
  destruct m as [|b n|b n o lp es rp|s c|s c b lp es rp]; cbn [wf_matching kid_matching yield_matching]; intro W; [exact Logic.I| | | |].
  - destruct W as (Kb & Kn). do 2 eexists. split; [reflexivity|]. intro Kx. cbn [app]. words. unfold before. body parse_by_name_clause. step HU.
  - destruct W as (Kb & Kn & Ko & Kl & W & Kr). do 2 eexists. split; [reflexivity|]. intro Kx. cbn [app]. rewrite <- app_assoc. cbn [app].
    pose proof (columns_call lp es rp (x :: rest) Kl W Kr) as Cg. words. unfold before, kid_columns. body parse_by_name_clause. step HU.
  - destruct W as (Ks & Kc). do 2 eexists. split; [reflexivity|]. intro Kx. destruct s as [s|]; cbn [opt app with_before]; words; unfold before; body parse_corresponding_clause; step HU.
  - destruct W as (Ks & Kc & Kb & Kl & W & Kr). do 2 eexists. split; [reflexivity|]. intro Kx.
    pose proof (columns_call lp es rp (x :: rest) Kl W Kr) as Cg.
    destruct s as [s|]; cbn [opt app with_before]; rewrite <- app_assoc; cbn [app]; words; unfold before, kid_columns; body parse_corresponding_clause; step HU.
Qed.
Ltac special ::= fail.
Lemma matching_shape m x rest : wf_matching U m -> fits (Among ["SELECT"; "WITH"; "("]) (b_tok x) ->
  yield_matching m = [] /\ kid_matching m = [] \/
  exists b' t y r, yield_matching m ++ x :: rest = y :: r /\
    (fits (Among ["BY"]) (b_tok y) /\ kid_matching m = [("by", CNode t)] /\ calls F_parse_by_name_clause [] (y :: r) (VNode t) (b' :: x :: rest) \/
     fits (Among ["STRICT"; "CORRESPONDING"]) (b_tok y) /\ kid_matching m = [("corresponding", CNode t)] /\ calls F_parse_corresponding_clause [] (y :: r) (VNode t) (b' :: x :: rest)).
Proof.
  intros W Kx. pose proof (matching_calls m x rest W) as C.
  destruct m as [|b n|b n o lp es rp|s c|s c b lp es rp]; [left; auto|right..]; destruct C as (b' & t & E & C); specialize (C ltac:(eapply fits_weaken; [exact Kx|reflexivity]));
    cbn [wf_matching] in W; rewrite E.
  - destruct W as (Kb & _). words. exists b', t. do 2 eexists. split; [reflexivity|]. left. auto.
  - destruct W as (Kb & _). words. exists b', t. do 2 eexists. split; [reflexivity|]. left. auto.
  - destruct W as (Ks & Kc). exists b', t. cbn [yield_matching] in *. destruct s as [s|]; cbn [opt app perhaps] in *; words; do 2 eexists; (split; [reflexivity|]); right;
      (split; [|auto]); (eapply fits_weaken; [eassumption|reflexivity]) || (apply among_word in Kc as (v & I & K); apply fits_among; exists v; split; [cbn in *; tauto|exact K]).
  - destruct W as (Ks & Kc & _). exists b', t. cbn [yield_matching] in *. destruct s as [s|]; cbn [opt app perhaps] in *; words; do 2 eexists; (split; [reflexivity|]); right;
      (split; [|auto]); (apply among_word in Kc as (v & I & K); apply fits_among; exists v; split; [cbn in *; tauto|exact K]) || (apply among_word in Ks as (v & I & K); apply fits_among; exists v; split; [cbn in *; tauto|exact K]).
Qed.

(* ----- the expressions after BY ----- *)
Lemma by_list es ws l : wfs U false false es -> exprs_ok U false es -> led (yields es) ws l -> forallb (fun w => existsb (String.eqb w) (ends_of false)) ws = true ->
  exists b, calls F_parse_exprs [VStrs []; VBool false; VBool true] (yields es ++ l) (VVec (trees U es)) (b :: l).
Proof.
  intros W O L I. destruct (led_more U _ _ (ends_of false) _ L I) as (f & r & -> & K & N). apply trails_false in W.
  apply O; try reflexivity; [exact K|apply N; apply items_nonempty|congruence].
Qed.
Lemma group_by_call c ws l : wf_by U "GROUP" c -> by_ok c -> led (yield_by c) ws l -> forallb (fun w => existsb (String.eqb w) (ends_of false)) ws = true ->
  c = NoBy \/ exists t b' f r, (forall n, with_by U N_GroupByExprs "groupby" c n = with_kid "groupby" (CNode t) n) /\ yield_by c ++ l = f :: r /\ is_word f "GROUP" /\
    calls F_parse_groupby_exprs [VBool false] (yield_by c ++ l) (VNode t) (b' :: l).
Proof.
  intros W O L I. destruct c as [|k b es|k b h es|k b h s es|k b a]; [now left|right..].
  - destruct W as (Wk & Wb & We). apply (led_cons U), (led_cons U) in L. change (GrammarCalls.by_ok U (By k b es)) with (exprs_ok U false es) in O.
    change (yield_by (By k b es)) with (k :: b :: yields es).
    destruct (by_list es _ l We O L I) as (b' & C). do 4 eexists. split; [intro n; reflexivity|]. split; [reflexivity|]. split; [exact Wk|]. cbn [app].
    destruct L as (f & r & -> & K & _). words. apply first_items_avoids in We. body parse_groupby_exprs. step HU.
  - destruct W as (Wk & _ & Wb & Wh & We). apply (led_cons U), (led_cons U), (led_cons U) in L. change (GrammarCalls.by_ok U (ByEach k b h es)) with (exprs_ok U false es) in O.
    change (yield_by (ByEach k b h es)) with (k :: b :: h :: yields es).
    destruct (by_list es _ l We O L I) as (b' & C). do 4 eexists. split; [intro n; reflexivity|]. split; [reflexivity|]. split; [exact Wk|]. cbn [app].
    pose proof (one_call h (yields es ++ l)) as C1. destruct L as (f & r & -> & K & _). words. body parse_groupby_exprs. step HU.
  - destruct W as (Wk & _ & Wb & Wh & Ws & We). do 4 apply (led_cons U) in L. change (GrammarCalls.by_ok U (BySets k b h s es)) with (exprs_ok U false es) in O.
    change (yield_by (BySets k b h s es)) with (k :: b :: h :: s :: yields es).
    destruct (by_list es _ l We O L I) as (b' & C). do 4 eexists. split; [intro n; reflexivity|]. split; [reflexivity|]. split; [exact Wk|]. cbn [app].
    pose proof (two_call h s (yields es ++ l)) as C1. destruct L as (f & r & -> & K & _). words. body parse_groupby_exprs. step HU.
  - destruct W as (Wk & _ & Wb & Wa). change (yield_by (ByAll k b a)) with [k; b; a].
    do 4 eexists. split; [intro n; reflexivity|]. split; [reflexivity|]. split; [exact Wk|]. cbn [app].
    pose proof (one_call a l) as C1. words. body parse_groupby_exprs. step HU.
Qed.

(* ----- WINDOW ----- *)
Definition window_loop : cmd fn := part 2 (f_body parse_window_clause).
Definition window_frame (l : list node) (n : node) : env := [("window_exprs", VVec l); ("window", VNode n)].
Fixpoint windows_ok (ws : windows) : Prop :=
  match ws with
  | NoWindow => True
  | SameWindow _ _ _ _ r => windows_ok r
  | NewWindow _ _ _ _ _ p o f _ r => by_ok p /\ by_ok o /\ rows_ok U f /\ windows_ok r
  end.
Definition window_enders : list string := ["ORDER"; "LIMIT"; ")"; ";"; ""; "UNION"; "INTERSECT"; "EXCEPT"].
Ltac window_ := unfold window_loop, window_frame; cbn [part parse_window_clause f_body].
Lemma window_last l n k x as_ y ys v z f r : is_identifier U (b_tok x) = true -> calls F_parse_window_expr [] (y :: ys) (VNode v) (z :: f :: r) -> fits (Among window_enders) (b_tok f) ->
  steps window_loop (window_frame l n) (k :: x :: as_ :: y :: ys) Norm (window_frame (l ++ [made N_WindowExpr x [("as", keyword as_); ("window", CNode v)]]) n) (z :: f :: r).
Proof.
  intros Ix C K. window_. eapply steps_while_more; [eapply decides_identifier; [tok|exact Ix]|step HU|]. norm. apply steps_while_end. decide_ HU.
Qed.
Lemma window_more l n k x as_ y ys v z c r ct e bs : is_identifier U (b_tok x) = true -> calls F_parse_window_expr [] (y :: ys) (VNode v) (z :: c :: r) -> is_word c "," ->
  steps window_loop (window_frame (l ++ [made N_WindowExpr x [("as", keyword as_); ("window", CNode v); ("comma", symbol c)]]) n) (c :: r) ct e bs ->
  steps window_loop (window_frame l n) (k :: x :: as_ :: y :: ys) ct e bs.
Proof.
  intros Ix C K S. apply fits_word in K. unfold window_loop, window_frame in *. cbn [part parse_window_clause f_body] in *.
  eapply steps_while_more; [eapply decides_identifier; [tok|exact Ix]|step HU|]. norm. exact S.
Qed.
Lemma windows_steps ws : forall first l n f r, ws <> NoWindow -> wf_windows U first ws -> windows_ok ws -> fits (Among window_enders) (b_tok f) ->
  exists b, steps window_loop (window_frame l n) (yield_windows ws ++ f :: r) Norm (window_frame (l ++ tree_windows U ws) n) (b :: f :: r).
Proof.
  induction ws as [|k x as_ m ws IH|k x as_ lp m p o fr rp ws IH]; intros first l n f r Ne W O K; [congruence|..].
  - destruct W as (_ & (_ & Ix) & _ & Nm & W). change (windows_ok (SameWindow k x as_ m ws)) with (windows_ok ws) in O.
    change (yield_windows (SameWindow k x as_ m ws)) with (k :: x :: as_ :: m :: yield_windows ws). cbn [app].
    change (tree_windows U (SameWindow k x as_ m ws)) with (made N_WindowExpr x ([("as", keyword as_); ("window", ident m)] ++ comma_of ws) :: tree_windows U ws).
    pose proof (window_named U HU m (yield_windows ws ++ f :: r) Nm) as C.
    destruct ws as [|k2 x2 a2 m2 ws|k2 x2 a2 lp2 m2 p2 o2 f2 rp2 ws].
    + exists m. now apply window_last.
    + destruct (IH "," (l ++ [made N_WindowExpr x ([("as", keyword as_); ("window", ident m)] ++ [("comma", symbol k2)])]) n f r ltac:(discriminate) W O K) as (b & S). exists b.
      rewrite <- app_assoc in S. eapply window_more; [exact Ix|exact C|apply W|exact S].
    + destruct (IH "," (l ++ [made N_WindowExpr x ([("as", keyword as_); ("window", ident m)] ++ [("comma", symbol k2)])]) n f r ltac:(discriminate) W O K) as (b & S). exists b.
      rewrite <- app_assoc in S. eapply window_more; [exact Ix|exact C|apply W|exact S].
  - destruct W as (_ & (_ & Ix) & _ & Kl & Wm & Wp & Wo & Wf & Kr & W). destruct O as (Op & Oo & Of & O).
    change (yield_windows (NewWindow k x as_ lp m p o fr rp ws)) with (k :: x :: as_ :: lp :: opt m ++ yield_by p ++ yield_by o ++ yield_rows fr ++ rp :: yield_windows ws).
    cbn [app]. rewrite <- !app_assoc. cbn [app].
    set (v := with_kid "rparen" (symbol rp) (with_rows U fr (with_by U N_XXXByExprs "orderby" o (with_by U N_XXXByExprs "partitionby" p
      (match m with Some b => with_kid "name" (ident b) (made N_WindowSpecification lp []) | None => made N_WindowSpecification lp [] end))))).
    change (tree_windows U (NewWindow k x as_ lp m p o fr rp ws)) with (made N_WindowExpr x ([("as", keyword as_); ("window", CNode v)] ++ comma_of ws) :: tree_windows U ws).
    pose proof (window_call U HU lp m p o fr rp (yield_windows ws ++ f :: r) Kl Wm Wp Wo Wf Op Oo Of Kr) as C. fold v in C.
    destruct ws as [|k2 x2 a2 m2 ws|k2 x2 a2 lp2 m2 p2 o2 f2 rp2 ws].
    + exists rp. now apply window_last.
    + destruct (IH "," (l ++ [made N_WindowExpr x ([("as", keyword as_); ("window", CNode v)] ++ [("comma", symbol k2)])]) n f r ltac:(discriminate) W O K) as (b & S). exists b.
      rewrite <- app_assoc in S. eapply window_more; [exact Ix|exact C|apply W|exact S].
    + destruct (IH "," (l ++ [made N_WindowExpr x ([("as", keyword as_); ("window", CNode v)] ++ [("comma", symbol k2)])]) n f r ltac:(discriminate) W O K) as (b & S). exists b.
      rewrite <- app_assoc in S. eapply window_more; [exact Ix|exact C|apply W|exact S].
Qed.
Lemma windows_call ws f r : ws <> NoWindow -> wf_windows U "WINDOW" ws -> windows_ok ws -> fits (Among window_enders) (b_tok f) ->
  exists k t b, yield_windows ws ++ f :: r = k :: t /\ is_word k "WINDOW" /\ (forall n, with_windows ws (tree_windows U ws) n = with_kid "window" (CNode (made N_WindowClause k [("window_exprs", CVec (tree_windows U ws))])) n) /\
    calls F_parse_window_clause [] (k :: t) (VNode (made N_WindowClause k [("window_exprs", CVec (tree_windows U ws))])) (b :: f :: r).
Proof.
  intros Ne W O K.
  assert (H : exists k t, yield_windows ws ++ f :: r = k :: t /\ is_word k "WINDOW" /\ (forall n, with_windows ws (tree_windows U ws) n = with_kid "window" (CNode (made N_WindowClause k [("window_exprs", CVec (tree_windows U ws))])) n)).
  { destruct ws; [congruence| |]; destruct W as (Kk & _); (do 2 eexists; split; [reflexivity|split; [exact Kk|reflexivity]]). }
  destruct H as (k & t & E & Kk & T). destruct (windows_steps ws "WINDOW" [] (made N_WindowClause k []) f r Ne W O K) as (b & S). exists k, t, b.
  split; [exact E|]. split; [exact Kk|]. split; [exact T|]. rewrite E in S. unfold window_loop, window_frame in S. cbn [part parse_window_clause f_body app] in S.
  set (l := tree_windows U ws) in *. clearbody l. body parse_window_clause. eapply steps_seq; [step HU|]. eapply steps_seq; [step HU|]. eapply steps_seq; [exact S|]. step HU.
Qed.
Lemma windows_starts A ws l : wf_windows U "WINDOW" ws -> yield_windows ws = [] \/ led A ["WINDOW"] (yield_windows ws ++ l).
Proof. destruct ws; intros W; [now left|right..]; destruct W as [W _]; (apply (led_word U HU); [exact W|reflexivity]). Qed.
End WithUnicode.
