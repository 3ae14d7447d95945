(* The operators between two operands on the expressions of GrammarSpec.v. *)
From Verif Require Import Chars Token Cst Core MiniRust Program Bundles ParserView ParserGeneric ShapeSound GroupingSpec GroupingExpr
  Forward GrammarSpec GrammarTactics GrammarExpr GrammarReach GrammarOps.
Local Open Scope string_scope.
Local Open Scope list_scope.
Local Notation length := List.length.

Section WithUnicode.
Context (U : unicode) (HU : ascii_faithful U).
Local Notation steps := (steps U).
Local Notation calls := (calls U).
Local Notation is_word := (is_word U).
Local Notation word_in := (word_in U).
Local Notation tree := (tree U).
Local Notation wf := (wf U).
Local Notation loosest_left := (loosest_left U).
Local Notation loosest_right := (loosest_right U).
Local Notation fits := (fits_known U).
Local Notation prec_in := (prec_in U).
Local Notation reach := (reach U).
Local Notation after := (after U).
Local Notation stops := (stops U).
Ltac ahead ::= first [apply tok_yield | apply tok_items | apply tok_query | eassumption].
Ltac call ::= eassumption.
Ltac special ::= fail.
Ltac body := unfold LoopBody, Loop, frame; cbn [parse_expr f_body].

(* the operand [r] of an operator at level [q] is read *)
Definition reads (q : N) (r : expr) (rest : list bundle) : Prop :=
  calls F_parse_expr [VNum (100 + q); VBool false; VBool false; VBool false; VBool true] (yield r ++ rest) (VNode (tree r)) (lastb r :: rest).

(* parse_binary_operator *)
Lemma binary_call l b q r rest : wf r -> infix_level U b = Some q -> reads q r rest ->
  (is_word b "IS" -> ~ is_word (first r) "NOT") ->
  calls F_parse_binary_operator [VNode l] (b :: yield r ++ rest) (VNode (made N_BinaryOperator b [("left", CNode l); ("right", CNode (tree r))])) (lastb r :: rest).
Proof.
  intros W I C N. destruct (infix_known U b q I) as (K & Lq & P). specialize (P (yield r ++ rest)).
  unfold reads in C. apply first_avoids in W.
  eapply calls_body; [reflexivity|]. cbn [prog parse_binary_operator f_body f_params combine].
  assert (D : decides U (CAnd (CTok 0 (TIs "IS")) (CTok 1 (TIs "NOT"))) [("node", VNode (made N_BinaryOperator b [])); ("precedence", VNum (100 + q)); ("left", VNode l)]
    (b :: yield r ++ rest) false).
  { destruct (mem_pats (upper_literal U (b_tok b)) ["IS"]) eqn:E.
    - eapply decides_and_true; [eapply decides_is with (kn := Among ["IS"]); [exact HU|tok|exact E|reflexivity..]|].
      assert (X : fits (Avoids ["NOT"]) (b_tok (first r))).
      { apply fits_avoids. intros (w & [<-|[]] & X). apply N; [|exact X]. unfold mem_pats in E. cbn [existsb] in E. rewrite orb_false_r in E.
        apply str_eqb_eq in E. exact E. }
      decide_ HU.
    - eapply decides_and_false. eapply decides_is with (kn := Avoids ["IS"]); [exact HU|tok|exact E|reflexivity..]. }
  assert (Ne : yield r ++ rest <> []) by (destruct (first_yield r) as [r0 ->]; discriminate).
  eapply steps_seq; [step HU|]. eapply steps_seq; [step HU|]. norm.
  eapply steps_seq; [eapply steps_eq; [eapply steps_if; [exact D|norm; step HU]|envr]|]. norm. step HU.
Qed.
Lemma is_not_call l b n r rest : wf r -> is_word b "IS" -> is_word n "NOT" -> reads 9 r rest ->
  calls F_parse_binary_operator [VNode l] (b :: n :: yield r ++ rest)
    (VNode (made N_BinaryOperator b [("not", keyword n); ("left", CNode l); ("right", CNode (tree r))])) (lastb r :: rest).
Proof.
  intros W I Kn C. pose proof (prec_word1 U b "IS" 109 (n :: yield r ++ rest) I eq_refl) as P.
  unfold reads in C. cbn in C. apply first_avoids in W. apply fits_word in I, Kn.
  assert (Ne : yield r ++ rest <> []) by (destruct (first_yield r) as [r0 ->]; discriminate).
  eapply calls_body; [reflexivity|]. cbn [prog parse_binary_operator f_body f_params combine]. step HU.
Qed.
(* parse_is_distinct_from_operator *)
Lemma is_distinct_call l b n d f r rest : is_word b "IS" -> perhaps U n ["NOT"] -> is_word d "DISTINCT" -> reads 9 r rest ->
  calls F_parse_is_distinct_from_operator [VNode l] (b :: opt n ++ d :: f :: yield r ++ rest)
    (VNode (with_kid "right" (CNode (tree r)) (with_kid "from" (keyword f) (with_kid "distinct" (keyword d) (with_word "not" n
        (made N_IsDistinctFromOperator b [("left", CNode l)])))))) (lastb r :: rest).
Proof.
  intros I Kn Kd C. assert (P : prec_in (b :: opt n ++ d :: f :: yield r ++ rest) 0 = Some 109%N) by exact (prec_word1 U b "IS" 109 _ I eq_refl).
  unfold reads in C. cbn in C. apply fits_word in I, Kd.
  assert (Ne : yield r ++ rest <> []) by (destruct (first_yield r) as [r0 ->]; discriminate).
  eapply calls_body; [reflexivity|]. cbn [prog parse_is_distinct_from_operator f_body f_params combine].
  destruct n as [n|]; cbn [opt app with_word perhaps] in *; [apply fits_among in Kn|]; rewrite !with_kid_made by reflexivity; cbn [map_insert String.eqb Ascii.eqb Bool.eqb]; step HU.
Qed.
(* parse_between_operator *)
Lemma between_call l b lo a hi rest : is_word b "BETWEEN" -> reads 9 lo (a :: yield hi ++ rest) -> reads 9 hi rest ->
  calls F_parse_between_operator [VNode l] (b :: yield lo ++ a :: yield hi ++ rest)
    (VNode (made N_BetweenOperator b [("left", CNode l); ("right_min", CNode (tree lo)); ("and", keyword a); ("right_max", CNode (tree hi))])) (lastb hi :: rest).
Proof.
  intros I Cl Ch. pose proof (prec_word1 U b "BETWEEN" 109 (yield lo ++ a :: yield hi ++ rest) I eq_refl) as P.
  unfold reads in Cl, Ch. cbn in Cl, Ch. apply fits_word in I.
  assert (Ne : yield hi ++ rest <> []) by (destruct (first_yield hi) as [r0 ->]; discriminate).
  assert (Ne' : yield lo ++ a :: yield hi ++ rest <> []) by (destruct (first_yield lo) as [r0 ->]; discriminate).
  eapply calls_body; [reflexivity|]. cbn [prog parse_between_operator f_body f_params combine]. step HU.
Qed.
(* parse_in_operator *)
Lemma in_call l b lp es rp rest : is_word b "IN" -> is_word lp "(" -> wfs U false true es -> exprs_ok U false es -> is_word rp ")" ->
  calls F_parse_in_operator [VNode l] (b :: lp :: yields es ++ rp :: rest)
    (VNode (made N_InOperator b [("left", CNode l); ("right", CNode (made N_GroupedExprs lp [("exprs", CVec (trees U es)); ("rparen", symbol rp)]))])) (rp :: rest).
Proof.
  intros I Kl We Ce Kr. pose proof (grouped_call U HU false true lp es rp rest Kl We Ce Kr) as C. apply fits_word in I, Kl, Kr. apply first_items_avoids in We.
  eapply calls_body; [reflexivity|]. cbn [prog parse_in_operator f_body f_params combine]. step HU.
Qed.
Lemma in_query_call l b lp q rp rest : is_word b "IN" -> is_word lp "(" -> opens_query U q -> query_ok U q rp -> is_word rp ")" ->
  calls F_parse_in_operator [VNode l] (b :: lp :: yield_query q ++ rp :: rest)
    (VNode (made N_InOperator b [("left", CNode l); ("right", CNode (made N_GroupedStatement lp [("stmt", CNode (tree_query U q None)); ("rparen", symbol rp)]))])) (rp :: rest).
Proof.
  intros I Kl Ks Cq Kr. apply fits_word in I, Kl, Kr. unfold opens_query in Ks.
  destruct (Cq rest) as (b' & C).
  eapply calls_body; [reflexivity|]. cbn [prog parse_in_operator f_body f_params combine]. step HU.
Qed.
Lemma in_unnest_call l b c rest : is_word b "IN" -> is_word (first c) "UNNEST" -> reads 2 c rest ->
  calls F_parse_in_operator [VNode l] (b :: yield c ++ rest)
    (VNode (made N_InOperator b [("left", CNode l); ("right", CNode (retyped N_CallingUnnest (tree c)))])) (lastb c :: rest).
Proof.
  intros I Kc C. apply fits_word in I, Kc. unfold reads in C. cbn in C.
  assert (Ne : yield c ++ rest <> []) by (destruct (first_yield c) as [r0 ->]; discriminate).
  eapply calls_body; [reflexivity|]. cbn [prog parse_in_operator f_body f_params combine]. step HU.
Qed.

(* ----- in the loop ----- *)
Lemma reach_infix l b r : reach l -> wf r -> reach r -> (is_word b "IS" -> ~ is_word (first r) "NOT") ->
  (exists q, infix_level U b = Some q /\ fits_left U l q /\ fits_right U r q) -> reach (Infix l b r).
Proof.
  intros Rl W Rr N (q & I & Fl & Fr). unfold fits_left, fits_right in *. destruct (infix_known U b q I) as (K & Lq & P).
  assert (Q : (2 <= q)%N).
  { apply level_word in I as (ws & w & I & _). repeat (destruct I as [[= <- _]|I]; [lia|]). destruct I. }
  apply reach_op with (l := l) (o := b) (ops := yield r) (c := (100 + q)%N).
  - apply (starts_reach U HU infix_words); try assumption; try reflexivity; [|lia]. intros _. eapply fits_weaken; [exact K|reflexivity].
  - reflexivity.
  - intro rest. apply P.
  - cbn [GrammarSpec.loosest_left]. rewrite I. cbn [level_of]. lia.
  - cbn [GrammarSpec.loosest_left]. lia.
  - intros p al od rest A. cbn [lastb GrammarSpec.tree].
    assert (C' : reads q r rest).
    { apply operand_last with (e' := Infix l b r); try assumption; [cbn [GrammarSpec.loosest_right]; now rewrite I|reflexivity]. }
    pose proof (binary_call (tree l) b q r rest W I C' N) as C. apply first_avoids in W.
    apply after_cons in A as (f & r' & -> & _).
    destruct (fits_either U b ["IS"] ["*"; "/"; "||"; "+"; "-"; "<<"; ">>"; "&"; "^"; "|"; "="; "<"; ">"; "<="; ">="; "!="; "<>"; "LIKE"; "AND"; "OR"; "=>"]) as [K'|K'].
    { eapply fits_weaken; [exact K|reflexivity]. }
    + assert (X : fits (Avoids ["NOT"]) (b_tok (first r))).
      { apply fits_avoids. intros (w & [<-|[]] & X). apply N; [|exact X]. apply among_word in K' as (w & [<-|[]] & X'). exact X'. }
      clear K. body. step HU.
    + clear K. body. step HU.
Qed.
Lemma prec_not n b w r : is_word n "NOT" -> is_word b w -> In w ["IN"; "LIKE"; "BETWEEN"] -> prec_in (n :: b :: r) 0 = Some 109%N.
Proof.
  intros Kn Kb I. unfold GroupingExpr.prec_in. cbn [tok_at nth_error option_map]. unfold GrammarSpec.is_word, word in Kn, Kb. rewrite Kn.
  replace (prec_of (s_ "NOT")) with (@None BinNums.N) by reflexivity. change (tok_at (n :: b :: r) (0 + 1)) with (Some (b_tok b)). cbv iota beta. rewrite Kb.
  destruct I as [<-|[<-|[<-|[]]]]; reflexivity.
Qed.
Ltac op_facts := lazymatch goal with
  | |- starts _ _ _ _ => eapply starts_reach; [exact HU | assumption | apply fits_word; eassumption | reflexivity | reflexivity
      | intros _; eapply fits_weaken; [apply fits_word; eassumption | reflexivity] | unfold fits_left in *; lia]
  | |- forall rest, prec_in _ 0 = _ =>
      first [solve [intro; eapply prec_word1; [eassumption|reflexivity]] | solve [intro; eapply prec_not; [eassumption | eassumption | cbn; tauto]]]
  | |- (_ <= _)%N => unfold fits_left in *; cbn [GrammarSpec.loosest_left]; lia
  | |- _ = _ => reflexivity
  | |- _ => idtac end.
Lemma last_reads e' q e rest : reach e -> fits_right U e q -> (2 <= q)%N -> loosest_right e' = N.max q (loosest_right e) -> lastb e' = lastb e -> after e' rest ->
  reads q e rest.
Proof. intros. eapply operand_last; eassumption. Qed.
Lemma reach_is_not l b n r : reach l -> is_word b "IS" -> is_word n "NOT" -> wf r -> reach r -> fits_left U l 9 -> fits_right U r 9 ->
  reach (IsNot l b n r).
Proof.
  intros Rl Kb Kn W Rr Fl Fr. apply reach_op with (l := l) (o := b) (ops := n :: yield r) (c := 109%N); [op_facts..|].
  intros p al od rest A. cbn [lastb GrammarSpec.tree app].
  pose proof (last_reads (IsNot l b n r) 9 r rest Rr Fr ltac:(lia) eq_refl eq_refl A) as C'.
  pose proof (is_not_call (tree l) b n r rest W Kb Kn C') as C. apply first_avoids in W.
  apply after_cons in A as (f & r' & -> & _). apply fits_word in Kb, Kn. body. step HU.
Qed.
Lemma reach_is_distinct l b n d f r : reach l -> is_word b "IS" -> perhaps U n ["NOT"] -> is_word d "DISTINCT" -> reach r -> fits_left U l 9 -> fits_right U r 9 ->
  reach (IsDistinct l b n d f r).
Proof.
  intros Rl Kb Kn Kd Rr Fl Fr. apply reach_op with (l := l) (o := b) (ops := opt n ++ d :: f :: yield r) (c := 109%N); [op_facts..|].
  intros p al od rest A. rewrite <- app_assoc. cbn [lastb GrammarSpec.tree app].
  pose proof (last_reads (IsDistinct l b n d f r) 9 r rest Rr Fr ltac:(lia) eq_refl eq_refl A) as C'.
  pose proof (is_distinct_call (tree l) b n d f r rest Kb Kn Kd C') as C.
  apply after_cons in A as (f' & r' & -> & _). apply fits_word in Kb, Kd.
  destruct n as [n|]; cbn [opt app perhaps] in *; [apply fits_among in Kn|]; body; step HU.
Qed.
Lemma lo_reads lo a hi rest : reach lo -> fits_right U lo 9 -> fits_left U lo 11 -> is_word a "AND" -> reads 9 lo (a :: yield hi ++ rest).
Proof.
  intros R F1 F2 Ka. unfold fits_left, fits_right in *. pose proof (fits_word U a _ Ka) as Ka'.
  assert (P : prec_in (a :: yield hi ++ rest) 0 = Some 111%N) by (eapply prec_word1; [exact Ka|reflexivity]).
  apply operand_call; try assumption; [lia| |].
  - exists a, (yield hi ++ rest), 111%N. repeat split; try (intros _; eapply fits_weaken; [exact Ka'|reflexivity]); try (eapply fits_weaken; [exact Ka'|reflexivity]);
      [eapply (no_fuse U HU); [exact Ka'|reflexivity]|exact P|lia].
  - exists a, (yield hi ++ rest), 111%N. repeat split; [eapply fits_weaken; [exact Ka'|reflexivity]|exact P|lia].
Qed.
Lemma reach_between l n b lo a hi : reach l -> perhaps U n ["NOT"] -> is_word b "BETWEEN" -> reach lo -> is_word a "AND" -> reach hi ->
  fits_left U l 9 -> fits_right U lo 9 -> fits_left U lo 11 -> fits_right U hi 9 -> reach (Between l n b lo a hi).
Proof.
  intros Rl Kn Kb Rlo Ka Rh Fl F1 F2 F3. destruct n as [n|]; cbn [perhaps] in Kn.
  - assert (Kn' : is_word n "NOT") by (destruct Kn as (w & [<-|[]] & Kn); exact Kn).
    apply reach_op with (l := l) (o := n) (ops := b :: yield lo ++ a :: yield hi) (c := 109%N); [op_facts..|].
    intros p al od rest A. cbn [app]. rewrite <- app_assoc. cbn [lastb GrammarSpec.tree app with_word].
    pose proof (last_reads (Between l (Some n) b lo a hi) 9 hi rest Rh F3 ltac:(lia) eq_refl eq_refl A) as Ch.
    pose proof (between_call (tree l) b lo a hi rest Kb (lo_reads lo a hi rest Rlo F1 F2 Ka) Ch) as C.
    rewrite with_kid_made by reflexivity. cbn [map_insert String.eqb Ascii.eqb Bool.eqb].
    apply after_cons in A as (f & r' & -> & _). apply fits_word in Kb, Ka, Kn'. body. step HU.
  - apply reach_op with (l := l) (o := b) (ops := yield lo ++ a :: yield hi) (c := 109%N); [op_facts..|].
    intros p al od rest A. cbn [app]. rewrite <- app_assoc. cbn [lastb GrammarSpec.tree app with_word].
    pose proof (last_reads (Between l None b lo a hi) 9 hi rest Rh F3 ltac:(lia) eq_refl eq_refl A) as Ch.
    pose proof (between_call (tree l) b lo a hi rest Kb (lo_reads lo a hi rest Rlo F1 F2 Ka) Ch) as C.
    apply after_cons in A as (f & r' & -> & _). apply fits_word in Kb, Ka. body. step HU.
Qed.
Lemma reach_in l n b lp es rp : reach l -> perhaps U n ["NOT"] -> is_word b "IN" -> is_word lp "(" -> wfs U false true es -> exprs_ok U false es -> is_word rp ")" ->
  fits_left U l 9 -> reach (InList l n b lp es rp).
Proof.
  intros Rl Kn Kb Kl We Ce Kr Fl. destruct n as [n|]; cbn [perhaps] in Kn.
  - assert (Kn' : is_word n "NOT") by (destruct Kn as (w & [<-|[]] & Kn); exact Kn).
    apply reach_op with (l := l) (o := n) (ops := b :: lp :: yields es ++ [rp]) (c := 109%N); [op_facts..|].
    intros p al od rest A. cbn [app]. rewrite <- app_assoc. cbn [lastb GrammarSpec.tree app with_word].
    pose proof (in_call (tree l) b lp es rp rest Kb Kl We Ce Kr) as C.
    rewrite with_kid_made by reflexivity. cbn [map_insert String.eqb Ascii.eqb Bool.eqb].
    apply after_cons in A as (f & r' & -> & _). apply fits_word in Kb, Kl, Kn'. body. step HU.
  - apply reach_op with (l := l) (o := b) (ops := lp :: yields es ++ [rp]) (c := 109%N); [op_facts..|].
    intros p al od rest A. cbn [app]. rewrite <- app_assoc. cbn [lastb GrammarSpec.tree app with_word].
    pose proof (in_call (tree l) b lp es rp rest Kb Kl We Ce Kr) as C.
    apply after_cons in A as (f & r' & -> & _). apply fits_word in Kb, Kl. body. step HU.
Qed.
Lemma reach_in_query l n b lp q rp : reach l -> perhaps U n ["NOT"] -> is_word b "IN" -> is_word lp "(" -> opens_query U q -> query_ok U q rp -> is_word rp ")" ->
  fits_left U l 9 -> reach (InQuery l n b lp q rp).
Proof.
  intros Rl Kn Kb Kl Ks Cq Kr Fl. destruct n as [n|]; cbn [perhaps] in Kn.
  - assert (Kn' : is_word n "NOT") by (destruct Kn as (w & [<-|[]] & Kn); exact Kn).
    apply reach_op with (l := l) (o := n) (ops := b :: lp :: yield_query q ++ [rp]) (c := 109%N); [op_facts..|].
    intros p al od rest A. cbn [app]. rewrite <- app_assoc. cbn [lastb GrammarSpec.tree app with_word].
    pose proof (in_query_call (tree l) b lp q rp rest Kb Kl Ks Cq Kr) as C.
    rewrite with_kid_made by reflexivity. cbn [map_insert String.eqb Ascii.eqb Bool.eqb].
    apply after_cons in A as (f & r' & -> & _). apply fits_word in Kb, Kl, Kn'. body. step HU.
  - apply reach_op with (l := l) (o := b) (ops := lp :: yield_query q ++ [rp]) (c := 109%N); [op_facts..|].
    intros p al od rest A. cbn [app]. rewrite <- app_assoc. cbn [lastb GrammarSpec.tree app with_word].
    pose proof (in_query_call (tree l) b lp q rp rest Kb Kl Ks Cq Kr) as C.
    apply after_cons in A as (f & r' & -> & _). apply fits_word in Kb, Kl. body. step HU.
Qed.
Lemma call_of_facts w c : call_of U w c -> is_word (first c) w /\ loosest_right c = 0%N /\ loosest_left c = 1%N.
Proof.
  destruct c; cbn [call_of]; try contradiction. destruct c; try contradiction. destruct d, ig, o, l, ov; try contradiction.
  cbn [first GrammarSpec.loosest_right GrammarSpec.loosest_left]. auto.
Qed.
Lemma reach_in_unnest l n b c : reach l -> perhaps U n ["NOT"] -> is_word b "IN" -> reach c -> call_of U "UNNEST" c -> fits_left U l 9 ->
  reach (InUnnest l n b c).
Proof.
  intros Rl Kn Kb Rc Cc Fl. destruct (call_of_facts _ c Cc) as (Kc & Lr & Ll).
  assert (X : forall rest, after (InUnnest l n b c) rest -> reads 2 c rest).
  { intros rest (f & r & p & -> & A1 & A2 & A3 & A4 & A5 & A6). cbn [GrammarSpec.loosest_right] in A5, A6.
    assert (O : fits (Avoids order_words) (b_tok f)) by (apply A6; discriminate).
    apply operand_call; try assumption; [lia| |].
    - exists f, r, p. repeat split; try assumption; [|lia|intros _; exact O]. intros _. apply (prec_paren U f r p A4). lia.
    - exists f, r, p. repeat split; try assumption. }
  destruct n as [n|]; cbn [perhaps] in Kn.
  - assert (Kn' : is_word n "NOT") by (destruct Kn as (w & [<-|[]] & Kn); exact Kn).
    apply reach_op with (l := l) (o := n) (ops := b :: yield c) (c := 109%N); [op_facts..|].
    intros p al od rest A. cbn [lastb GrammarSpec.tree app with_word].
    pose proof (in_unnest_call (tree l) b c rest Kb Kc (X rest A)) as C.
    rewrite with_kid_made by reflexivity. cbn [map_insert String.eqb Ascii.eqb Bool.eqb].
    apply after_cons in A as (f & r' & -> & _). apply fits_word in Kb, Kn'. body. step HU.
  - apply reach_op with (l := l) (o := b) (ops := yield c) (c := 109%N); [op_facts..|].
    intros p al od rest A. cbn [lastb GrammarSpec.tree app with_word].
    pose proof (in_unnest_call (tree l) b c rest Kb Kc (X rest A)) as C.
    apply after_cons in A as (f & r' & -> & _). apply fits_word in Kb. body. step HU.
Qed.
Lemma like_some_call l b k r rest : is_word b "LIKE" -> word_in k ["ANY"; "ALL"; "SOME"] -> reads 9 r rest ->
  calls F_parse_binary_operator [VNode l] (b :: k :: yield r ++ rest)
    (VNode (made N_BinaryOperator b [("quantifier", keyword k); ("left", CNode l); ("right", CNode (tree r))])) (lastb r :: rest).
Proof.
  intros I Kk C. pose proof (prec_word1 U b "LIKE" 109 (k :: yield r ++ rest) I eq_refl) as P.
  unfold reads in C. cbn in C. apply fits_word in I. apply fits_among in Kk.
  assert (Ne : yield r ++ rest <> []) by (destruct (first_yield r) as [r0 ->]; discriminate).
  eapply calls_body; [reflexivity|]. cbn [prog parse_binary_operator f_body f_params combine]. step HU.
Qed.
Lemma reach_like_some l n b k r : reach l -> perhaps U n ["NOT"] -> is_word b "LIKE" -> word_in k ["ANY"; "ALL"; "SOME"] -> reach r ->
  fits_left U l 9 -> fits_right U r 9 -> reach (LikeSome l n b k r).
Proof.
  intros Rl Kn Kb Kk Rr Fl Fr. destruct n as [n|]; cbn [perhaps] in Kn.
  - assert (Kn' : is_word n "NOT") by (destruct Kn as (w & [<-|[]] & Kn); exact Kn).
    apply reach_op with (l := l) (o := n) (ops := b :: k :: yield r) (c := 109%N); [op_facts..|].
    intros p al od rest A. cbn [lastb GrammarSpec.tree app with_word].
    pose proof (last_reads (LikeSome l (Some n) b k r) 9 r rest Rr Fr ltac:(lia) eq_refl eq_refl A) as C'.
    pose proof (like_some_call (tree l) b k r rest Kb Kk C') as C.
    rewrite with_kid_made by reflexivity. cbn [map_insert String.eqb Ascii.eqb Bool.eqb].
    apply after_cons in A as (f & r' & -> & _). apply fits_word in Kb, Kn'. apply fits_among in Kk. body. step HU.
  - apply reach_op with (l := l) (o := b) (ops := k :: yield r) (c := 109%N); [op_facts..|].
    intros p al od rest A. cbn [lastb GrammarSpec.tree app with_word].
    pose proof (last_reads (LikeSome l None b k r) 9 r rest Rr Fr ltac:(lia) eq_refl eq_refl A) as C'.
    pose proof (like_some_call (tree l) b k r rest Kb Kk C') as C.
    apply after_cons in A as (f & r' & -> & _). apply fits_word in Kb. apply fits_among in Kk. body. step HU.
Qed.
Lemma reach_not_like l n b r : reach l -> is_word n "NOT" -> is_word b "LIKE" -> wf r -> reach r -> fits_left U l 9 -> fits_right U r 9 ->
  reach (NotLike l n b r).
Proof.
  intros Rl Kn Kb W Rr Fl Fr. apply reach_op with (l := l) (o := n) (ops := b :: yield r) (c := 109%N); [op_facts..|].
  intros p al od rest A. cbn [lastb GrammarSpec.tree app].
  pose proof (last_reads (NotLike l n b r) 9 r rest Rr Fr ltac:(lia) eq_refl eq_refl A) as C'.
  assert (C : calls F_parse_binary_operator [VNode (tree l)] (b :: yield r ++ rest)
    (VNode (made N_BinaryOperator b [("left", CNode (tree l)); ("right", CNode (tree r))])) (lastb r :: rest)).
  { apply (binary_call (tree l) b 9 r rest W); [|exact C'|].
    - unfold infix_level. unfold GrammarSpec.is_word in Kb. now rewrite Kb.
    - unfold GrammarSpec.is_word in *. rewrite Kb. discriminate. }
  apply after_cons in A as (f & r' & -> & _). apply fits_word in Kb, Kn. body. step HU.
Qed.
End WithUnicode.
