(* The phrases of DefinitionSpec.v, one by one. *)
From Verif Require Import Chars Token Cst Core MiniRust Program Bundles ParserView ParserGeneric ShapeSound GroupingSpec GroupingExpr
  Forward GrammarSpec GrammarTactics GrammarExpr GrammarReach GrammarOps GrammarBinary GrammarItems GrammarTypes GrammarCalls GrammarQuery GrammarSelect
  DefinitionSpec StatementSpec StatementDeeds StatementDml DefinitionRules.
Local Open Scope string_scope.
Local Open Scope list_scope.
Local Notation length := List.length.

Section WithUnicode.
Context (U : unicode) (HU : ascii_faithful U).
Local Notation steps := (steps U).
Local Notation calls := (calls U).
Local Notation is_word := (is_word U).
Local Notation word_in := (word_in U).
Local Notation tree := (tree U).
Local Notation wf := (wf U).
Local Notation fits := (fits_known U).
Local Notation led := (led U).
Local Notation wf_part := (wf_part U).
Local Notation wf_parts := (wf_parts U).
Local Notation kids_part := (kids_part U).
Local Notation kids_parts := (kids_parts U).
Local Notation stops := (stops U).
Local Notation tails := (tails U).
Local Notation runs := (runs U).
Local Notation finishes := (finishes U).
Ltac ahead ::= first [apply tok_yield | apply tok_items | apply tok_query | apply tok_type | apply tok_table | eassumption].
Ltac call ::= eassumption.
Ltac special ::= fail.

(* a condition on the next token *)
Definition guards (g : cond) (E : bool -> node -> env) (kn : known) (v : bool) : Prop :=
  forall sp n b f R, fits kn (b_tok f) -> decides U g (E sp n) (b :: f :: R) v.
(* the same for a block, whose own variables are gone in the end *)
Definition inside (c : cmd fn) (E : bool -> node -> env) (fs : list slot) (E' : bool -> node -> env) (suffix : list slot) : Prop :=
  forall sp n ps b f R, tails suffix (f :: R) -> fits (lead suffix) (b_tok f) -> wf_parts fs ps f ->
  exists b' e', steps c (E sp n) (b :: yield_parts ps ++ f :: R) Norm e' (b' :: f :: R) /\ env_leave (length (E sp n)) e' = E' sp (with_parts U fs ps n).
Lemma inside_runs c E fs E1 E2 suffix : runs c E fs E1 suffix -> (forall sp n m, env_leave (length (E sp n)) (E1 sp m) = E2 sp m) -> inside c E fs E2 suffix.
Proof. intros R Lv sp n ps b f r T L W. destruct (R sp n ps b f r T L W) as (b' & S). do 2 eexists. split; [exact S|apply Lv]. Qed.
Lemma runs_branch v g a b E fs E' suffix : guards g E (lead (fs ++ suffix)) v -> inside (if v then a else b) E fs E' suffix -> runs (MiniRust.If g a b) E fs E' suffix.
Proof.
  intros G Rn sp n ps b0 f R T L W. destruct (tails_lead U HU _ _ (tails_app U fs suffix ps f R T W)) as (f' & r' & Y & L').
  destruct (Rn sp n ps b0 f R T L W) as (b' & e' & S & Lv). exists b'. eapply steps_eq; [eapply (steps_if U) with (v := v); [rewrite Y; now apply G|exact S]|apply Lv].
Qed.
Lemma runs_case v pats a b E fs E' suffix : known_in (lead (fs ++ suffix)) pats = Some v -> inside (if v then a else b) E fs E' suffix ->
  runs (CaseUpper 1 pats a b) E fs E' suffix.
Proof.
  intros G Rn sp n ps b0 f R T L W. destruct (tails_lead U HU _ _ (tails_app U fs suffix ps f R T W)) as (f' & r' & Y & L').
  destruct (Rn sp n ps b0 f R T L W) as (b' & e' & S & Lv). exists b'. eapply steps_eq; [eapply steps_case_known; [rewrite Y; reflexivity|exact L'|exact G|exact S]|apply Lv].
Qed.
Lemma runs_skip E suffix : runs Skip E [] E suffix.
Proof. intros sp n ps b f R T L W. destruct ps; [|contradiction]. exists b. apply steps_skip. Qed.
(* [x] is the node that is built *)
Definition holds (x : string) (E : bool -> node -> env) : Prop :=
  (forall sp n, env_get x (E sp n) = Some (VNode n)) /\ (forall sp n m, env_set x (VNode m) (E sp n) = Some (E sp m)) /\
  (forall sp n m, length (E sp n) = length (E sp m)).
Lemma runs_may_ g c E key s suffix : (forall sp n p b f R, tails suffix (f :: R) -> fits (lead suffix) (b_tok f) -> wf_part s p f -> decides U g (E sp n) (b :: yield_part p ++ f :: R) true) ->
  (forall sp n b f R, tails suffix (f :: R) -> fits (lead suffix) (b_tok f) -> decides U g (E sp n) (b :: f :: R) false) ->
  inside c E [Need key s] E suffix -> runs (MiniRust.If g c Skip) E [May key s] E suffix.
Proof.
  intros Gt Gf Rn sp n ps b0 f R T L W. destruct ps as [|[p|] [|]]; cbn [DefinitionSpec.wf_parts] in W; try contradiction; try (destruct W; contradiction).
  - destruct (Rn sp n [Some p] b0 f R T L W) as (b' & e' & S & Lv). exists b'. eapply steps_eq; [eapply (steps_if U) with (v := true); [|exact S]|apply Lv]. cbn [yield_parts]. rewrite app_nil_r. apply Gt; [exact T|exact L|apply W].
  - exists b0. eapply steps_eq; [eapply (steps_if U) with (v := false); [now apply Gf|apply steps_skip]|]. unfold env_leave. now rewrite Nat.sub_diag.
Qed.
Lemma runs_may g c E key s suffix : guards g E (shape_lead s) true -> guards g E (lead suffix) false ->
  inside c E [Need key s] E suffix -> runs (MiniRust.If g c Skip) E [May key s] E suffix.
Proof.
  intros Gt Gf Rn. eapply runs_may_; [| |exact Rn].
  - intros sp n p b f R _ _ W. apply (part_lead U HU) in W as (f' & r & -> & L). cbn [app]. now apply Gt.
  - intros sp n b f R T L. now apply Gf.
Qed.
Lemma runs_no g c E suffix : guards g E (lead suffix) false -> runs (MiniRust.If g c Skip) E [] E suffix.
Proof.
  intros G sp n ps b0 f R T L W. destruct ps; [|contradiction]. exists b0. eapply steps_eq; [eapply (steps_if U) with (v := false); [now apply G|apply steps_skip]|].
  unfold env_leave. now rewrite Nat.sub_diag.
Qed.
Lemma finishes_cons c E s E' gs k : runs c E [s] E' gs -> finishes k E' gs -> finishes (Seq c k) E (s :: gs).
Proof. apply (finishes_more U HU c E [s] E' gs k). Qed.
Lemma finishes_two c E s s' E' gs k : runs c E [s; s'] E' gs -> finishes k E' gs -> finishes (Seq c k) E (s :: s' :: gs).
Proof. apply (finishes_more U HU c E [s; s'] E' gs k). Qed.
Lemma finishes_none c E E' gs k : runs c E [] E' gs -> finishes k E' gs -> finishes (Seq c k) E gs.
Proof. apply (finishes_more U HU c E [] E' gs k). Qed.
Lemma holds_leave x E : holds x E -> forall sp n m, env_leave (length (E sp n)) (E sp m) = E sp m.
Proof. intros (_ & _ & H) sp n m. now apply env_leave_same. Qed.

(* ----- phrases ----- *)
Lemma runs_word x key ws E suffix : holds x E -> runs (Seq Next (Push x key (EConstruct N_Keyword))) E [Need key (AWord ws)] E suffix.
Proof.
  intros (G & S & _) sp n ps b f R T L W. destruct ps as [|[p|] [|]]; cbn [DefinitionSpec.wf_parts] in W; try contradiction; try (destruct W; contradiction).
  destruct p; cbn [DefinitionSpec.wf_part] in W; try (destruct W; contradiction). exists b0. cbn [yield_parts yield_part app].
  eapply steps_seq; [apply steps_next; discriminate|]. eapply steps_push_kid; [mk|apply G|]. unfold with_parts. cbn. apply S.
Qed.
(* a phrase that is read by one function *)
Definition part_calls (f : fn) (vs : list value) (s : shape) (suffix : list slot) : Prop :=
  forall p f0 R, tails suffix (f0 :: R) -> fits (lead suffix) (b_tok f0) -> wf_part s p f0 ->
  exists m b', (forall key, kids_part key p = [(key, CNode m)]) /\ calls f vs (yield_part p ++ f0 :: R) (VNode m) (b' :: f0 :: R).
Lemma runs_call x key s f vs args E suffix : holds x E -> (forall sp n bs, passes U args (E sp n) bs vs (E sp n)) -> part_calls f vs s suffix ->
  runs (Seq Next (Push x key (ECall f args))) E [Need key s] E suffix.
Proof.
  intros (G & S & _) P C sp n ps b f0 R T L W. destruct ps as [|[p|] [|]]; cbn [DefinitionSpec.wf_parts] in W; try contradiction; try (destruct W; contradiction).
  destruct (C p f0 R T L (proj1 W)) as (m & b' & K & Ca). exists b'. unfold with_parts. cbn [yield_parts DefinitionSpec.kids_parts]. rewrite K, !app_nil_r.
  eapply steps_seq; [apply steps_next; nonempty|]. eapply steps_push_kid; [eapply makes_call; [apply P|exact Ca]|apply G|apply S].
Qed.
Lemma name_calls ws suffix : known_in (lead suffix) ["."] = Some false -> part_calls F_parse_identifier [] (AName ws) suffix.
Proof.
  intros A p f R T L W. destruct p; cbn [DefinitionSpec.wf_part] in W; try contradiction. destruct W as (P & _ & S). do 2 eexists.
  split; [reflexivity|]. apply (path_call U HU); [exact P|exact S|eapply fits_weaken; [exact L|exact A]].
Qed.
Lemma grouped_calls named g f R : wf_group U named g -> exists b, calls F_parse_grouped_exprs [VBool named] (yield_group g ++ f :: R) (VNode (tree_grouped U g)) (b :: f :: R).
Proof.
  destruct g as [lp [es|] rp]; intros (Kl & W & Kr); cbn [yield_group tree_grouped app]; exists rp.
  - rewrite <- app_assoc. cbn [app]. eapply (grouped_call U HU); eauto. eapply (list_ok U HU). exact W.
  - apply fits_word in Kl, Kr. eapply calls_body; [reflexivity|]. cbn [prog parse_grouped_exprs f_body f_params combine]. step HU.
Qed.
Lemma group_calls suffix : part_calls F_parse_grouped_exprs [VBool false] AGroup suffix.
Proof.
  intros p f R T L W. destruct p; cbn [DefinitionSpec.wf_part] in W; try contradiction. destruct (grouped_calls false g f R W) as (b & C). do 2 eexists. split; [reflexivity|exact C].
Qed.
Lemma with_group_call k named g f R : wf_group U named g -> exists b, calls F_parse_keyword_with_grouped_exprs [VBool named] (k :: yield_group g ++ f :: R) (VNode (tree_options U k g)) (b :: f :: R).
Proof.
  intro W. destruct (grouped_calls named g f R W) as (b & C). exists b. eapply calls_body; [reflexivity|]. cbn [prog parse_keyword_with_grouped_exprs f_body f_params combine]. step HU.
Qed.
Lemma options_calls w named suffix : part_calls F_parse_keyword_with_grouped_exprs [VBool named] (Options w named) suffix.
Proof.
  intros p f R T L W. destruct p; cbn [DefinitionSpec.wf_part] in W; try contradiction. destruct (with_group_call k named g f R (proj2 W)) as (b & C). do 2 eexists. split; [reflexivity|exact C].
Qed.
Lemma by_calls w suffix ws : lead suffix = Among ws -> forallb (fun w => existsb (String.eqb w) (ends_of false) && plain w) ws = true -> part_calls F_parse_xxxby_exprs [] (ListBy w) suffix.
Proof.
  intros E A p f R T L W. destruct p; cbn [DefinitionSpec.wf_part] in W; try contradiction. destruct W as (_ & Kb & W). rewrite E in L.
  destruct (list_call U HU false es ws f R W L A) as (b' & C). do 2 eexists. split; [reflexivity|]. apply fits_word in Kb.
  eapply calls_body; [reflexivity|]. cbn [prog parse_xxxby_exprs f_body f_params combine yield_part app]. step HU.
Qed.
Lemma connection_calls suffix : known_in (lead suffix) ["."] = Some false -> part_calls F_parse_with_connection_clause [] (Connection false true) suffix.
Proof.
  intros A p f R T L W. destruct p; cbn [DefinitionSpec.wf_part] in W; try contradiction. destruct W as (Kr & Kw & Kc & W). destruct r; [destruct Kr; discriminate|].
  cbn [yield_part opt app DefinitionSpec.kids_part]. unfold tree_connection. destruct x as [d|p]; cbn [app].
  - destruct W as (_ & Kd). apply fits_word in Kd. do 2 eexists. split; [reflexivity|].
    eapply calls_body; [reflexivity|]. cbn [prog parse_with_connection_clause f_body f_params combine]. step HU.
  - destruct W as (P & S). pose proof (path_first_avoids U HU p ["DEFAULT"] P eq_refl) as K. pose proof (path_call U HU p f R P S ltac:(eapply fits_weaken; [exact L|exact A])) as C.
    do 2 eexists. split; [reflexivity|].
    eapply calls_body; [reflexivity|]. cbn [prog parse_with_connection_clause f_body f_params combine]. step HU.
Qed.
Lemma runs_words2 x key E suffix wss : forallb (fun ws => Nat.eqb (length ws) 2) wss = true -> holds x E ->
  runs (Seq Next (PushVec x key (XCall F_parse_n_keywords [ANum (NumC 2)]))) E [Need key (TheWords wss)] E suffix.
Proof.
  intros A (G & S & _) sp n ps b f R T L W. destruct ps as [|[p|] [|]]; cbn [DefinitionSpec.wf_parts] in W; try contradiction; try (destruct W; contradiction).
  destruct W as (W & _). destruct p; cbn [DefinitionSpec.wf_part] in W; try contradiction. destruct W as (ws & I & W). rewrite forallb_forall in A. apply A in I. apply Nat.eqb_eq in I.
  destruct ws as [|w [|w' [|]]]; try discriminate I. destruct bs as [|b1 [|]]; cbn [words_are] in W; try tauto. exists b1. cbn [yield_parts yield_part app].
  eapply steps_seq; [apply steps_next; discriminate|]. eapply steps_pushvec_kid; [eapply lists_call; [args|apply (two_call U)]|apply G|]. unfold with_parts. cbn. apply S.
Qed.
Lemma runs_words3 x key E suffix wss : forallb (fun ws => Nat.eqb (length ws) 3) wss = true -> holds x E ->
  runs (Seq Next (PushVec x key (XCall F_parse_n_keywords [ANum (NumC 3)]))) E [Need key (TheWords wss)] E suffix.
Proof.
  intros A (G & S & _) sp n ps b f R T L W. destruct ps as [|[p|] [|]]; cbn [DefinitionSpec.wf_parts] in W; try contradiction; try (destruct W; contradiction).
  destruct W as (W & _). destruct p; cbn [DefinitionSpec.wf_part] in W; try contradiction. destruct W as (ws & I & W). rewrite forallb_forall in A. apply A in I. apply Nat.eqb_eq in I.
  destruct ws as [|w [|w' [|w'' [|]]]]; try discriminate I. destruct bs as [|b1 [|b2 [|]]]; cbn [words_are] in W; try tauto. exists b2. cbn [yield_parts yield_part app].
  eapply steps_seq; [apply steps_next; discriminate|]. eapply steps_pushvec_kid; [eapply lists_call; [args|apply (three_call U)]|apply G|]. unfold with_parts. cbn. apply S.
Qed.

(* ----- a few commands at a time ----- *)
Fixpoint join (c k : cmd fn) : cmd fn := match c with Seq a b => Seq a (join b k) | _ => Seq c k end.
Lemma join_exec r n c k : forall e s, exec U r n (join c k) e s = exec U r n (Seq c k) e s.
Proof.
  induction c; intros en st; cbn [join]; try reflexivity. cbn [exec]. unfold bind.
  destruct (exec U r n c1 en st) as [[[] ?] ?| | | |]; try reflexivity. rewrite IHc2. cbn [exec]. unfold bind. reflexivity.
Qed.
Lemma join_steps c k e bs r e' bs' : steps (Seq c k) e bs r e' bs' -> steps (join c k) e bs r e' bs'.
Proof. intros [n H]. exists n. intros s V. destruct (H s V) as (s' & E & V'). exists s'. split; [now rewrite join_exec|exact V']. Qed.
Lemma finishes_join c k E fs : finishes (Seq c k) E fs -> finishes (join c k) E fs.
Proof. intros F sp so n ps b next rest W S. destruct (F sp so n ps b next rest W S) as (b' & e' & H). exists b', e'. now apply join_steps. Qed.
Lemma decides_flip g e bs v : decides U g e bs (negb v) -> decides U (CNot g) e bs v.
Proof. intro D. apply decides_not in D. now rewrite Bool.negb_involutive in D. Qed.
Lemma wf_parts_need k s fs ps next : wf_parts (Need k s :: fs) ps next -> exists p ps', ps = Some p :: ps' /\ wf_part s p (hd next (yield_parts ps')) /\ wf_parts fs ps' next.
Proof. destruct ps as [|[p|] ps]; cbn [DefinitionSpec.wf_parts]; try contradiction. intros (A & B). eauto. Qed.
Lemma wf_parts_none ps next : wf_parts [] ps next -> ps = [].
Proof. destruct ps; [reflexivity|contradiction]. Qed.
Lemma runs_cons c E s E' gs k E'' suffix : runs c E [s] E' (gs ++ suffix) -> runs k E' gs E'' suffix -> runs (Seq c k) E (s :: gs) E'' suffix.
Proof. apply (runs_seq U HU c k E [s]). Qed.
Lemma runs_none c E E' gs k E'' suffix : runs c E [] E' (gs ++ suffix) -> runs k E' gs E'' suffix -> runs (Seq c k) E gs E'' suffix.
Proof. apply (runs_seq U HU c k E []). Qed.
Lemma runs_join c k E fs E' suffix : runs (Seq c k) E fs E' suffix -> runs (join c k) E fs E' suffix.
Proof. intros F sp n ps b f R T L W. destruct (F sp n ps b f R T L W) as (b' & H). exists b'. now apply join_steps. Qed.
Lemma steps_for1 n body e bs : env_get n e = Some (VNum 1) -> steps (ForFrom1 n body) e bs Norm e bs.
Proof. intros G. exists 0. intros s V. exists s. split; [|exact V]. cbn [exec]. rewrite G. reflexivity. Qed.
Lemma steps_for4 n body e bs e1 bs1 e2 bs2 e3 bs3 : env_get n e = Some (VNum 4) -> steps body e bs Norm e1 bs1 -> steps body (env_leave (length e) e1) bs1 Norm e2 bs2 ->
  steps body (env_leave (length (env_leave (length e) e1)) e2) bs2 Norm e3 bs3 ->
  steps (ForFrom1 n body) e bs Norm (env_leave (length (env_leave (length (env_leave (length e) e1)) e2)) e3) bs3.
Proof.
  intros G [k B] [k' B'] [k'' B'']. exists (k + k' + k''). intros s V. destruct (B s V) as (s1 & E1 & V1). destruct (B' s1 V1) as (s2 & E2 & V2). destruct (B'' s2 V2) as (s3 & E3 & V3).
  exists s3. split; [|exact V3].
  cbn [exec]. rewrite G. change (N.to_nat 4 - 1) with 3. cbn [repeat_body]. unfold bind at 1.
  rewrite (exec_more U k (k + k' + k'') _ _ _ _ _ ltac:(lia) E1). cbn [after_body]. unfold bind at 1. rewrite (exec_more U k' (k + k' + k'') _ _ _ _ _ ltac:(lia) E2). cbn [after_body].
  unfold bind. rewrite (exec_more U k'' (k + k' + k'') _ _ _ _ _ ltac:(lia) E3). reflexivity.
Qed.
Lemma one_call a rest : calls F_parse_n_keywords [VNum 1] (a :: rest) (VVec [keyword_ a]) (a :: rest).
Proof.
  eapply calls_body; [reflexivity|]. cbn [prog parse_n_keywords f_body f_params combine].
  eapply steps_seq; [step HU|]. eapply steps_seq; [step HU|]. eapply steps_seq; [apply steps_for1; envr|]. step HU.
Qed.
Lemma four_call a b c d rest : calls F_parse_n_keywords [VNum 4] (a :: b :: c :: d :: rest) (VVec [keyword_ a; keyword_ b; keyword_ c; keyword_ d]) (d :: rest).
Proof.
  eapply calls_body; [reflexivity|]. cbn [prog parse_n_keywords f_body f_params combine].
  eapply steps_seq; [step HU|]. eapply steps_seq; [step HU|]. eapply steps_seq; [eapply steps_eq; [eapply steps_for4; [envr|step HU|norm; step HU|norm; step HU]|envr]|]. step HU.
Qed.
Lemma steps_setbool x c e bs v e' : decides U c e bs v -> env_set x (VBool v) e = Some e' -> steps (SetBool x c) e bs Norm e' bs.
Proof.
  intros D G. exists 0. intros s V. exists s. split; [|exact V]. specialize (D s V). cbn [exec]. unfold bind. rewrite D. unfold MiniRust.norm, bind, set_or_stuck. now rewrite G.
Qed.
(* the query at the end of a statement *)
Lemma query_fact q f R : wf_query U q f -> tails [] (f :: R) ->
  exists b, calls F_parse_select_statement [VBool false; VBool true] (yield_query q ++ f :: R) (VNode (tree_query U q None)) (b :: f :: R).
Proof.
  intros W ([|] & sp & so & next & rest & W' & S & Y); [|contradiction]. cbn [yield_parts app] in Y. injection Y as <- <-.
  apply (every_query U HU q f W false None f R W). eapply stops_inner. exact S.
Qed.
End WithUnicode.

(* ----- tactics ----- *)
Ltac take n c := lazymatch n with O => lazymatch c with Seq ?a _ => a end | S ?m => lazymatch c with Seq ?a ?b => let r := take m b in constr:(Seq a r) end end.
Ltac leave n c := lazymatch n with O => lazymatch c with Seq _ ?b => b end | S ?m => lazymatch c with Seq _ ?b => leave m b end end.
(* the first commands as one *)
Ltac chunk n := lazymatch goal with
  | |- DefinitionRules.finishes ?U ?c ?E ?fs => let a := take n c in let k := leave n c in change (DefinitionRules.finishes U (join a k) E fs); apply finishes_join
  | |- DefinitionRules.runs ?U ?c ?E ?fs ?E' ?s => let a := take n c in let k := leave n c in change (DefinitionRules.runs U (join a k) E fs E' s); apply runs_join
  end.
(* what is known of the phrases, and of the token after them *)
Ltac open_part Wp := lazymatch type of Wp with DefinitionSpec.wf_part _ _ ?p _ => destruct p; cbn [DefinitionSpec.wf_part] in Wp; try contradiction end.
Ltac open_parts W :=
  lazymatch type of W with
  | DefinitionSpec.wf_parts _ [] ?ps _ => apply wf_parts_none in W; subst ps
  | DefinitionSpec.wf_parts _ (_ :: _) ?ps _ => let p := fresh "p" in let ps' := fresh "ps" in let Wp := fresh "Wp" in
      apply wf_parts_need in W as (p & ps' & -> & Wp & W); open_parts W; cbn [yield_parts yield_part app opt hd] in Wp; open_part Wp; cbn [yield_parts yield_part app opt hd] in *
  end.
Ltac led_by L := lazymatch type of L with fits_known ?U (lead ?s) ?t => let k := eval vm_compute in (lead s) in change (fits_known U k t) in L end.
Ltac facts :=
  cbn [words_in] in *;
  repeat match goal with H : _ /\ _ |- _ => destruct H | H : exists _, _ |- _ => destruct H
  | H : context [words_in _ ?bs _] |- _ => is_var bs; destruct bs; cbn [words_in] in H; try contradiction; try (exfalso; tauto)
  | H : words_are _ (_ :: ?bs) ?ws, I : In ?ws _ |- _ => cbn [In] in I; repeat (destruct I as [I|I]; [subst ws | try contradiction]); cbn [words_are] in H; try contradiction; try (exfalso; tauto)
  | H : words_are _ ?bs _ |- _ => destruct bs; cbn [words_are] in H; try contradiction; try (exfalso; tauto)
  end;
  repeat match goal with H : GrammarSpec.is_word _ _ _ |- _ => apply fits_word in H | H : GrammarSpec.word_in _ _ _ |- _ => apply fits_among in H end;
  cbn [yield_parts yield_part app opt]; repeat first [rewrite <- app_assoc | rewrite app_nil_r]; cbn [app].
Ltac enters := let sp := fresh "sp" in let n := fresh "n" in let ps := fresh "ps" in let b := fresh "b" in let f := fresh "f" in let R := fresh "R" in
  let T := fresh "T" in let L := fresh "L" in let W := fresh "W" in intros sp n ps b f R T L W; open_parts W; led_by L; facts.
Ltac kids := unfold with_parts; cbn [DefinitionSpec.kids_parts DefinitionSpec.kids_part app with_kids fold_left fst snd map].
Ltac shown HU := lazymatch goal with |- exists b e, _ /\ _ => eexists; eexists; split; [step HU | kids; reflexivity] | |- _ => eexists; kids; step HU end.

Ltac hold := split; [|split]; intros; reflexivity.
Ltac calls_ HU := first [apply (name_calls _ HU); reflexivity | apply (options_calls _ HU) | apply (group_calls _ HU) | eapply (by_calls _ HU); reflexivity
  | apply (connection_calls _ HU); reflexivity].
Ltac plain_phrase HU := lazymatch goal with
  | |- DefinitionRules.runs ?U ?c ?E ?fs ?E' ?s => let c' := eval cbv iota in c in change (DefinitionRules.runs U c' E fs E' s) end; lazymatch goal with
  | |- DefinitionRules.runs _ (Seq Next (Push _ _ (EConstruct N_Keyword))) _ _ _ _ => apply runs_word; hold
  | |- DefinitionRules.runs _ (Seq Next (PushVec _ _ (XCall F_parse_n_keywords [ANum (NumC 2)]))) _ _ _ _ => apply runs_words2; [reflexivity | hold]
  | |- DefinitionRules.runs _ (Seq Next (PushVec _ _ (XCall F_parse_n_keywords [ANum (NumC 3)]))) _ _ _ _ => apply runs_words3; [reflexivity | hold]
  | |- DefinitionRules.runs _ (Seq Next (Push _ _ (ECall _ _))) _ _ _ _ => eapply runs_call; [hold | intros; args | calls_ HU]
  end.
Ltac guarded HU := unfold guards; intros; cbv beta; repeat (lazymatch goal with |- decides _ (CNot _) _ _ _ => apply decides_flip; cbn [negb] end); decide_ HU.
Ltac inside_ HU := eapply inside_runs; [plain_phrase HU | intros; reflexivity].
Ltac add_phrase HU := lazymatch goal with |- DefinitionRules.finishes _ _ _ _ => eapply (finishes_cons _ HU) | |- DefinitionRules.runs _ _ _ _ _ _ => eapply (runs_cons _ HU) end.
Ltac add_none HU := lazymatch goal with |- DefinitionRules.finishes _ _ _ _ => eapply (finishes_none _ HU) | |- DefinitionRules.runs _ _ _ _ _ _ => eapply (runs_none _ HU) end.
Ltac may_ HU t := add_phrase HU; [eapply (runs_may _ HU); [guarded HU | guarded HU | t] |].
Ltac need_ HU t := lazymatch goal with
  | |- DefinitionRules.finishes _ _ ?E _ => eapply (finishes_cons _ HU _ _ _ E)
  | |- DefinitionRules.runs _ _ ?E _ _ _ => eapply (runs_cons _ HU _ _ _ E) end; [eapply (runs_branch _ HU true); [guarded HU | t] |].
Ltac no HU := add_none HU; [eapply runs_no; guarded HU |].
(* the next phrase of a statement *)
Ltac phrase HU :=
  lazymatch goal with
  | |- DefinitionRules.finishes _ (Seq (MiniRust.If _ _ Skip) (Seq _ _)) _ _ => first [may_ HU ltac:(inside_ HU) | no HU | need_ HU ltac:(inside_ HU)]
  | |- DefinitionRules.finishes _ (Seq Next (Seq _ _)) _ _ => chunk 1; add_phrase HU; [plain_phrase HU |]
  | |- DefinitionRules.runs _ (Seq (MiniRust.If _ _ Skip) (Seq _ _)) _ _ _ _ => first [may_ HU ltac:(inside_ HU) | no HU | need_ HU ltac:(inside_ HU)]
  | |- DefinitionRules.runs _ (Seq Next (Seq _ (Seq _ _))) _ _ _ _ => chunk 1; add_phrase HU; [plain_phrase HU |]
  end.
(* [k + 1] commands that leave the variable [y] behind *)
Ltac leaving HU k y := chunk k; lazymatch goal with
  | |- DefinitionRules.finishes _ _ ?E _ => let E' := eval cbv beta in (fun (sp : bool) (n : node) => (y, VUndef) :: E sp n) in eapply (finishes_cons _ HU _ _ _ E')
  | |- DefinitionRules.runs _ _ ?E _ _ _ => let E' := eval cbv beta in (fun (sp : bool) (n : node) => (y, VUndef) :: E sp n) in eapply (runs_cons _ HU _ _ _ E')
  end.
(* [k + 1] commands that leave the variables as they are *)
Ltac keeping HU k := chunk k; lazymatch goal with
  | |- DefinitionRules.finishes _ _ ?E _ => eapply (finishes_cons _ HU _ _ _ E)
  | |- DefinitionRules.runs _ _ ?E _ _ _ => eapply (runs_cons _ HU _ _ _ E)
  end.
Ltac both HU := lazymatch goal with |- DefinitionRules.finishes _ _ ?E _ => eapply (finishes_two _ HU _ _ _ _ E) end.
Ltac one HU := lazymatch goal with |- DefinitionRules.finishes _ _ ?E _ => eapply (finishes_cons _ HU _ _ _ E) end.
Ltac none HU := lazymatch goal with |- DefinitionRules.finishes _ _ ?E _ => eapply (finishes_none _ HU _ _ E) end.
Ltac ends HU := apply (finishes_tail _ HU); intros; reflexivity.
Ltac a_path HU := match goal with P : GrammarSpec.path _ ?p, S : separated _ ?p ?f, L : fits_known _ _ (b_tok ?f) |- context [yield ?p ++ ?f :: ?R] =>
  pose proof (path_call _ HU p f R P S ltac:(eapply fits_weaken; [exact L|reflexivity])) end.
Ltac an_expr HU := match goal with W : GrammarSpec.wf _ ?e, L : fits_known _ (Among ?ws) (b_tok ?f) |- context [yield ?e ++ ?f :: ?R] =>
  pose proof (expr_call _ HU e true ws f R W L eq_refl) end.
Ltac a_list HU := match goal with W : wfs _ false false ?es, L : fits_known _ (Among ?ws) (b_tok ?f) |- context [yields ?es ++ ?f :: ?R] =>
  destruct (list_call _ HU false es ws f R W L eq_refl) as (? & ?) end.
Ltac a_group HU := match goal with W : wf_group _ ?named ?g |- context [yield_group ?g ++ ?f :: ?R] =>
  let C := fresh in destruct (grouped_calls _ HU named g f R W) as (? & C) end.
Ltac options_of HU k := match goal with W : wf_group _ ?named ?g |- context [yield_group ?g ++ ?f :: ?R] =>
  let C := fresh in destruct (with_group_call _ HU k named g f R W) as (? & C) end.
Ltac a_query HU := match goal with W : wf_query _ ?q ?f, T : tails _ [] (?f :: ?R) |- context [yield_query ?q ++ ?f :: ?R] =>
  destruct (query_fact _ HU q f R W T) as (? & ?) end.
Definition reads_as U (f : fn) (d : definition) : Prop := forall k sp so ps next rest, wf_definition U d k ps next -> StatementDeeds.stops U sp so next rest ->
  exists b, calls U f [VBool sp] (k :: yield_parts ps ++ next :: rest) (VNode (tree_definition U d k ps so)) (left_over so b next rest).
Ltac reads_ := intros ?k ?sp ?so ?ps ?next ?rest; eapply finishes_read; [reflexivity | reflexivity | reflexivity | reflexivity | reflexivity |]; cbn [form snd fst app]; unfold set_options; cbn [app].
