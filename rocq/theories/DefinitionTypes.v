(* The types and the declarations of DefinitionSpec.v. *)
From Verif Require Import Chars Token Cst Core MiniRust Program Bundles ParserView ParserGeneric ShapeSound GroupingSpec GroupingExpr
  Forward GrammarSpec GrammarTactics GrammarExpr GrammarReach GrammarOps GrammarBinary GrammarItems GrammarTypes GrammarCalls GrammarQuery GrammarSelect
  DefinitionSpec StatementSpec StatementDeeds StatementDml DefinitionRules DefinitionPhrases.
Local Open Scope string_scope.
Local Open Scope list_scope.
Local Notation length := List.length.

(* parser.rs:1439-1457 *)
Definition col_loop : cmd fn :=
  match f_body parse_type with
  | Seq _ (Seq (CaseUpper _ _ _ (CaseUpper _ _ (Seq _ (Seq (MiniRust.If _ (Seq _ (Seq _ (Seq _ (Seq _ (Seq a _))))) _) _)) _)) _) => a
  | _ => Skip end.
(* parser.rs:1479-1556 *)
Definition after_type : cmd fn := match f_body parse_type with Seq _ (Seq _ a) => a | _ => Skip end.
(* parser.rs:892-929 *)
Definition declared_loop : cmd fn :=
  match f_body parse_grouped_type_declaration_or_constraints with Seq _ (Seq _ (Seq _ (Seq _ (Seq a _)))) => a | _ => Skip end.

Section WithUnicode.
Context (U : unicode) (HU : ascii_faithful U).
Local Notation steps := (steps U).
Local Notation calls := (calls U).
Local Notation is_word := (is_word U).
Local Notation word_in := (word_in U).
Local Notation tree := (tree U).
Local Notation wf := (wf U).
Local Notation fits := (fits_known U).
Local Notation led := (led U).
Local Notation wf_part := (wf_part U).
Local Notation wf_parts := (wf_parts U).
Local Notation kids_part := (kids_part U).
Local Notation kids_parts := (kids_parts U).
Local Notation stops := (stops U).
Local Notation tails := (tails U).
Local Notation runs := (runs U).
Local Notation finishes := (finishes U).
Local Notation inside := (inside U).
Ltac ahead ::= first [apply tok_yield | apply tok_items | apply tok_query | apply tok_type | apply tok_table | eassumption].
Ltac call ::= eassumption.
Ltac special ::= fail.

(* ----- what follows a type ----- *)
Definition col_end (top schema function : bool) (f : bundle) : Prop :=
  fits (Avoids ["("; "COLLATE"; "CONSTRAINT"; "PRIMARY"; "REFERENCES"; "DEFAULT"; "OPTIONS"; "ENFORCED"]) (b_tok f) /\
  (schema || function = true -> fits (Avoids ["NOT"]) (b_tok f)) /\
  (top && schema = true -> fits (Among [","; ")"; ";"; ""]) (b_tok f)).
Lemma enforced_call n e f rest : perhaps U n ["NOT"] -> is_word e "ENFORCED" ->
  exists b, calls F_parse_enforced [] (opt n ++ e :: f :: rest) (VNode (match n with Some n => chain n [e] | None => keyword_ e end)) (b :: f :: rest).
Proof.
  intros Kn Ke. apply fits_word in Ke. destruct n as [n|]; cbn [opt app].
  - cbn [perhaps] in Kn. apply fits_among in Kn. eexists. eapply calls_body; [reflexivity|]. cbn [prog parse_enforced f_body f_params combine]. step HU.
  - eexists. eapply calls_body; [reflexivity|]. cbn [prog parse_enforced f_body f_params combine]. step HU.
Qed.

(* ----- the attributes, one command after the other ----- *)
Definition typed_env (sc fn : bool) (n : node) : env := [("res", VNode n); ("schema", VBool sc); ("aggregate", VBool fn)].
Fixpoint nth_cmd (i : nat) (c : cmd fn) : cmd fn :=
  match i, c with
  | O, Seq a _ => a
  | S i, Seq _ r => nth_cmd i r
  | _, c => c
  end.
Local Notation collate_ok c := (match c with Some (k, s) => is_word k "COLLATE" /\ is_string (b_tok s) = true | None => True end).
Local Notation key_ok k := (match k with Some (p, k, e) => is_word p "PRIMARY" /\ is_word k "KEY" /\ wf_enforcement U e | None => True end).
Local Notation options_ok o := (match o with Some (k, g) => is_word k "OPTIONS" /\ wf_group U false g | None => True end).
Definition kids_collate (c : option (bundle * bundle)) :=
  match c with Some (k, s) => [("collate", CNode (made N_KeywordWithExpr k [("expr", string_ s)]))] | None => [] end.
Definition kids_key (k : option (bundle * bundle * option enforcement)) :=
  match k with Some (p, k, e) => ("primarykey", CNode (chain p [k])) :: kid_enforcement e | None => [] end.
Definition kids_schema d n o :=
    (match d with Clause k e => [("default", CNode (made N_KeywordWithExpr k [("expr", CNode (tree e))]))] | NoClause => [] end) ++
    (match n with Some (a, b) => [("not_null", CVec [keyword_ a; keyword_ b])] | None => [] end) ++
    (match o with Some (k, g) => [("options", CNode (tree_options U k g))] | None => [] end).
Definition kids_scalar (s : option (bundle * bundle)) := match s with Some (a, b) => [("aggregate", CNode (chain a [b]))] | None => [] end.

Ltac seg := unfold after_type; cbn [nth_cmd f_body parse_type]; unfold typed_env.
Lemma collate_steps c sc fn n b g R : collate_ok c -> fits (Avoids ["COLLATE"]) (b_tok g) ->
  exists b', steps (nth_cmd 0 after_type) (typed_env sc fn n) (b :: opt2 c ++ g :: R) Norm (typed_env sc fn (with_kids (kids_collate c) n)) (b' :: g :: R).
Proof.
  intros W K. seg. destruct c as [(k & s)|]; cbn [opt2 app kids_collate with_kids fold_left fst snd].
  - destruct W as (Kk & Ks). apply fits_word in Kk. eexists. step HU.
  - eexists. step HU.
Qed.
Lemma key_steps k sc fn n b g R : key_ok k -> fits (Avoids ["PRIMARY"]) (b_tok g) ->
  match k with Some (_, _, None) => fits (Avoids ["NOT"; "ENFORCED"]) (b_tok g) | _ => True end ->
  exists b', steps (nth_cmd 2 after_type) (typed_env sc fn n) (b :: yield_key k ++ g :: R) Norm (typed_env sc fn (with_kids (kids_key k) n)) (b' :: g :: R).
Proof.
  intros W K K'. seg. destruct k as [((p & k) & [[m e]|])|]; cbn [yield_key yield_enforcement app kids_key].
  - destruct W as (Kp & Kk & Km & Ke). destruct (enforced_call m e g R Km Ke) as (b' & C). apply fits_word in Kp, Kk, Ke. exists b'. rewrite <- app_assoc. cbn [app].
    destruct m as [m|]; cbn [opt app] in *; cbn [kid_enforcement with_kids fold_left fst snd].
    + cbn [perhaps] in Km. apply fits_among in Km. step HU.
    + step HU.
  - destruct W as (Kp & Kk & _). apply fits_word in Kp, Kk. cbn [kid_enforcement with_kids fold_left fst snd]. eexists. step HU.
  - eexists. cbn [with_kids fold_left]. step HU.
Qed.
Lemma skipped_steps i w sc fn n b g R : (i = 1 /\ w = "CONSTRAINT" \/ i = 3 /\ w = "REFERENCES") -> fits (Avoids [w]) (b_tok g) ->
  steps (nth_cmd i after_type) (typed_env sc fn n) (b :: g :: R) Norm (typed_env sc fn n) (b :: g :: R).
Proof. intros [(-> & ->)|(-> & ->)] K; seg; step HU. Qed.
Lemma schema_steps d m o sc fn n b g R : wf_clause U "DEFAULT" d -> perhaps2 U m ["NOT"] ["NULL"] -> options_ok o ->
  (match d, m with Clause _ _, Some _ => False | _, _ => True end) -> (d <> NoClause -> fits (Among [","; ")"; ";"; ""]) (b_tok g)) ->
  (sc = false -> d = NoClause /\ m = None /\ o = None) -> (sc = true -> fits (Avoids ["DEFAULT"; "NOT"; "OPTIONS"]) (b_tok g)) ->
  exists b', steps (nth_cmd 4 after_type) (typed_env sc fn n) (b :: yield_clause d ++ opt2 m ++ yield_options o ++ g :: R) Norm
    (typed_env sc fn (with_kids (kids_schema d m o) n)) (b' :: g :: R).
Proof.
  intros Wd Wm Wo X E N K. seg. destruct sc.
  2: { destruct (N eq_refl) as (-> & -> & ->). eexists. cbn [yield_clause opt2 yield_options app kids_schema with_kids fold_left]. step HU. }
  specialize (K eq_refl). clear N. unfold kids_schema.
  destruct d as [|kd e]; cbn [yield_clause app].
  - destruct m as [(m1 & m2)|]; cbn [opt2 app].
    + cbn [perhaps2] in Wm. destruct Wm as (Km1 & Km2). apply fits_among in Km1, Km2.
      destruct o as [(ko & go)|]; cbn [yield_options app with_kids fold_left fst snd].
      * destruct Wo as (Ko & Wo). destruct (with_group_call U HU ko false go g R Wo) as (b1 & C). apply fits_word in Ko. eexists. step HU.
      * eexists. step HU.
    + destruct o as [(ko & go)|]; cbn [yield_options app with_kids fold_left fst snd].
      * destruct Wo as (Ko & Wo). destruct (with_group_call U HU ko false go g R Wo) as (b1 & C). apply fits_word in Ko. eexists. step HU.
      * eexists. step HU.
  - destruct m; [contradiction|]. destruct Wd as (Kd & We). assert (E' : fits (Among [","; ")"; ";"; ""]) (b_tok g)) by (apply E; discriminate). clear E.
    apply fits_word in Kd. cbn [opt2 app].
    destruct o as [(ko & go)|]; cbn [yield_options app with_kids fold_left fst snd].
    * destruct Wo as (Ko & Wo). destruct (with_group_call U HU ko false go g R Wo) as (b1 & C). apply fits_word in Ko.
      pose proof (expr_call U HU e true ["OPTIONS"] ko (yield_group go ++ g :: R) We Ko eq_refl) as C2. cbn [app]. eexists. step HU.
    * pose proof (expr_call U HU e true [","; ")"; ";"; ""] g R We E' eq_refl) as C2. eexists. step HU.
Qed.
Lemma scalar_steps s sc fn n b g R : perhaps2 U s ["NOT"] ["AGGREGATE"] -> (fn = false -> s = None) -> (fn = true -> fits (Avoids ["NOT"]) (b_tok g)) ->
  exists b', steps (nth_cmd 5 after_type) (typed_env sc fn n) (b :: opt2 s ++ g :: R) Norm (typed_env sc fn (with_kids (kids_scalar s) n)) (b' :: g :: R).
Proof.
  intros W X K. seg. destruct fn.
  2: { rewrite (X eq_refl). eexists. cbn [opt2 app kids_scalar with_kids fold_left]. step HU. }
  specialize (K eq_refl). destruct s as [(s1 & s2)|]; cbn [opt2 app kids_scalar with_kids fold_left fst snd].
  - cbn [perhaps2] in W. destruct W as (K1 & K2). apply fits_among in K1, K2. eexists. step HU.
  - eexists. step HU.
Qed.

(* ----- what the attributes begin with ----- *)
Lemma front l (f : bundle) rest : exists R, l ++ f :: rest = hd f l :: R.
Proof. destruct l; cbn [app hd]; eauto. Qed.
(* the words the attributes can begin with *)
Definition heads_in (ws : list string) (l : list bundle) (f : bundle) : Prop := hd f l = f \/ fits (Among ws) (b_tok (hd f l)).
Lemma heads_avoids ws ws' l f : heads_in ws l f -> fits (Avoids ws') (b_tok f) -> known_in (Among ws) ws' = Some false -> fits (Avoids ws') (b_tok (hd f l)).
Proof. intros [->|K] Kf E; [exact Kf|]. eapply fits_weaken; [exact K|exact E]. Qed.
Lemma heads_add ws ws' l l' f : (l = [] \/ exists b r, l = b :: r /\ fits (Among ws) (b_tok b)) -> heads_in ws' l' f -> heads_in (ws ++ ws') (l ++ l') f.
Proof.
  intros [->|(b & r & -> & K)] H; cbn [app hd].
  - destruct H as [H|H]; [now left|right]. cbn [fits_known] in *. unfold mem_pats in *. rewrite existsb_app, H. apply orb_true_r.
  - right. cbn [app hd]. cbn [fits_known] in *. unfold mem_pats in *. now rewrite existsb_app, K.
Qed.
Lemma scalar_heads s : perhaps2 U s ["NOT"] ["AGGREGATE"] -> opt2 s = [] \/ exists b r, opt2 s = b :: r /\ fits (Among ["NOT"]) (b_tok b).
Proof. destruct s as [(x & y)|]; [|now left]. intros (K & _). right. do 2 eexists. split; [reflexivity|now apply fits_among]. Qed.
Lemma null_heads s : perhaps2 U s ["NOT"] ["NULL"] -> opt2 s = [] \/ exists b r, opt2 s = b :: r /\ fits (Among ["NOT"]) (b_tok b).
Proof. destruct s as [(x & y)|]; [|now left]. intros (K & _). right. do 2 eexists. split; [reflexivity|now apply fits_among]. Qed.
Lemma options_heads o : options_ok o -> yield_options o = [] \/ exists b r, yield_options o = b :: r /\ fits (Among ["OPTIONS"]) (b_tok b).
Proof. destruct o as [(x & y)|]; [|now left]. intros (K & _). right. do 2 eexists. split; [reflexivity|now apply fits_word]. Qed.
Lemma clause_heads d : wf_clause U "DEFAULT" d -> yield_clause d = [] \/ exists b r, yield_clause d = b :: r /\ fits (Among ["DEFAULT"]) (b_tok b).
Proof. destruct d as [|x y]; [now left|]. intros (K & _). right. do 2 eexists. split; [reflexivity|now apply fits_word]. Qed.
Lemma key_heads k : key_ok k -> yield_key k = [] \/ exists b r, yield_key k = b :: r /\ fits (Among ["PRIMARY"]) (b_tok b).
Proof. destruct k as [((x & y) & z)|]; [|now left]. intros (K & _). right. do 2 eexists. split; [reflexivity|now apply fits_word]. Qed.
Lemma collate_heads c : collate_ok c -> opt2 c = [] \/ exists b r, opt2 c = b :: r /\ fits (Among ["COLLATE"]) (b_tok b).
Proof. destruct c as [(x & y)|]; [|now left]. intros (K & _). right. do 2 eexists. split; [reflexivity|now apply fits_word]. Qed.

Lemma attributes_steps top sc fn a n b f rest : (fn = true -> sc = false) -> wf_attributes U top sc fn a -> col_end top sc fn f ->
  exists b' e', steps after_type (typed_env sc fn n) (b :: yield_attributes a ++ f :: rest) (Ret (VNode (with_kids (kids_attributes U a) n))) e' (b' :: f :: rest).
Proof.
  intros Ex W (E1 & E2 & E3). destruct a as [c k d m o s]. cbn [wf_attributes] in W. destruct W as (Wc & Wk & Wd & Wm & Wo & Ws & X1 & X2 & X3 & X4 & X5).
  assert (Ek : kids_attributes U (Attributes c k d m o s) = kids_collate c ++ kids_key k ++ kids_schema d m o ++ kids_scalar s).
  { cbn [kids_attributes]. unfold kids_schema. rewrite <- !app_assoc. reflexivity. }
  rewrite Ek. clear Ek. cbn [yield_attributes].
  assert (Hs : heads_in ["NOT"] (opt2 s) f).
  { pose proof (heads_add ["NOT"] [] (opt2 s) [] f (scalar_heads s Ws) (or_introl eq_refl)) as H. rewrite (app_nil_r (opt2 s)) in H. exact H. }
  pose proof (heads_add _ _ _ _ f (options_heads o Wo) Hs) as Ho.
  pose proof (heads_add _ _ _ _ f (null_heads m Wm) Ho) as Hm.
  pose proof (heads_add _ _ _ _ f (clause_heads d Wd) Hm) as Hd.
  pose proof (heads_add _ _ _ _ f (key_heads k Wk) Hd) as Hk. cbn [app] in *.
  pose proof (heads_avoids _ ["COLLATE"] _ _ Hk ltac:(eapply fits_weaken; [exact E1|reflexivity]) eq_refl) as K0.
  pose proof (heads_avoids _ ["CONSTRAINT"] _ _ Hk ltac:(eapply fits_weaken; [exact E1|reflexivity]) eq_refl) as K1.
  pose proof (heads_avoids _ ["PRIMARY"] _ _ Hd ltac:(eapply fits_weaken; [exact E1|reflexivity]) eq_refl) as K2.
  pose proof (heads_avoids _ ["REFERENCES"] _ _ Hd ltac:(eapply fits_weaken; [exact E1|reflexivity]) eq_refl) as K3.
  assert (K2' : match k with Some (_, _, None) => fits (Avoids ["NOT"; "ENFORCED"]) (b_tok (hd f (yield_clause d ++ opt2 m ++ yield_options o ++ opt2 s))) | _ => True end).
  { destruct k as [((p & k) & [e|])|]; try exact Logic.I. destruct m; [contradiction|].
    destruct sc; [|destruct (X4 eq_refl) as (Xk & _); discriminate Xk]. destruct fn; [discriminate (Ex eq_refl)|]. rewrite (X5 eq_refl) in *.
    assert (Kf : fits (Avoids ["NOT"; "ENFORCED"]) (b_tok f)).
    { apply (avoids_both U ["NOT"] ["ENFORCED"]); [now apply E2|eapply fits_weaken; [exact E1|reflexivity]]. }
    cbn [opt2 app]. rewrite app_nil_r.
    pose proof (heads_add ["OPTIONS"] [] (yield_options o) [] f (options_heads o Wo) (or_introl eq_refl)) as H. rewrite (app_nil_r (yield_options o)) in H.
    pose proof (heads_add _ _ _ _ f (clause_heads d Wd) H) as H'. eapply heads_avoids; [exact H'|exact Kf|reflexivity]. }
  rewrite <- !app_assoc.
  destruct (front (yield_key k ++ yield_clause d ++ opt2 m ++ yield_options o ++ opt2 s) f rest) as (R0 & F0). rewrite <- !app_assoc in F0. rewrite F0.
  destruct (collate_steps c sc fn n b _ R0 Wc K0) as (b0 & S0).
  pose proof (skipped_steps 1 "CONSTRAINT" sc fn (with_kids (kids_collate c) n) b0 _ R0 (or_introl (conj eq_refl eq_refl)) K1) as S1.
  rewrite <- F0 in S1 at 2.
  destruct (front (yield_clause d ++ opt2 m ++ yield_options o ++ opt2 s) f rest) as (R2 & F2). rewrite <- !app_assoc in F2. rewrite F2 in S1.
  destruct (key_steps k sc fn (with_kids (kids_collate c) n) b0 _ R2 Wk K2 K2') as (b2 & S2).
  pose proof (skipped_steps 3 "REFERENCES" sc fn (with_kids (kids_key k) (with_kids (kids_collate c) n)) b2 _ R2 (or_intror (conj eq_refl eq_refl)) K3) as S3.
  rewrite <- F2 in S3 at 2.
  destruct (front (opt2 s) f rest) as (R4 & F4). rewrite F4 in S3.
  assert (Ss : sc = true -> s = None) by (intros ->; apply X5; destruct fn; [discriminate (Ex eq_refl)|reflexivity]).
  destruct (schema_steps d m o sc fn (with_kids (kids_key k) (with_kids (kids_collate c) n)) b2 (hd f (opt2 s)) R4 Wd Wm Wo X2) as (b4 & S4).
  { intro N. destruct sc; [|destruct (X4 eq_refl) as (_ & Xd & _); contradiction]. destruct top; [|exfalso; apply N, X3; reflexivity]. rewrite (Ss eq_refl). cbn [opt2 hd]. now apply E3. }
  { intros ->. destruct (X4 eq_refl) as (_ & A & B & C). auto. }
  { intros ->. rewrite (Ss eq_refl). cbn [opt2 hd]. apply (avoids_both U ["DEFAULT"] ["NOT"; "OPTIONS"]); [eapply fits_weaken; [exact E1|reflexivity]|].
    apply (avoids_both U ["NOT"] ["OPTIONS"]); [now apply E2|eapply fits_weaken; [exact E1|reflexivity]]. }
  rewrite <- F4 in S4 at 2.
  destruct (scalar_steps s sc fn (with_kids (kids_schema d m o) (with_kids (kids_key k) (with_kids (kids_collate c) n))) b4 f rest Ws X5) as (b5 & S5).
  { intros ->. apply E2. apply orb_true_r. }
  exists b5. eexists. eapply steps_seq; [exact S0|]. eapply steps_seq; [exact S1|]. eapply steps_seq; [exact S2|]. eapply steps_seq; [exact S3|].
  eapply steps_seq; [exact S4|]. eapply steps_seq; [exact S5|]. rewrite !with_kids_app. unfold typed_env.
  eapply steps_return. mk.
Qed.

(* ----- types ----- *)
Definition type_case : cmd fn := match f_body parse_type with Seq _ (Seq a _) => a | _ => Skip end.
Definition untyped_env (sc fn : bool) : env := [("res", VUndef); ("schema", VBool sc); ("aggregate", VBool fn)].
Ltac subs := cbn [map fst app]; repeat first [apply sub_nil | apply sub_keep | apply sub_skip].
Lemma attributes_made a b kids : sub (map fst kids) ["parameter"; "type"; "type_declaration"] ->
  with_kids (kids_attributes U a) (made N_Type b kids) = made N_Type b (kids ++ kids_attributes U a).
Proof.
  intros S. assert (K : sub (map fst (kids_attributes U a)) ["collate"; "primarykey"; "enforced"; "default"; "not_null"; "options"; "aggregate"]).
  { destruct a as [c k d m o s]. cbn [kids_attributes]. rewrite !map_app.
    apply (sub_app _ ["collate"]); [destruct c as [(? & ?)|]; subs|].
    apply (sub_app _ ["primarykey"; "enforced"]); [destruct k as [((? & ?) & [[[?|] ?]|])|]; cbn [kid_enforcement]; subs|].
    apply (sub_app _ ["default"]); [destruct d; subs|].
    apply (sub_app _ ["not_null"]); [destruct m as [(? & ?)|]; subs|].
    apply (sub_app _ ["options"]); [destruct o as [(? & ?)|]; subs|destruct s as [(? & ?)|]; subs]. }
  apply with_kids_made.
  - rewrite map_app. apply (sub_fine _ _ (sub_app _ _ _ _ S K) eq_refl).
  - apply (sub_fine _ _ K eq_refl).
Qed.
Lemma typed_call top sc fn a b kids lst fr f rest : (fn = true -> sc = false) -> wf_attributes U top sc fn a -> col_end top sc fn f ->
  sub (map fst kids) ["parameter"; "type"; "type_declaration"] ->
  steps type_case (untyped_env sc fn) (fr ++ yield_attributes a ++ f :: rest) Norm (typed_env sc fn (made N_Type b kids)) (lst :: yield_attributes a ++ f :: rest) ->
  exists b', calls F_parse_type [VBool sc; VBool fn] (fr ++ yield_attributes a ++ f :: rest) (VNode (made N_Type b (kids ++ kids_attributes U a))) (b' :: f :: rest).
Proof.
  intros Ex W E Sk S. destruct (attributes_steps top sc fn a (made N_Type b kids) lst f rest Ex W E) as (b' & e' & S'). rewrite attributes_made in S' by exact Sk.
  exists b'. eapply calls_body; [reflexivity|]. cbn [prog f_params combine parse_type]. change (f_body parse_type) with (Seq (Declare "res") (Seq type_case after_type)).
  eapply steps_seq; [apply steps_declare|]. eapply steps_seq; [exact S|exact S'].
Qed.
Definition type_ends : list string := ["("; "COLLATE"; "CONSTRAINT"; "PRIMARY"; "REFERENCES"; "DEFAULT"; "OPTIONS"; "ENFORCED"].
Lemma after_head top sc fn a f : wf_attributes U top sc fn a -> col_end top sc fn f -> fits (Avoids ["("]) (b_tok (hd f (yield_attributes a))).
Proof.
  intros W (E1 & _). destruct a as [c k d m o s]. cbn [wf_attributes] in W. destruct W as (Wc & Wk & Wd & Wm & Wo & Ws & _). cbn [yield_attributes].
  pose proof (heads_add ["NOT"] [] (opt2 s) [] f (scalar_heads s Ws) (or_introl eq_refl)) as Hs. rewrite (app_nil_r (opt2 s)) in Hs.
  pose proof (heads_add _ _ _ _ f (options_heads o Wo) Hs) as Ho.
  pose proof (heads_add _ _ _ _ f (null_heads m Wm) Ho) as Hm.
  pose proof (heads_add _ _ _ _ f (clause_heads d Wd) Hm) as Hd.
  pose proof (heads_add _ _ _ _ f (key_heads k Wk) Hd) as Hk.
  pose proof (heads_add _ _ _ _ f (collate_heads c Wc) Hk) as Hc. cbn [app] in Hc.
  eapply heads_avoids; [exact Hc|eapply fits_weaken; [exact E1|reflexivity]|reflexivity].
Qed.
Definition coltype_ok (top sc fn : bool) (t : coltype) : Prop := forall f rest, col_end top sc fn f ->
  exists b, calls F_parse_type [VBool sc; VBool fn] (yield_coltype t ++ f :: rest) (VNode (tree_coltype U t)) (b :: f :: rest).
Lemma of_name top sc fn b a : (fn = true -> sc = false) -> name U b -> wf_attributes U top sc fn a -> coltype_ok top sc fn (OfName b a).
Proof.
  intros Ex N W f rest E. cbn [yield_coltype tree_coltype].
  apply (typed_call top sc fn a b [] b [b] f rest Ex W E); [apply sub_none|]. pose proof (after_head top sc fn a f W E) as K.
  destruct (front (yield_attributes a) f rest) as (R & ->). apply (name_type U HU) in N. unfold type_case, typed_env, untyped_env. cbn [f_body parse_type app]. step HU.
Qed.
Lemma of_param top sc fn b lp es rp a : (fn = true -> sc = false) -> name U b -> is_word lp "(" -> wfs U false true es -> is_word rp ")" -> wf_attributes U top sc fn a ->
  coltype_ok top sc fn (OfParam b lp es rp a).
Proof.
  intros Ex N Kl We Kr W f rest E. cbn [yield_coltype tree_coltype].
  pose proof (grouped_call U HU false true lp es rp (yield_attributes a ++ f :: rest) Kl We (list_ok U HU _ _ _ We) Kr) as C.
  replace ((b :: lp :: yields es ++ rp :: yield_attributes a) ++ f :: rest) with ((b :: lp :: yields es ++ [rp]) ++ yield_attributes a ++ f :: rest) by now rewrite !app_comm_cons, <- !app_assoc.
  eapply (typed_call top sc fn a b [("parameter", CNode (tree_grouped U (Group lp (Some es) rp)))] rp _ f rest Ex W E); [subs|].
  apply (name_type U HU) in N. apply fits_word in Kl. cbn [app]. rewrite <- app_assoc. cbn [app].
  unfold type_case, typed_env, untyped_env. cbn [f_body parse_type]. step HU.
Qed.
Lemma of_any top sc fn b t a : (fn = true -> sc = false) -> is_word b "ANY" -> is_word t "TYPE" -> wf_attributes U top sc fn a -> coltype_ok top sc fn (OfAny b t a).
Proof.
  intros Ex Kb Kt W f rest E. cbn [yield_coltype tree_coltype].
  apply (typed_call top sc fn a b [("type", keyword t)] t [b; t] f rest Ex W E); [subs|]. apply fits_word in Kb, Kt.
  unfold type_case, typed_env, untyped_env. cbn [f_body parse_type app]. step HU.
Qed.
Lemma inner_end top sc fn f ws : fits (Among ws) (b_tok f) -> known_in (Among ws) ("NOT" :: type_ends) = Some false -> top = false -> col_end top sc fn f.
Proof.
  intros K N ->. assert (A : fits (Avoids ("NOT" :: type_ends)) (b_tok f)) by (eapply fits_weaken; [exact K|exact N]).
  split; [eapply fits_weaken; [exact A|reflexivity]|]. split; [intros _; eapply fits_weaken; [exact A|reflexivity]|discriminate].
Qed.
Lemma of_array top sc fn b lt t gt a : (fn = true -> sc = false) -> word_in b ["ARRAY"; "RANGE"] -> literally lt "<" -> coltype_ok false sc false t -> is_word gt ">" ->
  wf_attributes U top sc fn a -> coltype_ok top sc fn (OfArray b lt t gt a).
Proof.
  intros Ex Kb Kl Ct Kg W f rest E. cbn [yield_coltype tree_coltype]. apply fits_word in Kg. apply fits_among in Kb.
  destruct (Ct gt (yield_attributes a ++ f :: rest)) as (b' & C); [eapply inner_end; [exact Kg|reflexivity|reflexivity]|].
  replace ((b :: lt :: yield_coltype t ++ gt :: yield_attributes a) ++ f :: rest) with ((b :: lt :: yield_coltype t ++ [gt]) ++ yield_attributes a ++ f :: rest) by now rewrite !app_comm_cons, <- !app_assoc.
  eapply (typed_call top sc fn a b [("type_declaration", CNode (made N_GroupedType lt [("type", CNode (tree_coltype U t)); ("rparen", symbol gt)]))] gt _ f rest Ex W E); [subs|].
  cbn [app]. rewrite <- app_assoc. cbn [app]. assert (Ne : yield_coltype t ++ gt :: yield_attributes a ++ f :: rest <> []) by (destruct (yield_coltype t); discriminate).
  unfold type_case, typed_env, untyped_env. cbn [f_body parse_type]. step HU.
Qed.

(* ----- STRUCT<...> ----- *)
Definition first_coltype (t : coltype) : bundle := match t with OfName b _ | OfParam b _ _ _ _ | OfAny b _ _ | OfArray b _ _ _ _ | OfStruct b _ _ _ _ => b end.
Lemma tok_coltype t rest : tok_at (yield_coltype t ++ rest) 0 = Some (b_tok (first_coltype t)).
Proof. destruct t; reflexivity. Qed.
Definition markers : list string := [","; ">"; ")"; "TYPE"; "<"].
Lemma wf_first_coltype top sc fn t : wf_coltype U top sc fn t -> fits (Avoids markers) (b_tok (first_coltype t)).
Proof.
  assert (A : forall b, name U b -> ~ is_word b "TYPE" -> fits (Avoids markers) (b_tok b)).
  { intros b (_ & N) T. apply fits_avoids. intros (w & I & W). unfold markers in I. assert (X : "TYPE" = w \/ In w [","; ">"; ")"; "<"]) by (cbn in I |- *; tauto). destruct X as [<-|X]; [contradiction|].
    assert (Y : fits (Avoids [","; ">"; ")"; "<"]) (b_tok b)) by (apply (identifier_avoids U HU); [exact N|reflexivity]).
    cbn [fits_known] in Y. unfold mem_pats in Y. assert (existsb (fun p => str_eqb (upper_literal U (b_tok b)) (s_ p)) [","; ">"; ")"; "<"] = true).
    { apply existsb_exists. exists w. split; [exact X|]. now apply str_eqb_eq. } congruence. }
  destruct t; cbn [wf_coltype first_coltype]; intro W.
  1, 2: apply A; apply W.
  1: destruct W as (W & _); eapply fits_weaken; [apply fits_word; exact W|reflexivity].
  all: destruct W as (W & _); eapply fits_weaken; [apply fits_among; exact W|reflexivity].
Qed.
Ltac ahead ::= first [apply tok_coltype | apply tok_yield | apply tok_items | apply tok_query | apply tok_type | apply tok_table | eassumption].
Definition col_frame (sc fn : bool) (l : list node) (n1 n2 : node) : env :=
  [("type_declarations", VVec l); ("type_", VNode n1); ("res_", VNode n2); ("res", VUndef); ("schema", VBool sc); ("aggregate", VBool fn)].
Lemma col_step sc fn b t g rest l n1 n2 : name U b -> wf_coltype U false sc false t -> coltype_ok false sc false t -> fits (Among [","; ">"]) (b_tok g) -> forall rest',
  (fits (Among [","]) (b_tok g) -> rest' = rest /\ rest <> []) -> (fits (Among [">"]) (b_tok g) -> rest' = g :: rest) ->
  exists e, match col_loop with MiniRust.While _ c => steps c (col_frame sc fn l n1 n2) (b :: yield_coltype t ++ g :: rest) Norm e rest' | _ => False end /\
    env_leave 6 e = col_frame sc fn (l ++ [if mem_pats (upper_literal U (b_tok g)) [","] then made N_TypeDeclaration b [("type", CNode (tree_coltype U t)); ("comma", symbol g)]
      else made N_TypeDeclaration b [("type", CNode (tree_coltype U t))]]) n1 n2.
Proof.
  intros N W C K rest' R1 R2. destruct (C g rest) as (b1 & D); [eapply inner_end; [exact K|reflexivity|reflexivity]|].
  unfold col_loop. cbn [parse_type f_body]. unfold col_frame. apply wf_first_coltype in W. apply (name_type U HU) in N.
  assert (Ne : yield_coltype t ++ g :: rest <> []) by (destruct (yield_coltype t); discriminate).
  destruct (fits_either U g [","] [">"] K) as [Kg|Kg]; pose proof Kg as Kg'; cbn [fits_known] in Kg'.
  - rewrite Kg'. destruct (R1 Kg) as (-> & Ne'). clear K. eexists. split; [step HU|]. reflexivity.
  - specialize (R2 Kg). subst rest'. replace (mem_pats (upper_literal U (b_tok g)) [","]) with false.
    2: { symmetry. eapply known_in_ok; [exact Kg|reflexivity]. }
    clear K. eexists. split; [step HU|]. reflexivity.
Qed.
Fixpoint cols_ok (sc : bool) (fs : colfields) : Prop := match fs with LastCol _ t => coltype_ok false sc false t | MoreCols _ t _ r => coltype_ok false sc false t /\ cols_ok sc r end.
Lemma loop_cols sc fn fs : wf_colfields U sc fs -> cols_ok sc fs -> forall gt rest l n1 n2, is_word gt ">" ->
  steps col_loop (col_frame sc fn l n1 n2) (yield_colfields fs ++ gt :: rest) Norm (col_frame sc fn (l ++ tree_colfields U fs) n1 n2) (gt :: rest).
Proof.
  assert (E : forall l n1 n2 gt rest, is_word gt ">" -> steps col_loop (col_frame sc fn l n1 n2) (gt :: rest) Norm (col_frame sc fn l n1 n2) (gt :: rest)).
  { intros l n1 n2 gt rest K. apply fits_word in K. unfold col_loop. cbn [parse_type f_body]. apply steps_while_end. apply (decides_not U _ _ _ true). decide_ HU. }
  induction fs as [b t|b t c r IH]; intros W C gt rest l n1 n2 Kg; pose proof (fits_word U _ _ Kg) as K.
  - destruct W as (N & W). destruct (col_step sc fn b t gt rest l n1 n2 N W C) with (rest' := gt :: rest) as (e & S & Le).
    + eapply fits_weaken; [exact K|reflexivity].
    + intros K'. apply among_word in K' as (w & [<-|[]] & K'). unfold GrammarSpec.is_word in *. rewrite Kg in K'. discriminate.
    + reflexivity.
    + replace (mem_pats (upper_literal U (b_tok gt)) [","]) with false in Le by (symmetry; eapply known_in_ok; [exact K|reflexivity]).
      unfold col_loop in *. cbn [parse_type f_body] in *. apply (name_type U HU) in N. cbn [yield_colfields app tree_colfields].
      eapply steps_while_more; [apply decides_not_false; decide_ HU|exact S|]. change (length (col_frame sc fn l n1 n2)) with 6. rewrite Le. now apply E.
  - destruct W as (N & W & Kc & Wr). destruct C as (C & Cr). apply fits_word in Kc. change (yield_colfields (MoreCols b t c r)) with (b :: yield_coltype t ++ c :: yield_colfields r). cbn [app]. rewrite <- app_assoc. cbn [app].
    destruct (col_step sc fn b t c (yield_colfields r ++ gt :: rest) l n1 n2 N W C) with (rest' := yield_colfields r ++ gt :: rest) as (e & S & Le).
    + eapply fits_weaken; [exact Kc|reflexivity].
    + intros _. split; [reflexivity|]. destruct (yield_colfields r); discriminate.
    + intros K'. apply among_word in K' as (w & [<-|[]] & K'). apply among_word in Kc as (w & [<-|[]] & Kc). unfold GrammarSpec.is_word in *. rewrite Kc in K'. discriminate.
    + replace (mem_pats (upper_literal U (b_tok c)) [","]) with true in Le by (symmetry; eapply known_in_ok; [exact Kc|reflexivity]).
      specialize (IH Wr Cr gt rest (l ++ [made N_TypeDeclaration b [("type", CNode (tree_coltype U t)); ("comma", symbol c)]]) n1 n2 Kg). rewrite <- app_assoc in IH. cbn [app] in IH.
      unfold col_loop in *. cbn [parse_type f_body] in *. apply (name_type U HU) in N.
      eapply steps_while_more; [apply decides_not_false; decide_ HU|exact S|]. change (length (col_frame sc fn l n1 n2)) with 6. rewrite Le. exact IH.
Qed.
Lemma of_struct top sc fn b lt fs gt a : (fn = true -> sc = false) -> word_in b ["STRUCT"; "TABLE"] -> literally lt "<" -> wf_colfields U sc fs -> cols_ok sc fs -> is_word gt ">" ->
  wf_attributes U top sc fn a -> coltype_ok top sc fn (OfStruct b lt fs gt a).
Proof.
  intros Ex Kb Kl Wf Cf Kg W f rest E.
  pose proof (loop_cols sc fn fs Wf Cf gt (yield_attributes a ++ f :: rest) [] (made N_GroupedTypeDeclarationOrConstraints lt []) (made N_Type b []) Kg) as S.
  unfold col_loop, col_frame in S. cbn [parse_type f_body app] in S. apply fits_word in Kg. apply fits_among in Kb.
  change (yield_coltype (OfStruct b lt fs gt a)) with (b :: lt :: yield_colfields fs ++ gt :: yield_attributes a).
  change (tree_coltype U (OfStruct b lt fs gt a)) with (made N_Type b
      ([("type_declaration", CNode (made N_GroupedTypeDeclarationOrConstraints lt [("rparen", symbol gt); ("declarations", CVec (tree_colfields U fs))]))] ++ kids_attributes U a)).
  replace ((b :: lt :: yield_colfields fs ++ gt :: yield_attributes a) ++ f :: rest) with ((b :: lt :: yield_colfields fs ++ [gt]) ++ yield_attributes a ++ f :: rest) by now rewrite !app_comm_cons, <- !app_assoc.
  eapply (typed_call top sc fn a b _ gt _ f rest Ex W E); [subs|].
  cbn [app]. rewrite <- app_assoc. cbn [app].
  assert (Ne : yield_colfields fs ++ gt :: yield_attributes a ++ f :: rest <> []) by (destruct (yield_colfields fs); discriminate).
  unfold type_case, typed_env, untyped_env. cbn [parse_type f_body].
  Ltac special ::= lazymatch goal with |- Forward.steps _ (MiniRust.While _ _) _ _ _ _ _ => eassumption end.
  step HU.
Qed.
Ltac special ::= fail.
Scheme coltype_mut := Induction for coltype Sort Prop with colfields_mut := Induction for colfields Sort Prop.
Lemma every_coltype t : forall top sc fn, (fn = true -> sc = false) -> wf_coltype U top sc fn t -> coltype_ok top sc fn t.
Proof.
  apply (coltype_mut (fun t => forall top sc fn, (fn = true -> sc = false) -> wf_coltype U top sc fn t -> coltype_ok top sc fn t)
    (fun fs => forall sc, wf_colfields U sc fs -> cols_ok sc fs)); cbn [wf_coltype wf_colfields cols_ok].
  - intros b a top sc fn Ex (N & _ & W). now apply of_name.
  - intros b lp es rp a top sc fn Ex (N & _ & Kl & We & Kr & W). now apply of_param.
  - intros b t' a top sc fn Ex (Kb & Kt & W). now apply of_any.
  - intros b lt t' IH gt a top sc fn Ex (Kb & Kl & Wt & Kg & W). apply of_array; try assumption. apply IH; [discriminate|exact Wt].
  - intros b lt fs IH gt a top sc fn Ex (Kb & Kl & Wf & Kg & W). apply of_struct; try assumption. now apply IH.
  - intros b t' IH sc (N & W). apply IH; [discriminate|exact W].
  - intros b t' IH c r IHr sc (N & W & Kc & Wr). split; [apply IH; [discriminate|exact W]|now apply IHr].
Qed.

(* ----- declarations in parentheses ----- *)
Lemma constraint_call c p k g e f rest : wf_declaration U true false (PrimaryKey c p k g e) -> fits (Among [","; ")"; ";"; ""]) (b_tok f) ->
  exists b, calls F_parse_constraint [] (yield_declaration (PrimaryKey c p k g e) ++ f :: rest) (VNode (tree_declaration U (PrimaryKey c p k g e))) (b :: f :: rest).
Proof.
  intros (Wc & Kp & Kk & Wg & We) K. cbn [yield_declaration tree_declaration]. rewrite <- !app_assoc. cbn [app]. rewrite <- !app_assoc. cbn [app].
  assert (Kg : fits (Among ["("]) (b_tok (hd f (yield_group g)))) by (destruct g as [lp es rp]; destruct Wg as (Wg & _); now apply fits_word).
  assert (Fg : forall R, exists R', yield_group g ++ R = hd f (yield_group g) :: R') by (intro; destruct g; cbn [yield_group app hd]; eauto).
  assert (Fe : exists h R, yield_enforcement e ++ f :: rest = h :: R /\ match e with Some _ => fits (Among ["NOT"; "ENFORCED"]) (b_tok h) | None => fits (Among [","; ")"; ";"; ""]) (b_tok h) end).
  { destruct e as [[[n|] x]|]; cbn [yield_enforcement opt app wf_enforcement GrammarSpec.perhaps] in *.
    - do 2 eexists. split; [reflexivity|]. destruct We as (We & _). apply fits_among in We. eapply fits_weaken; [exact We|reflexivity].
    - do 2 eexists. split; [reflexivity|]. destruct We as (_ & We). apply fits_word in We. eapply fits_weaken; [exact We|reflexivity].
    - do 2 eexists. split; [reflexivity|exact K]. }
  destruct Fe as (h & R & Fe & Kh).
  assert (Ce : match e with Some (Enforcement n x) => exists b, calls F_parse_enforced [] (h :: R) (VNode (match n with Some n => chain n [x] | None => keyword_ x end)) (b :: f :: rest) | None => True end).
  { destruct e as [[n x]|]; [|exact Logic.I]. destruct We as (Wn & Wx). rewrite <- Fe. cbn [yield_enforcement]. rewrite <- app_assoc. now apply enforced_call. }
  rewrite Fe. destruct (grouped_calls U HU false g h R Wg) as (bg & Cg). destruct (Fg (h :: R)) as (Rg & Fg'). rewrite Fg' in *. clear Fg Fg' Wg.
  set (g0 := hd f (yield_group g)) in *. clearbody g0. apply fits_word in Kp, Kk.
  destruct c as [(c & x)|].
  - destruct Wc as (Kc & Nx & Sx). pose proof (one_name_call U HU x p (k :: g0 :: Rg) Nx Sx ltac:(eapply fits_weaken; [exact Kp|reflexivity])) as Ci.
    destruct Nx as (_ & Ix). apply (identifier_avoids U HU) with (ws := ["IF"]) in Ix; [|reflexivity]. apply fits_word in Kc. cbn [opt2 app].
    destruct e as [[n y]|].
    + destruct Ce as (be & Ce). exists be. destruct n; (eapply calls_body; [reflexivity|]; cbn [prog parse_constraint f_body f_params combine kid_enforcement app]; step HU).
    + injection Fe as -> ->. eexists. eapply calls_body; [reflexivity|]. cbn [prog parse_constraint f_body f_params combine kid_enforcement app]. step HU.
  - cbn [opt2 app].
    destruct e as [[n y]|].
    + destruct Ce as (be & Ce). exists be. destruct n; (eapply calls_body; [reflexivity|]; cbn [prog parse_constraint f_body f_params combine kid_enforcement app]; step HU).
    + injection Fe as -> ->. eexists. eapply calls_body; [reflexivity|]. cbn [prog parse_constraint f_body f_params combine kid_enforcement app]. step HU.
Qed.

Definition declared_frame (sc fn : bool) (l : list node) (n : node) : env :=
  [("marker_tokens", VStrs [","; ">"; ")"; "TYPE"; "<"]); ("type_declarations", VVec l); ("group", VNode n); ("schema", VBool sc); ("aggregate", VBool fn)].
Lemma declaration_end top sc fn f : fits (Among [","; ")"]) (b_tok f) -> col_end top sc fn f.
Proof.
  intro K. split; [eapply fits_weaken; [exact K|reflexivity]|]. split; intros _; (eapply fits_weaken; [exact K|reflexivity]).
Qed.
Lemma comma_declaration d c : with_kid "comma" (symbol c) (tree_declaration U d) =
  match d with
  | Column m b t => made N_TypeDeclaration b (match m with Some m => [("in_out", keyword m)] | None => [] end ++ [("type", CNode (tree_coltype U t)); ("comma", symbol c)])
  | PrimaryKey k p y g e => with_kid "comma" (symbol c) (tree_declaration U (PrimaryKey k p y g e))
  end.
Proof. destruct d as [[m|] b t|]; cbn [tree_declaration app]; try reflexivity; now rewrite with_kid_made by reflexivity. Qed.
Ltac decl_done K' R1 R2 := 
  match goal with Kg : fits_known _ (Among [","]) (b_tok ?g) |- _ => destruct (R1 Kg) as (-> & ?); clear K'; eexists; split; [step HU|reflexivity]
  | Kg : fits_known _ (Among [")"]) (b_tok ?g) |- _ => specialize (R2 Kg); subst; clear K'; eexists; split; [step HU|reflexivity] end.
Lemma declaration_step sc fn d g rest l n : (fn = true -> sc = false) -> wf_declaration U sc fn d -> fits (Among [","; ")"]) (b_tok g) -> forall rest',
  (fits (Among [","]) (b_tok g) -> rest' = rest /\ rest <> []) -> (fits (Among [")"]) (b_tok g) -> rest' = g :: rest) ->
  exists e, match declared_loop with MiniRust.While _ c => steps c (declared_frame sc fn l n) (yield_declaration d ++ g :: rest) Norm e rest' | _ => False end /\
    env_leave 5 e = declared_frame sc fn (l ++ [if mem_pats (upper_literal U (b_tok g)) [","] then with_kid "comma" (symbol g) (tree_declaration U d) else tree_declaration U d]) n.
Proof.
  intros Ex W K rest' R1 R2. rewrite comma_declaration.
  unfold declared_loop. cbn [parse_grouped_type_declaration_or_constraints f_body]. unfold declared_frame.
  assert (G : mem_pats (upper_literal U (b_tok g)) [","] = true /\ fits (Among [","]) (b_tok g) \/ mem_pats (upper_literal U (b_tok g)) [","] = false /\ fits (Among [")"]) (b_tok g)).
  { destruct (fits_either U g [","] [")"] K) as [Kg|Kg]; [left; split; [exact Kg|exact Kg]|right; split; [eapply known_in_ok; [exact Kg|reflexivity]|exact Kg]]. }
  destruct d as [m b t|c p k gr e].
  - destruct W as (Wm & Nb & Kb & Wt). destruct (every_coltype t true sc fn Ex Wt g rest (declaration_end true sc fn g K)) as (b1 & D).
    apply wf_first_coltype in Wt. unfold markers in Wt. destruct Nb as (_ & Ib). apply (identifier_avoids U HU) with (ws := ["IN"]) in Ib; [|reflexivity]. apply fits_avoids in Kb.
    assert (Kb' : fits (Avoids (["IN"] ++ ["OUT"; "INOUT"; "PRIMARY"; "FOREIGN"; "CONSTRAINT"])) (b_tok b)) by (apply avoids_both; assumption). cbn [app] in Kb'. clear Kb Ib.
    assert (Ne : yield_coltype t ++ g :: rest <> []) by (destruct (yield_coltype t); discriminate).
    destruct m as [m|]; cbn [yield_declaration tree_declaration opt app] in *.
    + cbn [GrammarSpec.perhaps] in Wm. apply fits_among in Wm. destruct G as [(-> & Kg)|(-> & Kg)]; decl_done K R1 R2.
    + destruct G as [(-> & Kg)|(-> & Kg)]; decl_done K R1 R2.
  - destruct (constraint_call c p k gr e g rest W ltac:(eapply fits_weaken; [exact K|reflexivity])) as (b1 & D). destruct W as (Wc & Kp & Kk & _). apply fits_word in Kp, Kk.
    set (T := tree_declaration U (PrimaryKey c p k gr e)) in *. clearbody T.
    destruct c as [(c & x)|]; cbn [yield_declaration opt2 app] in *.
    + destruct Wc as (Kc & _). apply fits_word in Kc. destruct G as [(-> & Kg)|(-> & Kg)]; decl_done K R1 R2.
    + destruct G as [(-> & Kg)|(-> & Kg)]; decl_done K R1 R2.
Qed.

Definition first_declaration (d : declaration) : bundle :=
  match d with Column (Some m) _ _ => m | Column None b _ => b | PrimaryKey (Some (c, _)) _ _ _ _ => c | PrimaryKey None p _ _ _ => p end.
Lemma tok_declaration d rest : tok_at (yield_declaration d ++ rest) 0 = Some (b_tok (first_declaration d)).
Proof. destruct d as [[m|] b t|[(c & x)|] p k g e]; reflexivity. Qed.
Lemma wf_first_declaration sc fn d : wf_declaration U sc fn d -> fits (Avoids [">"; ")"]) (b_tok (first_declaration d)).
Proof.
  destruct d as [[m|] b t|[(c & x)|] p k g e]; cbn [first_declaration]; intro W.
  - destruct W as (W & _). cbn [GrammarSpec.perhaps] in W. apply fits_among in W. eapply fits_weaken; [exact W|reflexivity].
  - destruct W as (_ & (_ & I) & _). apply (identifier_avoids U HU); [exact I|reflexivity].
  - destruct W as ((W & _) & _). apply fits_word in W. eapply fits_weaken; [exact W|reflexivity].
  - destruct W as (_ & W & _). apply fits_word in W. eapply fits_weaken; [exact W|reflexivity].
Qed.
Ltac ahead ::= first [apply tok_declaration | apply tok_coltype | apply tok_yield | apply tok_items | apply tok_query | apply tok_type | apply tok_table | eassumption].
Lemma loop_declared_end sc fn l n rp rest : is_word rp ")" -> steps declared_loop (declared_frame sc fn l n) (rp :: rest) Norm (declared_frame sc fn l n) (rp :: rest).
Proof. intro K. apply fits_word in K. unfold declared_loop. cbn [parse_grouped_type_declaration_or_constraints f_body]. apply steps_while_end. apply (decides_not U _ _ _ true). decide_ HU. Qed.
Lemma loop_declared sc fn ds : (fn = true -> sc = false) -> wf_declarations U sc fn ds -> forall rp rest l n, is_word rp ")" ->
  steps declared_loop (declared_frame sc fn l n) (yield_declarations ds ++ rp :: rest) Norm (declared_frame sc fn (l ++ tree_declarations U ds) n) (rp :: rest).
Proof.
  intro Ex. induction ds as [d|d c r IH]; intros W rp rest l n Kr; pose proof (fits_word U _ _ Kr) as K.
  - destruct (declaration_step sc fn d rp rest l n Ex W) with (rest' := rp :: rest) as (e & S & Le).
    + eapply fits_weaken; [exact K|reflexivity].
    + intros K'. apply among_word in K' as (w & [<-|[]] & K'). unfold GrammarSpec.is_word in *. rewrite Kr in K'. discriminate.
    + reflexivity.
    + replace (mem_pats (upper_literal U (b_tok rp)) [","]) with false in Le by (symmetry; eapply known_in_ok; [exact K|reflexivity]).
      pose proof (loop_declared_end sc fn (l ++ [tree_declaration U d]) n rp rest Kr) as E.
      unfold declared_loop in *. cbn [parse_grouped_type_declaration_or_constraints f_body] in *. apply wf_first_declaration in W. cbn [yield_declarations tree_declarations].
      eapply steps_while_more; [apply decides_not_false; decide_ HU|exact S|]. change (length (declared_frame sc fn l n)) with 5. rewrite Le. exact E.
  - destruct W as (W & Kc & Wr). apply fits_word in Kc. cbn [yield_declarations tree_declarations]. rewrite <- app_assoc. cbn [app].
    destruct (declaration_step sc fn d c (yield_declarations r ++ rp :: rest) l n Ex W) with (rest' := yield_declarations r ++ rp :: rest) as (e & S & Le).
    + eapply fits_weaken; [exact Kc|reflexivity].
    + intros _. split; [reflexivity|]. destruct (yield_declarations r); discriminate.
    + intros K'. apply among_word in K' as (w & [<-|[]] & K'). apply among_word in Kc as (w & [<-|[]] & Kc). unfold GrammarSpec.is_word in *. rewrite Kc in K'. discriminate.
    + replace (mem_pats (upper_literal U (b_tok c)) [","]) with true in Le by (symmetry; eapply known_in_ok; [exact Kc|reflexivity]).
      specialize (IH Wr rp rest (l ++ [with_kid "comma" (symbol c) (tree_declaration U d)]) n Kr). rewrite <- app_assoc in IH. cbn [app] in IH.
      unfold declared_loop in *. cbn [parse_grouped_type_declaration_or_constraints f_body] in *. apply wf_first_declaration in W.
      eapply steps_while_more; [apply decides_not_false; decide_ HU|exact S|]. change (length (declared_frame sc fn l n)) with 5. rewrite Le. exact IH.
Qed.
Lemma decides_some x e bs y l : env_get x e = Some (VVec (y :: l)) -> decides U (CNonEmpty x) e bs true.
Proof. apply decides_nonempty. Qed.
Lemma decides_none x e bs : env_get x e = Some (VVec []) -> decides U (CNonEmpty x) e bs false.
Proof. apply decides_nonempty. Qed.
Lemma declared_call sc fn g f R : (fn = true -> sc = false) -> wf_declared U sc fn g ->
  exists b, calls F_parse_grouped_type_declaration_or_constraints [VBool sc; VBool fn] (yield_declared g ++ f :: R) (VNode (tree_declared U g)) (b :: f :: R).
Proof.
  destruct g as [lp ds rp]. intros Ex (Kl & W & Kr). exists rp. cbn [yield_declared tree_declared app]. rewrite <- app_assoc. cbn [app].
  pose proof (fits_word U _ _ Kr) as K.
  destruct ds as [ds|].
  - pose proof (loop_declared sc fn ds Ex W rp (f :: R) [] (made N_GroupedTypeDeclarationOrConstraints lp []) Kr) as S.
    unfold declared_loop, declared_frame in S. cbn [parse_grouped_type_declaration_or_constraints f_body app] in S.
    assert (Ne : yield_declarations ds ++ rp :: f :: R <> []) by (destruct (yield_declarations ds); discriminate).
    assert (Nt : exists x xs, tree_declarations U ds = x :: xs) by (destruct ds; cbn [tree_declarations]; eauto). destruct Nt as (x & xs & Nt). rewrite Nt in *. cbn [app].
    eapply calls_body; [reflexivity|]. cbn [prog parse_grouped_type_declaration_or_constraints f_body f_params combine].
    Ltac special ::= lazymatch goal with |- Forward.steps _ (MiniRust.While _ _) _ _ _ _ _ => eassumption
      | |- Forward.steps _ (MiniRust.If (CNonEmpty _) _ _) _ _ _ _ _ => eapply steps_eq; [first [eapply steps_if with (v := true); [eapply decides_some; reflexivity|] | eapply steps_if with (v := false); [apply decides_none; reflexivity|]]; norm; step HU | envr] end.
    step HU.
  - pose proof (loop_declared_end sc fn [] (made N_GroupedTypeDeclarationOrConstraints lp []) rp (f :: R) Kr) as S.
    unfold declared_loop, declared_frame in S. cbn [parse_grouped_type_declaration_or_constraints f_body app] in S. cbn [app].
    eapply calls_body; [reflexivity|]. cbn [prog parse_grouped_type_declaration_or_constraints f_body f_params combine]. step HU.
Qed.
Ltac special ::= fail.
Lemma declared_calls sc fn suffix : (fn = true -> sc = false) -> part_calls U F_parse_grouped_type_declaration_or_constraints [VBool sc; VBool fn] (ADeclared sc fn) suffix.
Proof.
  intros Ex p f R T L W. destruct p; cbn [DefinitionSpec.wf_part] in W; try contradiction. destruct (declared_call sc fn g f R Ex W) as (b & C). do 2 eexists. split; [reflexivity|exact C].
Qed.
Lemma returns_call t f R : wf_coltype U true false false t -> fits (Avoids type_ends) (b_tok f) ->
  exists b, calls F_parse_type [VBool false; VBool false] (yield_coltype t ++ f :: R) (VNode (tree_coltype U t)) (b :: f :: R).
Proof. intros W K. apply (every_coltype t true false false); [discriminate|exact W|]. split; [exact K|]. split; discriminate. Qed.
End WithUnicode.
