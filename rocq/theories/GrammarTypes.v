(* The types of GrammarSpec.v, and the literals that begin with one. *)
From Verif Require Import Chars Token Cst Core MiniRust Program Bundles ParserView ParserGeneric ShapeSound GroupingSpec GroupingExpr
  Forward GrammarSpec GrammarTactics GrammarExpr GrammarReach GrammarOps GrammarItems.
Local Open Scope string_scope.
Local Open Scope list_scope.
Local Notation length := List.length.

(* the loops of parse_type and of parse_expr: parser.rs:1439-1457, 407-415 *)
Definition type_loop : cmd fn :=
  match f_body parse_type with
  | Seq _ (Seq (CaseUpper _ _ _ (CaseUpper _ _ (Seq _ (Seq (If _ (Seq _ (Seq _ (Seq _ (Seq _ (Seq a _))))) _) _)) _)) _) => a
  | _ => Skip end.
Definition struct_loop : cmd fn :=
  match H2 with
  | If _ _ (If _ (CaseUpper _ _ _ (CaseUpper _ _ _ (CaseUpper _ _ (Seq _ (Seq _ (Seq _ (Seq _ (Seq a _))))) _))) _) => a
  | _ => Skip end.

Section WithUnicode.
Context (U : unicode) (HU : ascii_faithful U).
Local Notation steps := (steps U).
Local Notation calls := (calls U).
Local Notation is_word := (is_word U).
Local Notation word_in := (word_in U).
Local Notation tree := (tree U).
Local Notation tree_type := (tree_type U).
Local Notation wf := (wf U).
Local Notation wf_type := (wf_type U).
Local Notation fits := (fits_known U).
Local Notation reach := (reach U).
Local Notation after := (after U).

Definition first_field (f : field) : bundle := match f with Unnamed t => first_type t | FieldOf b _ => b end.
Definition first_fields (fs : fields) : bundle := match fs with LastField f | MoreFields f _ _ => first_field f end.
Lemma tok_field f rest : tok_at (yield_field f ++ rest) 0 = Some (b_tok (first_field f)).
Proof. destruct f; cbn [yield_field first_field]; [apply tok_type|reflexivity]. Qed.
Lemma tok_fields fs rest : tok_at (yield_fields fs ++ rest) 0 = Some (b_tok (first_fields fs)).
Proof. destruct fs; cbn [yield_fields first_fields]; rewrite <- ?app_assoc; apply tok_field. Qed.
Ltac ahead ::= first [apply tok_yield | apply tok_items | apply tok_item | apply tok_query | apply tok_type | apply tok_fields | apply tok_field | eassumption].
Ltac call ::= eassumption.
Ltac special ::= fail.

Definition type_enders : list string := [","; ">"; ")"; "["; "("; ";"; ""; "DEFAULT"; "AS"; "LANGUAGE"; "DETERMINISTIC"; "NOT"; "OPTIONS"; "REMOTE"; "FORMAT"].
Definition bare (t : type_) : Prop := match t with TName _ => True | _ => False end.
Definition type_ok (t : type_) : Prop := forall f rest, fits (Among type_enders) (b_tok f) -> (bare t -> fits (Avoids ["("]) (b_tok f)) ->
  exists b, calls F_parse_type [VBool false; VBool false] (yield_type t ++ f :: rest) (VNode (tree_type t)) (b :: f :: rest).

Lemma name_type b : name U b -> fits (Avoids ["ARRAY"; "RANGE"; "STRUCT"; "TABLE"; "ANY"; ","; ">"; "<"]) (b_tok b).
Proof.
  intros (N & I). apply fits_avoids. intros (w & Iw & W).
  assert (X : fits (Avoids [","; ">"; "<"]) (b_tok b)) by (apply identifier_avoids; [exact HU|exact I|reflexivity]).
  assert (Y : In w reserved_here \/ In w [","; ">"; "<"]) by (cbn in Iw |- *; tauto). destruct Y as [Y|Y].
  - apply N. now exists w.
  - apply (fits_word U) in W. cbn [fits_known] in W, X. unfold mem_pats in *. cbn [existsb] in *. cbn in Y.
    destruct Y as [<-|[<-|[<-|[]]]]; destruct (str_eqb _ _); destruct (str_eqb _ _); destruct (str_eqb _ _); try discriminate.
Qed.
Lemma ok_name b : name U b -> type_ok (TName b).
Proof.
  intros N f rest K K'. exists b. specialize (K' Logic.I). apply name_type in N. cbn [yield_type app GrammarSpec.tree_type].
  eapply calls_body; [reflexivity|]. cbn [prog parse_type f_body f_params combine]. step HU.
Qed.
Lemma ok_param b lp es rp : name U b -> is_word lp "(" -> wfs U false true es -> exprs_ok U false es -> is_word rp ")" -> type_ok (TParam b lp es rp).
Proof.
  intros N Kl We Ce Kr f rest K _. exists rp. apply name_type in N. cbn [yield_type app GrammarSpec.tree_type]. rewrite <- app_assoc. cbn [app].
  pose proof (grouped_call U HU false true lp es rp (f :: rest) Kl We Ce Kr) as C. apply fits_word in Kl.
  eapply calls_body; [reflexivity|]. cbn [prog parse_type f_body f_params combine]. step HU.
Qed.
Lemma ok_bare b : word_in b ["ARRAY"; "STRUCT"] -> type_ok (TBare b).
Proof.
  intros Kb f rest K _. exists b. apply fits_among in Kb. cbn [yield_type app GrammarSpec.tree_type].
  destruct (fits_either U b ["ARRAY"] ["STRUCT"] Kb) as [K1|K1]; clear Kb;
    (eapply calls_body; [reflexivity|]; cbn [prog parse_type f_body f_params combine]; step HU).
Qed.
Lemma ok_array b lt t gt : is_word b "ARRAY" -> literally lt "<" -> type_ok t -> is_word gt ">" -> type_ok (TArray b lt t gt).
Proof.
  intros Kb Kl Ct Kg f rest K _. exists gt. apply fits_word in Kb, Kg. cbn [yield_type app GrammarSpec.tree_type]. rewrite <- app_assoc. cbn [app].
  destruct (Ct gt (f :: rest)) as (b' & C); [eapply fits_weaken; [exact Kg|reflexivity]|intros _; eapply fits_weaken; [exact Kg|reflexivity]|].
  eapply calls_body; [reflexivity|]. cbn [prog parse_type f_body f_params combine]. step HU.
Qed.

(* ----- STRUCT<...> ----- *)
Definition field_ok (f : field) : Prop := match f with Unnamed t | FieldOf _ t => type_ok t end.
Fixpoint fields_ok (fs : fields) : Prop := match fs with LastField f => field_ok f | MoreFields f _ r => field_ok f /\ fields_ok r end.
Definition type_frame (v : value) (n1 n2 : node) : env :=
  [("type_declarations", v); ("type_", VNode n1); ("res_", VNode n2); ("res", VUndef); ("schema", VBool false); ("aggregate", VBool false)].
Lemma wf_first_type t : wf_type t -> fits (Avoids [","; ">"; "TYPE"; "<"]) (b_tok (first_type t)).
Proof.
  assert (A : forall b, name U b -> ~ is_word b "TYPE" -> fits (Avoids [","; ">"; "TYPE"; "<"]) (b_tok b)).
  { intros b N T. apply name_type in N. apply fits_avoids. intros (w & I & W). cbn in I.
    assert (X : w = "TYPE" \/ In w [","; ">"; "<"]) by (cbn; intuition). destruct X as [->|X]; [contradiction|].
    cbn [fits_known] in N. unfold mem_pats in N. assert (existsb (fun p => str_eqb (upper_literal U (b_tok b)) (s_ p)) ["ARRAY"; "RANGE"; "STRUCT"; "TABLE"; "ANY"; ","; ">"; "<"] = true).
    { apply existsb_exists. exists w. split; [cbn in X |- *; tauto|]. now apply str_eqb_eq. } congruence. }
  destruct t; cbn [GrammarSpec.wf_type first_type]; intro W.
  1: now apply A.
  1: apply A; apply W.
  1: (eapply fits_weaken; [apply fits_among; exact W|reflexivity]).
  all: destruct W as (W & _); (eapply fits_weaken; [apply fits_word; exact W|reflexivity]).
Qed.
Lemma wf_first_field f : wf_field U f -> fits (Avoids [","; ">"]) (b_tok (first_field f)).
Proof.
  destruct f; cbn [wf_field first_field]; intros (W & _).
  - eapply fits_weaken; [now apply wf_first_type|reflexivity].
  - eapply fits_weaken; [now apply name_type|reflexivity].
Qed.
Lemma field_step f g rest l n1 n2 : wf_field U f -> field_ok f -> fits (Among [","; ">"]) (b_tok g) -> forall rest',
  (fits (Among [","]) (b_tok g) -> rest' = rest /\ rest <> []) -> (fits (Among [">"]) (b_tok g) -> rest' = g :: rest) ->
  exists e, match type_loop with While _ c => steps c (type_frame (VVec l) n1 n2) (yield_field f ++ g :: rest) Norm e rest' | _ => False end /\
    env_leave 6 e = type_frame (VVec (l ++ [if mem_pats (upper_literal U (b_tok g)) [","] then with_kid "comma" (symbol g) (tree_field U f) else tree_field U f])) n1 n2.
Proof.
  intros W C K rest' R1 R2.
  assert (D : exists b, calls F_parse_type [VBool false; VBool false] (match f with Unnamed t => yield_type t | FieldOf _ t => yield_type t end ++ g :: rest)
    (VNode (match f with Unnamed t | FieldOf _ t => tree_type t end)) (b :: g :: rest)).
  { destruct f; cbn [field_ok] in C; (apply C; [|intros _]); (eapply fits_weaken; [exact K|reflexivity]). }
  destruct D as (b & D). unfold type_loop. cbn [parse_type f_body]. unfold type_frame.
  destruct f as [t|b0 t].
  - change (yield_field (Unnamed t)) with (yield_type t). change (tree_field U (Unnamed t)) with (Node None N_TypeDeclaration [("type", CNode (tree_type t))]). destruct W as (W & Nt).
    assert (T1 : exists b1, tok_at (yield_type t ++ g :: rest) 1 = Some (b_tok b1) /\ fits (Among [","; ">"; "<"]) (b_tok b1)).
    { destruct t; cbn [GrammarSpec.wf_type yield_type app] in *; try contradiction; (eexists; split; [reflexivity|]).
      1, 2: eapply fits_weaken; [exact K|reflexivity].
      all: destruct W as (_ & W & _); apply (literal_word U HU) in W; [|reflexivity]; eapply fits_weaken; [apply fits_word; exact W|reflexivity]. }
    destruct T1 as (b1 & T1 & K1).
    destruct (fits_either U g [","] [">"] K) as [Kg|Kg]; pose proof Kg as Kg'; cbn [fits_known] in Kg'.
    + rewrite Kg'. destruct (R1 Kg) as (-> & Ne). clear K. eexists. split; [step HU|]. reflexivity.
    + specialize (R2 Kg). subst rest'. replace (mem_pats (upper_literal U (b_tok g)) [","]) with false.
      2: { symmetry. eapply known_in_ok; [exact Kg|reflexivity]. }
      clear K. eexists. split; [step HU|]. reflexivity.
  - change (yield_field (FieldOf b0 t)) with (b0 :: yield_type t). change (tree_field U (FieldOf b0 t)) with (made N_TypeDeclaration b0 [("type", CNode (tree_type t))]).
    destruct W as (N & W). apply wf_first_type in W. cbn [app].
    destruct (fits_either U g [","] [">"] K) as [Kg|Kg]; pose proof Kg as Kg'; cbn [fits_known] in Kg'.
    + rewrite Kg'. destruct (R1 Kg) as (-> & Ne). clear K. rewrite with_kid_made by reflexivity. eexists. split; [step HU|]. reflexivity.
    + specialize (R2 Kg). subst rest'. replace (mem_pats (upper_literal U (b_tok g)) [","]) with false.
      2: { symmetry. eapply known_in_ok; [exact Kg|reflexivity]. }
      clear K. eexists. split; [step HU|]. reflexivity.
Qed.
Lemma loop_fields fs : wf_fields U fs -> fields_ok fs -> forall gt rest l n1 n2, is_word gt ">" ->
  steps type_loop (type_frame (VVec l) n1 n2) (yield_fields fs ++ gt :: rest) Norm (type_frame (VVec (l ++ tree_fields U fs)) n1 n2) (gt :: rest).
Proof.
  assert (E : forall l n1 n2 gt rest, is_word gt ">" -> steps type_loop (type_frame l n1 n2) (gt :: rest) Norm (type_frame l n1 n2) (gt :: rest)).
  { intros l n1 n2 gt rest K. apply fits_word in K. unfold type_loop. cbn [parse_type f_body]. apply steps_while_end. apply (decides_not U _ _ _ true). decide_ HU. }
  induction fs as [f|f c r IH]; intros W C gt rest l n1 n2 Kg.
  - change (yield_fields (LastField f)) with (yield_field f). change (tree_fields U (LastField f)) with [tree_field U f].
    pose proof (fits_word U _ _ Kg) as K.
    destruct (field_step f gt rest l n1 n2 W C) with (rest' := gt :: rest) as (e & S & Le).
    + eapply fits_weaken; [exact K|reflexivity].
    + intros K'. apply among_word in K' as (w & [<-|[]] & K'). unfold GrammarSpec.is_word in *. rewrite Kg in K'. discriminate.
    + reflexivity.
    + replace (mem_pats (upper_literal U (b_tok gt)) [","]) with false in Le by (symmetry; eapply known_in_ok; [exact K|reflexivity]).
      unfold type_loop in *. cbn [parse_type f_body] in *. apply wf_first_field in W.
      eapply steps_while_more; [apply decides_not_false; decide_ HU|exact S|]. change (length (type_frame (VVec l) n1 n2)) with 6. rewrite Le. now apply E.
  - change (yield_fields (MoreFields f c r)) with (yield_field f ++ c :: yield_fields r).
    change (tree_fields U (MoreFields f c r)) with (with_kid "comma" (symbol c) (tree_field U f) :: tree_fields U r).
    destruct W as (W & Kc & Wr). destruct C as (C & Cr). pose proof (fits_word U _ _ Kc) as K. rewrite <- app_assoc. cbn [app].
    destruct (field_step f c (yield_fields r ++ gt :: rest) l n1 n2 W C) with (rest' := yield_fields r ++ gt :: rest) as (e & S & Le).
    + eapply fits_weaken; [exact K|reflexivity].
    + intros _. split; [reflexivity|]. destruct (yield_fields r); discriminate.
    + intros K'. apply among_word in K' as (w & [<-|[]] & K'). unfold GrammarSpec.is_word in *. rewrite Kc in K'. discriminate.
    + replace (mem_pats (upper_literal U (b_tok c)) [","]) with true in Le by (symmetry; eapply known_in_ok; [exact K|reflexivity]).
      specialize (IH Wr Cr gt rest (l ++ [with_kid "comma" (symbol c) (tree_field U f)]) n1 n2 Kg). rewrite <- app_assoc in IH. cbn [app] in IH.
      unfold type_loop in *. cbn [parse_type f_body] in *. apply wf_first_field in W.
      eapply steps_while_more; [apply decides_not_false; decide_ HU|exact S|]. change (length (type_frame (VVec l) n1 n2)) with 6. rewrite Le. exact IH.
Qed.
Lemma ok_struct b lt fs gt : is_word b "STRUCT" -> literally lt "<" -> wf_fields U fs -> fields_ok fs -> is_word gt ">" -> type_ok (TStruct b lt fs gt).
Proof.
  intros Kb Kl Wf Cf Kg f rest K _. exists gt.
  pose proof (loop_fields fs Wf Cf gt (f :: rest) [] (made N_GroupedTypeDeclarationOrConstraints lt []) (made N_Type b []) Kg) as S.
  unfold type_loop, type_frame in S. cbn [parse_type f_body app] in S. cbn [app].
  apply fits_word in Kb, Kg. cbn [yield_type app GrammarSpec.tree_type]. rewrite <- app_assoc. cbn [app].
  assert (Ne : yield_fields fs ++ gt :: f :: rest <> []) by (destruct (yield_fields fs); discriminate).
  eapply calls_body; [reflexivity|]. cbn [prog parse_type f_body f_params combine].
  Ltac special ::= lazymatch goal with |- Forward.steps _ (While _ _) _ _ _ _ _ => eassumption end.
  step HU.
Qed.

(* ----- literals ----- *)
Lemma array_type t : is_word (first_type t) "ARRAY" -> wf_type t -> ~ bare t /\ exists r, yield_type t = first_type t :: r /\
  forall lp rest, is_word lp "[" -> exists b bs, r ++ lp :: rest = b :: bs /\ fits (Avoids ["("]) (b_tok b).
Proof.
  intros K W. assert (N : ~ name U (first_type t)).
  { intros (N & _). apply N. exists "ARRAY". split; [cbn; tauto|exact K]. }
  destruct t; cbn [GrammarSpec.wf_type first_type bare] in *; try (destruct W; contradiction); (split; [tauto|]); cbn [yield_type].
  1: { exists []. split; [reflexivity|]. intros lp rest Kl. exists lp, rest. split; [reflexivity|]. eapply fits_weaken; [apply fits_word; exact Kl|reflexivity]. }
  all: destruct W as (_ & W & _); eexists; (split; [reflexivity|]); intros lp rest _; cbn [app]; do 2 eexists; (split; [reflexivity|]);
    apply (literal_word U HU) in W; [|reflexivity]; (eapply fits_weaken; [apply fits_word; exact W|reflexivity]).
Qed.
Lemma reach_typed_array t lp es rp : is_word (first_type t) "ARRAY" -> wf_type t -> type_ok t -> is_word lp "[" -> wfs U false false es -> exprs_ok U false es ->
  is_word rp "]" -> reach (TypedArray t lp es rp).
Proof.
  intros Kt Wt Ct Kl We Ce Kr. destruct (array_type t Kt Wt) as (Nb & r & Y & T).
  apply reach_head with (b := first_type t) (r := r ++ lp :: yields es ++ [rp]); [cbn [yield]; now rewrite Y|]. intros ty p al od rest A.
  destruct (T lp (yields es ++ rp :: rest) Kl) as (b & bs & E & Kb).
  apply fits_word in Kl, Kr, Kt. pose proof (trails_false U _ _ We) as Tr. apply first_items_avoids in We.
  destruct (Ct lp (yields es ++ rp :: rest)) as (b1 & C1); [eapply fits_weaken; [exact Kl|reflexivity]|intro; contradiction|].
  destruct (exprs_plain U HU _ _ [] ["]"] rp rest Ce Kr) as (b2 & C2); try reflexivity; [congruence|].
  rewrite Y in C1. rewrite <- app_assoc. cbn [app] in *. rewrite <- app_assoc. cbn [app lastb GrammarSpec.tree]. rewrite E in *.
  apply after_cons in A as (f & r0 & -> & _). unfold H2, frame. cbn [parse_expr f_body].
  assert (Tb : tok_at (b :: bs) 0 = Some (b_tok b)) by reflexivity.
  step HU.
Qed.
Definition struct_frame (v : value) (n1 n2 n3 : node) (p : N) (al od : bool) : env :=
  ("exprs", v) :: ("struct_literal", VNode n1) :: ("type_", VNode n2) :: frame p al od (VNode n3).
Lemma loop_struct es : wfs U true false es -> all_items (item_ok U true) es -> forall rp rest l n1 n2 n3 p al od c, is_word rp ")" ->
  exists b, steps struct_loop (struct_frame (VVec l) n1 n2 n3 p al od) (c :: yields es ++ rp :: rest) Norm
    (struct_frame (VVec (l ++ trees U es)) n1 n2 n3 p al od) (b :: rp :: rest).
Proof.
  induction es as [i|i cm|i cm r IH]; intros W C rp rest l n1 n2 n3 p al od c Kr.
  - change (yields (One i)) with (yield_item i). change (trees U (One i)) with [tree_item U i].
    apply (first_items_avoids U true false (One i)) in W. cbn [first_items] in W. apply fits_word in Kr. cbn [all_items] in C.
    destruct (C rp rest) as (b & D); [eapply fits_weaken; [exact Kr|reflexivity]|eapply (no_fuse U HU); [exact Kr|reflexivity]|]. exists b.
    assert (Ne : yield_item i ++ rp :: rest <> []) by (destruct (yield_item i); discriminate).
    unfold struct_loop, struct_frame, frame, H2. cbn [parse_expr f_body].
    eapply steps_while_more; [apply decides_not_false; decide_ HU|norm; step HU|]. norm. apply steps_while_end. apply (decides_not U _ _ _ true). decide_ HU.
  - destruct W as (W & _). discriminate W.
  - change (yields (More i cm r)) with (yield_item i ++ cm :: yields r). change (trees U (More i cm r)) with (with_kid "comma" (symbol cm) (tree_item U i) :: trees U r).
    destruct W as (W & Kc & Wr). destruct C as (C & Cr). rewrite <- app_assoc. cbn [app].
    apply (first_items_avoids U true false (One i)) in W. cbn [first_items] in W. apply fits_word in Kc.
    destruct (C cm (yields r ++ rp :: rest)) as (b & D); [eapply fits_weaken; [exact Kc|reflexivity]|eapply (no_fuse U HU); [exact Kc|reflexivity]|].
    destruct (IH Wr Cr rp rest (l ++ [with_kid "comma" (symbol cm) (tree_item U i)]) n1 n2 n3 p al od cm Kr) as (b2 & S). rewrite <- app_assoc in S. cbn [app] in S.
    exists b2. assert (Ne : yield_item i ++ cm :: yields r ++ rp :: rest <> []) by (destruct (yield_item i); discriminate).
    unfold struct_loop, struct_frame, frame, H2 in *. cbn [parse_expr f_body] in *.
    eapply steps_while_more; [apply decides_not_false; decide_ HU|norm; step HU|]. norm. exact S.
Qed.
Lemma struct_type t : is_word (first_type t) "STRUCT" -> wf_type t -> ~ bare t /\ exists r, yield_type t = first_type t :: r.
Proof.
  intros K W. assert (N : ~ name U (first_type t)).
  { intros (N & _). apply N. exists "STRUCT". split; [cbn; tauto|exact K]. }
  destruct t; cbn [GrammarSpec.wf_type first_type bare] in *; try (destruct W; contradiction); (split; [tauto|]); cbn [yield_type]; eauto.
Qed.
Lemma reach_struct t lp es rp : is_word (first_type t) "STRUCT" -> wf_type t -> type_ok t -> is_word lp "(" -> wfs U true false es -> all_items (item_ok U true) es ->
  is_word rp ")" -> reach (Struct t lp es rp).
Proof.
  intros Kt Wt Ct Kl We Ce Kr. destruct (struct_type t Kt Wt) as (Nb & r & Y).
  apply reach_head with (b := first_type t) (r := r ++ lp :: yields es ++ [rp]); [cbn [yield]; now rewrite Y|]. intros ty p al od rest A.
  destruct (loop_struct es We Ce rp rest [] (made N_StructLiteral lp []) (tree_type t) (made ty (first_type t) []) p al od lp Kr) as (b2 & S).
  unfold struct_loop, struct_frame, frame, H2 in S. cbn [parse_expr f_body app] in S.
  apply fits_word in Kl, Kr, Kt.
  destruct (Ct lp (yields es ++ rp :: rest)) as (b1 & C1); [eapply fits_weaken; [exact Kl|reflexivity]|intro; contradiction|].
  rewrite Y in C1. rewrite <- app_assoc. cbn [app] in *. rewrite <- app_assoc. cbn [app lastb GrammarSpec.tree].
  apply after_cons in A as (f & r0 & -> & _). unfold H2, frame. cbn [parse_expr f_body].
  step HU.
Qed.
End WithUnicode.
