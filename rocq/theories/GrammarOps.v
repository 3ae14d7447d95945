(* The operators of parse_expr on the expressions of GrammarSpec.v. *)
From Verif Require Import Chars Token Cst Core MiniRust Program Bundles ParserView ParserGeneric ShapeSound GroupingSpec GroupingExpr
  Forward GrammarSpec GrammarTactics GrammarExpr GrammarReach.
Local Open Scope string_scope.
Local Open Scope list_scope.
Local Notation length := List.length.

Definition LoopBody : cmd fn := match Loop with While _ c => c | _ => Skip end.
Lemma loop_parts : Loop = While (CPrecLt 1 "precedence") LoopBody. Proof. reflexivity. Qed.

Section WithUnicode.
Context (U : unicode) (HU : ascii_faithful U).
Local Notation steps := (steps U).
Local Notation calls := (calls U).
Local Notation is_word := (is_word U).
Local Notation word_in := (word_in U).
Local Notation tree := (tree U).
Local Notation wf := (wf U).
Local Notation loosest_left := (loosest_left U).
Local Notation loosest_right := (loosest_right U).
Local Notation fits := (fits_known U).
Local Notation prec_in := (prec_in U).
Local Notation reach := (reach U).
Local Notation after := (after U).
Local Notation stops := (stops U).
Ltac ahead ::= first [apply tok_yield | apply tok_items | apply tok_query | eassumption].
Ltac call ::= eassumption.
Ltac special ::= fail.

(* [l] is read up to the operator [o], of precedence [c] *)
Definition starts (l : expr) (o : bundle) (c : N) : Prop := forall p al od r ct e2 bs2,
  (100 + loosest_left l < p)%N -> prec_in (o :: r) 0 = Some c ->
  steps (Seq Loop Tail) (frame p al od (VNode (tree l))) (lastb l :: o :: r) ct e2 bs2 ->
  steps (Seq H1 (Seq H2 (Seq Loop Tail))) (frame p al od VUndef) (yield l ++ o :: r) ct e2 bs2.
Lemma starts_reach ws l o c : reach l -> fits (Among ws) (b_tok o) ->
  known_in (Among ws) (suffix_words ++ order_words) = Some false -> forallb plain ws = true ->
  (opened U l -> fits (Avoids ["("]) (b_tok o)) -> (100 + loosest_right l <= c)%N -> starts l o c.
Proof.
  intros R K K' A Op L p al od r ct e2 bs2 Lp P S.
  assert (X : fits (Avoids (suffix_words ++ order_words)) (b_tok o)) by (eapply fits_weaken; [exact K|exact K']).
  apply R; [lia| |exact S].
  exists o, r, c. split; [reflexivity|]. split; [eapply fits_weaken; [exact X|reflexivity]|]. split; [eapply (no_fuse U HU); [exact K|exact A]|].
  split; [exact Op|]. split; [exact P|]. split; [exact L|]. intros _. eapply fits_weaken; [exact X|reflexivity].
Qed.
Lemma reach_op e l o ops c : starts l o c -> yield e = yield l ++ o :: ops ->
  (forall rest, prec_in (o :: ops ++ rest) 0 = Some c) ->
  (c <= 100 + loosest_left e)%N -> (loosest_left l <= loosest_left e)%N ->
  (forall p al od rest, after e rest ->
    steps LoopBody (frame p al od (VNode (tree l))) (lastb l :: o :: ops ++ rest) Norm (frame p al od (VNode (tree e))) (lastb e :: rest)) ->
  reach e.
Proof.
  intros R Y P Le Ll H p al od rest ct e2 bs2 L A S. rewrite Y, <- app_assoc. cbn [app].
  apply R; [lia|apply P|].
  rewrite loop_parts in *. eapply steps_while_more_seq; [|apply H; exact A|exact S].
  eapply decides_prec; [apply P|envr|]. apply N.ltb_lt. lia.
Qed.
Ltac body := unfold LoopBody, Loop, frame; cbn [parse_expr f_body].

Lemma prec_word1 b w c r : is_word b w -> prec_of (s_ w) = Some c -> prec_in (b :: r) 0 = Some c.
Proof. intros W P. apply fits_word in W. eapply prec_word; [apply tok_at_0|exact W|]. cbn [forallb]. now rewrite P, N.eqb_refl. Qed.

(* ----- subscripts ----- *)
Lemma reach_index e lp i rp : reach e -> fits_left U e 1 -> is_word lp "[" -> reach i -> is_word rp "]" -> reach (Index e lp i rp).
Proof.
  intros R Fl Kl Ri Kr. unfold fits_left in Fl. pose proof (fits_word U _ _ Kl) as Kl'. pose proof (fits_word U _ _ Kr) as Kr'.
  apply reach_op with (l := e) (o := lp) (ops := yield i ++ [rp]) (c := 101%N).
  - apply (starts_reach ["["]); try assumption; try reflexivity; [|lia]. intros _. eapply fits_weaken; [exact Kl'|reflexivity].
  - reflexivity.
  - intro rest. eapply prec_word1; [exact Kl|reflexivity].
  - cbn [GrammarSpec.loosest_left]. lia.
  - cbn [GrammarSpec.loosest_left]. lia.
  - intros p al od rest A. rewrite <- app_assoc. cbn [app lastb GrammarSpec.tree].
    pose proof (plain_call U HU ["]"] i true rp rest Ri Kr' eq_refl) as C.
    apply after_cons in A as (f & r & -> & _). body. step HU.
Qed.

(* ----- fields ----- *)
Lemma dotted_root e : dotted U e -> dot_root_type (tree e) = N_Identifier.
Proof.
  induction e; cbn [dotted GrammarSpec.tree]; try contradiction.
  - intros N. rewrite (name_kind U b N). unfold made, comment_list. destruct (b_lead b), (b_trail b); reflexivity.
  - intros (P & _). specialize (IHe P). unfold made, comment_list. destruct (b_lead dot), (b_trail dot); cbn; exact IHe.
Qed.
Lemma field_avoids b : field_name U b -> fits (Avoids ["("; "*"]) (b_tok b).
Proof.
  intros [I|K]; [apply identifier_avoids; [exact HU|exact I|reflexivity]|]. eapply fits_weaken; [apply fits_among; exact K|reflexivity].
Qed.
Lemma field_name_call b rest : stops 101 rest ->
  calls F_parse_expr [VNum 101; VBool false; VBool false; VBool true; VBool true] (b :: rest) (VNode (made N_Identifier b [])) (b :: rest).
Proof.
  intros (f & r & c & -> & K & P & L). eapply calls_body; [reflexivity|]. change (f_body (prog F_parse_expr)) with (f_body parse_expr). rewrite parts.
  change (combine (f_params (prog F_parse_expr)) [VNum 101; VBool false; VBool false; VBool true; VBool true])
    with [("precedence", VNum 101); ("alias", VBool false); ("as_table", VBool false); ("after_dot", VBool true); ("order", VBool true)].
  eapply steps_seq; [apply steps_declare|].
  eapply steps_seq; [unfold H1; cbn [parse_expr f_body]; step HU|].
  eapply steps_seq; [unfold H2; cbn [parse_expr f_body]; step HU|].
  eapply steps_seq; [rewrite loop_parts; apply steps_while_end; eapply decides_prec; [exact P|envr|now apply N.ltb_ge]|].
  unfold Tail; cbn [parse_expr f_body]. step HU.
Qed.
(* whether what follows the dot is a function *)
Lemma decides_not_chained e n b f r env0 d : env_get "left" env0 = Some (VNode n) -> (dot_root_type n <> N_Identifier -> fits (Avoids ["("]) (b_tok f)) ->
  fits (Avoids ["("]) (b_tok b) -> e = d :: b :: f :: r ->
  decides U (CAnd (CNot (CDotRootIs "left" N_Identifier)) (COr (CTok 1 (TIs "(")) (CTok 2 (TIs "(")))) env0 e false.
Proof.
  intros G H K ->. pose proof (decides_dot U "left" N_Identifier env0 (d :: b :: f :: r) n G) as D.
  destruct (nt_eqb (dot_root_type n) N_Identifier) eqn:E.
  - eapply decides_and; [eapply decides_not; exact D|reflexivity].
  - assert (Kf : fits (Avoids ["("]) (b_tok f)) by (apply H; intro X; rewrite X in E; discriminate).
    eapply decides_and; [eapply decides_not; exact D|]. cbv [negb]; cbv iota. decide_ HU.
Qed.
Ltac special ::= lazymatch goal with
  | |- Forward.steps _ (LetBool "is_chained_function" _) _ _ _ _ _ =>
      eapply steps_letbool; eapply decides_not_chained; [envr | | | reflexivity]; eassumption
  end.
Lemma reach_field e d b : reach e -> fits_left U e 2 -> is_word d "." -> field_name U b -> reach (Field e d b).
Proof.
  intros R Fl Kd Nb. unfold fits_left in Fl. pose proof (fits_word U _ _ Kd) as Kd'.
  apply reach_op with (l := e) (o := d) (ops := [b]) (c := 102%N).
  - apply (starts_reach ["."]); try assumption; try reflexivity; [|lia]. intros _. eapply fits_weaken; [exact Kd'|reflexivity].
  - reflexivity.
  - intro rest. eapply prec_word1; [exact Kd|reflexivity].
  - cbn [GrammarSpec.loosest_left]. lia.
  - cbn [GrammarSpec.loosest_left]. lia.
  - intros p al od rest A. cbn [app lastb GrammarSpec.tree].
    pose proof (field_name_call b rest ltac:(eapply after_stops; [exact A|discriminate|lia])) as C.
    apply field_avoids in Nb. assert (Nb' : fits (Avoids ["("]) (b_tok b)) by (eapply fits_weaken; [exact Nb|reflexivity]).
    destruct A as (f & r & c & -> & _ & _ & Op & _).
    assert (H : dot_root_type (tree e) <> N_Identifier -> fits (Avoids ["("]) (b_tok f)).
    { intro X. apply Op. cbn [opened]. intro P. apply X, dotted_root, P. }
    body. step HU.
Qed.
Lemma star_first s : star s -> wf s -> exists r, yield s = first s :: r /\ literally (first s) "*" /\ fits (Among ["*"]) (b_tok (first s)).
Proof.
  destruct s; cbn [star]; try contradiction; intros L W; cbn [yield first]; eexists; (split; [reflexivity|]; split; [exact L|]);
    apply fits_word; cbn [GrammarSpec.wf] in W; intuition.
Qed.
Lemma reach_all_of e d s : reach e -> fits_left U e 2 -> is_word d "." -> star s -> wf s -> reach s -> reach (AllOf e d s).
Proof.
  intros R Fl Kd St Ws Rs. unfold fits_left in Fl. pose proof (fits_word U _ _ Kd) as Kd'.
  apply reach_op with (l := e) (o := d) (ops := yield s) (c := 102%N).
  - apply (starts_reach ["."]); try assumption; try reflexivity; [|lia]. intros _. eapply fits_weaken; [exact Kd'|reflexivity].
  - reflexivity.
  - intro rest. eapply prec_word1; [exact Kd|reflexivity].
  - cbn [GrammarSpec.loosest_left]. lia.
  - cbn [GrammarSpec.loosest_left]. lia.
  - intros p al od rest A. cbn [app lastb GrammarSpec.tree].
    assert (C : calls F_parse_expr [VNum usize_max; VBool false; VBool false; VBool false; VBool true] (yield s ++ rest) (VNode (tree s)) (lastb s :: rest)).
    { destruct A as (f & r & c & -> & A1 & A2 & A3 & A4 & A5 & A6). cbn [GrammarSpec.loosest_right] in *.
      assert (c = usize_max) as ->.
      { revert A4 A5. clear. unfold GroupingExpr.prec_in. cbn [tok_at nth_error option_map]. unfold prec_of.
        repeat match goal with |- context [if ?x then _ else _] => destruct x end;
          try (intros [= <-]; unfold usize_max; lia);
          destruct (tok_at (f :: r) (0 + 1)); try discriminate;
          repeat match goal with |- context [if ?x then _ else _] => destruct x end; try discriminate; intros [= <-]; unfold usize_max; lia. }
      apply operand_call; try assumption; [apply left_small| |].
      - exists f, r, usize_max. repeat split; try assumption; [|unfold usize_max; pose proof (loosest_right_le U s); lia|].
        + intros _. apply (prec_paren U f r _ A4). discriminate.
        + intros _. apply A6. discriminate.
      - exists f, r, usize_max. repeat split; try assumption; [apply A6; discriminate|lia]. }
    destruct A as (f & r & c & -> & A1 & A2 & A3 & A4 & A5 & A6).
    assert (Kf : fits (Avoids ["("]) (b_tok f)) by (apply (prec_paren U f r c A4); cbn [GrammarSpec.loosest_right] in A5; lia).
    destruct (star_first s St Ws) as (r' & E & L & K). rewrite E in *. cbn [app] in *.
    assert (K' : fits (Avoids ["("]) (b_tok (first s))) by (eapply fits_weaken; [exact K|reflexivity]).
    assert (K2 : exists f' r2, r' ++ f :: r = f' :: r2 /\ fits (Avoids ["("]) (b_tok f')).
    { destruct s; cbn [star] in St; try contradiction; cbn [yield] in E; injection E as <-; cbn [app]; do 2 eexists; (split; [reflexivity|]); [exact Kf|].
      cbn [GrammarSpec.wf] in Ws. destruct Ws as (_ & Ws & _). eapply fits_weaken; [apply fits_among; exact Ws|reflexivity]. }
    destruct K2 as (f' & r2 & E2 & Kf'). rewrite E2 in *.
    assert (H : dot_root_type (tree e) <> N_Identifier -> fits (Avoids ["("]) (b_tok f')) by (intros _; exact Kf').
    body. step HU.
Qed.
End WithUnicode.
