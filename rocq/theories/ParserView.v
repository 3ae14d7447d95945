(* The parser's primitives act on the grouped token list: what each of them does to
   a state that stands at the first of the bundles [bs]. *)
From Verif Require Import Chars Token Cst Core MiniRust Bundles.
Local Open Scope list_scope.
Local Notation length := List.length.

(* State [s] stands at the first of the bundles [bs], which are the rest of the
   input, and has recorded that bundle's comments. *)
Definition view (s : pstate) (bs : list bundle) : Prop :=
  exists pre,
    tokens s = pre ++ flats bs /\ grouped bs /\
    match bs with
    | [] => False
    | b :: _ =>
        position s = length pre + length (b_lead b) /\
        leading_comment_indices s = seq (length pre) (length (b_lead b)) /\
        trailing_comment_indices s = seq (S (position s)) (length (b_trail b))
    end.

Lemma view_grouped s bs : view s bs -> grouped bs.
Proof. now intros (pre & _ & H & _). Qed.

Lemma view_cons s bs : view s bs -> exists b bs', bs = b :: bs'.
Proof. intros (pre & _ & _ & H). destruct bs; [contradiction|eauto]. Qed.

Definition eof_error (bs : list bundle) : error :=
  from_token (b_tok (last bs (Bundle [] eof_token []))) "Followed by unexpected EOF" None.

Lemma scan_comments cs l idx cnt offset : comments cs ->
  scan_offset (cs ++ l) idx cnt offset = scan_offset l (idx + length cs) cnt offset.
Proof.
  intro H. revert idx. induction H as [|c cs Hc H IH]; intro idx; cbn [app scan_offset length].
  - now rewrite Nat.add_0_r.
  - rewrite Hc, IH. f_equal. lia.
Qed.

Lemma scan_flats bs : grouped bs -> forall idx cnt j,
  scan_offset (flats bs) idx cnt (S cnt + j) =
  match nth_error bs j with
  | Some b => Some (idx + length (flats (firstn j bs)) + length (b_lead b))
  | None => None
  end.
Proof.
  induction 1 as [l t Hl Ht | l t tr b bs Hl Ht Hc Hs Hn H IH]; intros idx cnt j.
  - unfold flats, flat. cbn [map List.concat b_lead b_tok b_trail]. rewrite app_nil_r.
    rewrite scan_comments by assumption. cbn [scan_offset]. rewrite Ht.
    destruct j as [|j].
    + rewrite (proj2 (Nat.leb_le _ _)) by lia. cbn. f_equal. lia.
    + rewrite (proj2 (Nat.leb_gt _ _)) by lia. cbn. now destruct j.
  - rewrite flats_cons. unfold flat. cbn [b_lead b_tok b_trail].
    rewrite <- app_assoc, scan_comments by assumption. rewrite <- app_comm_cons. cbn [scan_offset].
    rewrite Ht. destruct j as [|j].
    + rewrite (proj2 (Nat.leb_le _ _)) by lia. cbn. f_equal. lia.
    + rewrite (proj2 (Nat.leb_gt _ _)) by lia.
      rewrite scan_comments by assumption.
      replace (S cnt + S j) with (S (S cnt) + j) by lia.
      rewrite IH. cbn [nth_error]. destruct (nth_error (b :: bs) j) as [b'|]; [|reflexivity].
      cbn [firstn]. rewrite flats_cons. unfold flat. cbn [b_lead b_tok b_trail].
      rewrite !app_length. cbn [length]. f_equal. lia.
Qed.

(* index of the j-th bundle's token in [flats bs] *)
Definition tok_index (bs : list bundle) (j : nat) : nat :=
  length (flats (firstn j bs)) +
  match nth_error bs j with Some b => length (b_lead b) | None => 0 end.

Lemma tok_index_0 b bs : tok_index (b :: bs) 0 = length (b_lead b).
Proof. reflexivity. Qed.
Lemma tok_index_S b bs k : tok_index (b :: bs) (S k) = length (flat b) + tok_index bs k.
Proof. unfold tok_index. cbn [firstn nth_error]. rewrite flats_cons, app_length. lia. Qed.

Lemma length_flat b : length (flat b) = length (b_lead b) + S (length (b_trail b)).
Proof. unfold flat. now rewrite app_length. Qed.

Lemma tok_index_nth bs j b : nth_error bs j = Some b ->
  nth_error (flats bs) (tok_index bs j) = Some (b_tok b).
Proof.
  unfold tok_index. intro H. rewrite H. revert j H.
  induction bs as [|b0 bs IH]; intros [|j] H; cbn [nth_error] in H; try discriminate.
  - injection H as ->. rewrite flats_cons. unfold flat. cbn [firstn flats map List.concat length Nat.add].
    rewrite <- app_assoc, nth_error_app2, Nat.sub_diag by lia. reflexivity.
  - cbn [firstn]. rewrite !flats_cons, app_length.
    rewrite nth_error_app2 by lia. rewrite <- (IH _ H). f_equal. lia.
Qed.

Lemma flats_last bs : grouped bs ->
  exists l, flats bs = l ++ [b_tok (last bs (Bundle [] eof_token []))].
Proof.
  induction 1 as [l t Hl Ht | l t tr b bs Hl Ht Hc Hs Hn H (l' & IH)].
  - exists l. unfold flats. cbn [map List.concat last]. rewrite app_nil_r. reflexivity.
  - exists (flat (Bundle l t tr) ++ l'). rewrite flats_cons, IH, app_assoc. reflexivity.
Qed.

Lemma last_grouped_tok bs d : grouped bs -> is_comment (b_tok (last bs d)) = false.
Proof. induction 1; assumption. Qed.

Lemma get_offset_index_view s pre bs k :
  tokens s = pre ++ flats bs -> view s bs -> length pre + tok_index bs 0 = position s ->
  get_offset_index k s =
  match nth_error bs k with
  | Some b => Ok (length pre + tok_index bs k) s
  | None => Err (eof_error bs) s
  end.
Proof.
  intros Et V Ep. unfold get_offset_index. destruct k as [|j].
  { destruct (view_cons _ _ V) as (b & bs' & ->). cbn [nth_error]. now rewrite Ep. }
  destruct (view_cons _ _ V) as (b & bs' & ->). cbn [nth_error].
  assert (Hsk : skipn (S (position s)) (tokens s) = b_trail b ++ flats bs').
  { rewrite Et, <- Ep, tok_index_0. rewrite flats_cons. unfold flat.
    rewrite <- Nat.add_succ_r, skipn_app, skipn_all2 by lia.
    rewrite Nat.add_comm, Nat.add_sub. cbn [app].
    rewrite <- app_assoc, skipn_app, skipn_all2 by lia.
    replace (S (length (b_lead b)) - length (b_lead b)) with 1 by lia. reflexivity. }
  rewrite Hsk. pose proof (view_grouped _ _ V) as G.
  destruct (grouped_head_comments _ _ G) as (_ & _ & Hc).
  rewrite scan_comments by assumption.
  replace (S j) with (S 0 + j) by lia.
  destruct bs' as [|b' bs'].
  - inversion G; subst. replace (nth_error [] j) with (@None bundle) by now destruct j.
    change (flats []) with (@nil token). cbn [scan_offset].
    destruct (flats_last _ G) as (l & El). rewrite Et, El, app_assoc.
    rewrite app_length, nth_error_app2 by (cbn; lia).
    replace (_ - _) with 0 by (cbn; lia). reflexivity.
  - assert (G' : grouped (b' :: bs')) by (inversion G; subst; assumption).
    rewrite scan_flats by exact G'.
    destruct (nth_error (b' :: bs') j) as [bj|] eqn:E.
    + f_equal. rewrite <- Ep, tok_index_0, tok_index_S, length_flat. unfold tok_index.
      rewrite E. lia.
    + destruct (flats_last _ G) as (l & El). rewrite Et, El, app_assoc.
      rewrite app_length, nth_error_app2 by (cbn; lia).
      replace (_ - _) with 0 by (cbn; lia). reflexivity.
Qed.

Lemma view_index s bs : view s bs -> exists pre,
  tokens s = pre ++ flats bs /\ length pre + tok_index bs 0 = position s.
Proof.
  intros (pre & Et & G & H). exists pre. split; [exact Et|]. destruct bs; [contradiction|].
  destruct H as (-> & _). unfold tok_index. cbn. lia.
Qed.

(* parser.rs:173-176 *)
Lemma get_token_view s bs k : view s bs ->
  get_token k s =
  match nth_error bs k with
  | Some b => Ok (b_tok b) s
  | None => Err (eof_error bs) s
  end.
Proof.
  intro V. destruct (view_index _ _ V) as (pre & Et & Ep).
  unfold get_token, bind. rewrite (get_offset_index_view _ _ _ k Et V Ep).
  destruct (nth_error bs k) as [b|] eqn:E; [|reflexivity].
  rewrite Et, nth_error_app2 by lia.
  replace (_ - _) with (tok_index bs k) by lia. rewrite (tok_index_nth _ _ _ E). reflexivity.
Qed.

Lemma tok_index_last bs k b : grouped bs -> nth_error bs k = Some b ->
  (length (flats bs) - 1 <= tok_index bs k) <-> length bs <= S k.
Proof.
  intro G. unfold tok_index. intro E. rewrite E. revert k b E.
  induction G as [l t Hl Ht | l t tr b0 bs Hl Ht Hc Hs Hn H IH]; intros k b E.
  - destruct k as [|k]; [|destruct k; discriminate]. injection E as <-.
    unfold flats, flat. cbn. rewrite app_nil_r, app_length. cbn. lia.
  - destruct k as [|k].
    + injection E as <-. cbn [firstn]. change (flats []) with (@nil token).
      rewrite !flats_cons, !app_length, !length_flat. cbn [b_lead b_tok b_trail length]. lia.
    + cbn [nth_error] in E. cbn [firstn]. rewrite (flats_cons _ (b0 :: bs)), (flats_cons _ (firstn _ _)).
      rewrite !app_length. specialize (IH k b E). cbn [length] in *.
      assert (1 <= length (flats (b0 :: bs))).
      { rewrite flats_cons. unfold flat. rewrite !app_length. cbn. lia. }
      lia.
Qed.

(* parser.rs:177-183 *)
Lemma is_eof_view s bs k : view s bs -> is_eof k s = Ok (Nat.leb (length bs) (S k)) s.
Proof.
  intro V. destruct (view_index _ _ V) as (pre & Et & Ep).
  unfold is_eof. rewrite (get_offset_index_view _ _ _ k Et V Ep).
  destruct (nth_error bs k) as [b|] eqn:E.
  - f_equal. pose proof (tok_index_last _ _ _ (view_grouped _ _ V) E) as T.
    rewrite Et, app_length.
    destruct (Nat.leb_spec (length bs) (S k)) as [L|L].
    + apply Nat.leb_le. apply T in L.
      assert (1 <= length (flats bs)).
      { destruct bs as [|b0 bs]; [destruct k; discriminate|]. rewrite flats_cons. unfold flat.
        rewrite !app_length. cbn. lia. }
      lia.
    + apply Nat.leb_gt. assert (~ (length (flats bs) - 1 <= tok_index bs k)) by (rewrite T; lia). lia.
  - apply nth_error_None in E. f_equal. symmetry. apply Nat.leb_le. lia.
Qed.

Lemma take_while_seq (p : nat -> bool) a n m :
  m <= n -> (forall i, i < m -> p (a + i) = true) ->
  (m < n -> p (a + m) = false) -> take_while p (seq a n) = seq a m.
Proof.
  revert a m. induction n as [|n IH]; intros a m Hm Ht Hf.
  - replace m with 0 by lia. reflexivity.
  - cbn [seq take_while]. destruct m as [|m].
    + rewrite <- (Nat.add_0_r a) at 1. rewrite Hf by lia. reflexivity.
    + rewrite <- (Nat.add_0_r a) at 1. rewrite Ht by lia. cbn [seq]. f_equal. apply IH.
      * lia.
      * intros i Hi. replace (S a + i) with (a + S i) by lia. apply Ht. lia.
      * intro Hl. replace (S a + m) with (a + S m) by lia. apply Hf. lia.
Qed.

Lemma rev_seq_last a n : rev (seq a (S n)) = (a + n) :: rev (seq a n).
Proof. rewrite seq_S, rev_app_distr. reflexivity. Qed.

(* parser.rs:184-210 *)
Lemma next_token_view s b b' bs : view s (b :: b' :: bs) ->
  exists s', next_token s = Ok tt s' /\ view s' (b' :: bs) /\ tokens s' = tokens s.
Proof.
  intro V. pose proof V as (pre & Et & G & Ep & El & Etr).
  set (s0 := set_leading [] s).
  assert (V0 : get_offset_index 1 s0 =
               Ok (length pre + length (flat b) + length (b_lead b')) s0).
  { assert (forall m, get_offset_index 1 s = m ->
      match m with Ok i _ => get_offset_index 1 s0 = Ok i s0 | _ => True end) as K.
    { unfold get_offset_index, s0. cbn [position tokens set_leading]. intros m <-.
      destruct (scan_offset _ _ _ _); [reflexivity|].
      destruct (nth_error _ _); reflexivity. }
    pose proof (get_offset_index_view s pre (b :: b' :: bs) 1 Et V) as I.
    rewrite tok_index_0, tok_index_S, tok_index_0 in I. cbn [nth_error] in I.
    specialize (I ltac:(lia)). rewrite Nat.add_assoc in I.
    exact (K _ I). }
  set (i' := length pre + length (flat b) + length (b_lead b')) in *.
  set (s1 := {| position := i';
                leading_comment_indices := seq (length pre + length (flat b)) (length (b_lead b'));
                trailing_comment_indices := [];
                tokens := tokens s |}).
  set (n2 := match get_offset_index 1 s1 with
             | Ok j _ => Ok tt (set_trailing (take_while (same_line (tokens s) i')
                            (seq (i' + 1) (j - (i' + 1)))) s1)
             | Err _ _ => Ok tt s1
             | Panic s' => Panic s' | Fuel => Fuel | Stuck => Stuck end).
  assert (Hn : next_token s = n2).
  { unfold next_token, bind, modify, get. fold s0. rewrite V0.
    assert (Hfrom : match rev (trailing_comment_indices s0) with
                    | n :: _ => n + 1 | [] => position s0 + 1 end = length pre + length (flat b)).
    { unfold s0. cbn [trailing_comment_indices position set_leading]. rewrite Etr.
      unfold flat. rewrite app_length. cbn [length].
      destruct (length (b_trail b)) as [|m]; [cbn; lia|]. rewrite rev_seq_last. lia. }
    rewrite Hfrom. replace (i' - (length pre + length (flat b))) with (length (b_lead b'))
      by (unfold i'; lia).
    unfold n2, s1, s0, set_position, set_leading, set_trailing.
    cbn [position leading_comment_indices trailing_comment_indices tokens]. reflexivity. }
  rewrite Hn.
  assert (G' : grouped (b' :: bs)) by (inversion G; subst; assumption).
  assert (Et1 : tokens s1 = (pre ++ flat b) ++ flats (b' :: bs)).
  { cbn [tokens s1]. rewrite Et, flats_cons, app_assoc. reflexivity. }
  unfold n2. destruct bs as [|b'' bs].
  - (* the last token *)
    exists s1. inversion G'; subst. split.
    + assert (Hsk : skipn (S i') (tokens s) = []).
      { apply skipn_all2. change (tokens s) with (tokens s1). rewrite Et1. unfold i'.
        rewrite flats_cons. change (flats []) with (@nil token).
        rewrite !app_length, !length_flat. cbn [b_lead b_trail length]. lia. }
      unfold get_offset_index. cbn [position tokens s1]. rewrite Hsk. cbn [scan_offset].
      destruct (nth_error (tokens s) (length (tokens s) - 1)) eqn:E; [reflexivity|].
      apply nth_error_None in E. rewrite Et, app_length in E. exfalso.
      rewrite !flats_cons in E. unfold flat in E. rewrite !app_length in E. cbn [length] in E. lia.
    + split; [|reflexivity]. exists (pre ++ flat b). split; [exact Et1|]. split; [exact G'|].
      cbn [position leading_comment_indices trailing_comment_indices s1 b_lead b_trail length seq].
      rewrite app_length. repeat split.
  - inversion G' as [|l t tr b2 bs2 Hl Ht Hc Hs Hnl H2]; subst.
    cbn [b_lead b_tok b_trail] in *.
    set (s2 := set_trailing (seq (S i') (length tr)) s1).
    assert (V2 : view s2 (Bundle l t tr :: b'' :: bs)).
    { exists (pre ++ flat b). split; [exact Et1|]. split; [exact G'|].
      cbn [position leading_comment_indices trailing_comment_indices s1 s2 set_trailing b_lead b_trail].
      rewrite app_length. repeat split. }
    exists s2. split; [|split; [exact V2|reflexivity]].
    assert (I : get_offset_index 1 s1 =
      Ok (length (pre ++ flat b) + tok_index (Bundle l t tr :: b'' :: bs) 1) s1).
    { pose proof (get_offset_index_view s2 (pre ++ flat b) _ 1 Et1 V2) as I.
      rewrite tok_index_0 in I. cbn [nth_error b_lead] in I.
      specialize (I ltac:(cbn [s2 s1 set_trailing position]; rewrite app_length; unfold i'; lia)).
      unfold get_offset_index, s2 in I |- *. cbn [position tokens set_trailing s1] in I |- *.
      destruct (scan_offset _ _ _ _); [|destruct (nth_error _ _); discriminate I].
      injection I as ->. reflexivity. }
    rewrite I. f_equal. unfold s2. f_equal. rewrite (Nat.add_1_r i').
    assert (Ej : length (pre ++ flat b) + tok_index (Bundle l t tr :: b'' :: bs) 1 - S i'
                 = length tr + length (b_lead b'')).
    { rewrite tok_index_S, tok_index_0, app_length, (length_flat (Bundle _ _ _)).
      unfold i'. cbn [b_lead b_trail]. lia. }
    rewrite Ej.
    (* token at offset *)
    assert (Hat : forall j, nth_error (tokens s) (i' + j) =
                  nth_error (t :: tr ++ flats (b'' :: bs)) j).
    { intro j. change (tokens s) with (tokens s1). rewrite Et1. rewrite flats_cons. unfold flat at 2.
      cbn [b_lead b_tok b_trail]. rewrite <- (app_assoc l), app_assoc.
      rewrite nth_error_app2 by (rewrite !app_length; unfold i'; cbn [b_lead]; lia).
      rewrite <- app_comm_cons. f_equal. rewrite !app_length. unfold i'. cbn [b_lead]. lia. }
    assert (H0 : nth_error (tokens s) i' = Some t).
    { rewrite <- (Nat.add_0_r i'), Hat. reflexivity. }
    apply take_while_seq; [lia| |].
    + intros j Hj. unfold same_line, line_of. rewrite H0.
      replace (S i' + j) with (i' + S j) by lia. rewrite Hat. cbn [nth_error].
      rewrite nth_error_app1 by lia. cbn [option_map].
      destruct (nth_error tr j) as [c|] eqn:E; [|apply nth_error_None in E; lia].
      cbn [option_map]. apply N.eqb_eq. symmetry.
      rewrite Forall_forall in Hs. apply Hs. eapply nth_error_In; eauto.
    + intro Hlt. unfold same_line, line_of. rewrite H0.
      replace (S i' + length tr) with (i' + S (length tr)) by lia. rewrite Hat. cbn [nth_error].
      rewrite nth_error_app2, Nat.sub_diag by lia. rewrite flats_cons. unfold flat.
      destruct (b_lead b'') as [|c r] eqn:E; [cbn in Hlt; lia|].
      cbn [app nth_error option_map]. apply N.eqb_neq. apply not_eq_sym. eapply Hnl; eauto.
Qed.

Lemma next_token_end s b : view s [b] -> next_token s = Err (eof_error [b]) (set_leading [] s).
Proof.
  intro V. destruct (view_index _ _ V) as (pre & Et & Ep).
  pose proof (get_offset_index_view _ _ _ 1 Et V Ep) as I. cbn [nth_error] in I.
  unfold next_token, bind, modify. unfold get_offset_index in *.
  cbn [position tokens set_leading] in *.
  destruct (scan_offset _ _ _ _); [discriminate|].
  destruct (nth_error _ _); [|discriminate].
  assert (E : forall A (e e' : error) s1 s2, @Err A e s1 = Err e' s2 -> e = e') by congruence.
  f_equal. exact (E _ _ _ _ _ I).
Qed.

Lemma comment_nodes_seq ts pre l post : ts = pre ++ l ++ post ->
  comment_nodes ts (seq (length pre) (length l)) = Some (map (fun c => node_new c N_Comment) l).
Proof.
  revert pre. induction l as [|c l IH]; intros pre E; [reflexivity|].
  cbn [length seq comment_nodes map]. rewrite E at 1.
  rewrite nth_error_app2, Nat.sub_diag by lia. cbn [app nth_error].
  specialize (IH (pre ++ [c])). rewrite app_length in IH. cbn [length] in IH.
  rewrite Nat.add_1_r in IH. rewrite IH; [reflexivity|]. rewrite E, <- app_assoc. reflexivity.
Qed.

Definition comment_children (l : list token) : list node := map (fun c => node_new c N_Comment) l.

(* a node with the comments of [b] *)
Definition decorate (b : bundle) (n : node) : node :=
  push_comments "trailing_comments" (comment_children (b_trail b))
    (push_comments "leading_comments" (comment_children (b_lead b)) n).

Section WithUnicode.
Context (U : unicode).

(* parser.rs:60-79: the type given to a token whose role is not known from the
   context; None: the next token is needed and there is none *)
Definition classify (t : token) (next : option token) : option node_type :=
  if is_identifier U t then Some N_Identifier
  else if is_numeric t then Some N_NumericLiteral
  else if is_string t then Some N_StringLiteral
  else if is_boolean U t then Some N_BooleanLiteral
  else if is_parameter t then Some N_Parameter
  else if is_template t then Some N_Template
  else if str_eqb (upper_literal U t) (s_ "NULL") then Some N_NullLiteral
  else match next with
       | None => None
       | Some t' => Some (if str_eqb (literal t') (s_ "(") || str_eqb (literal t') (s_ ".")
                          then N_Identifier else N_Unknown)
       end.

Definition constructed (ty : node_type) (b : bundle) (next : option token) : option node :=
  match ty with
  | N_EOF => Some (decorate b (node_empty N_EOF))
  | N_Unknown => option_map (fun ty' => decorate b (node_new (b_tok b) ty')) (classify (b_tok b) next)
  | _ => Some (decorate b (node_new (b_tok b) ty))
  end.

Definition tok_at (bs : list bundle) (k : nat) : option token := option_map b_tok (nth_error bs k).

(* parser.rs:53-100 *)
Lemma construct_node_view s b bs ty : view s (b :: bs) ->
  construct_node U ty s =
  match constructed ty b (tok_at bs 0) with
  | Some n => Ok n s
  | None => Err (eof_error (b :: bs)) s
  end.
Proof.
  intro V. pose proof V as (pre & Et & G & Ep & El & Etr).
  assert (Hb : base_node U ty s =
    match ty with
    | N_EOF => Ok (node_empty N_EOF) s
    | N_Unknown => match classify (b_tok b) (tok_at bs 0) with
                   | Some ty' => Ok (node_new (b_tok b) ty') s
                   | None => Err (eof_error (b :: bs)) s end
    | _ => Ok (node_new (b_tok b) ty) s
    end).
  { unfold base_node, bind. rewrite (get_token_view _ _ 0 V). cbn [nth_error].
    assert (G0 : get_token 0 s = Ok (b_tok b) s) by (rewrite (get_token_view _ _ 0 V); reflexivity).
    destruct ty; try reflexivity; try (rewrite G0; reflexivity).
    unfold classify.
    repeat match goal with |- context [if ?c then _ else _] => destruct c; [reflexivity|] end.
    rewrite (get_token_view _ _ 1 V). unfold tok_at.
    destruct bs as [|b1 bs]; cbn [nth_error option_map]; [reflexivity|].
    destruct (_ || _); reflexivity. }
  unfold construct_node, bind. rewrite Hb. clear Hb.
  assert (Hl : comment_nodes (tokens s) (leading_comment_indices s) = Some (comment_children (b_lead b))).
  { rewrite El. apply comment_nodes_seq with (post := b_tok b :: b_trail b ++ flats bs).
    rewrite Et, flats_cons. unfold flat. rewrite <- app_assoc. reflexivity. }
  assert (Ht : comment_nodes (tokens s) (trailing_comment_indices s) = Some (comment_children (b_trail b))).
  { rewrite Etr, Ep.
    replace (S (length pre + length (b_lead b))) with (length (pre ++ b_lead b ++ [b_tok b]))
      by (rewrite !app_length; cbn; lia).
    apply comment_nodes_seq with (post := flats bs).
    rewrite Et, flats_cons. unfold flat. rewrite <- !app_assoc. reflexivity. }
  unfold constructed. destruct ty; cbn [option_map]; try (rewrite Hl, Ht; reflexivity).
  destruct (classify _ _); cbn [option_map]; [|reflexivity]. rewrite Hl, Ht. reflexivity.
Qed.

(* parser.rs:1231-1241 *)
Fixpoint paren_view (l : list bundle) : option bool :=
  match l with
  | [] => None
  | b :: r => if in_ U ["WITH"; "SELECT"; "FROM"]%string (b_tok b) then Some true
              else if negb (is_ U "(" (b_tok b)) then Some false else paren_view r
  end.

Lemma paren_scan_view s bs : view s bs -> forall n offset, length bs <= n + offset ->
  paren_scan U (S n) offset s =
  match paren_view (skipn offset bs) with Some b => Ok b s | None => Err (eof_error bs) s end.
Proof.
  intro V. assert (E0 : forall offset, nth_error bs offset = hd_error (skipn offset bs)).
  { clear. induction bs as [|b bs IH]; intros [|o]; cbn; auto. }
  assert (E1 : forall offset, tl (skipn offset bs) = skipn (S offset) bs).
  { clear. induction bs as [|b bs IH]; intros [|o]; [reflexivity|reflexivity|reflexivity|].
    cbn [skipn]. exact (IH o). }
  induction n as [|n IH]; intros offset Hn.
  - rewrite skipn_all2 by lia. cbn [paren_scan paren_view]. unfold bind.
    rewrite (get_token_view _ _ offset V). rewrite (proj2 (nth_error_None _ _)) by lia. reflexivity.
  - remember (S n) as n'. cbn [paren_scan]. unfold bind at 1.
    rewrite (get_token_view _ _ offset V). rewrite E0. specialize (E1 offset).
    destruct (skipn offset bs) as [|b r] eqn:E; [reflexivity|]. cbn [hd_error paren_view].
    destruct (in_ _ _ _); [reflexivity|].
    unfold bind. rewrite (get_token_view _ _ offset V), E0, E. cbn [hd_error].
    destruct (negb _); [reflexivity|]. subst n'. rewrite IH by lia. cbn [tl] in E1. now rewrite E1.
Qed.

Lemma length_flats bs : length bs <= length (flats bs).
Proof.
  induction bs as [|b bs IH]; [apply Nat.le_refl|]. rewrite flats_cons. unfold flat.
  rewrite !app_length. cbn [length]. lia.
Qed.

Lemma paren_opens_query_view s b bs : view s (b :: bs) ->
  paren_opens_query U s =
  match paren_view bs with Some b => Ok b s | None => Err (eof_error (b :: bs)) s end.
Proof.
  intro V. unfold paren_opens_query. rewrite (paren_scan_view s (b :: bs)); [reflexivity|exact V|].
  destruct V as (pre & Et & _). rewrite Et, app_length.
  pose proof (length_flats (b :: bs)). lia.
Qed.
End WithUnicode.

(* parser.rs:19-41 *)
Lemma leading_run_comments cs t r i : comments cs -> is_comment t = false ->
  leading_run (cs ++ t :: r) i = Some (i + length cs).
Proof.
  intro H. revert i. induction H as [|c cs Hc H IH]; intros i Ht; cbn [app leading_run length].
  - rewrite Ht. f_equal. lia.
  - rewrite Hc, IH by assumption. f_equal. lia.
Qed.

Lemma parser_new_view bs : grouped bs ->
  exists s, parser_new (flats bs) = Some s /\ view s bs /\ tokens s = flats bs.
Proof.
  intro G. destruct bs as [|b bs]; [inversion G|].
  destruct (grouped_head_comments _ _ G) as (Hl & Ht & Hc).
  unfold parser_new. rewrite flats_cons. unfold flat. rewrite <- app_assoc, <- app_comm_cons.
  rewrite leading_run_comments by assumption. rewrite Nat.add_0_l.
  destruct bs as [|b' bs].
  - inversion G; subst. cbn [b_lead b_tok b_trail app flats map List.concat].
    rewrite app_length. cbn [length]. rewrite Nat.add_sub, Nat.eqb_refl.
    eexists. split; [reflexivity|]. split; [|reflexivity]. exists [].
    split; [unfold flats, flat; cbn [map List.concat app b_lead b_tok b_trail]; now rewrite app_nil_r|].
    split; [exact G|]. repeat split.
  - rewrite (proj2 (Nat.eqb_neq _ _)).
    2:{ rewrite flats_cons. unfold flat. rewrite !app_length. cbn [length]. rewrite !app_length. cbn [length]. lia. }
    eexists. split; [reflexivity|]. split; [|reflexivity]. exists [].
    cbn [position leading_comment_indices trailing_comment_indices tokens length app].
    split; [rewrite (flats_cons b); unfold flat; rewrite <- app_assoc; reflexivity|].
    split; [exact G|]. split; [reflexivity|]. split; [reflexivity|].
    set (ts := b_lead b ++ b_tok b :: b_trail b ++ flats (b' :: bs)).
    assert (Hat : forall j, nth_error ts (length (b_lead b) + j) =
                  nth_error (b_tok b :: b_trail b ++ flats (b' :: bs)) j).
    { intro j. unfold ts. rewrite nth_error_app2 by lia. f_equal. lia. }
    assert (H0 : nth_error ts (length (b_lead b)) = Some (b_tok b)).
    { rewrite <- (Nat.add_0_r (length (b_lead b))), Hat. reflexivity. }
    inversion G as [|l t tr b2 bs2 Hl' Ht' Hc' Hs Hnl H2]; subst. cbn [b_lead b_tok b_trail] in *.
    apply take_while_seq.
    + unfold ts. rewrite !app_length. cbn [length]. rewrite app_length. lia.
    + intros j Hj. replace (S (length l) + j) with (length l + S j) by lia.
      unfold same_line, line_of. rewrite H0, Hat. cbn [nth_error].
      rewrite nth_error_app1 by lia.
      destruct (nth_error tr j) as [c|] eqn:E; [|apply nth_error_None in E; lia].
      apply nth_error_In in E. unfold comments in Hc. rewrite Forall_forall in Hs, Hc.
      rewrite (Hc _ E). cbn [option_map andb]. apply N.eqb_eq. symmetry. auto.
    + intros _. replace (S (length l) + length tr) with (length l + S (length tr)) by lia.
      unfold same_line, line_of. rewrite H0, Hat. cbn [nth_error].
      rewrite nth_error_app2, Nat.sub_diag by lia. rewrite flats_cons. unfold flat.
      destruct (b_lead b') as [|c r] eqn:E.
      * cbn [app nth_error]. destruct (grouped_head_comments _ _ H2) as (_ & -> & _). reflexivity.
      * cbn [app nth_error option_map].
        rewrite (proj2 (N.eqb_neq _ _)); [apply andb_false_r|]. apply not_eq_sym. eapply Hnl; eauto.
Qed.
