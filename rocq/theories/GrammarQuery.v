(* parse_select_statement on the queries of GrammarSpec.v. *)
From Verif Require Import Chars Token Cst Core MiniRust Program Bundles ParserView ParserGeneric ShapeSound GroupingSpec GroupingExpr
  Forward GrammarSpec GrammarTactics GrammarExpr GrammarReach GrammarOps GrammarBinary GrammarItems GrammarTypes GrammarCalls.
Local Open Scope string_scope.
Local Open Scope list_scope.
Local Notation length := List.length.

Section WithUnicode.
Context (U : unicode) (HU : ascii_faithful U).
Local Notation steps := (steps U).
Local Notation calls := (calls U).
Local Notation is_word := (is_word U).
Local Notation word_in := (word_in U).
Local Notation tree := (tree U).
Local Notation wf := (wf U).
Local Notation fits := (fits_known U).
Local Notation prec_in := (prec_in U).
Local Notation reach := (reach U).
Local Notation after := (after U).
Local Notation stops := (stops U).
Ltac ahead ::= first [apply tok_yield | apply tok_items | apply tok_query | apply tok_type | eassumption].
Ltac call ::= eassumption.
Ltac special ::= fail.

(* ----- names in FROM ----- *)
Lemma decides_first k c e bs t c' : tok_at bs k = Some t -> first_char (literal t) = Some c' -> decides U (CFirstCharIs k c) e bs (N.eqb c' c).
Proof.
  intros T F s V. cbn [eval_cond]. unfold bind. rewrite (get_token_view _ _ k V). unfold tok_at in T.
  destruct (nth_error bs k); [|discriminate]. injection T as ->. now rewrite F.
Qed.
Lemma decides_last k c e bs t c' : tok_at bs k = Some t -> last_char (literal t) = Some c' -> decides U (CLastCharIs k c) e bs (N.eqb c' c).
Proof.
  intros T F s V. cbn [eval_cond]. unfold bind. rewrite (get_token_view _ _ k V). unfold tok_at in T.
  destruct (nth_error bs k); [|discriminate]. injection T as ->. now rewrite F.
Qed.
Lemma decides_notoken k e bs t : tok_at bs k = Some t -> decides U (CNoToken k) e bs false.
Proof.
  intros T s V. cbn [eval_cond]. rewrite (get_token_view _ _ k V). unfold tok_at in T.
  destruct (nth_error bs k); [|discriminate]. reflexivity.
Qed.
Lemma decides_adjacent e a b bs : decides U CAdjacent e (a :: b :: bs)
  (N.eqb (line (b_tok a)) (line (b_tok b)) && N.eqb (column (b_tok a) + N.of_nat (length (literal (b_tok a)))) (column (b_tok b))).
Proof. intros s V. cbn [eval_cond]. unfold bind. rewrite (get_token_view _ _ 0 V). cbn [nth_error]. rewrite (get_token_view _ _ 1 V). reflexivity. Qed.
Lemma decides_true e bs : decides U CTrue e bs true. Proof. now intros s V. Qed.
Lemma decides_nonempty x e bs l : env_get x e = Some (VVec l) -> decides U (CNonEmpty x) e bs (Nat.ltb 0 (length l)).
Proof. intros G s V. cbn [eval_cond]. now rewrite G. Qed.

Definition apart (b next : bundle) : Prop :=
  quoted_by 96 (b_tok b) = true \/ word_in next [","; "."; "("; ")"; ";"] \/
      last_char (literal (b_tok b)) <> Some 46%N /\
      (line (b_tok b) <> line (b_tok next) \/
       (column (b_tok b) + N.of_nat (List.length (literal (b_tok b))) <> column (b_tok next))%N).
Lemma last_nonempty {A} (l : list A) x : exists y, nth_error (rev (x :: l)) 0 = Some y.
Proof. cbn [rev]. destruct (rev l); cbn; eauto. Qed.
Definition has_chars (b : bundle) : Prop := exists c d, first_char (literal (b_tok b)) = Some c /\ last_char (literal (b_tok b)) = Some d.
Lemma nonempty_chars b : literal (b_tok b) <> [] -> has_chars b.
Proof.
  unfold has_chars, last_char. destruct (literal (b_tok b)) as [|c r] eqn:L; [contradiction|]. intros _. cbn [first_char].
  destruct (rev (c :: r)) eqn:E; [|cbn [first_char]; eauto]. apply (f_equal (@length _)) in E. rewrite rev_length in E. cbn [length] in E. discriminate.
Qed.
Lemma identifier_chars b : is_identifier U (b_tok b) = true -> has_chars b.
Proof.
  intros I. apply nonempty_chars. intro L. unfold is_identifier, quoted_by in I. rewrite L in I. change (length (@nil N)) with 0 in I. cbn [Nat.ltb Nat.leb] in I.
  destruct (is_reserved_keyword U (b_tok b)); discriminate.
Qed.
Lemma field_chars b : field_name U b -> has_chars b.
Proof.
  intros [I|(w & I & W)]; [now apply identifier_chars|]. apply nonempty_chars. intro L. unfold GrammarSpec.is_word, word, upper_literal in W. rewrite L in W.
  assert (X : forallb (fun w => negb (String.eqb w "")) KEYWORDS = true) by reflexivity. rewrite forallb_forall in X. specialize (X w I).
  destruct w; [discriminate|]. discriminate.
Qed.
Definition many_loop : cmd fn := match f_body parse_single_or_multi_token_identifier with Seq _ (Seq _ (Seq a _)) => a | _ => Skip end.
Definition many_frame (l : list node) (b : bundle) : env := [("trailing_idents", VVec l); ("root", VNode (made N_Identifier b []))].
Lemma ends_here b c x rest l : has_chars c -> apart c x -> steps many_loop (many_frame l b) (c :: x :: rest) Norm (many_frame l b) (c :: x :: rest).
Proof.
  intros (fc & d & Fc & Ld) S. unfold many_loop, many_frame. cbn [parse_single_or_multi_token_identifier f_body].
  eapply steps_eq; [eapply steps_while_brk with (e1 := many_frame l b); [apply decides_true|]|reflexivity]. unfold many_frame.
  destruct (N.eqb fc 96) eqn:E96.
  { eapply steps_seq_brk. eapply steps_eq; [eapply steps_if; [eapply decides_first; [tok|exact Fc]|rewrite E96; apply steps_break]|envr]. }
  eapply steps_seq; [eapply steps_eq; [eapply steps_if; [eapply decides_first; [tok|exact Fc]|rewrite E96; apply steps_skip]|envr]|].
  eapply steps_seq; [eapply steps_eq; [eapply steps_if; [eapply decides_notoken; tok|apply steps_skip]|envr]|].
  destruct S as [Q|S].
  { exfalso. unfold quoted_by in Q. destruct (Nat.ltb _ _); [discriminate|]. apply andb_prop in Q as [Q _]. rewrite Fc in Q. cbn [opt_is] in Q. congruence. }
  assert (X : forall v, mem_pats (upper_literal U (b_tok x)) [","; "."; "("; ")"; ";"] = v ->
    decides U (CTok 1 (TIn [","; "."; "("; ")"; ";"])) (many_frame l b) (c :: x :: rest) v).
  { intros v M. eapply decides_in with (kn := if v then Among [","; "."; "("; ")"; ";"] else Avoids [","; "."; "("; ")"; ";"]);
      [exact HU|tok|destruct v; exact M|reflexivity|destruct v; reflexivity]. }
  unfold many_frame in X. destruct (mem_pats (upper_literal U (b_tok x)) [","; "."; "("; ")"; ";"]) eqn:M.
  { eapply steps_seq_brk. eapply steps_eq; [eapply steps_if; [apply X; reflexivity|apply steps_break]|envr]. }
  eapply steps_seq; [eapply steps_eq; [eapply steps_if; [apply X; reflexivity|apply steps_skip]|envr]|].
  destruct S as [S|[S1 S2]]; [exfalso; apply fits_among in S; cbn [fits_known] in S; congruence|].
  eapply steps_seq_brk. eapply steps_eq; [eapply steps_if with (v := true); [|apply steps_break]|envr].
  eapply decides_and; [eapply decides_not; eapply decides_last; [tok|exact Ld]|].
  destruct (N.eqb_spec d 46) as [->|_]; [congruence|]. cbn [negb].
  apply decides_not_false. eapply decides_eq; [apply decides_adjacent|].
  destruct (N.eqb_spec (line (b_tok c)) (line (b_tok x))); [|reflexivity]. cbn [andb]. apply N.eqb_neq. tauto.
Qed.
Lemma goes_on b c c' rest l ct e2 bs2 : has_chars c -> glued U c c' -> rest <> [] ->
  steps many_loop (many_frame (l ++ [made N_Identifier c' []]) b) (c' :: rest) ct e2 bs2 ->
  steps many_loop (many_frame l b) (c :: c' :: rest) ct e2 bs2.
Proof.
  intros (fc & d & Fc & Ld) (G1 & G2 & G3 & G4) Ne S. unfold many_loop, many_frame in *. cbn [parse_single_or_multi_token_identifier f_body] in *.
  assert (E96 : N.eqb fc 96 = false) by (apply N.eqb_neq; congruence). pose proof (fits_avoids U _ _ G2) as X.
  eapply steps_while_more; [apply decides_true| |].
  - eapply steps_seq; [eapply steps_eq; [eapply steps_if; [eapply decides_first; [tok|exact Fc]|rewrite E96; apply steps_skip]|envr]|].
    eapply steps_seq; [eapply steps_eq; [eapply steps_if; [eapply decides_notoken; tok|apply steps_skip]|envr]|].
    eapply steps_seq; [step HU|]. norm.
    eapply steps_seq; [eapply steps_eq; [eapply steps_if with (v := false); [|apply steps_skip]|envr]|].
    { destruct G4 as [G4|[G4 G5]].
      - apply decides_and_false. apply (decides_not U _ _ _ true). eapply decides_eq; [eapply decides_last; [tok|exact Ld]|].
        rewrite G4 in Ld. injection Ld as <-. reflexivity.
      - eapply decides_and; [eapply decides_not; eapply decides_last; [tok|exact Ld]|]. destruct (N.eqb d 46); [reflexivity|]. cbn [negb].
        apply (decides_not U _ _ _ true). eapply decides_eq; [apply decides_adjacent|]. now rewrite G4, G5, !N.eqb_refl. }
    step HU.
  - norm. exact S.
Qed.
Lemma all_on x rest b : forall bs c l, has_chars c -> all_glued U c bs -> apart (last bs c) x ->
  steps many_loop (many_frame l b) (c :: bs ++ x :: rest) Norm (many_frame (l ++ map (fun b => made N_Identifier b []) bs) b) (last bs c :: x :: rest).
Proof.
  induction bs as [|c' bs IH]; intros c l H G A.
  - cbn [map last app]. rewrite app_nil_r. now apply ends_here.
  - destruct G as (G & Gs). cbn [app map]. assert (E : forall d, last (c' :: bs) d = last bs c').
    { clear. revert c'. induction bs as [|y bs IH]; intros c' d; [reflexivity|]. rewrite last_cons by discriminate. now rewrite !IH. }
    rewrite E in *. assert (Ne : bs ++ x :: rest <> []) by (destruct bs; discriminate).
    eapply goes_on; [exact H|exact G|exact Ne|].
    specialize (IH c' (l ++ [made N_Identifier c' []]) (nonempty_chars c' (proj1 (proj2 (proj2 G)))) Gs A). rewrite <- app_assoc in IH. exact IH.
Qed.
Lemma single_call b x rest : has_chars b -> apart b x ->
  calls F_parse_single_or_multi_token_identifier [] (b :: x :: rest) (VNode (made N_Identifier b [])) (b :: x :: rest).
Proof.
  intros H S. pose proof (ends_here b b x rest [] H S) as L. unfold many_loop, many_frame in L. cbn [parse_single_or_multi_token_identifier f_body] in L.
  eapply calls_body; [reflexivity|]. cbn [prog parse_single_or_multi_token_identifier f_body f_params combine].
  eapply steps_seq; [step HU|]. norm. eapply steps_seq; [step HU|]. norm.
  eapply steps_seq; [exact L|].
  norm. eapply steps_seq; [eapply steps_eq; [eapply steps_if; [eapply decides_nonempty; envr|apply steps_skip]|envr]|]. norm. step HU.
Qed.
Lemma multi_call b bs x rest : has_chars b -> bs <> [] -> all_glued U b bs -> apart (last bs b) x ->
  calls F_parse_single_or_multi_token_identifier [] (b :: bs ++ x :: rest) (VNode (idents b bs)) (last bs b :: x :: rest).
Proof.
  intros H Nb G S. pose proof (all_on x rest b bs b [] H G S) as L. unfold many_loop, many_frame in L. cbn [parse_single_or_multi_token_identifier f_body app] in L.
  eapply calls_body; [reflexivity|]. cbn [prog parse_single_or_multi_token_identifier f_body f_params combine].
  assert (Ne : bs ++ x :: rest <> []) by (destruct bs; discriminate). unfold idents.
  assert (Y : Nat.ltb 0 (length (map (fun b => made N_Identifier b []) bs)) = true) by (destruct bs; [contradiction|reflexivity]).
  eapply steps_seq; [step HU|]. norm. eapply steps_seq; [step HU|]. norm.
  eapply steps_seq; [exact L|]. clear L.
  norm. eapply steps_seq; [eapply steps_eq; [eapply steps_if with (v := true); [eapply decides_eq; [eapply decides_nonempty; envr|exact Y]|]|]|]; [norm; step HU|envr|]. norm. step HU.
Qed.

Definition ident_loop : cmd fn := match f_body parse_identifier with Seq _ a => a | _ => Skip end.
Definition ident_first : cmd fn := match f_body parse_identifier with Seq a _ => a | _ => Skip end.
Lemma ident_parts : f_body parse_identifier = Seq ident_first ident_loop. Proof. reflexivity. Qed.
Lemma separated_last p x : path U p -> separated U p x -> apart (lastb p) x.
Proof. unfold separated. destruct p; cbn [path last_name lastb]; try contradiction; auto. Qed.
Lemma ident_reach p : path U p -> forall x rest ct e2 bs2, apart (lastb p) x ->
  steps ident_loop [("left", VNode (tree p))] (lastb p :: x :: rest) ct e2 bs2 ->
  steps (Seq ident_first ident_loop) [] (yield p ++ x :: rest) ct e2 bs2.
Proof.
  induction p; cbn [path]; try contradiction; intros P x rest ct e2 bs2 A S.
  - cbn [yield lastb app] in *. change (GrammarSpec.tree U (Atom b)) with (made (match kind U (b_tok b) with Some ty => ty | None => N_Unknown end) b []) in S.
    rewrite (name_kind U b P) in S. pose proof (single_call b x rest (identifier_chars b (proj2 P)) A) as C.
    eapply steps_seq; [unfold ident_first; cbn [parse_identifier f_body]; step HU|]. exact S.
  - destruct P as (P & Kd & Nb). change (yield (Field p dot b)) with (yield p ++ [dot; b]). rewrite <- app_assoc. cbn [app lastb] in *.
    change (GrammarSpec.tree U (Field p dot b)) with (made N_DotOperator dot [("left", CNode (tree p)); ("right", CNode (made N_Identifier b []))]) in S.
    pose proof (single_call b x rest (field_chars b Nb) A) as C. pose proof (fits_word U _ _ Kd) as Kd'. apply IHp; [exact P| |].
    + right. left. exists ".". split; [cbn; tauto|exact Kd].
    + unfold ident_loop in *. cbn [parse_identifier f_body] in *. eapply steps_while_more_seq; [decide_ HU|step HU|]. norm. exact S.
  - destruct P as (Nb & Ne & G). change (yield (Dashed b bs)) with (b :: bs). cbn [app lastb] in *. change (GrammarSpec.tree U (Dashed b bs)) with (idents b bs) in S.
    pose proof (multi_call b bs x rest (identifier_chars b (proj2 Nb)) Ne G A) as C.
    eapply steps_seq; [unfold ident_first; cbn [parse_identifier f_body]; step HU|]. exact S.
  - destruct P as (P & Kd & Nb & Ne & G). change (yield (FieldDashed p dot b bs)) with (yield p ++ dot :: b :: bs). rewrite <- app_assoc. cbn [app lastb] in *.
    change (GrammarSpec.tree U (FieldDashed p dot b bs)) with (made N_DotOperator dot [("left", CNode (tree p)); ("right", CNode (idents b bs))]) in S.
    pose proof (multi_call b bs x rest (field_chars b Nb) Ne G A) as C. pose proof (fits_word U _ _ Kd) as Kd'. apply IHp; [exact P| |].
    + right. left. exists ".". split; [cbn; tauto|exact Kd].
    + unfold ident_loop in *. cbn [parse_identifier f_body] in *. eapply steps_while_more_seq; [decide_ HU|step HU|]. norm. exact S.
Qed.
Lemma ident_call p x rest : path U p -> apart (lastb p) x -> fits (Avoids ["."]) (b_tok x) ->
  calls F_parse_identifier [] (yield p ++ x :: rest) (VNode (tree p)) (lastb p :: x :: rest).
Proof.
  intros P A K. eapply calls_body; [reflexivity|]. change (f_body (prog F_parse_identifier)) with (f_body parse_identifier). rewrite ident_parts.
  apply ident_reach; try assumption. unfold ident_loop. cbn [parse_identifier f_body].
  eapply steps_seq; [apply steps_while_end; decide_ HU|]. step HU.
Qed.

(* ----- tables ----- *)
Definition from_enders : list string := ["WHERE"; "GROUP"; "HAVING"; "QUALIFY"; "WINDOW"; "ORDER"; "LIMIT"; ")"; ";"; ""; "UNION"; "INTERSECT"; "EXCEPT"].
Definition after_tables : list string := "SET" :: "|>" :: from_enders.
Definition join_words : list string := ["LEFT"; "RIGHT"; "CROSS"; "INNER"; "FULL"; "JOIN"; ","].
Definition table_enders : list string := join_words ++ after_tables.
Definition source_enders : list string := "ON" :: "USING" :: table_enders.
(* [l] starts with one of the words [ws], which is not read together with the last of [A] *)
Definition led (A : list bundle) (ws : list string) (l : list bundle) : Prop :=
  exists g r, l = g :: r /\ fits (Among ws) (b_tok g) /\ (A <> [] -> apart_from U A g).
Lemma led_word A b w r : is_word b w -> plain w = true -> led A [w] (b :: r).
Proof.
  intros K P. apply fits_word in K. exists b, r. split; [reflexivity|]. split; [exact K|]. intros _. eapply (no_fuse U HU); [exact K|]. cbn [forallb]. now rewrite P.
Qed.
Lemma led_words A b ws r : word_in b ws -> forallb plain ws = true -> led A ws (b :: r).
Proof.
  intros K P. apply fits_among in K. exists b, r. split; [reflexivity|]. split; [exact K|]. intros _. eapply (no_fuse U HU); [exact K|exact P].
Qed.
Lemma led_more A ws ws' l : led A ws l -> forallb (fun w => existsb (String.eqb w) ws') ws = true -> led A ws' l.
Proof.
  intros (g & r & -> & K & N) I. exists g, r. split; [reflexivity|]. split; [|exact N]. apply among_word in K as (w & Iw & K). apply fits_among. exists w. split; [|exact K].
  rewrite forallb_forall in I. specialize (I _ Iw). apply existsb_exists in I as (w' & I & E). apply String.eqb_eq in E. now subst.
Qed.
Lemma led_right A B ws l : led (A ++ B) ws l -> led B ws l.
Proof.
  intros (g & r & E & K & F). exists g, r. repeat split; try assumption. intro N. unfold apart_from in *. rewrite last_cat in F by exact N. apply F. now destruct A, B.
Qed.
Lemma led_cons a B ws l : led (a :: B) ws l -> led B ws l.
Proof. apply (led_right [a]). Qed.
(* [B], which is nothing or starts with one of [ks], comes in between *)
Lemma led_left A B ks ws l : led (A ++ B) ws l -> (B = [] \/ led A ks (B ++ l)) -> led A (ks ++ ws) (B ++ l).
Proof.
  intros L [->|M].
  - rewrite app_nil_r in L. cbn [app]. destruct L as (g & r & -> & K & F). exists g, r. repeat split; try assumption.
    apply fits_among. apply among_word in K as (w & I & K). exists w. split; [apply in_or_app; now right|exact K].
  - destruct M as (g & r & E & K & F). exists g, r. repeat split; try assumption.
    apply fits_among. apply among_word in K as (w & I & K). exists w. split; [apply in_or_app; now left|exact K].
Qed.
Lemma led_expr e od ws l : reach e -> led (yield e) ws l -> forallb (fun w => existsb (String.eqb w) enders) ws = true ->
  calls F_parse_expr [VNum usize_max; VBool false; VBool false; VBool false; VBool od] (yield e ++ l) (VNode (tree e)) (lastb e :: l).
Proof.
  intros R L I. destruct (led_more _ _ enders _ L I) as (g & r & -> & K & N). apply whole_call; try assumption.
  specialize (N (yield_nonempty e)). unfold apart_from in N. now rewrite last_yield in N.
Qed.

(* ----- what a table is: a name, UNNEST, or something in parentheses ----- *)
Definition place_enders : list string := "AS" :: "FOR" :: "WITH" :: "TABLESAMPLE" :: "PIVOT" :: source_enders.
Definition placed (x : bundle) : Prop := fits (Among place_enders) (b_tok x) \/ is_identifier U (b_tok x) = true.
Lemma placed_facts x rest : placed x -> fits (Avoids ["."]) (b_tok x) /\ prec_in (x :: rest) 0 = Some usize_max /\ fits (Avoids order_words) (b_tok x).
Proof.
  intros [K|I].
  - split; [eapply fits_weaken; [exact K|reflexivity]|]. split; [|eapply fits_weaken; [exact K|reflexivity]]. eapply prec_word; [apply tok_at_0|exact K|reflexivity].
  - split; [apply (identifier_avoids U HU); [exact I|reflexivity]|]. split; [|apply (identifier_avoids U HU); [exact I|reflexivity]].
    eapply (prec_name U HU); [apply tok_at_0|exact I].
Qed.
Lemma table_expr p x rest : path U p -> apart (lastb p) x -> placed x ->
  calls F_parse_expr [VNum usize_max; VBool false; VBool true; VBool false; VBool true] (yield p ++ x :: rest) (VNode (tree p)) (lastb p :: x :: rest).
Proof.
  intros P A K0. destruct (placed_facts x rest K0) as (Kd & X & K). pose proof (ident_call p x rest P A Kd) as C.
  eapply calls_body; [reflexivity|]. change (f_body (prog F_parse_expr)) with (f_body parse_expr). rewrite parts.
  eapply steps_seq; [apply steps_declare|]. norm.
  assert (Y : exists b b' bs, yield p ++ x :: rest = b :: b' :: bs).
  { destruct (first_yield p) as [r ->]. destruct r; cbn; eauto. }
  destruct Y as (b & b' & bs & Y). rewrite Y in *. clear Y.
  match goal with |- steps _ ?e _ _ _ _ => destruct (makes_unknown U e b b' bs) as (ty & M) end.
  eapply steps_seq; [unfold H1; cbn [parse_expr f_body]; eapply steps_eq; [eapply (steps_if U); [decide_ HU|]; norm; eapply steps_set; [exact M|envr]|envr]|].
  norm. eapply steps_seq; [unfold H2; cbn [parse_expr f_body]; step HU|]. norm.
  eapply steps_seq; [apply steps_while_end; eapply decides_prec; [exact X|envr|reflexivity]|].
  unfold Tail. cbn [parse_expr f_body]. step HU.
Qed.
Lemma path_type p : path U p -> nt_eqb (n_type (tree p)) N_CallingFunction = false.
Proof.
  destruct p; cbn [path]; try contradiction; [|reflexivity..]. intro N.
  change (GrammarSpec.tree U (Atom b)) with (made (match kind U (b_tok b) with Some ty => ty | None => N_Unknown end) b []).
  now rewrite (name_kind U b N).
Qed.
Lemma path_first p : path U p -> fits (Avoids reserved_here) (b_tok (first p)).
Proof. induction p; cbn [path first]; try contradiction; [apply name_avoided| | |]; intros (P & _); [exact (IHp P)|now apply name_avoided|exact (IHp P)]. Qed.
Fixpoint part (n : nat) (c : cmd fn) : cmd fn := match n, c with 0, Seq a _ => a | S n, Seq _ c => part n c | _, _ => c end.
Fixpoint drop (n : nat) (c : cmd fn) : cmd fn := match n, c with S n, Seq _ c => drop n c | _, _ => c end.
Definition tframe (root : bool) (v : value) : env := [("left", v); ("root", VBool root)].
Definition place_ok (b : place) : Prop := forall root x rest, wf_place U b x -> placed x ->
  exists b', steps (part 1 (f_body parse_table)) (tframe root VUndef) (yield_place b ++ x :: rest) Norm (tframe root (VNode (tree_place U b))) (b' :: x :: rest).
Ltac table_part := unfold tframe; cbn [part parse_table f_body].
Lemma place_path p : place_ok (Path p).
Proof.
  intros root x rest (P & S) K. exists (lastb p). change (yield_place (Path p)) with (yield p). change (tree_place U (Path p)) with (tree p).
  pose proof (table_expr p x rest P (separated_last _ _ P S) K) as C. pose proof (path_first p P) as W.
  table_part. step HU.
Qed.
(* a call of UNNEST or USING *)
Lemma call_of_last w c : call_of U w c -> wf c -> is_word (lastb c) ")".
Proof.
  destruct c; cbn [call_of]; try contradiction. destruct c; try contradiction. destruct d, ig, o, l, ov; try contradiction.
  intros _ W. cbn [lastb last_over]. apply W.
Qed.
Lemma paren_apart b f : is_word b ")" -> ~ fuses U b f.
Proof.
  intros K F. assert (X : word_in b ("*" :: string_prefixes ++ literal_types)).
  { destruct F as [[(w & I & W) _]|[[(w & I & W) _]|[(w & I & W) _]]]; exists w; (split; [|exact W]); cbn in *; tauto. }
  destruct X as (w & I & W). unfold GrammarSpec.is_word in *. rewrite K in W. cbn in I.
  repeat (destruct I as [<-|I]; [discriminate|]). destruct I.
Qed.
Lemma call_of_call w c x rest : wf c -> call_of U w c -> reach c -> placed x ->
  calls F_parse_expr [VNum usize_max; VBool false; VBool false; VBool false; VBool true] (yield c ++ x :: rest) (VNode (tree c)) (lastb c :: x :: rest).
Proof.
  intros W C R [K|I].
  - apply (whole_call U HU); [exact R|eapply fits_weaken; [exact K|reflexivity]|]. apply paren_apart. eapply call_of_last; eassumption.
  - apply (name_call U HU); [exact R|exact I|]. apply paren_apart. eapply call_of_last; eassumption.
Qed.
Lemma place_unnest c : reach c -> place_ok (Unnest c).
Proof.
  intros R root x rest (W & C) K. exists (lastb c). change (yield_place (Unnest c)) with (yield c). change (tree_place U (Unnest c)) with (retyped N_CallingUnnest (tree c)).
  pose proof (call_of_call _ c x rest W C R K) as C'. destruct (call_of_facts U _ c C) as (F & _). apply fits_word in F.
  table_part. step HU.
Qed.
Lemma opens_in q next rest : wf_query U q next -> exists ps w r, yield_query q ++ rest = ps ++ w :: r /\ Forall (fun b => is_word b "(") ps /\ fits (Among ["SELECT"; "WITH"]) (b_tok w).
Proof.
  revert next rest. induction q as [s d a es f w g h q ws o l|lp q IH rp|q1 IH k d m q2 IH2|q IH o l|w r cs q IH]; intros next rest W; cbn [wf_query yield_query] in *.
  - exists [], s. cbn [app]. eexists. split; [reflexivity|]. split; [constructor|]. destruct W as (W & _). apply fits_word in W. eapply fits_weaken; [exact W|reflexivity].
  - destruct W as (K & W & _). cbn [app]. rewrite <- app_assoc. destruct (IH rp ([rp] ++ rest) W) as (ps & w & r & E & P & F). rewrite E.
    exists (lp :: ps), w, r. repeat split; [now constructor|exact F].
  - rewrite <- app_assoc. eapply IH. apply W.
  - rewrite <- app_assoc. eapply IH. apply W.
  - exists [], w. cbn [app]. eexists. split; [reflexivity|]. split; [constructor|]. destruct W as (W & _). apply fits_word in W. eapply fits_weaken; [exact W|reflexivity].
Qed.
Lemma scan_opens s lp ps w r n : view s (lp ++ ps ++ w :: r) -> Forall (fun b => is_word b "(") ps -> fits (Among ["SELECT"; "WITH"]) (b_tok w) ->
  length ps < n -> paren_scan U n (length lp) s = Ok true s.
Proof.
  intros V P F. revert lp n V. induction P as [|p ps K P IH]; intros lp n V L; (destruct n as [|n]; [cbn in L; lia|]); cbn [paren_scan]; unfold bind; rewrite (get_token_view _ _ (length lp) V), nth_error_app2, Nat.sub_diag by lia; cbn [app nth_error].
  - rewrite (in_mem U HU) by reflexivity. rewrite (known_in_ok U (Among ["SELECT"; "WITH"]) _ _ true F) by reflexivity. reflexivity.
  - apply fits_word in K. rewrite (in_mem U HU) by reflexivity. rewrite (known_in_ok U (Among ["("]) _ _ false K) by reflexivity.
    rewrite (get_token_view _ _ (length lp) V), nth_error_app2, Nat.sub_diag by lia. cbn [app nth_error].
    rewrite (is_mem U HU) by reflexivity. rewrite (known_in_ok U (Among ["("]) _ _ true K) by reflexivity. cbn [negb].
    specialize (IH (lp ++ [p]) n). rewrite app_length, Nat.add_comm in IH. apply IH; [|cbn in L; lia]. rewrite <- app_assoc. exact V.
Qed.
Lemma view_room s bs : view s bs -> length bs <= length (tokens s).
Proof. intros (pre & E & _). rewrite E, app_length. pose proof (length_flats bs). lia. Qed.
Lemma decides_opens e lp ps w r : Forall (fun b => is_word b "(") ps -> fits (Among ["SELECT"; "WITH"]) (b_tok w) ->
  decides U CParenOpensQuery e (lp :: ps ++ w :: r) true.
Proof.
  intros P F s V. cbn [eval_cond]. unfold paren_opens_query. apply (scan_opens s [lp] ps w r); try assumption.
  apply view_room in V. cbn [length] in V. rewrite app_length in V. cbn [length] in V. lia.
Qed.
Lemma decides_opens_not e lp b r : fits (Avoids ["("; "WITH"; "SELECT"; "FROM"]) (b_tok b) -> decides U CParenOpensQuery e (lp :: b :: r) false.
Proof.
  intros F s V. cbn [eval_cond]. unfold paren_opens_query. cbn [paren_scan]. unfold bind. rewrite (get_token_view _ _ 1 V). cbn [nth_error].
  rewrite (in_mem U HU) by reflexivity. rewrite (known_in_ok U _ _ _ false F) by reflexivity. rewrite (get_token_view _ _ 1 V). cbn [nth_error].
  rewrite (is_mem U HU) by reflexivity. rewrite (known_in_ok U _ _ _ false F) by reflexivity. reflexivity.
Qed.
Lemma steps_try x f args h e bs vs e1 m bs' e2 : passes U args e bs vs e1 -> calls f vs bs (VNode m) bs' -> env_set x (VNode m) e1 = Some e2 ->
  steps (Try x f args h) e bs Norm e2 bs'.
Proof.
  intros P [n C] S. exists n. intros s V. destruct (C s V) as (s' & E & V'). exists s'. split; [|exact V'].
  cbn [exec]. rewrite (P s V), E. unfold norm, bind, set_or_stuck. now rewrite S.
Qed.
Lemma decides_off c x e bs v : decides U c e bs v -> env_get x e = Some (VBool false) -> decides U (CAnd c (CVar x)) e bs false.
Proof. intros D G. eapply decides_and; [exact D|]. destruct v; [|reflexivity]. now apply decides_var. Qed.
Lemma decides_off_in k ws x e bs t : tok_at bs k = Some t -> env_get x e = Some (VBool false) -> decides U (CAnd (CTok k (TIn ws)) (CVar x)) e bs false.
Proof. intros T G. eapply decides_off; [|exact G]. eapply decides_tok; [exact T|]. intro s. reflexivity. Qed.
Lemma decides_off_is k w x e bs t : tok_at bs k = Some t -> env_get x e = Some (VBool false) -> decides U (CAnd (CTok k (TIs w)) (CVar x)) e bs false.
Proof. intros T G. eapply decides_off; [|exact G]. eapply decides_tok; [exact T|]. intro s. reflexivity. Qed.
(* (q) as a table *)
Lemma grouped_alone lp q rp f rest : is_word lp "(" -> wf_query U q rp -> query_ok U q rp -> is_word rp ")" -> fits (Avoids ["|>"]) (b_tok f) ->
  calls F_parse_select_statement [VBool false; VBool false] (lp :: yield_query q ++ rp :: f :: rest)
    (VNode (made N_GroupedStatement lp [("stmt", CNode (tree_query U q None)); ("rparen", symbol rp)])) (rp :: f :: rest).
Proof.
  intros Kl Wq Cq Kr Kf. destruct (Cq (f :: rest)) as (b & C). apply wf_first_query in Wq. apply fits_among in Wq. apply fits_word in Kl, Kr.
  eapply calls_body; [reflexivity|]. cbn [prog parse_select_statement f_body f_params combine]. 
  eapply steps_seq_ret. eapply steps_eq; [eapply (steps_if U) with (v := true); [decide_ HU|]|]; cbv iota.
  { do 6 (eapply steps_seq; [step HU|]; norm).
    eapply steps_seq; [apply steps_while_end; eapply decides_off_in; [tok|envr]|].
    eapply steps_seq; [eapply steps_eq; [eapply (steps_if U) with (v := false); [eapply decides_off_is; [tok|envr]|apply steps_skip]|envr]|].
    eapply steps_seq; [eapply steps_eq; [eapply (steps_if U) with (v := false); [eapply decides_off_is; [tok|envr]|apply steps_skip]|envr]|].
    eapply steps_seq; [eapply steps_eq; [eapply (steps_if U) with (v := false); [eapply decides_and_false; eapply decides_off_is; [tok|envr]|norm; step HU]|envr]|].
    norm. step HU. }
  envr.
Qed.
Lemma place_sub lp q rp : query_ok U q rp -> place_ok (SubTable lp q rp).
Proof.
  intros Cq root x rest (Kl & W & Kr & Kx) K. exists rp. change (yield_place (SubTable lp q rp)) with (lp :: yield_query q ++ [rp]). cbn [app]. rewrite <- app_assoc. cbn [app].
  change (tree_place U (SubTable lp q rp)) with (made N_GroupedStatement lp [("stmt", CNode (tree_query U q None)); ("rparen", symbol rp)]).
  assert (Kp : fits (Avoids ["|>"]) (b_tok x)) by (apply fits_avoids; intros (w & [<-|[]] & E); exact (Kx E)).
  pose proof (grouped_alone lp q rp x rest Kl W Cq Kr Kp) as C. destruct (opens_in q rp (rp :: x :: rest) W) as (ps & w & r & E & P & F). rewrite E in *.
  apply fits_word in Kl. table_part.
  eapply steps_eq; [eapply steps_case_known; [tok|exact Kl|reflexivity|]|]; norm.
  { eapply steps_seq; [step HU|]. norm. eapply steps_seq; [eapply steps_letbool; now apply decides_opens|]. norm.
    eapply steps_seq; [eapply steps_eq; [eapply (steps_if U) with (v := true); [eapply decides_var; envr|]; eapply steps_try; [args|exact C|envr]|envr]|]. norm. step HU. }
  envr.
Qed.
Definition table_ok (t : table) : Prop := forall f rest, wf_table U t f -> led (yield_table t) after_tables (f :: rest) ->
  exists b, calls F_parse_table [VBool true] (yield_table t ++ f :: rest) (VNode (tree_table U t)) (b :: f :: rest).
Lemma first_place_tok b rest : tok_at (yield_place b ++ rest) 0 = Some (b_tok (first_place b)).
Proof. destruct b; cbn [yield_place first_place]; first [apply tok_yield|reflexivity]. Qed.
Lemma tok_table t rest : tok_at (yield_table t ++ rest) 0 = Some (b_tok (first_table t)).
Proof.
  revert rest. induction t as [[b a t o s|b a k lp es fo n i lq vs rq rp a2 s]|t IH j s c]; intro rest; cbn [yield_table first_table yield_source]; rewrite <- ?app_assoc; [apply first_place_tok..|apply IH].
Qed.
Lemma first_table_avoids t next : wf_table U t next -> ~ is_word (first_table t) "(" -> fits (Avoids ["("; "WITH"; "SELECT"; "FROM"]) (b_tok (first_table t)).
Proof.
  assert (X : forall b x, wf_place U b x -> ~ is_word (first_place b) "(" -> fits (Avoids ["("; "WITH"; "SELECT"; "FROM"]) (b_tok (first_place b))).
  2: { revert next. induction t as [[b a t o s|b a k lp es fo n i lq vs rq rp a2 s]|t IH j s c]; intros next W N; cbn [wf_table first_table] in *; [| |eapply IH; [apply W|exact N]];
    cbn [wf_source] in *; destruct W as (W & _); (eapply X; [exact W|exact N]). }
  intros b x W N. destruct b as [p|c|lp q rp|lp t' rp]; cbn [wf_place first_place] in *.
  - destruct W as (P & _). eapply fits_weaken; [exact (path_first p P)|reflexivity].
  - destruct W as (_ & C). destruct (call_of_facts U _ c C) as (F & _). apply fits_word in F. eapply fits_weaken; [exact F|reflexivity].
  - destruct W as (W & _). contradiction.
  - destruct W as (W & _). contradiction.
Qed.
Lemma place_group lp t rp : table_ok t -> place_ok (GroupTable lp t rp).
Proof.
  intros Ct root x rest (Kl & W & N & Kr) K. exists rp. change (yield_place (GroupTable lp t rp)) with (lp :: yield_table t ++ [rp]). cbn [app]. rewrite <- app_assoc. cbn [app].
  change (tree_place U (GroupTable lp t rp)) with (made N_GroupedExpr lp [("expr", CNode (tree_table U t)); ("rparen", symbol rp)]).
  destruct (Ct rp (x :: rest) W) as (b & C); [eapply led_more; [apply led_word; [exact Kr|reflexivity]|reflexivity]|].
  pose proof (first_table_avoids t rp W N) as F. pose proof (tok_table t (rp :: x :: rest)) as T.
  destruct (yield_table t ++ rp :: x :: rest) as [|b0 r0]; [discriminate|]. injection T as T. rewrite <- T in F.
  apply fits_word in Kl. table_part.
  eapply steps_eq; [eapply steps_case_known; [tok|exact Kl|reflexivity|]|]; norm.
  { eapply steps_seq; [step HU|]. norm. eapply steps_seq; [eapply steps_letbool; now apply decides_opens_not|]. norm.
    step HU. }
  envr.
Qed.

(* ----- what follows a table ----- *)
Lemma alias_call_any a n b f rest : wf_alias U a -> (a = NoAlias -> fits (Among ("FOR" :: "WITH" :: "TABLESAMPLE" :: source_enders)) (b_tok f)) ->
  exists b', calls F_push_trailing_alias [VNode n] (b :: yield_alias a ++ f :: rest) (VNode (with_alias a n)) (b' :: f :: rest).
Proof.
  intros W K. destruct a as [|k a|a]; cbn [wf_alias yield_alias with_alias app] in *; eexists; (eapply calls_body; [reflexivity|]; cbn [prog push_trailing_alias f_body f_params combine]).
  - specialize (K eq_refl). step HU.
  - destruct W as (Kk & _). apply fits_word in Kk. clear K. step HU.
  - destruct W as (N & _). pose proof (name_avoided U a N) as N1. destruct N as (_ & I). clear K. step HU.
Qed.
Lemma alias_call a n b f rest : wf_alias U a -> fits (Among ("FOR" :: "WITH" :: "TABLESAMPLE" :: source_enders)) (b_tok f) ->
  exists b', calls F_push_trailing_alias [VNode n] (b :: yield_alias a ++ f :: rest) (VNode (with_alias a n)) (b' :: f :: rest).
Proof. intros W K. now apply alias_call_any. Qed.
Definition alias_part : cmd fn := part 3 (f_body parse_table).
Definition as_of_part : cmd fn := part 4 (f_body parse_table).
Definition offset_part : cmd fn := part 5 (f_body parse_table).
Definition pivot_part : cmd fn := part 6 (f_body parse_table).
Definition sample_part : cmd fn := part 7 (f_body parse_table).
Definition as_of_ok (t : as_of) : Prop := match t with Now => True | AsOf _ _ _ _ e => reach e end.
Lemma alias_steps a root n b f rest : wf_alias U a -> fits (Among ("FOR" :: "WITH" :: "TABLESAMPLE" :: source_enders)) (b_tok f) ->
  exists b', steps alias_part (tframe root (VNode n)) (b :: yield_alias a ++ f :: rest) Norm (tframe root (VNode (with_alias a n))) (b' :: f :: rest).
Proof.
  intros W K. destruct (alias_call a n b f rest W K) as (b' & C). exists b'. unfold alias_part. table_part.
  assert (X : exists x r, yield_alias a ++ f :: rest = x :: r /\ fits (Avoids table_clauses) (b_tok x)).
  { destruct a as [|k a|a]; cbn [yield_alias app wf_alias] in *; (eexists _, _; split; [reflexivity|]).
    - eapply fits_weaken; [exact K|reflexivity].
    - destruct W as (W & _). apply fits_word in W. eapply fits_weaken; [exact W|reflexivity].
    - apply fits_avoids. apply W. }
  destruct X as (x & r & E & X). rewrite E in *. 
  eapply steps_eq; [eapply (steps_if U) with (v := true); [apply decides_not_false; apply decides_and_false; decide_ HU|]; cbv iota; step HU|envr].
Qed.
(* before PIVOT ( *)
Lemma pivot_alias a root n b k lp rest : wf_alias U a -> is_word k "PIVOT" -> is_word lp "(" ->
  exists b', steps alias_part (tframe root (VNode n)) (b :: yield_alias a ++ k :: lp :: rest) Norm (tframe root (VNode (with_alias a n))) (b' :: k :: lp :: rest).
Proof.
  intros W Kk Kl. unfold alias_part. table_part.
  destruct a as [|ka a|a].
  - apply fits_word in Kk, Kl. exists b. cbn [yield_alias with_alias app]. step HU.
  - destruct (alias_call_any (AliasAs ka a) n b k (lp :: rest) W ltac:(discriminate)) as (b' & C). exists b'.
    assert (X : fits (Avoids table_clauses) (b_tok ka)) by (destruct W as (W & _); apply fits_word in W; eapply fits_weaken; [exact W|reflexivity]).
    cbn [yield_alias app] in *.
    eapply steps_eq; [eapply (steps_if U) with (v := true); [apply decides_not_false; apply decides_and_false; decide_ HU|]; cbv iota; step HU|envr].
  - destruct (alias_call_any (Alias a) n b k (lp :: rest) W ltac:(discriminate)) as (b' & C). exists b'.
    assert (X : fits (Avoids table_clauses) (b_tok a)) by (apply fits_avoids; apply W).
    cbn [yield_alias app] in *.
    eapply steps_eq; [eapply (steps_if U) with (v := true); [apply decides_not_false; apply decides_and_false; decide_ HU|]; cbv iota; step HU|envr].
Qed.
Lemma as_of_steps t root n b f rest : wf_as_of U t -> as_of_ok t -> led (yield_as_of t) ("WITH" :: "TABLESAMPLE" :: source_enders) (f :: rest) ->
  exists b', steps as_of_part (tframe root (VNode n)) (b :: yield_as_of t ++ f :: rest) Norm (tframe root (VNode (with_as_of U t n))) (b' :: f :: rest).
Proof.
  intros W C L. unfold as_of_part. table_part. destruct t as [|k1 k2 k3 k4 e]; cbn [yield_as_of with_as_of wf_as_of as_of_ok app] in *.
  - exists b. destruct L as (? & ? & [= <- <-] & K & _). step HU.
  - destruct W as (K1 & K2 & K3 & K4 & W). do 4 (apply led_cons in L).
    pose proof (led_expr e true _ _ C L eq_refl) as C'. apply fits_word in K1. eexists. step HU.
Qed.
Lemma offset_steps o root n b f rest : wf_offset U o -> fits (Among ("TABLESAMPLE" :: source_enders)) (b_tok f) ->
  exists b', steps offset_part (tframe root (VNode n)) (b :: yield_offset o ++ f :: rest) Norm (tframe root (VNode (with_offset o n))) (b' :: f :: rest).
Proof.
  intros W K. unfold offset_part. table_part. destruct o as [|w o a]; cbn [yield_offset with_offset wf_offset app] in *.
  - exists b. step HU.
  - destruct W as (Kw & Ko & W). apply fits_word in Kw, Ko. destruct a as [|k a|a]; cbn [wf_alias yield_alias with_alias app] in *.
    + exists o. step HU.
    + destruct W as (Kk & _). apply fits_word in Kk. exists a. rewrite !with_kid_made by reflexivity. step HU.
    + destruct W as (N & _). pose proof (name_avoided U a N) as N1. destruct N as (_ & I). exists a. rewrite !with_kid_made by reflexivity. step HU.
Qed.
(* ----- TABLESAMPLE and PIVOT ----- *)
Lemma sample_steps s root n b f rest : wf_sample U s -> fits (Among source_enders) (b_tok f) ->
  exists b', steps sample_part (tframe root (VNode n)) (b :: yield_sample s ++ f :: rest) Norm (tframe root (VNode (with_sample U s n))) (b' :: f :: rest).
Proof.
  intros W K. unfold sample_part. table_part. destruct s as [|k s lp e p rp]; cbn [yield_sample with_sample wf_sample app] in *.
  - exists b. step HU.
  - destruct W as (Kk & Ks & Kl & O & Kp & Kr). apply fits_word in Kk, Kl, Kr. apply fits_among in Kp.
    pose proof (plain_call U HU _ (Atom e) true p (rp :: f :: rest) (reach_atom U HU e O) Kp eq_refl) as C. cbn [yield app lastb] in C.
    change (GrammarSpec.tree U (Atom e)) with (made (match kind U (b_tok e) with Some ty => ty | None => N_Unknown end) e []) in C.
    lazymatch goal with |- context [("group", CNode ?g)] =>
      assert (C1 : calls F_parse_table_sample_ratio [] (lp :: e :: p :: rp :: f :: rest) (VNode g) (rp :: f :: rest))
        by (eapply calls_body; [reflexivity|]; cbn [prog parse_table_sample_ratio f_body f_params combine]; step HU) end.
    clear C. exists rp. step HU.
Qed.
Lemma sample_heads s f rest : wf_sample U s -> fits (Among source_enders) (b_tok f) ->
  exists g r, yield_sample s ++ f :: rest = g :: r /\ hd f (yield_sample s) = g /\ fits (Among ("TABLESAMPLE" :: source_enders)) (b_tok g).
Proof.
  intros W K. destruct s; cbn [yield_sample wf_sample app hd] in *; (eexists _, _; split; [reflexivity|]; split; [reflexivity|]).
  - eapply fits_weaken; [exact K|reflexivity].
  - destruct W as (W & _). apply fits_word in W. eapply fits_weaken; [exact W|reflexivity].
Qed.
Lemma pivot_config lp es fo x i lq vs rq rp rest : is_word lp "(" -> wfs U true false es -> exprs_ok U true es -> is_word fo "FOR" -> name U x -> is_word i "IN" ->
  is_word lq "(" -> wfs U true true vs -> exprs_ok U true vs -> is_word rq ")" -> is_word rp ")" ->
  calls F_parse_pivot_config_clause [] (lp :: yields es ++ fo :: x :: i :: lq :: yields vs ++ rq :: rp :: rest)
    (VNode (made N_PivotConfig lp
      [("exprs", CVec (trees U es)); ("for", CNode (made N_KeywordWithExpr fo [("expr", ident x)]));
       ("in", CNode (made N_KeywordWithGroupedXXX i
         [("group", CNode (made N_GroupedExprs lq [("exprs", CVec (trees U vs)); ("rparen", symbol rq)]))])); ("rparen", symbol rp)])) (rp :: rest).
Proof.
  intros Kl W C Kfo Nx Ki Klq Wv Cv Krq Kr.
  pose proof (grouped_call U HU true true lq vs rq (rp :: rest) Klq Wv Cv Krq) as Cg.
  pose proof (trails_false U _ _ W) as Tr. pose proof (name_avoided U x Nx) as Nx1. destruct Nx as (_ & Nx).
  apply fits_word in Kl, Kfo, Ki, Klq, Krq, Kr. 
  destruct (exprs_plain U HU _ _ [] _ fo (x :: i :: lq :: yields vs ++ rq :: rp :: rest) C Kfo) as (b0 & C0); try reflexivity; [congruence|].
  lazymatch type of Cg with Forward.calls _ _ _ ?l (VNode ?g) ?bs =>
    assert (Ci : calls F_parse_keyword_with_grouped_exprs [VBool true] (i :: l) (VNode (made N_KeywordWithGroupedXXX i [("group", CNode g)])) bs)
      by (eapply calls_body; [reflexivity|]; cbn [prog parse_keyword_with_grouped_exprs f_body f_params combine]; step HU) end. clear Cg.
  assert (Ne : yields es ++ fo :: x :: i :: lq :: yields vs ++ rq :: rp :: rest <> []) by (destruct (yields es); discriminate).
  eapply calls_body; [reflexivity|]; cbn [prog parse_pivot_config_clause f_body f_params combine]. step HU.
Qed.
Definition source_ok (s : source) : Prop :=
  match s with
  | Source b _ t _ _ => place_ok b /\ as_of_ok t
  | Pivot b _ _ _ es _ _ _ _ vs _ _ _ _ => place_ok b /\ exprs_ok U true es /\ exprs_ok U true vs
  end.
Lemma place_type b x : wf_place U b x -> nt_eqb (n_type (tree_place U b)) N_CallingFunction = false.
Proof.
  destruct b as [p|c| | ]; cbn [wf_place].
  - intros (P & _). exact (path_type p P).
  - intros (_ & C). change (tree_place U (Unnest c)) with (retyped N_CallingUnnest (tree c)). now destruct (tree c).
  - reflexivity.
  - reflexivity.
Qed.
Lemma hd_cat {A} (d : A) l r : hd d (l ++ r) = hd (hd d r) l.
Proof. now destruct l. Qed.
Lemma after_alias t o f rest : wf_as_of U t -> wf_offset U o -> fits (Among ("TABLESAMPLE" :: source_enders)) (b_tok f) ->
  exists g r, yield_as_of t ++ yield_offset o ++ f :: rest = g :: r /\ hd f (yield_as_of t ++ yield_offset o) = g /\ fits (Among ("FOR" :: "WITH" :: "TABLESAMPLE" :: source_enders)) (b_tok g).
Proof.
  intros Wt Wo K. destruct t as [|k1 k2 k3 k4 e]; cbn [yield_as_of wf_as_of app] in *.
  - destruct o as [|w o a]; cbn [yield_offset wf_offset app hd] in *; (eexists _, _; split; [reflexivity|]; split; [reflexivity|]).
    + eapply fits_weaken; [exact K|reflexivity].
    + destruct Wo as (W & _). apply fits_word in W. eapply fits_weaken; [exact W|reflexivity].
  - eexists _, _; split; [reflexivity|]; split; [reflexivity|]. destruct Wt as (W & _). apply fits_word in W. eapply fits_weaken; [exact W|reflexivity].
Qed.
Lemma after_place a t o f rest : wf_alias U a -> wf_as_of U t -> wf_offset U o -> fits (Among ("TABLESAMPLE" :: source_enders)) (b_tok f) ->
  exists g r, yield_alias a ++ yield_as_of t ++ yield_offset o ++ f :: rest = g :: r /\ hd f (yield_alias a ++ yield_as_of t ++ yield_offset o) = g /\ placed g.
Proof.
  intros Wa Wt Wo K. destruct a as [|k a|a]; cbn [yield_alias wf_alias app hd] in *.
  - destruct (after_alias t o f rest Wt Wo K) as (g & r & E & H & F). exists g, r. repeat split; try assumption. left. eapply fits_weaken; [exact F|reflexivity].
  - eexists _, _; split; [reflexivity|]; split; [reflexivity|]. left. destruct Wa as (W & _). apply fits_word in W. eapply fits_weaken; [exact W|reflexivity].
  - eexists _, _; split; [reflexivity|]; split; [reflexivity|]. right. apply Wa.
Qed.
Lemma source_steps s root f rest : wf_source U s f -> source_ok s -> led (yield_source s) source_enders (f :: rest) ->
  exists b', forall ct e2 bs2, steps (drop 8 (f_body parse_table)) (tframe root (VNode (tree_source U s))) (b' :: f :: rest) ct e2 bs2 ->
    steps (f_body parse_table) [("root", VBool root)] (yield_source s ++ f :: rest) ct e2 bs2.
Proof.
  destruct s as [b a t o s|b a k lp es fo n i lq vs rq rp a2 s].
  - intros (Wb & Wa & Wt & Wo & Ws) (Cb & Ct) L.
    change (yield_source (Source b a t o s)) with (yield_place b ++ yield_alias a ++ yield_as_of t ++ yield_offset o ++ yield_sample s) in *.
    change (tree_source U (Source b a t o s)) with (with_sample U s (with_offset o (with_as_of U t (with_alias a (tree_place U b))))).
    do 2 apply led_right in L. assert (K : fits (Among source_enders) (b_tok f)) by (destruct L as (? & ? & [= <- <-] & K & _); exact K).
    rewrite !app_assoc in L. pose proof (led_left _ _ ["TABLESAMPLE"] _ _ L ltac:(destruct s; [now left|right; apply led_word; [apply Ws|reflexivity]])) as L0. cbn [app] in L0.
    pose proof (led_left _ _ ["WITH"] _ _ L0 ltac:(destruct o; [now left|right; apply led_word; [apply Wo|reflexivity]])) as L1. cbn [app] in L1.
    destruct (sample_heads s f rest Ws K) as (gs & rs & Es & Hs & Fs).
    destruct (after_alias t o gs rs Wt Wo Fs) as (g1 & r1 & E1 & _ & F1).
    destruct (after_place a t o gs rs Wa Wt Wo Fs) as (g0 & r0 & E0 & H0 & F0).
    rewrite !app_assoc, (hd_cat f _ (yield_sample s)), Hs, <- !app_assoc, H0 in Wb. pose proof (place_type b g0 Wb) as Ty.
    destruct (Cb root g0 r0 Wb F0) as (b0 & S0). rewrite <- E0 in S0.
    destruct (alias_steps a root (tree_place U b) b0 g1 r1 Wa F1) as (b1 & S1). rewrite <- E1 in S1.
    rewrite Es in L1. destruct L1 as (g2 & r2 & E2 & F2 & N2).
    destruct (as_of_steps t root (with_alias a (tree_place U b)) b1 g2 r2 Wt Ct ltac:(exists g2, r2; auto)) as (b2 & S2). rewrite <- E2 in S2.
    destruct (offset_steps o root (with_as_of U t (with_alias a (tree_place U b))) b2 gs rs Wo Fs) as (b3 & S3).
    destruct (sample_steps s root (with_offset o (with_as_of U t (with_alias a (tree_place U b)))) b3 f rest Ws K) as (b4 & S4).
    rewrite Es in S4. assert (Ks : fits (Avoids table_clauses) (b_tok gs)) by (eapply fits_weaken; [exact Fs|reflexivity]).
    exists b4. intros ct e2 bs2 S. rewrite <- !app_assoc, Es. unfold alias_part, as_of_part, offset_part, sample_part, tframe in *. cbn [drop part parse_table f_body] in *.
    eapply steps_seq; [step HU|]. eapply steps_seq; [exact S0|].
    eapply steps_seq; [eapply steps_eq; [eapply steps_if; [eapply decides_eq; [eapply decides_type; envr|exact Ty]|apply steps_skip]|envr]|].
    eapply steps_seq; [exact S1|]. eapply steps_seq; [exact S2|]. eapply steps_seq; [exact S3|].
    eapply steps_seq; [step HU|]. norm. eapply steps_seq; [exact S4|]. exact S.
  - intros (Wb & Wa & Kk & Kl & Wes & Kfo & Nn & Ki & Klq & Wvs & Krq & Kr & Wa2 & Ws) (Cb & Ce & Cv) L.
    match goal with |- context [tree_source U ?x] => change (tree_source U x) with (with_sample U s (with_kid "pivot" (CNode (with_alias a2 (made N_PivotOperator k
      [("config", CNode (made N_PivotConfig lp
         [("exprs", CVec (trees U es)); ("for", CNode (made N_KeywordWithExpr fo [("expr", ident n)]));
          ("in", CNode (made N_KeywordWithGroupedXXX i
             [("group", CNode (made N_GroupedExprs lq [("exprs", CVec (trees U vs)); ("rparen", symbol rq)]))])); ("rparen", symbol rp)]))])))
      (with_alias a (tree_place U b)))) end.
    assert (K : fits (Among source_enders) (b_tok f)) by (destruct L as (? & ? & [= <- <-] & K & _); exact K). clear L.
    destruct (sample_heads s f rest Ws K) as (gs & rs & Es & Hs & Fs).
    pose proof (pivot_config lp es fo n i lq vs rq rp (yield_alias a2 ++ gs :: rs) Kl Wes Ce Kfo Nn Ki Klq Wvs Cv Krq Kr) as Cc.
    set (Z := yields es ++ fo :: n :: i :: lq :: yields vs ++ rq :: rp :: yield_alias a2 ++ gs :: rs) in *.
    assert (Y : yield_source (Pivot b a k lp es fo n i lq vs rq rp a2 s) ++ f :: rest = yield_place b ++ yield_alias a ++ k :: lp :: Z).
    { unfold Z. cbn [yield_source]. do 4 (rewrite <- !app_assoc; cbn [app]). now rewrite Es. }
    rewrite Y. clear Y.
    assert (X : exists g r, yield_alias a ++ k :: lp :: Z = g :: r /\ hd k (yield_alias a) = g /\ placed g).
    { destruct a as [|ka a|a]; cbn [yield_alias app hd wf_alias] in *; (eexists _, _; split; [reflexivity|]; split; [reflexivity|]).
      - left. apply fits_word in Kk. eapply fits_weaken; [exact Kk|reflexivity].
      - left. destruct Wa as (W & _). apply fits_word in W. eapply fits_weaken; [exact W|reflexivity].
      - right. apply Wa. }
    destruct X as (g0 & r0 & E0 & H0 & F0). rewrite H0 in Wb. pose proof (place_type b g0 Wb) as Ty.
    destruct (Cb root g0 r0 Wb F0) as (b0 & S0). rewrite <- E0 in S0.
    destruct (pivot_alias a root (tree_place U b) b0 k lp Z Wa Kk Kl) as (b1 & S1).
    lazymatch goal with |- context [with_alias a2 ?m] =>
      destruct (alias_call a2 m rp gs rs Wa2 ltac:(eapply fits_weaken; [exact Fs|reflexivity])) as (b2 & Ca) end.
    lazymatch goal with |- context [with_sample U s ?m] => destruct (sample_steps s root m b2 f rest Ws K) as (b4 & S4) end. rewrite Es in S4.
    exists b4. intros ct e2 bs2 S. unfold alias_part, sample_part, tframe in *. cbn [drop part parse_table f_body] in *. clear E0 F0 K Fs.
    apply fits_word in Kk. assert (Ne : Z <> []) by (unfold Z; destruct (yields es); discriminate). clearbody Z.
    eapply steps_seq; [step HU|]. eapply steps_seq; [exact S0|].
    eapply steps_seq; [eapply steps_eq; [eapply steps_if; [eapply decides_eq; [eapply decides_type; envr|exact Ty]|apply steps_skip]|envr]|].
    eapply steps_seq; [exact S1|]. clear S0 S1. eapply steps_seq; [step HU|]. eapply steps_seq; [step HU|]. norm.
    eapply steps_seq; [step HU|]. norm. eapply steps_seq; [exact S4|]. exact S.
Qed.
(* the right side of a join *)
Lemma source_call s f rest : wf_source U s f -> source_ok s -> led (yield_source s) source_enders (f :: rest) ->
  exists b', calls F_parse_table [VBool false] (yield_source s ++ f :: rest) (VNode (tree_source U s)) (b' :: f :: rest).
Proof.
  intros W C L. destruct (source_steps s false f rest W C L) as (b' & H). exists b'. eapply calls_body; [reflexivity|]. apply H.
  unfold tframe. cbn [drop parse_table f_body]. eapply steps_seq; [apply steps_while_end; eapply decides_off_in; [tok|envr]|]. step HU.
Qed.
Definition condition_ok (c : condition) : Prop := match c with NoCondition => True | On _ e | Using e => reach e end.
Fixpoint parts_ok (t : table) : Prop := match t with Base s => source_ok s | Join t _ s c => parts_ok t /\ source_ok s /\ condition_ok c end.
Definition join_head : cmd fn := match part 8 (f_body parse_table) with While _ c => match c with Seq a (Seq b (Seq d _)) => Seq (Seq a b) d | _ => Skip end | _ => Skip end.
Definition condition_part : cmd fn := match part 8 (f_body parse_table) with While _ c => part 5 c | _ => Skip end.
Lemma join_steps j n b rest : wf_joining U j -> rest <> [] ->
  exists b', steps join_head (tframe true n) (b :: yield_joining j ++ rest) Norm (("join", VNode (tree_joining j)) :: tframe true n) (b' :: rest).
Proof.
  intros W N. unfold join_head, tframe. cbn [part parse_table f_body]. destruct j as [j|k j|k o j]; cbn [wf_joining yield_joining app tree_joining] in *; eexists.
  - apply fits_among in W. step HU.
  - destruct W as (Kk & Kj). apply fits_among in Kk. apply fits_word in Kj. step HU.
  - destruct W as (Kk & Ko & Kj). apply fits_among in Kk. apply fits_word in Kj, Ko. step HU.
Qed.
Lemma condition_steps c m r n b f rest : wf_condition U c -> condition_ok c -> led (yield_condition c) table_enders (f :: rest) ->
  exists b', steps condition_part (("right", r) :: ("join", VNode m) :: tframe true n) (b :: yield_condition c ++ f :: rest) Norm
    (("right", r) :: ("join", VNode (with_condition U c m)) :: tframe true n) (b' :: f :: rest).
Proof.
  intros W C L. unfold condition_part, tframe. cbn [part parse_table f_body]. destruct c as [|k e|c]; cbn [wf_condition condition_ok yield_condition with_condition app] in *.
  - exists b. destruct L as (? & ? & [= <- <-] & K & _). step HU.
  - destruct W as (Kk & W). apply led_cons in L. pose proof (led_expr e true _ _ C L eq_refl) as C'. apply fits_word in Kk. eexists. step HU.
  - destruct W as (W & Cc). assert (K : fits (Among table_enders) (b_tok f)) by (destruct L as (? & ? & [= <- <-] & K & _); exact K).
    pose proof (call_of_call "USING" c f rest W Cc C ltac:(left; eapply fits_weaken; [exact K|reflexivity])) as C'.
    destruct (call_of_facts U _ c Cc) as (F & _). apply fits_word in F. pose proof (yield_nonempty c) as Ne.
    assert (Ne' : yield c ++ f :: rest <> []) by (destruct (yield c); discriminate).
    exists (lastb c). step HU.
Qed.
Lemma steps_assoc a b c e bs ct e' bs' : steps (Seq (Seq a b) c) e bs ct e' bs' -> steps (Seq a (Seq b c)) e bs ct e' bs'.
Proof.
  intros [n H]. exists n. intros s V. destruct (H s V) as (s' & E & V'). exists s'. split; [|exact V']. rewrite <- E. cbn [exec]. unfold bind.
  destruct (exec U (run U prog n) n a e s) as [[[] ?]| | | |]; reflexivity.
Qed.
Lemma table_steps t : forall f rest, wf_table U t f -> parts_ok t -> led (yield_table t) table_enders (f :: rest) ->
  exists b', forall ct e2 bs2, steps (drop 8 (f_body parse_table)) (tframe true (VNode (tree_table U t))) (b' :: f :: rest) ct e2 bs2 ->
    steps (f_body parse_table) [("root", VBool true)] (yield_table t ++ f :: rest) ct e2 bs2.
Proof.
  induction t as [s|t IH j s c]; intros f rest W C L.
  - apply source_steps; try assumption. eapply led_more; [exact L|reflexivity].
  - destruct W as (Wt & Wj & Ws & Wc). destruct C as (Ct & Cs & Cc).
    change (yield_table (Join t j s c)) with (yield_table t ++ yield_joining j ++ yield_source s ++ yield_condition c) in *.
    change (tree_table U (Join t j s c)) with (with_kid "right" (CNode (tree_source U s)) (with_kid "left" (CNode (tree_table U t)) (with_condition U c (tree_joining j)))).
    do 2 apply led_right in L. rewrite <- !app_assoc.
    assert (Lc : yield_condition c = [] \/ led (yield_source s) ["ON"; "USING"] (yield_condition c ++ f :: rest)).
    { destruct c as [|k e|c]; cbn [yield_condition wf_condition] in *; [now left|right|right].
      - eapply led_more; [apply led_word; [apply Wc|reflexivity]|reflexivity].
      - destruct (call_of_facts U _ c (proj2 Wc)) as (F & _). destruct (first_yield c) as (r & ->). cbn [app].
        eapply led_more; [apply led_word; [exact F|reflexivity]|reflexivity]. }
    assert (Ec : exists g r, yield_condition c ++ f :: rest = g :: r /\ g = hd f (yield_condition c)).
    { destruct (yield_condition c); cbn; eauto. }
    pose proof (led_left _ _ _ _ _ L Lc) as L1. cbn [app] in L1. apply led_right in L.
    destruct Ec as (g & r & Ec & Hg). rewrite Ec in L1. rewrite <- Hg in Ws. destruct (source_call s g r Ws Cs L1) as (b2 & C2). rewrite <- Ec in C2.
    assert (Lj : led (yield_table t) table_enders (yield_joining j ++ yield_source s ++ yield_condition c ++ f :: rest)).
    { destruct j as [j|k j|k o j]; cbn [wf_joining yield_joining app] in *; (eapply led_more; [apply led_words; [apply Wj|reflexivity]|reflexivity]). }
    assert (Ej : exists g r, yield_joining j ++ yield_source s ++ yield_condition c ++ f :: rest = g :: r /\ g = hd f (yield_joining j)).
    { destruct j; cbn [yield_joining app hd]; eauto. }
    destruct Ej as (g1 & r1 & Ej & Hg1). rewrite Ej in Lj. rewrite <- Hg1 in Wt. destruct (IH g1 r1 Wt Ct Lj) as (b1 & S1). rewrite <- Ej in S1.
    assert (Ne : yield_source s ++ yield_condition c ++ f :: rest <> []) by (destruct (yield_source s), (yield_condition c); discriminate).
    destruct (join_steps j (VNode (tree_table U t)) b1 _ Wj Ne) as (b3 & S3).
    destruct (condition_steps c (tree_joining j) (VNode (tree_source U s)) (VNode (tree_table U t)) b2 f rest Wc Cc L) as (b4 & S4).
    exists b4. intros ct e2 bs2 S. apply S1. clear S1 IH. unfold join_head, condition_part, tframe in *. cbn [part drop parse_table f_body] in *.
    assert (Kj : exists x y, yield_joining j ++ yield_source s ++ yield_condition c ++ f :: rest = x :: y /\ fits (Among join_words) (b_tok x)).
    { destruct j as [j|k j|k o j]; cbn [wf_joining yield_joining app] in *; (eexists _, _; split; [reflexivity|]);
        [apply fits_among in Wj; eapply fits_weaken; [exact Wj|reflexivity]|destruct Wj as (Wj & _); apply fits_among in Wj; eapply fits_weaken; [exact Wj|reflexivity]..]. }
    destruct Kj as (x & y & Ex & Kx).
    eapply steps_while_more_seq with (bs1 := b4 :: f :: rest)
      (e1 := [("right", VUndef); ("join", VUndef); ("left", VNode (with_kid "right" (CNode (tree_source U s)) (with_kid "left" (CNode (tree_table U t)) (with_condition U c (tree_joining j))))); ("root", VBool true)]);
      [rewrite Ex; decide_ HU| |exact S].
    do 2 eapply steps_assoc. eapply steps_seq; [exact S3|].
    eapply steps_seq; [step HU|]. eapply steps_seq; [step HU|]. norm. eapply steps_seq; [exact S4|]. step HU.
Qed.
Lemma table_parts t : parts_ok t -> table_ok t.
Proof.
  intros C f rest W L. destruct (table_steps t f rest W C) as (b & S); [eapply led_more; [exact L|reflexivity]|]. exists b.
  eapply calls_body; [reflexivity|]. apply S. unfold tframe. cbn [drop parse_table f_body].
  assert (K : fits (Among after_tables) (b_tok f)) by (destruct L as (? & ? & [= <- <-] & K & _); exact K).
  eapply steps_seq; [apply steps_while_end; decide_ HU|]. step HU.
Qed.
End WithUnicode.
