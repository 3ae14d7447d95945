(* The parser on the expressions of GrammarSpec.v. *)
From Verif Require Import Chars Token Cst Core MiniRust Program Bundles ParserView ParserGeneric ShapeSound GroupingSpec GroupingExpr
  Forward GrammarSpec GrammarTactics.
Local Open Scope string_scope.
Local Open Scope list_scope.
Local Notation length := List.length.

(* the parts of parse_expr: parser.rs:345-349, 350-564, 565-806, 807-840 *)
Definition H1 : cmd fn := match f_body parse_expr with Seq _ (Seq a _) => a | _ => Skip end.
Definition H2 : cmd fn := match f_body parse_expr with Seq _ (Seq _ (Seq a _)) => a | _ => Skip end.
Definition Loop : cmd fn := match f_body parse_expr with Seq _ (Seq _ (Seq _ (Seq a _))) => a | _ => Skip end.
Definition Tail : cmd fn := match f_body parse_expr with Seq _ (Seq _ (Seq _ (Seq _ a))) => a | _ => Skip end.
Lemma parts : f_body parse_expr = Seq (Declare "left") (Seq H1 (Seq H2 (Seq Loop Tail))). Proof. reflexivity. Qed.

(* the last token of a phrase *)
Definition last_over (ov : over) (b : bundle) : bundle := match ov with NoOver => b | OverName _ b => b | OverSpec _ _ _ _ _ _ b => b end.
Fixpoint lastb (e : expr) : bundle :=
  match e with
  | Atom b | Fn b | Star b | StarBut _ _ _ _ b | Typed _ b | TypedRaw _ _ b | Interval _ _ b | IntervalTo _ _ _ _ b | Field _ _ b | Paren _ _ b
  | Tuple _ _ _ _ b | EmptyTuple _ b | InList _ _ _ _ _ b | InQuery _ _ _ _ _ b | CallQuery _ _ _ b | Cast _ _ _ _ _ b | CastFormat _ _ _ _ _ _ _ b | Extract _ _ _ _ _ b | ExtractAt _ _ _ _ _ _ _ _ _ b
  | Index _ _ _ b | Array _ _ b | EmptyArray _ b | TypedArray _ _ _ b | Struct _ _ _ b | Case _ _ b | CaseOf _ _ _ b | Sub _ _ b => b
  | Call0 _ _ b ov | Call _ _ _ _ _ _ _ b ov | CallMost _ _ _ _ _ _ _ b ov => last_over ov b
  | Dashed b bs | FieldDashed _ _ b bs => last bs b
  | AllOf _ _ e | Prefix _ e | Infix _ _ e | IsNot _ _ _ e | IsDistinct _ _ _ _ _ e | NotLike _ _ _ e | LikeSome _ _ _ _ e | Between _ _ _ _ _ e | InUnnest _ _ _ e => lastb e
  end.
Lemma last_end {A} (l r : list A) x d : last (l ++ x :: r) d = last (x :: r) d.
Proof. induction l as [|a l IH]; [reflexivity|]. cbn [app]. cbn [last]. destruct (l ++ x :: r) eqn:E; [destruct l; discriminate|]. exact IH. Qed.
Lemma last_snoc {A} (l : list A) x d : last (l ++ [x]) d = x. Proof. now rewrite last_end. Qed.
Lemma last_cons_app {A} (l : list A) a x d : last (a :: l ++ [x]) d = x. Proof. change (a :: l ++ [x]) with ((a :: l) ++ [x]). now rewrite last_end. Qed.
Lemma last_cons {A} (l : list A) a d : l <> [] -> last (a :: l) d = last l d. Proof. destruct l; [contradiction|reflexivity]. Qed.
Lemma first_yield e : exists r, yield e = first e :: r.
Proof.
  assert (A : forall l b r, (exists r0 : list bundle, l = b :: r0) -> exists r0, l ++ r = b :: r0) by (intros l b r [r0 ->]; cbn; eauto).
  induction e; cbn [yield first]; eauto; destruct t; cbn; eauto.
Qed.
Lemma yield_nonempty e : yield e <> [].
Proof. destruct (first_yield e) as [r ->]. discriminate. Qed.
Lemma last_cat {A} (l r : list A) d : r <> [] -> last (l ++ r) d = last r d. Proof. destruct r; [contradiction|]. intros _. apply last_end. Qed.
Ltac filled := solve [discriminate | apply yield_nonempty |
  let H := fresh in intro H; apply (f_equal (@List.length _)) in H; repeat (rewrite app_length in H || cbn [List.length] in H); lia].
Ltac last_ := repeat first [rewrite last_end | rewrite last_cat by filled | rewrite last_cons by filled].
Lemma last_yield e d : last (yield e) d = lastb e.
Proof.
  assert (O : forall ov rp, last (rp :: yield_over ov) d = last_over ov rp).
  { destruct ov; intro; cbn [yield_over last_over]; last_; reflexivity. }
  assert (D : forall (bs : list bundle) b d, last (b :: bs) d = last bs b).
  { induction bs as [|x bs IH]; intros b d'; [reflexivity|]. rewrite last_cons by discriminate. now rewrite !IH. }
  induction e; cbn [yield lastb]; last_; rewrite ?O, ?D; auto.
Qed.

Section WithUnicode.
Context (U : unicode) (HU : ascii_faithful U).
Local Notation steps := (steps U).
Local Notation calls := (calls U).
Local Notation is_word := (is_word U).
Local Notation word_in := (word_in U).
Local Notation tree := (tree U).
Local Notation wf := (wf U).
Local Notation loosest_left := (loosest_left U).
Local Notation loosest_right := (loosest_right U).
Local Notation fits := (fits_known U).
Local Notation prec_in := (prec_in U).

(* ----- words ----- *)
Lemma fits_word b w : is_word b w -> fits (Among [w]) (b_tok b). Proof. apply fits_exactly. Qed.
Lemma level_word u levels q : find_level u levels = Some q -> exists ws w, In (q, ws) levels /\ In w ws /\ u = s_ w.
Proof.
  induction levels as [|[q' ws] l IH]; cbn [find_level]; [discriminate|]. destruct (existsb _ ws) eqn:E.
  - intros [= ->]. apply existsb_exists in E as (w & I & E). apply str_eqb_eq in E. exists ws, w. cbn; auto.
  - intros H. destruct (IH H) as (ws' & w & A & B & C). exists ws', w. cbn; auto.
Qed.
Definition infix_words : list string :=
  ["*"; "/"; "||"; "+"; "-"; "<<"; ">>"; "&"; "^"; "|"; "="; "<"; ">"; "<="; ">="; "!="; "<>"; "LIKE"; "IS"; "AND"; "OR"; "=>"].
Lemma infix_known b q : infix_level U b = Some q -> fits (Among infix_words) (b_tok b) /\ (1 <= q <= 100)%N /\
  forall r, prec_in (b :: r) 0 = Some (100 + q)%N.
Proof.
  intro H. apply level_word in H as (ws & w & I & J & E).
  assert (W : is_word b w) by exact E. apply fits_word in W.
  enough (X : In w infix_words /\ (1 <= q <= 100)%N /\ prec_of (s_ w) = Some (100 + q)%N).
  { destruct X as (A & B & C). split; [|split; [exact B|]].
    - eapply fits_weaken; [exact W|]. cbn [known_in forallb]. rewrite (proj2 (existsb_exists _ _)); [reflexivity|].
      exists w. split; [exact A|apply String.eqb_refl].
    - intro r. eapply prec_word; [apply tok_at_0|exact W|]. cbn [forallb]. rewrite C, N.eqb_refl. reflexivity. }
  assert (F : forallb (fun qw => forallb (fun w => existsb (String.eqb w) infix_words && (N.leb 1 (fst qw) && N.leb (fst qw) 100) &&
    match prec_of (s_ w) with Some c => N.eqb c (100 + fst qw) | None => false end) (snd qw)) binary_levels = true) by (vm_compute; reflexivity).
  rewrite forallb_forall in F. specialize (F _ I). cbn [fst snd] in F. rewrite forallb_forall in F. specialize (F _ J).
  apply andb_prop in F as [F F3]. apply andb_prop in F as [F1 F2]. apply andb_prop in F2 as [F2 F2']. apply N.leb_le in F2, F2'.
  apply existsb_exists in F1 as (x & X & Y). apply String.eqb_eq in Y. subst x. destruct (prec_of _); [|discriminate].
  apply N.eqb_eq in F3. subst. auto.
Qed.
Lemma prefix_known b q : prefix_level U b = Some q -> q = 2%N /\ fits (Among ["-"; "+"; "~"]) (b_tok b) \/ q = 10%N /\ fits (Among ["NOT"]) (b_tok b).
Proof.
  intro H. apply level_word in H as (ws & w & I & J & E). destruct I as [[= <- <-]|[[= <- <-]|[]]].
  - left. split; [reflexivity|]. apply fits_among. exists w. now split.
  - right. split; [reflexivity|]. apply fits_among. exists w. now split.
Qed.
Lemma loosest_right_le e : (loosest_right e <= 101)%N.
Proof.
  assert (A : forall b, (level_of (infix_level U b) <= 100)%N).
  { intro b. destruct (infix_level U b) eqn:E; cbn [level_of]; [|lia]. destruct (infix_known b n E) as (_ & L & _). lia. }
  assert (B : forall b, (level_of (prefix_level U b) <= 100)%N).
  { intro b. destruct (prefix_level U b) eqn:E; cbn [level_of]; [|lia]. destruct (prefix_known b n E) as [[-> _]|[-> _]]; lia. }
  induction e; cbn [GrammarSpec.loosest_right]; try lia; try (specialize (A b); lia); specialize (B b); lia.
Qed.
Lemma loosest_left_le e : (loosest_left e <= 100)%N.
Proof.
  assert (A : forall b, (level_of (infix_level U b) <= 100)%N).
  { intro b. destruct (infix_level U b) eqn:E; cbn [level_of]; [|lia]. destruct (infix_known b n E) as (_ & L & _). lia. }
  induction e; cbn [GrammarSpec.loosest_left]; try lia; specialize (A b); lia.
Qed.

(* ----- where a phrase ends ----- *)
Definition frame (p : N) (al od : bool) (v : value) : env :=
  [("left", v); ("precedence", VNum p); ("alias", VBool al); ("as_table", VBool false); ("after_dot", VBool false); ("order", VBool od)].

Definition order_words := ["ASC"; "DESC"; "NULLS"].
Definition suffix_words := ["OVER"; "TO"].
Definition stops (p : N) (rest : list bundle) : Prop :=
  exists f r c, rest = f :: r /\ fits (Avoids order_words) (b_tok f) /\ prec_in rest 0 = Some c /\ (p <= c)%N.
(* a field of something that is not a name: a parenthesis after it would be read with it *)
Definition opened (e : expr) : Prop := match e with Field e _ _ => ~ dotted U e | _ => False end.
Definition after (e : expr) (rest : list bundle) : Prop :=
  exists f r c, rest = f :: r /\ fits (Avoids suffix_words) (b_tok f) /\ ~ fuses U (lastb e) f /\
    (opened e -> fits (Avoids ["("]) (b_tok f)) /\ prec_in rest 0 = Some c /\ (100 + loosest_right e <= c)%N /\
    (loosest_right e <> 0%N -> fits (Avoids order_words) (b_tok f)).
Definition reach (e : expr) : Prop := forall p al od rest ct e2 bs2,
  (100 + loosest_left e < p)%N -> after e rest ->
  steps (Seq Loop Tail) (frame p al od (VNode (tree e))) (lastb e :: rest) ct e2 bs2 ->
  steps (Seq H1 (Seq H2 (Seq Loop Tail))) (frame p al od VUndef) (yield e ++ rest) ct e2 bs2.

Definition enders : list string :=
  [","; ")"; "]"; "FROM"; "WHERE"; "GROUP"; "HAVING"; "QUALIFY"; "WINDOW"; "ORDER"; "LIMIT"; "OFFSET"; ";"; "THEN"; "WHEN"; "ELSE"; "END"; "";
   "UNION"; "INTERSECT"; "EXCEPT"; "AS"; "ON"; "USING"; "LEFT"; "RIGHT"; "CROSS"; "INNER"; "FULL"; "JOIN"; "IGNORE"; "RESPECT"; "ROWS"; "RANGE";
   "PRECEDING"; "FOLLOWING"; "WITH"; "FOR"; "DO"; "INTO"; "SET"; "DEFAULT"; "CLUSTER"; "OPTIONS"; "PERCENT"; "|>"; "AT"; "TABLESAMPLE"; "PIVOT"].
Lemma ends_stops p f r : fits (Among enders) (b_tok f) -> (p <= usize_max)%N -> stops p (f :: r).
Proof.
  intros K L. exists f, r, usize_max. split; [reflexivity|]. split; [eapply fits_weaken; [exact K|reflexivity]|]. split; [|exact L].
  eapply prec_word; [apply tok_at_0|exact K|reflexivity].
Qed.
Lemma ends_after e f r : fits (Among enders) (b_tok f) -> ~ fuses U (lastb e) f -> after e (f :: r).
Proof.
  intros K N. exists f, r, usize_max. split; [reflexivity|]. split; [eapply fits_weaken; [exact K|reflexivity]|]. split; [exact N|].
  split; [intros _; eapply fits_weaken; [exact K|reflexivity]|].
  split; [eapply prec_word; [apply tok_at_0|exact K|reflexivity]|].
  split; [pose proof (loosest_right_le e); unfold usize_max; lia|]. intros _. eapply fits_weaken; [exact K|reflexivity].
Qed.
(* a name can end an expression too *)
Lemma name_stops p f r : is_identifier U (b_tok f) = true -> (p <= usize_max)%N -> stops p (f :: r).
Proof.
  intros K L. exists f, r, usize_max. split; [reflexivity|]. split; [apply identifier_avoids; [exact HU|exact K|reflexivity]|].
  split; [eapply prec_name; [exact HU|apply tok_at_0|exact K]|exact L].
Qed.
Lemma name_after e f r : is_identifier U (b_tok f) = true -> ~ fuses U (lastb e) f -> after e (f :: r).
Proof.
  intros K N. exists f, r, usize_max. split; [reflexivity|]. split; [apply identifier_avoids; [exact HU|exact K|reflexivity]|]. split; [exact N|].
  split; [intros _; apply identifier_avoids; [exact HU|exact K|reflexivity]|].
  split; [eapply prec_name; [exact HU|apply tok_at_0|exact K]|].
  split; [pose proof (loosest_right_le e); unfold usize_max; lia|]. intros _. apply identifier_avoids; [exact HU|exact K|reflexivity].
Qed.
(* an operator other than a parenthesis *)
Lemma prec_paren f r c : prec_in (f :: r) 0 = Some c -> c <> 101%N -> fits (Avoids ["("]) (b_tok f).
Proof.
  intros P N. apply fits_avoids. intros (w & [<-|[]] & W). apply N. apply fits_word in W.
  assert (X : prec_in (f :: r) 0 = Some 101%N) by (eapply prec_word; [apply tok_at_0|exact W|reflexivity]). congruence.
Qed.

Lemma tok_yield e rest : tok_at (yield e ++ rest) 0 = Some (b_tok (first e)).
Proof. destruct (first_yield e) as [r ->]. reflexivity. Qed.
Ltac ahead ::= apply tok_yield.

(* the loop ends before a token of lower precedence *)
Lemma loop_ends p al od v b rest : stops p rest -> steps Loop (frame p al od v) (b :: rest) Norm (frame p al od v) (b :: rest).
Proof.
  intros (f & r & c & -> & _ & P & L). unfold frame. apply steps_while_end. eapply decides_prec; [exact P|envr|]. now apply N.ltb_ge.
Qed.
Lemma tail_ends p v od b rest : stops p rest -> forall p',
  steps Tail (frame p' false od (VNode v)) (b :: rest) (Ret (VNode v)) (frame p' false od VUndef) (b :: rest).
Proof.
  intros (f & r & c & -> & K & P & L) p'. unfold Tail. cbn [parse_expr f_body]. unfold frame. destruct od; step HU.
Qed.
Lemma expr_body p al od bs v e2 bs2 : steps (Seq H1 (Seq H2 (Seq Loop Tail))) (frame p al od VUndef) bs (Ret v) e2 bs2 ->
  calls F_parse_expr [VNum p; VBool al; VBool false; VBool false; VBool od] bs v bs2.
Proof.
  intros S. eapply calls_body; [reflexivity|]. change (f_body (prog F_parse_expr)) with (f_body parse_expr). rewrite parts.
  eapply steps_seq; [apply steps_declare|]. exact S.
Qed.
Lemma operand_call e p od rest : reach e -> (100 + loosest_left e < p)%N -> after e rest -> stops p rest ->
  calls F_parse_expr [VNum p; VBool false; VBool false; VBool false; VBool od] (yield e ++ rest) (VNode (tree e)) (lastb e :: rest).
Proof.
  intros R L S1 S2. eapply expr_body. apply R; try assumption.
  eapply steps_seq; [now apply loop_ends|]. now apply tail_ends with (p := p).
Qed.
Lemma left_small e : (100 + loosest_left e < usize_max)%N.
Proof. pose proof (loosest_left_le e). unfold usize_max. lia. Qed.
Lemma whole_call e od f rest : reach e -> fits (Among enders) (b_tok f) -> ~ fuses U (lastb e) f ->
  calls F_parse_expr [VNum usize_max; VBool false; VBool false; VBool false; VBool od] (yield e ++ f :: rest) (VNode (tree e)) (lastb e :: f :: rest).
Proof. intros R K N. apply operand_call; [exact R|apply left_small|now apply ends_after|now apply ends_stops]. Qed.
(* before a word that cannot be read with the token before it *)
Lemma plain_call ws e od f rest : reach e -> fits (Among ws) (b_tok f) ->
  forallb (fun w => existsb (String.eqb w) enders && plain w) ws = true ->
  calls F_parse_expr [VNum usize_max; VBool false; VBool false; VBool false; VBool od] (yield e ++ f :: rest) (VNode (tree e)) (lastb e :: f :: rest).
Proof.
  intros R K A. assert (A' : forallb plain ws = true).
  { apply forallb_forall. intros w I. rewrite forallb_forall in A. specialize (A w I). now apply andb_prop in A as [_ A]. }
  apply whole_call; [exact R| |].
  - eapply fits_weaken; [exact K|]. cbn [known_in]. replace (forallb _ ws) with true; [reflexivity|]. symmetry. apply forallb_forall. intros w I.
    rewrite forallb_forall in A. specialize (A w I). now apply andb_prop in A as [A _].
  - eapply (no_fuse U HU); [exact K|exact A'].
Qed.
Lemma name_call e od f rest : reach e -> is_identifier U (b_tok f) = true -> ~ fuses U (lastb e) f ->
  calls F_parse_expr [VNum usize_max; VBool false; VBool false; VBool false; VBool od] (yield e ++ f :: rest) (VNode (tree e)) (lastb e :: f :: rest).
Proof. intros R K N. apply operand_call; [exact R|apply left_small|now apply name_after|now apply name_stops]. Qed.
End WithUnicode.
