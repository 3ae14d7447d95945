(* The property C31 of properties.jsonl: operators are grouped by precedence. The words used are
   defined in GroupingSpec.v ([well_grouped], [left_operand], [right_operands], [suffixed],
   [ends_by]) and TreeSpec.v ([within]). *)
From Verif Require Import Chars Token Cst Core MiniRust Lexer Program Api Bundles ParserView ParserGeneric ParserTotal TreeSpec
  LexSpec LexProps ParserInvariance ParserSpec GroupingSpec GroupingDomain GroupingSound GroupingExpr Properties_Parser.
Local Open Scope string_scope.
Local Open Scope list_scope.

Lemma faithful_words U : ascii_faithful U -> forall w, In w ["IN"; "LIKE"; "BETWEEN"] -> to_uppercase U (s_ w) = s_ w.
Proof.
  intros [_ HU] w I. cbn in I. unfold to_uppercase. destruct I as [<-|[<-|[<-|[]]]]; cbn [s_ map list_ascii_of_string flat_map];
    rewrite !HU by reflexivity; reflexivity.
Qed.
Lemma parse_good U code ns : ascii_faithful U -> parses U code (Success ns) -> Forall (good U) ns.
Proof.
  intros HU [_ [fuel P]]. unfold parse, parse_tokens in P. destruct (tokenize U code) as [ts| | |] eqn:T; try discriminate.
  destruct (tokenize_ends U ts code T) as (ts0 & ->).
  destruct (start_view ts0 eof_token eq_refl) as (s & bs & N & V & _). rewrite N in P.
  destruct (run U prog fuel F_parse_code [] s) as [v s'| | | |] eqn:R; try discriminate.
  destruct v; try discriminate. injection P as ->.
  destruct (sp_good _ _ (run_specs U (faithful_words U HU) fuel) F_parse_code [] s bs _ s' Logic.I V (Forall_nil _) R) as [G _].
  exact G.
Qed.

(* C31: in every returned tree, every operator is well grouped *)
Theorem c31_grouping U code ns n x : ascii_faithful U -> parses U code (Success ns) -> In n ns -> within x n ->
  well_grouped U x.
Proof. intros HU P I W. exact (proj1 (Forall_forall _ _) (parse_good U code ns HU P) n I x W). Qed.

(* in particular: when the left operand of a binary operator is a binary operator, it binds at
   least as tightly; when the right operand is one, it binds more tightly *)
Theorem c31_binary_left U code ns n x q l q' : ascii_faithful U -> parses U code (Success ns) -> In n ns -> within x n ->
  n_type x = N_BinaryOperator -> token_level U binary_levels x = Some q ->
  child "left" x = Some (CNode l) -> n_type l = N_BinaryOperator -> token_level U binary_levels l = Some q' ->
  ~ suffixed U l -> (q' <= q)%N.
Proof.
  intros HU P I W Tx Lx C Tl Ll S. destruct (c31_grouping U code ns n x HU P I W) as [G _].
  destruct (G q "left" l) as [G1|G1]; [unfold left_operand; now rewrite Tx, Lx|exact C|contradiction|].
  assert (E : last_operand U l = Some (q', "right")) by (unfold last_operand, right_operands; now rewrite Tl, Ll).
  inversion G1 as [? E1|? p k r E1 Le]; subst; rewrite E in E1; [discriminate|]. injection E1 as <- <-. exact Le.
Qed.
Theorem c31_binary_right U code ns n x q r q' : ascii_faithful U -> parses U code (Success ns) -> In n ns -> within x n ->
  n_type x = N_BinaryOperator -> token_level U binary_levels x = Some q ->
  child "right" x = Some (CNode r) -> n_type r = N_BinaryOperator -> token_level U binary_levels r = Some q' ->
  (q' < q)%N.
Proof.
  intros HU P I W Tx Lx C Tr Lr. destruct (c31_grouping U code ns n x HU P I W) as [_ G].
  apply (G q ["right"] "right" r) with (k' := "left"); [unfold right_operands; now rewrite Tx, Lx|now left|exact C|].
  unfold left_operand. now rewrite Tr, Lr.
Qed.
(* NOT covers the comparisons after it, and an operand of AND or OR only when it is the last *)
Theorem c31_not U code ns n x t : ascii_faithful U -> parses U code (Success ns) -> In n ns -> within x n ->
  n_type x = N_UnaryOperator -> n_token x = Some t -> upper_literal U t = s_ "NOT" ->
  forall r, child "right" x = Some (CNode r) -> n_type r = N_BinaryOperator ->
    token_level U binary_levels r <> Some 11%N /\ token_level U binary_levels r <> Some 12%N.
Proof.
  intros HU P I W Tx Et Lt r C Tr. destruct (c31_grouping U code ns n x HU P I W) as [_ G].
  assert (R : right_operands U x = Some (10%N, ["right"])).
  { unfold right_operands, token_level. rewrite Tx, Et, Lt. reflexivity. }
  split; intro E; specialize (G _ _ "right" r R (or_introl eq_refl) C); unfold left_operand in G; rewrite Tr, E in G;
    specialize (G _ _ eq_refl); discriminate.
Qed.

(* The shape of an expression, with one pair of parentheses per operator. *)
Definition word_of (n : node) : str := match n_token n with Some t => literal t | None => [] end.
Fixpoint shown (fuel : nat) (n : node) : str :=
  let sub k := match child k n, fuel with Some (CNode c), S f => shown f c | _, _ => [] end in
  match n_type n with
  | N_BinaryOperator | N_DotOperator | N_InOperator => s_ "(" ++ sub "left" ++ word_of n ++ sub "right" ++ s_ ")"
  | N_BetweenOperator =>
      s_ "(" ++ sub "left" ++ word_of n ++ sub "right_min" ++ s_ "," ++ sub "right_max" ++ s_ ")"
  | N_UnaryOperator => s_ "(" ++ word_of n ++ sub "right" ++ s_ ")"
  | N_GroupedExpr => s_ "[" ++ sub "expr" ++ s_ "]"
  | _ => word_of n
  end.
(* the expressions of SELECT *)
Definition select_exprs (ns : list node) : list node :=
  match ns with
  | n :: _ => match child "exprs" n with Some (CVec l) => l | _ => [] end
  | [] => []
  end.
Definition shows (code out : string) : Prop :=
  exists ns, parses ascii_tables (s_ code) (Success ns) /\ map (shown 20) (select_exprs ns) = [s_ out].
Ltac show := eexists; split; [apply (parses_by 60); [vm_compute; reflexivity|discriminate]|vm_compute; reflexivity].

Example c31_example1 : shows "SELECT a - b - c * d || e < f AND NOT g = h + 1 OR i & j | k ^ l << 2"
  "(((((a-b)-((c*d)||e))<f)AND(NOT(g=(h+1))))OR((i&j)|(k^(l<<2))))".
Proof. show. Qed.
Example c31_example2 : shows "SELECT a NOT BETWEEN b + 1 AND c AND d IN (1) OR -e * ~f IS NULL"
  "(((aBETWEEN(b+1),c)AND(dIN())OR(((-e)*(~f))ISNULL))".
Proof. show. Qed.
Example c31_example3 : shows "SELECT a * (b + c)" "(a*[(b+c)])". Proof. show. Qed.

(* Field access is documented to bind more tightly than unary minus; here it does not. *)
Theorem c31_field_access_refuted : shows "SELECT -a.b" "((-a).b)". Proof. show. Qed.
(* An ordering may be followed by another operator, which takes all that is before it: the
   exception in [well_grouped] is needed. *)
Theorem c31_ordered_refuted : exists ns x l,
  parses ascii_tables (s_ "SELECT a = b DESC * c") (Success ns) /\ In x (select_exprs ns) /\
  n_type x = N_BinaryOperator /\ token_level ascii_tables binary_levels x = Some 3%N /\
  child "left" x = Some (CNode l) /\ n_type l = N_BinaryOperator /\ token_level ascii_tables binary_levels l = Some 9%N.
Proof.
  do 3 eexists. split; [apply (parses_by 60); [vm_compute; reflexivity|discriminate]|].
  split; [left; reflexivity|]. repeat split.
Qed.

Print Assumptions c31_grouping.
Print Assumptions c31_binary_left.
Print Assumptions c31_binary_right.
Print Assumptions c31_not.
Print Assumptions c31_field_access_refuted.
