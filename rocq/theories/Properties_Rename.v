(* The property C41 of properties.jsonl: names and literals are interchangeable.
   RenameSpec.v says what may take the place of what. *)
From Verif Require Import Chars Token Cst Core MiniRust Lexer Program Api Bundles ParserView ParserSpec
  LexSpec LexGrammar RenameSpec RenameTheorems Properties_Lexer Properties_Parser.
Local Open Scope string_scope.
Local Open Scope list_scope.

(* C41: two texts whose tokens, comments aside, correspond one to one, touch at the same places, and differ
   only in names, quoted names, strings, numbers and parameters, have the same outcome: both fail with the
   same message at corresponding tokens, or both yield the same tree up to those tokens. *)
Theorem c41_renaming U a b ta tb oa ob : ascii_faithful U ->
  tokenize U a = Success ta -> tokenize U b = Success tb ->
  Forall2 (fun t u => interchangeable U (literal t) (literal u)) (code_tokens ta) (code_tokens tb) ->
  touches (code_tokens ta) = touches (code_tokens tb) ->
  parses U a oa -> parses U b ob ->
  same_outcome (paired (code_tokens ta) (code_tokens tb)) oa ob.
Proof. intro HU. exact (parses_renamed U HU a b ta tb oa ob). Qed.

(* The list of words that are excepted from the names is as short as it can be: each of them means something
   to the parser at some place where an ordinary name means something else. *)
Theorem c41_soft_words_matter w : In w soft_words -> exists a b oa ob,
  parses ascii_tables (s_ a ++ s_ w ++ s_ b) oa /\ parses ascii_tables (s_ a ++ s_ "zz" ++ s_ b) ob /\
  forall R, ~ same_outcome R oa ob.
Proof. exact (soft_word_used w). Qed.
(* They are no reserved words: an identifier may be spelt like that. *)
Theorem c41_soft_words_not_reserved w : In w soft_words -> ~ In w KEYWORDS.
Proof.
  intros I J. assert (H : forallb (fun w => negb (existsb (String.eqb w) KEYWORDS)) soft_words = true) by (vm_compute; reflexivity).
  rewrite forallb_forall in H. apply H in I. apply negb_true_iff in I. rewrite <- not_true_iff_false in I. apply I.
  apply existsb_exists. exists w. split; [exact J|apply String.eqb_refl].
Qed.
(* That names are interchangeable without that exception is false: a column can be called x but not model. *)
Theorem c41_any_name_refuted : exists oa ob,
  parses ascii_tables (s_ "SELECT 1 AS model FROM t") oa /\ parses ascii_tables (s_ "SELECT 1 AS x FROM t") ob /\
  (exists e, oa = Failure e) /\ (exists ns, ob = Success ns).
Proof.
  do 2 eexists. split; [apply (parses_by 60); [vm_compute; reflexivity|discriminate]|].
  split; [apply (parses_by 60); [vm_compute; reflexivity|discriminate]|]. split; eexists; reflexivity.
Qed.

(* ----- a case that meets the hypotheses ----- *)
Ltac plain := apply plain_name_checked; vm_compute; reflexivity.
Ltac integer n := exists n, [], []; split; [split; [left; split; [split; [discriminate|repeat constructor]|reflexivity]|now left]|reflexivity].
Example c41_example : exists ta tb oa ob,
  let a := s_ "SELECT price * 1.5, 'a' FROM `my shop` WHERE id = @id -- all" in
  let b := s_ "SELECT c   * 20, ""bcd""   FROM `x` WHERE k_2 = @parameter" in
  tokenize ascii_tables a = Success ta /\ tokenize ascii_tables b = Success tb /\
  parses ascii_tables a (Success oa) /\ parses ascii_tables b (Success ob) /\
  Forall2 (fun t u => interchangeable ascii_tables (literal t) (literal u)) (code_tokens ta) (code_tokens tb) /\
  touches (code_tokens ta) = touches (code_tokens tb).
Proof.
  do 4 eexists. cbv zeta. split; [vm_compute; reflexivity|]. split; [vm_compute; reflexivity|].
  split; [apply (parses_by 60); [vm_compute; reflexivity|discriminate]|].
  split; [apply (parses_by 60); [vm_compute; reflexivity|discriminate]|].
  split; [|vm_compute; reflexivity].
  match goal with |- Forall2 _ ?x ?y => let x' := eval vm_compute in x in let y' := eval vm_compute in y in change (Forall2 (fun t u => interchangeable ascii_tables (literal t) (literal u)) x' y') end.
  repeat match goal with |- Forall2 _ (_ :: _) _ => constructor end; [..|constructor]; try (apply same_text; reflexivity); cbn [literal].
  - apply two_names; plain.
  - apply two_numbers; [|integer (s_ "20")]. exists (s_ "1"), (s_ ".5"), []. split; [|reflexivity]. split; [|now left].
    right. split; [repeat constructor|]. exists (s_ "5"). split; [|reflexivity]. split; [discriminate|repeat constructor].
  - apply two_strings; [right; exists (s_ "a")|left; exists (s_ "bcd")]; reflexivity.
  - apply two_quoted_names; [exists (s_ "my shop")|exists (s_ "x")]; reflexivity.
  - apply two_names; plain.
  - apply two_parameters; eexists; (split; [reflexivity|]); repeat constructor; discriminate.
Qed.

Definition rename_theorems := (c41_renaming, c41_soft_words_matter, c41_soft_words_not_reserved, c41_any_name_refuted, c41_example).
Print Assumptions rename_theorems.
