(* A procedure whose body is a block of statements is read as written. *)
From Verif Require Import Chars Token Cst Core MiniRust Program Bundles ParserView ParserGeneric ShapeSound GroupingSpec GroupingExpr
  Forward GrammarSpec GrammarTactics GrammarExpr GrammarReach GrammarOps GrammarBinary GrammarItems GrammarTypes GrammarCalls GrammarQuery GrammarSelect
  DefinitionSpec StatementSpec StatementDeeds StatementDml DefinitionRules DefinitionPhrases DefinitionTypes DefinitionDeeds StatementBlocks.
Local Open Scope string_scope.
Local Open Scope list_scope.
Local Notation length := List.length.

Section WithUnicode.
Context (U : unicode) (HU : ascii_faithful U).
Local Notation calls := (calls U).
Local Notation fits := (fits_known U).
Local Notation stmt_ok := (stmt_ok U).
Local Notation block_all := (block_all U).
Local Notation handler_all := (handler_all U).
Ltac ahead ::= first [apply tok_yield | eassumption].
Ltac call ::= first [eassumption | apply (two_call U) | apply (three_call U)].
Ltac special ::=
  lazymatch goal with
  | |- Forward.steps _ (Seq (MiniRust.If (CAnd (CTok 1 (TIs ";")) (CVar "semicolon")) _ _) (MiniRust.Return (EVar ?x))) _ _ _ _ _ =>
      eapply (tail_steps U HU x); [envr | envr | eassumption]
  end.
Ltac show_next W :=
  lazymatch type of W with
  | DefinitionSpec.wf_parts _ (Need _ _ :: _) ?ps _ => let p := fresh "p" in let ps' := fresh "ps" in let Wp := fresh "Wp" in
      apply wf_parts_need in W as (p & ps' & -> & Wp & W); open_part Wp; cbn [yield_parts yield_part app opt] in *
  | DefinitionSpec.wf_parts _ (May _ _ :: _) ?ps _ => let p := fresh "p" in let ps' := fresh "ps" in let Wp := fresh "Wp" in
      apply wf_parts_may in W as [(p & ps' & -> & Wp & W)|(ps' & -> & W)]; [open_part Wp|]; cbn [yield_parts yield_part app opt] in *
  end.
Ltac learn := cbn [words_in] in *;
  repeat match goal with H : _ /\ _ |- _ => destruct H | H : exists _, _ |- _ => destruct H
  | H : context [words_in _ ?bs _] |- _ => is_var bs; destruct bs; cbn [words_in] in H; try contradiction; try (exfalso; tauto)
  | H : words_are _ (_ :: ?bs) ?ws, I : In ?ws _ |- _ => cbn [In] in I; repeat (destruct I as [I|I]; [subst ws | try contradiction]); cbn [words_are] in H; try contradiction; try (exfalso; tauto)
  | H : words_are _ ?bs _ |- _ => destruct bs; cbn [words_are] in H; try contradiction; try (exfalso; tauto)
  end;
  repeat match goal with H : GrammarSpec.is_word _ _ _ |- _ => apply fits_word in H | H : GrammarSpec.word_in _ _ _ |- _ => apply fits_among in H
  | H : ~ GrammarSpec.word_in _ _ _ |- _ => apply fits_avoids in H end;
  cbn [app] in *; repeat match goal with C : Forward.calls _ _ _ _ _ _ |- _ => progress rewrite <- ?app_assoc in C; cbn [app] in C end; rewrite <- ?app_assoc; cbn [app].
Ltac show_many W n := lazymatch n with O => idtac | S ?m => show_next W; show_many W m end.
Ltac known := match goal with K : fits_known _ _ ?t |- fits_known _ _ ?t => first [exact K | eapply fits_weaken; [exact K|reflexivity]] end.
Ltac top_ := eapply calls_body; [reflexivity|]; cbn [prog parse_statement f_body f_params combine].

Lemma group_opens named g : wf_group U named g -> exists f r, yield_group g = f :: r /\ is_word U f "(".
Proof. destruct g as [lp es rp]. intros (K & _). cbn [yield_group]. eauto. Qed.
Lemma declared_opens sc fn g : wf_declared U sc fn g -> exists f r, yield_declared g = f :: r /\ is_word U f "(".
Proof. destruct g as [lp es rp]. intros (K & _). cbn [yield_declared]. eauto. Qed.
Lemma procedure_ok k ps g b h e : block_all b -> handler_all h -> stmt_ok (Procedure k ps g b h e).
Proof.
  intros A Ah sp so next rest W (Sh & _). unfold StatementDeeds.reads.
  change (tree_stmt U (Procedure k ps g b h e) so) with (with_semi so (made N_CreateProcedureStatement k (kids_parts U procedure_parts ps ++ [("stmt", CNode (tree_begin U g b h e))]))).
  cbn [yield_stmt wf_stmt] in *. destruct W as (Kk & W & Kg & Wb & Wh & Ke).
  destruct (begin_calls U HU g b h e false None next rest A Ah Wb Wh Ke (or_introl eq_refl)) as (b1 & D). cbn [with_semi left_over] in D.
  repeat (progress (cbn [app]; rewrite <- ?app_assoc)).
  generalize dependent (yield_block b ++ yield_handler h ++ e :: next :: rest). intros l D.
  generalize dependent (tree_begin U g b h e). intros v D.
  apply fits_word in Kk, Kg. clear A Ah Wb Wh Ke.
  exists b1. unfold procedure_parts, or_replace, if_not_exists, what, a_name, options in *. show_many W 6.
  all: learn; apply wf_parts_none in W; subst ps; cbn [yield_parts app] in *; rewrite ?app_nil_r in *.
  all: match goal with D : Forward.calls _ F_parse_begin_statement _ (?g :: ?l) _ _, Wd : wf_declared _ _ _ ?d, P : GrammarSpec.path _ ?p |- context [?x ++ ?g :: ?l] =>
      lazymatch x with
      | yield_declared d => destruct (declared_call U HU true false d g l ltac:(discriminate) Wd) as (bd & Cd)
      | yield_group ?y => lazymatch goal with Wy : wf_group _ false y |- context [yield_declared d ++ ?o :: _] =>
          destruct (with_group_call U HU o false y g l Wy) as (by_ & Cy); destruct (declared_call U HU true false d o (yield_group y ++ g :: l) ltac:(discriminate) Wd) as (bd & Cd) end
      end;
      destruct (declared_opens true false d Wd) as (lp & r & Ed & Kl); rewrite Ed in *; apply fits_word in Kl; cbn [app hd] in *;
      pose proof (path_first_avoids U HU p ["IF"] P eq_refl) as K1; a_path HU end.
  all: cbn [kids_parts kids_part app];
    match goal with |- Forward.calls _ _ ?a ?l ?v ?bs => let C' := fresh "C'" in assert (C' : calls F_parse_create_procedure_statement a l v bs) end;
    [eapply calls_body; [reflexivity|]; cbn [prog parse_create_procedure_statement f_body f_params combine]; step HU
    |apply (create_call U); [known|]; repeat (eapply (create_on U); [tok | known |]); eapply (create_finds_procedure U); [tok | known | eassumption]].
Qed.
End WithUnicode.
