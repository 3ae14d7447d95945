(* DECLARE, EXECUTE, DELETE and DROP are read as written. *)
From Verif Require Import Chars Token Cst Core MiniRust Program Bundles ParserView ParserGeneric ShapeSound GroupingSpec GroupingExpr
  Forward GrammarSpec GrammarTactics GrammarExpr GrammarReach GrammarOps GrammarBinary GrammarItems GrammarTypes GrammarCalls GrammarQuery GrammarSelect
  StatementSpec StatementDeeds.
Local Open Scope string_scope.
Local Open Scope list_scope.
Local Notation length := List.length.

Section WithUnicode.
Context (U : unicode) (HU : ascii_faithful U).
Local Notation steps := (steps U).
Local Notation calls := (calls U).
Local Notation is_word := (is_word U).
Local Notation word_in := (word_in U).
Local Notation tree := (tree U).
Local Notation wf := (wf U).
Local Notation fits := (fits_known U).
Local Notation led := (led U).
Local Notation stops := (stops U).
Local Notation shut := (shut U).
Local Notation reads := (reads U).
Local Notation deed_ok := (deed_ok U).
Local Notation expr_call := (expr_call U HU).
Local Notation list_call := (list_call U HU).
Local Notation group_call := (group_call U HU).
Local Notation path_call := (path_call U HU).
Local Notation names_steps := (names_steps U HU).
Local Notation stops_known := (stops_known U).
Local Notation stops_shut := (stops_shut U).
Local Notation tail_steps := (tail_steps U HU).
Ltac ahead ::= first [apply tok_yield | apply tok_items | apply tok_query | apply tok_type | apply tok_table | eassumption].
Ltac call ::= first [eassumption | apply two_call].
Ltac body f := eapply calls_body; [reflexivity|]; cbn [prog f f_body f_params combine].
Ltac dispatch := body parse_statement; step HU.
Ltac starts := intros sp so next rest W S; pose proof (stops_known _ _ _ _ S) as Kn; pose proof (stops_shut _ _ _ _ S) as Sh; unfold StatementDeeds.reads; cbn [yield_deed tree_deed wf_deed] in *.
(* the statement is read by [f] *)
Ltac via f :=
  lazymatch goal with |- Forward.calls _ _ ?a ?l ?v ?bs => let C' := fresh "C'" in assert (C' : calls f a l v bs); [|dispatch] end.
Ltac words := repeat match goal with H : GrammarSpec.is_word _ _ _ |- _ => apply fits_word in H | H : GrammarSpec.word_in _ _ _ |- _ => apply fits_among in H
  | H : perhaps _ _ _ |- _ => apply fits_among in H | H : perhaps2 _ (Some (_, _)) _ _ |- _ => destruct H | H : perhaps2 _ None _ _ |- _ => clear H
  | H : perhaps _ None _ |- _ => clear H end.

(* ----- DECLARE and EXECUTE ----- *)
Ltac special ::=
  lazymatch goal with
  | |- Forward.steps _ (Seq (MiniRust.If (CAnd (CTok 1 (TIs ";")) (CVar "semicolon")) _ _) (MiniRust.Return (EVar ?x))) _ _ _ _ _ =>
      eapply (tail_steps x); [envr | envr | eassumption]
  | L : forall e b, Forward.steps _ (MiniRust.While ?c ?a) _ _ _ _ _ |- Forward.steps _ (MiniRust.While ?c ?a) _ _ _ _ _ => apply L
  end.
Lemma type_call t f rest : wf_type U t -> fits (Among [";"; ""; "DEFAULT"]) (b_tok f) ->
  exists b, calls F_parse_type [VBool false; VBool false] (yield_type t ++ f :: rest) (VNode (tree_type U t)) (b :: f :: rest).
Proof.
  intros W K. eapply (phrases U HU); [exact W|eapply fits_weaken; [exact K|reflexivity]|]. intros _. eapply fits_weaken; [exact K|reflexivity].
Qed.
Lemma first_type_avoids t : wf_type U t -> fits (Avoids [","; "."; "DEFAULT"]) (b_tok (first_type t)).
Proof.
  assert (N : forall b, name U b -> fits (Avoids [","; "."; "DEFAULT"]) (b_tok b)) by (intros b (_ & I); apply identifier_avoids; [exact HU|exact I|reflexivity]).
  destruct t; cbn [wf_type first_type]; intro W.
  - apply N, W.
  - apply N, W.
  - words. eapply fits_weaken; [exact W|reflexivity].
  - destruct W as (K & _). words. eapply fits_weaken; [exact K|reflexivity].
  - destruct W as (K & _). words. eapply fits_weaken; [exact K|reflexivity].
Qed.
Lemma type_starts t l : exists r, yield_type t ++ l = first_type t :: r.
Proof. destruct t; cbn [yield_type first_type app]; eauto. Qed.
Lemma names_read ns f rest : wf_names U ns f -> fits (Avoids [","; "."]) (b_tok f) ->
  exists b', forall e b, steps names_loop (("idents", VVec []) :: e) (b :: yield_names ns ++ f :: rest) Norm (("idents", VVec (tree_names ns)) :: e) (b' :: f :: rest).
Proof. intros W K. destruct (names_steps ns f rest W K) as (b' & St). exists b'. intros e b. apply (St []). Qed.
Lemma variables_ok k ns t d : deed_ok (Variables k ns t d).
Proof.
  starts. destruct W as (Kk & Wn & Wt & Wd). cbn [app]. rewrite <- !app_assoc.
  destruct t as [t|], d as [|x e]; cbn [yield_maybe_type yield_clause app kid_clause hd wf_clause] in *; [| | congruence |].
  - destruct (type_call t next rest Wt ltac:(eapply fits_weaken; [exact Kn|reflexivity])) as (b1 & C1). rewrite app_nil_r in Wn. pose proof (first_type_avoids t Wt) as Kt.
    destruct (type_starts t (next :: rest)) as (r1 & E1). rewrite E1 in *. destruct (type_starts t []) as (r2 & E2). rewrite app_nil_r in E2. rewrite E2 in Wn. cbn [hd] in Wn.
    destruct (names_read ns _ r1 Wn ltac:(eapply fits_weaken; [exact Kt|reflexivity])) as (b' & L). unfold names_loop in L. cbn [parse_declare_statement f_body] in L.
    eexists. words. via F_parse_declare_statement. body parse_declare_statement.
step HU.
  - destruct Wd as (Kx & We). words. pose proof (expr_call e true _ next rest We Kn eq_refl) as C.
    destruct (type_call t x (yield e ++ next :: rest) Wt ltac:(eapply fits_weaken; [exact Kx|reflexivity])) as (b1 & C1). pose proof (first_type_avoids t Wt) as Kt.
    destruct (type_starts t (x :: yield e ++ next :: rest)) as (r1 & E1). rewrite E1 in *. destruct (type_starts t (x :: yield e)) as (r2 & E2). rewrite E2 in Wn. cbn [hd] in Wn.
    destruct (names_read ns _ r1 Wn ltac:(eapply fits_weaken; [exact Kt|reflexivity])) as (b' & L). unfold names_loop in L. cbn [parse_declare_statement f_body] in L.
    eexists. via F_parse_declare_statement. body parse_declare_statement. step HU.
  - destruct Wd as (Kx & We). words. pose proof (expr_call e true _ next rest We Kn eq_refl) as C.
    destruct (names_read ns _ (yield e ++ next :: rest) Wn ltac:(eapply fits_weaken; [exact Kx|reflexivity])) as (b' & L). unfold names_loop in L. cbn [parse_declare_statement f_body] in L.
    eexists. via F_parse_declare_statement. body parse_declare_statement. step HU.
Qed.
Lemma execute_ok k i e n u : deed_ok (Execute k i e n u).
Proof.
  starts. destruct W as (Kk & Ki & We & Wn & Wu). cbn [app]. rewrite <- !app_assoc. destruct u as [|uk es]; cbn [yield_using app hd wf_using] in *.
  - destruct n as [|nk ns]; cbn [yield_into wf_into app] in *.
    + pose proof (expr_call e true _ next rest We Kn eq_refl) as C. eexists. words. via F_parse_execute_statement. body parse_execute_statement. step HU.
    + destruct Wn as (Kx & Wn). words. pose proof (expr_call e true _ nk (yield_names ns ++ next :: rest) We Kx eq_refl) as C.
      destruct (names_read ns _ rest Wn ltac:(eapply fits_weaken; [exact Kn|reflexivity])) as (b' & L). unfold names_loop in L. cbn [parse_declare_statement f_body] in L.
      eexists. via F_parse_execute_statement. body parse_execute_statement. step HU.
  - destruct Wu as (Ku & Wu). destruct (list_call true es _ next rest Wu Kn eq_refl) as (b1 & C1). words. destruct n as [|nk ns]; cbn [yield_into wf_into app] in *.
    + pose proof (expr_call e true _ uk (yields es ++ next :: rest) We Ku eq_refl) as C. eexists. via F_parse_execute_statement. body parse_execute_statement. step HU.
    + destruct Wn as (Kx & Wn). words. pose proof (expr_call e true _ nk (yield_names ns ++ uk :: yields es ++ next :: rest) We Kx eq_refl) as C.
      destruct (names_read ns _ (yields es ++ next :: rest) Wn ltac:(eapply fits_weaken; [exact Ku|reflexivity])) as (b' & L). unfold names_loop in L. cbn [parse_declare_statement f_body] in L.
      eexists. via F_parse_execute_statement. body parse_execute_statement. step HU.
Qed.

(* ----- DELETE and DROP ----- *)
Lemma path_first_avoids p ws : path U p -> forallb not_name ws = true -> fits (Avoids ws) (b_tok (first p)).
Proof.
  induction p; cbn [path first]; try contradiction; intros P A; [|apply IHp; [apply P|exact A]| |apply IHp; [apply P|exact A]]; apply identifier_avoids; [exact HU|apply P|exact A|exact HU|apply P|exact A].
Qed.
Lemma avoids_both ws ws' t : fits (Avoids ws) t -> fits (Avoids ws') t -> fits (Avoids (ws ++ ws')) t.
Proof. cbn [fits_known]. unfold mem_pats. rewrite existsb_app. now intros -> ->. Qed.
Lemma avoids_word b w : ~ is_word b w -> fits (Avoids [w]) (b_tok b).
Proof. intro N. apply fits_avoids. intros (v & [<-|[]] & K). contradiction. Qed.
Lemma delete_ok k f p a w e : deed_ok (Delete k f p a w e).
Proof.
  starts. destruct W as (Kk & Kf & P & Sp & Wa & Kw & We). pose proof (expr_call e true _ next rest We Kn eq_refl) as C. words. cbn [app]. rewrite <- !app_assoc.
  pose proof (path_first_avoids p ["FROM"] P eq_refl) as Kp.
  destruct a as [|ak an|an]; cbn [yield_alias wf_alias app hd with_alias] in *.
  - pose proof (path_call p w (yield e ++ next :: rest) P Sp ltac:(eapply fits_weaken; [exact Kw|reflexivity])) as Cp.
    destruct f as [f|]; cbn [opt app kid] in *; words; eexists; via F_parse_delete_statement; body parse_delete_statement; step HU.
  - destruct Wa as (Ka & _ & Ia). words. pose proof (path_call p ak (an :: w :: yield e ++ next :: rest) P Sp ltac:(eapply fits_weaken; [exact Ka|reflexivity])) as Cp.
    destruct f as [f|]; cbn [opt app kid] in *; words; eexists; via F_parse_delete_statement; body parse_delete_statement; step HU.
  - destruct Wa as ((_ & Ia) & _). apply identifier_avoids with (ws := ["WHERE"; "AS"; "."]) in Ia; [|exact HU|reflexivity].
    pose proof (path_call p an (w :: yield e ++ next :: rest) P Sp ltac:(eapply fits_weaken; [exact Ia|reflexivity])) as Cp.
    destruct f as [f|]; cbn [opt app kid] in *; words; eexists; via F_parse_delete_statement; body parse_delete_statement; step HU.
Qed.
Lemma drop_ok k x w n p c : deed_ok (Drop k x w n p c).
Proof.
  starts. destruct W as (Kk & Wx & Kw & Kb & P & Fp & Sp & Kc). cbn [app]. rewrite <- !app_assoc.
  assert (Fp' : fits (Avoids ["FUNCTION"; "IF"]) (b_tok (first p))).
  { apply (avoids_both [_] [_]); [apply avoids_word; exact Fp|now apply path_first_avoids]. }
  assert (Cp : calls F_parse_identifier [] (yield p ++ opt c ++ next :: rest) (VNode (tree p)) (lastb p :: opt c ++ next :: rest)).
  { destruct c as [c|]; cbn [opt app hd] in *; words; (apply path_call; [exact P|exact Sp|]). all: eapply fits_weaken; [eassumption|reflexivity]. }
  clear Sp Fp.
  assert (D : exists b, calls F_parse_drop_statement_general [VBool sp] (k :: opt x ++ w :: opt2 n ++ yield p ++ opt c ++ next :: rest)
    (VNode (with_semi so (made N_DropStatement k ((match x with Some b => [(dropped_key U b, keyword b)] | None => [] end) ++ [("what", keyword w)] ++ kids "if_exists" n ++
       [("ident", CNode (tree p))] ++ kid "cascade_or_restrict" c)))) (left_over so b next rest)).
  { words. destruct x as [x|].
    - destruct Wx as [Wx|(Wx & Ww)].
      + destruct Wx as (v & [<-|[<-|[]]] & Kx).
        * replace (dropped_key U x) with "external" by (unfold dropped_key; rewrite !Kx; reflexivity). words.
          destruct n as [(n1 & n2)|], c as [c|]; words; cbn [opt opt2 app kid kids] in *;
          eexists; body parse_drop_statement_general; step HU.
        * replace (dropped_key U x) with "materialized" by (unfold dropped_key; rewrite !Kx; reflexivity). words.
          destruct n as [(n1 & n2)|], c as [c|]; words; cbn [opt opt2 app kid kids] in *;
          eexists; body parse_drop_statement_general; step HU.
      + replace (dropped_key U x) with "table" by (unfold dropped_key; rewrite !Wx; reflexivity). clear Kw. words.
        destruct n as [(n1 & n2)|], c as [c|]; words; cbn [opt opt2 app kid kids] in *;
        eexists; body parse_drop_statement_general; step HU.
    - destruct (fits_either U w ["TABLE"] _ Kw) as [K|K]; clear Kw.
      all: destruct n as [(n1 & n2)|], c as [c|]; words; cbn [opt opt2 app kid kids] in *;
        eexists; body parse_drop_statement_general; step HU. }
  destruct D as (b & D). exists b. words. destruct x as [x|]; cbn [opt app] in *; rewrite <- ?app_assoc; [|dispatch].
  destruct Wx as [Wx|(Wx & _)]; words; dispatch.
Qed.
End WithUnicode.
