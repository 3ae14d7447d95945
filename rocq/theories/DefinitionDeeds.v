(* The statements of DefinitionSpec.v are told apart by their first words. *)
From Verif Require Import Chars Token Cst Core MiniRust Program Bundles ParserView ParserGeneric ShapeSound GroupingSpec GroupingExpr
  Forward GrammarSpec GrammarTactics GrammarExpr GrammarReach GrammarOps GrammarBinary GrammarItems GrammarTypes GrammarCalls GrammarQuery GrammarSelect
  DefinitionSpec StatementSpec StatementDeeds StatementDml DefinitionRules DefinitionPhrases DefinitionTypes DefinitionAlter DefinitionChanges DefinitionCreate.
Local Open Scope string_scope.
Local Open Scope list_scope.
Local Notation length := List.length.

Section WithUnicode.
Context (U : unicode) (HU : ascii_faithful U).
Local Notation steps := (steps U).
Local Notation calls := (calls U).
Local Notation fits := (fits_known U).
Local Notation wf_part := (wf_part U).
Local Notation wf_parts := (wf_parts U).
Local Notation deed_ok := (deed_ok U).
Ltac ahead ::= first [apply tok_yield | eassumption].
Ltac call ::= eassumption.
Ltac special ::= fail.

Lemma wf_parts_may k s fs ps next : wf_parts (May k s :: fs) ps next ->
  (exists p ps', ps = Some p :: ps' /\ wf_part s p (hd next (yield_parts ps')) /\ wf_parts fs ps' next) \/ (exists ps', ps = None :: ps' /\ wf_parts fs ps' next).
Proof. destruct ps as [|[p|] ps]; cbn [DefinitionSpec.wf_parts]; try contradiction; [intros (A & B)|]; eauto 6. Qed.
(* the first phrases *)
Ltac show_next W :=
  lazymatch type of W with
  | DefinitionSpec.wf_parts _ (Need _ _ :: _) ?ps _ => let p := fresh "p" in let ps' := fresh "ps" in let Wp := fresh "Wp" in
      apply wf_parts_need in W as (p & ps' & -> & Wp & W); open_part Wp; cbn [yield_parts yield_part app opt] in *
  | DefinitionSpec.wf_parts _ (May _ _ :: _) ?ps _ => let p := fresh "p" in let ps' := fresh "ps" in let Wp := fresh "Wp" in
      apply wf_parts_may in W as [(p & ps' & -> & Wp & W)|(ps' & -> & W)]; [open_part Wp|]; cbn [yield_parts yield_part app opt] in *
  end.
Ltac show_all W := cbn [form fst snd app] in W; unfold set_options, or_replace, if_not_exists, if_exists, what, a_name, options in W; cbn [app] in W.
Ltac defined R := let sp := fresh "sp" in let so := fresh "so" in let next := fresh "next" in let rest := fresh "rest" in let W := fresh "W" in let S := fresh "S" in
  let b := fresh "b" in let C := fresh "C" in let K := fresh "K" in
  intros sp so next rest W S; unfold reads; cbn [yield_deed tree_deed wf_deed] in *;
  destruct (R _ sp so _ next rest W S) as (b & C); exists b; destruct W as (K & W); cbn [form fst] in K; apply fits_word in K; show_all W.
Ltac top := eapply calls_body; [reflexivity|]; cbn [prog parse_statement f_body f_params combine].
Ltac dispatch_word := top; eapply steps_seq; [step HU|]; norm; eapply steps_seq; [step HU|]; norm; step HU.

(* CREATE and ALTER: the first of certain words among the next five tells which function is called *)
Definition create_words : list string :=
  ["SCHEMA"; "TABLE"; "VIEW"; "FUNCTION"; "PROCEDURE"; "ROW"; "CAPACITY"; "RESERVATION"; "ASSIGNMENT"; "SEARCH"; "VECTOR"; "MODEL"].
Definition alter_words : list string :=
  ["SCHEMA"; "TABLE"; "COLUMN"; "VIEW"; "VECTOR"; "ORGANIZATION"; "PROJECT"; "BI_CAPACITY"; "CAPACITY"; "RESERVATION"; "MODEL"].
Definition searching (sp : bool) : env := [("node", VUndef); ("semicolon", VBool sp)].
Section Search.
Context (off : nat) (again : cmd fn) (sp : bool) (bs : list bundle) (t : token) (v : node) (bs' : list bundle) (T : tok_at bs off = Some t).
Local Notation found c := (steps c (searching sp) bs (Ret (VNode v)) (searching sp) bs').
Lemma case_found kn x pats a b : fits kn t -> known_in kn pats = Some x -> found (if x : bool then a else b) -> found (CaseUpper off pats a b).
Proof. intros K A S. eapply steps_eq; [eapply steps_case_known; [exact T|exact K|exact A|exact S]|reflexivity]. Qed.
Ltac cases K := unfold parse_statement_1110, parse_statement_1148; repeat (eapply case_found; [exact K|reflexivity|]; cbv iota).
Ltac hit := intros K C; cases K; eapply steps_return; eapply makes_call; [unfold searching; args|exact C].
Lemma create_on : fits (Avoids create_words) t -> found again -> found (parse_statement_1110 off again).
Proof. intros K S. cases K. exact S. Qed.
Lemma create_finds_schema : fits (Among ["SCHEMA"]) t -> calls F_parse_create_schema_statement [VBool sp] bs (VNode v) bs' -> found (parse_statement_1110 off again).
Proof. hit. Qed.
Lemma create_finds_table t' : tok_at bs (S off) = Some t' -> fits (Avoids ["FUNCTION"]) t' -> fits (Among ["TABLE"]) t -> calls F_parse_create_table_statement [VBool sp] bs (VNode v) bs' ->
  found (parse_statement_1110 off again).
Proof.
  intros T' K' K C. cases K. eapply steps_eq; [eapply (steps_if U) with (v := false); [eapply decides_upperis; [exact T'|exact K'|reflexivity]|]|].
  - eapply steps_return. eapply makes_call; [unfold searching; args|exact C].
  - reflexivity.
Qed.
Lemma create_finds_table_function t' : tok_at bs (S off) = Some t' -> fits (Among ["FUNCTION"]) t' -> fits (Among ["TABLE"]) t -> calls F_parse_create_function_statement [VBool sp] bs (VNode v) bs' ->
  found (parse_statement_1110 off again).
Proof.
  intros T' K' K C. cases K. eapply steps_eq; [eapply (steps_if U) with (v := true); [eapply decides_upperis; [exact T'|exact K'|reflexivity]|]|].
  - eapply steps_return. eapply makes_call; [unfold searching; args|exact C].
  - reflexivity.
Qed.
Lemma create_finds_view : fits (Among ["VIEW"]) t -> calls F_parse_create_view_statement [VBool sp] bs (VNode v) bs' -> found (parse_statement_1110 off again).
Proof. hit. Qed.
Lemma create_finds_function : fits (Among ["FUNCTION"]) t -> calls F_parse_create_function_statement [VBool sp] bs (VNode v) bs' -> found (parse_statement_1110 off again).
Proof. hit. Qed.
Lemma create_finds_procedure : fits (Among ["PROCEDURE"]) t -> calls F_parse_create_procedure_statement [VBool sp] bs (VNode v) bs' -> found (parse_statement_1110 off again).
Proof. hit. Qed.
Lemma create_finds_policy : fits (Among ["ROW"]) t -> calls F_parse_create_row_access_policy_statement [VBool sp] bs (VNode v) bs' -> found (parse_statement_1110 off again).
Proof. hit. Qed.
Lemma create_finds_reservation : fits (Among ["CAPACITY"; "RESERVATION"; "ASSIGNMENT"]) t -> calls F_parse_create_reservation_statement [VBool sp] bs (VNode v) bs' -> found (parse_statement_1110 off again).
Proof. hit. Qed.
Lemma create_finds_index : fits (Among ["SEARCH"; "VECTOR"]) t -> calls F_parse_create_search_index_statement [VBool sp] bs (VNode v) bs' -> found (parse_statement_1110 off again).
Proof. hit. Qed.
Lemma create_finds_model : fits (Among ["MODEL"]) t -> calls F_parse_create_model_statement [VBool sp] bs (VNode v) bs' -> found (parse_statement_1110 off again).
Proof. hit. Qed.
Lemma alter_on : fits (Avoids alter_words) t -> found again -> found (parse_statement_1148 off again).
Proof. intros K S. cases K. exact S. Qed.
Lemma alter_finds_schema : fits (Among ["SCHEMA"]) t -> calls F_parse_alter_schema_statement [VBool sp] bs (VNode v) bs' -> found (parse_statement_1148 off again).
Proof. hit. Qed.
Lemma alter_finds_table : fits (Among ["TABLE"]) t -> calls F_parse_alter_table_statement [VBool sp] bs (VNode v) bs' -> found (parse_statement_1148 off again).
Proof. hit. Qed.
Lemma alter_finds_view : fits (Among ["VIEW"]) t -> calls F_parse_alter_view_statement [VBool sp] bs (VNode v) bs' -> found (parse_statement_1148 off again).
Proof. hit. Qed.
Lemma alter_finds_index : fits (Among ["VECTOR"]) t -> calls F_parse_alter_vector_index_statement [VBool sp] bs (VNode v) bs' -> found (parse_statement_1148 off again).
Proof. hit. Qed.
Lemma alter_finds_organization : fits (Among ["ORGANIZATION"]) t -> calls F_parse_alter_organization_statement [VBool sp] bs (VNode v) bs' -> found (parse_statement_1148 off again).
Proof. hit. Qed.
Lemma alter_finds_project : fits (Among ["PROJECT"]) t -> calls F_parse_alter_project_statement [VBool sp] bs (VNode v) bs' -> found (parse_statement_1148 off again).
Proof. hit. Qed.
Lemma alter_finds_bicapacity : fits (Among ["BI_CAPACITY"]) t -> calls F_parse_alter_bicapacity_statement [VBool sp] bs (VNode v) bs' -> found (parse_statement_1148 off again).
Proof. hit. Qed.
Lemma alter_finds_reservation : fits (Among ["CAPACITY"; "RESERVATION"]) t -> calls F_parse_alter_reservation_statement [VBool sp] bs (VNode v) bs' -> found (parse_statement_1148 off again).
Proof. hit. Qed.
Lemma alter_finds_model : fits (Among ["MODEL"]) t -> calls F_parse_alter_model_statement [VBool sp] bs (VNode v) bs' -> found (parse_statement_1148 off again).
Proof. hit. Qed.
End Search.
Lemma create_call k l sp v bs' : fits (Among ["CREATE"]) (b_tok k) ->
  steps (parse_statement_1110 1 (parse_statement_1110 2 (parse_statement_1110 3 (parse_statement_1110 4 (parse_statement_1110 5 Skip))))) (searching sp) (k :: l) (Ret (VNode v)) (searching sp) bs' ->
  calls F_parse_statement [VBool sp] (k :: l) (VNode v) bs'.
Proof.
  intros K S. top. eapply steps_seq; [step HU|]. norm. eapply steps_seq_ret.
  repeat (eapply (case_found 0 _ _ _ _ _ (tok_at_0 k l) _ _ _ _ _ K); [reflexivity|]; cbv iota). eapply steps_seq_ret. exact S.
Qed.
Lemma alter_call k l sp v bs' : fits (Among ["ALTER"]) (b_tok k) ->
  steps (parse_statement_1148 1 (parse_statement_1148 2 (parse_statement_1148 3 (parse_statement_1148 4 (parse_statement_1148 5 Skip))))) (searching sp) (k :: l) (Ret (VNode v)) (searching sp) bs' ->
  calls F_parse_statement [VBool sp] (k :: l) (VNode v) bs'.
Proof.
  intros K S. top. eapply steps_seq; [step HU|]. norm. eapply steps_seq_ret.
  repeat (eapply (case_found 0 _ _ _ _ _ (tok_at_0 k l) _ _ _ _ _ K); [reflexivity|]; cbv iota). eapply steps_seq_ret. exact S.
Qed.
Ltac known := match goal with K : fits_known _ _ ?t |- fits_known _ _ ?t => first [exact K | eapply fits_weaken; [exact K|reflexivity]] end.
Ltac hits L := eapply L; [tok | known | eassumption].
Ltac search_create := first
  [ eapply create_finds_table; [tok | tok | known | known | eassumption]
  | eapply create_finds_table_function; [tok | tok | known | known | eassumption]
  | hits create_finds_schema | hits create_finds_view | hits create_finds_function | hits create_finds_procedure | hits create_finds_policy
  | hits create_finds_reservation | hits create_finds_index | hits create_finds_model | eapply create_on; [tok | known | search_create]].
Ltac search_alter := first
  [ hits alter_finds_schema | hits alter_finds_table | hits alter_finds_view | hits alter_finds_index | hits alter_finds_organization | hits alter_finds_project
  | hits alter_finds_bicapacity | hits alter_finds_reservation | hits alter_finds_model | eapply alter_on; [tok | known | search_alter]].
Ltac dispatch := lazymatch goal with
  | K : fits_known _ (Among ["CREATE"]) _ |- _ => apply create_call; [exact K|search_create]
  | K : fits_known _ (Among ["ALTER"]) _ |- _ => apply alter_call; [exact K|search_alter]
  | |- _ => dispatch_word
  end.
Ltac learn := cbn [words_in] in *;
  repeat match goal with H : _ /\ _ |- _ => destruct H | H : exists _, _ |- _ => destruct H
  | H : context [words_in _ ?bs _] |- _ => is_var bs; destruct bs; cbn [words_in] in H; try contradiction; try (exfalso; tauto)
  | H : words_are _ (_ :: ?bs) ?ws, I : In ?ws _ |- _ => cbn [In] in I; repeat (destruct I as [I|I]; [subst ws | try contradiction]); cbn [words_are] in H; try contradiction; try (exfalso; tauto)
  | H : words_are _ ?bs _ |- _ => destruct bs; cbn [words_are] in H; try contradiction; try (exfalso; tauto)
  end;
  repeat match goal with H : GrammarSpec.is_word _ _ _ |- _ => apply fits_word in H | H : GrammarSpec.word_in _ _ _ |- _ => apply fits_among in H
  | H : ~ GrammarSpec.word_in _ _ _ |- _ => apply fits_avoids in H end;
  cbn [app] in *; repeat match goal with C : Forward.calls _ _ _ _ _ _ |- _ => progress rewrite <- ?app_assoc in C; cbn [app] in C end; rewrite <- ?app_assoc; cbn [app].
Ltac show_many W n := lazymatch n with O => idtac | S ?m => show_next W; show_many W m end.
(* [n] phrases tell which function reads it *)
Ltac tells R n := defined R; lazymatch goal with W : DefinitionSpec.wf_parts _ _ _ _ |- _ => show_many W n end; lazymatch goal with W : DefinitionSpec.wf_parts _ _ _ _ |- _ => clear W end; learn; dispatch.

Lemma undrop_ok k ps : deed_ok (Define UndropSchema k ps). Proof. tells (undrop_reads U HU) 0. Qed.
Lemma grant_ok k ps : deed_ok (Define GrantRoles k ps). Proof. tells (grant_reads U HU) 0. Qed.
Lemma revoke_ok k ps : deed_ok (Define RevokeRoles k ps). Proof. tells (revoke_reads U HU) 0. Qed.
Lemma load_ok k ps : deed_ok (Define LoadData k ps). Proof. tells (load_reads U HU) 0. Qed.
Lemma load_through_ok k ps : deed_ok (Define LoadThrough k ps). Proof. tells (load_through_reads U HU) 0. Qed.
Lemma export_data_ok k ps : deed_ok (Define ExportData k ps). Proof. tells (export_data_reads U HU) 1. Qed.
Lemma export_model_ok k ps : deed_ok (Define ExportModel k ps). Proof. tells (export_model_reads U HU) 1. Qed.
Lemma alter_organization_ok k ps : deed_ok (Define AlterOrganization k ps). Proof. tells (alter_organization_reads U HU) 1. Qed.
Lemma alter_project_ok k ps : deed_ok (Define AlterProject k ps). Proof. tells (alter_project_reads U HU) 1. Qed.
Lemma alter_bicapacity_ok k ps : deed_ok (Define AlterBiCapacity k ps). Proof. tells (alter_bicapacity_reads U HU) 1. Qed.
Lemma alter_reservation_ok k ps : deed_ok (Define AlterReservation k ps). Proof. tells (alter_reservation_reads U HU) 1. Qed.
Lemma alter_model_ok k ps : deed_ok (Define AlterModel k ps). Proof. tells (alter_model_reads U HU) 1. Qed.
Lemma alter_view_ok k ps : deed_ok (Define AlterView k ps). Proof. tells (alter_view_reads U HU) 2. Qed.
Lemma alter_vector_index_ok k ps : deed_ok (Define AlterVectorIndex k ps). Proof. tells (alter_vector_index_reads U HU) 1. Qed.
Lemma alter_schema_collate_ok k ps : deed_ok (Define AlterSchemaCollate k ps). Proof. tells (alter_schema_collate_reads U HU) 1. Qed.
Lemma alter_schema_options_ok k ps : deed_ok (Define AlterSchemaOptions k ps). Proof. tells (alter_schema_options_reads U HU) 1. Qed.
Lemma alter_schema_add_ok k ps : deed_ok (Define AlterSchemaAdd k ps). Proof. tells (alter_schema_add_reads U HU) 1. Qed.
Lemma alter_schema_drop_ok k ps : deed_ok (Define AlterSchemaDrop k ps). Proof. tells (alter_schema_drop_reads U HU) 1. Qed.
Lemma alter_table_options_ok k ps : deed_ok (Define AlterTableOptions k ps). Proof. tells (alter_table_options_reads U HU) 1. Qed.
Lemma alter_table_collate_ok k ps : deed_ok (Define AlterTableCollate k ps). Proof. tells (alter_table_collate_reads U HU) 1. Qed.
Lemma alter_table_rename_ok k ps : deed_ok (Define AlterTableRename k ps). Proof. tells (alter_table_rename_reads U HU) 1. Qed.
Lemma alter_table_add_ok k ps : deed_ok (Define AlterTableAdd k ps). Proof. tells (alter_table_add_reads U HU) 1. Qed.
Lemma alter_table_constrain_ok k ps : deed_ok (Define AlterTableConstrain k ps). Proof. tells (alter_table_constrain_reads U HU) 1. Qed.
Lemma alter_table_drop_ok k ps : deed_ok (Define AlterTableDrop k ps). Proof. tells (alter_table_drop_reads U HU) 1. Qed.
Lemma alter_table_rename_column_ok k ps : deed_ok (Define AlterTableRenameColumn k ps). Proof. tells (alter_table_rename_column_reads U HU) 1. Qed.
Lemma alter_table_column_ok k ps : deed_ok (Define AlterTableColumn k ps). Proof. tells (alter_table_column_reads U HU) 1. Qed.
Lemma drop_policy_ok k ps : deed_ok (Define DropPolicy k ps). Proof. tells (drop_policy_reads U HU) 1. Qed.
Lemma drop_policies_ok k ps : deed_ok (Define DropPolicies k ps). Proof. tells (drop_policies_reads U HU) 1. Qed.
Lemma drop_index_ok k ps : deed_ok (Define DropIndex k ps). Proof. tells (drop_index_reads U HU) 1. Qed.
Lemma create_schema_ok k ps : deed_ok (Define CreateSchema k ps). Proof. tells (create_schema_reads U HU) 2. Qed.
Lemma create_index_ok k ps : deed_ok (Define CreateIndex k ps). Proof. tells (create_index_reads U HU) 2. Qed.
Lemma create_table_ok k ps : deed_ok (Define CreateTable k ps). Proof. tells (create_table_reads U HU) 5. Qed.
Lemma create_table_like_ok k ps : deed_ok (Define CreateTableLike k ps). Proof. tells (create_table_like_reads U HU) 5. Qed.
Lemma create_clone_ok k ps : deed_ok (Define CreateClone k ps). Proof. tells (create_clone_reads U HU) 5. Qed.
Lemma create_snapshot_ok k ps : deed_ok (Define CreateSnapshot k ps). Proof. tells (create_snapshot_reads U HU) 6. Qed.
Lemma create_external_table_ok k ps : deed_ok (Define CreateExternalTable k ps). Proof. tells (create_external_table_reads U HU) 5. Qed.
Lemma create_view_ok k ps : deed_ok (Define CreateView k ps). Proof. tells (create_view_reads U HU) 2. Qed.
Lemma create_materialized_view_ok k ps : deed_ok (Define CreateMaterializedView k ps). Proof. tells (create_materialized_view_reads U HU) 3. Qed.
Lemma create_replica_view_ok k ps : deed_ok (Define CreateReplicaView k ps). Proof. tells (create_replica_view_reads U HU) 3. Qed.
Lemma create_sql_function_ok k ps : deed_ok (Define CreateSqlFunction k ps). Proof. tells (create_sql_function_reads U HU) 4. Qed.
Lemma create_table_function_ok k ps : deed_ok (Define CreateTableFunction k ps). Proof. tells (create_table_function_reads U HU) 4. Qed.
Lemma create_foreign_function_ok k ps : deed_ok (Define CreateForeignFunction k ps). Proof. tells (create_foreign_function_reads U HU) 4. Qed.
Lemma create_remote_function_ok k ps : deed_ok (Define CreateRemoteFunction k ps). Proof. tells (create_remote_function_reads U HU) 3. Qed.
Lemma create_procedure_ok k ps : deed_ok (Define CreateForeignProcedure k ps). Proof. tells (create_procedure_reads U HU) 2. Qed.
Lemma create_policy_ok k ps : deed_ok (Define CreatePolicy k ps). Proof. tells (create_policy_reads U HU) 2. Qed.
Lemma create_model_ok k ps : deed_ok (Define CreateModel k ps). Proof. tells (create_model_reads U HU) 2. Qed.
Lemma create_reservation_json_ok k ps : deed_ok (Define CreateReservationJson k ps). Proof. tells (create_reservation_json_reads U HU) 1. Qed.
Lemma create_reservation_ok k ps : deed_ok (Define CreateReservation k ps). Proof. tells (create_reservation_reads U HU) 1. Qed.
Theorem define_ok d k ps : deed_ok (Define d k ps).
Proof.
  destruct d; [apply undrop_ok | apply grant_ok | apply revoke_ok | apply export_data_ok | apply export_model_ok | apply load_ok | apply load_through_ok
  | apply alter_organization_ok | apply alter_project_ok | apply alter_bicapacity_ok | apply alter_reservation_ok | apply alter_model_ok | apply alter_view_ok | apply alter_vector_index_ok
  | apply alter_schema_collate_ok | apply alter_schema_options_ok | apply alter_schema_add_ok | apply alter_schema_drop_ok
  | apply alter_table_options_ok | apply alter_table_collate_ok | apply alter_table_rename_ok
  | apply alter_table_add_ok | apply alter_table_constrain_ok | apply alter_table_drop_ok | apply alter_table_rename_column_ok | apply alter_table_column_ok | apply drop_policy_ok | apply drop_policies_ok | apply drop_index_ok
  | apply create_schema_ok | apply create_index_ok | apply create_table_ok | apply create_table_like_ok | apply create_clone_ok | apply create_snapshot_ok | apply create_external_table_ok
  | apply create_view_ok | apply create_materialized_view_ok | apply create_replica_view_ok | apply create_sql_function_ok | apply create_table_function_ok
  | apply create_foreign_function_ok | apply create_remote_function_ok | apply create_procedure_ok | apply create_policy_ok | apply create_model_ok
  | apply create_reservation_json_ok | apply create_reservation_ok].
Qed.
End WithUnicode.
