(* The statements of DefinitionSpec.v other than CREATE. *)
From Verif Require Import Chars Token Cst Core MiniRust Program Bundles ParserView ParserGeneric ShapeSound GroupingSpec GroupingExpr
  Forward GrammarSpec GrammarTactics GrammarExpr GrammarReach GrammarOps GrammarBinary GrammarItems GrammarTypes GrammarCalls GrammarQuery GrammarSelect
  DefinitionSpec StatementSpec StatementDeeds StatementDml DefinitionRules DefinitionPhrases.
Local Open Scope string_scope.
Local Open Scope list_scope.
Local Notation length := List.length.

Section WithUnicode.
Context (U : unicode) (HU : ascii_faithful U).
Local Notation steps := (steps U).
Local Notation calls := (calls U).
Local Notation is_word := (is_word U).
Local Notation word_in := (word_in U).
Local Notation tree := (tree U).
Local Notation wf := (wf U).
Local Notation fits := (fits_known U).
Local Notation led := (led U).
Local Notation wf_part := (wf_part U).
Local Notation wf_parts := (wf_parts U).
Local Notation kids_part := (kids_part U).
Local Notation kids_parts := (kids_parts U).
Local Notation stops := (stops U).
Local Notation tails := (tails U).
Local Notation runs := (runs U).
Local Notation finishes := (finishes U).
Local Notation inside := (inside U).
Ltac ahead ::= first [apply tok_yield | apply tok_items | apply tok_query | apply tok_type | apply tok_table | eassumption].
Ltac call ::= eassumption.
Ltac special ::= fail.



Local Notation reads_as := (reads_as U).
Ltac phrase_ := phrase HU.
Ltac word_name := enters; a_path HU; shown HU.
Lemma undrop_reads : reads_as F_parse_undrop_statement UndropSchema.
Proof. reads_. repeat phrase_. ends HU. Qed.
Lemma export_model_reads : reads_as F_parse_export_model_statement ExportModel.
Proof. reads_. repeat phrase_. ends HU. Qed.
Lemma alter_organization_reads : reads_as F_parse_alter_organization_statement AlterOrganization.
Proof. reads_. repeat phrase_. ends HU. Qed.
Lemma alter_project_reads : reads_as F_parse_alter_project_statement AlterProject.
Proof. reads_. repeat phrase_. ends HU. Qed.
Lemma alter_bicapacity_reads : reads_as F_parse_alter_bicapacity_statement AlterBiCapacity.
Proof. reads_. repeat phrase_. ends HU. Qed.
Lemma alter_reservation_reads : reads_as F_parse_alter_reservation_statement AlterReservation.
Proof. reads_. repeat phrase_. ends HU. Qed.
Lemma alter_model_reads : reads_as F_parse_alter_model_statement AlterModel.
Proof. reads_. repeat phrase_. ends HU. Qed.
Lemma alter_vector_index_reads : reads_as F_parse_alter_vector_index_statement AlterVectorIndex.
Proof. reads_. leaving HU 4 "vector"; [enters; shown HU|]. do 2 phrase_. leaving HU 4 "on"; [word_name|]. leaving HU 2 "operation"; [enters; shown HU|]. ends HU. Qed.
Lemma alter_view_reads : reads_as F_parse_alter_view_statement AlterView.
Proof. reads_. do 4 phrase_. both HU; [apply (runs_branch U HU false); [guarded HU|]|ends HU]. enters. options_of HU k0. shown HU. Qed.
Lemma alter_schema_collate_reads : reads_as F_parse_alter_schema_statement AlterSchemaCollate.
Proof. reads_. do 3 phrase_. chunk 1. both HU; [enters; shown HU|]. phrase_. ends HU. Qed.
Lemma alter_schema_options_reads : reads_as F_parse_alter_schema_statement AlterSchemaOptions.
Proof. reads_. do 3 phrase_. keeping HU 1; [enters; shown HU|]. phrase_. ends HU. Qed.
Lemma alter_schema_add_reads : reads_as F_parse_alter_schema_statement AlterSchemaAdd.
Proof. reads_. do 3 phrase_. keeping HU 1; [word_name|]. phrase_. ends HU. Qed.
Lemma alter_schema_drop_reads : reads_as F_parse_alter_schema_statement AlterSchemaDrop.
Proof. reads_. do 3 phrase_. keeping HU 1; [word_name|]. phrase_. ends HU. Qed.
Lemma alter_table_options_reads : reads_as F_parse_alter_table_statement AlterTableOptions.
Proof. reads_. do 3 phrase_. both HU; [enters; options_of HU k0; shown HU|]. ends HU. Qed.
Lemma alter_table_collate_reads : reads_as F_parse_alter_table_statement AlterTableCollate.
Proof. reads_. do 3 phrase_. both HU; [enters; shown HU|]. ends HU. Qed.
Lemma alter_table_rename_reads : reads_as F_parse_alter_table_statement AlterTableRename.
Proof. reads_. do 3 phrase_. both HU; [word_name|]. ends HU. Qed.
Ltac call ::= first [eassumption | apply (two_call U) | apply (three_call U) | apply (four_call U) | apply (one_call U)].
Lemma drop_policy_reads : reads_as F_parse_drop_row_access_policy_statement DropPolicy.
Proof. reads_. keeping HU 1; [enters; shown HU|]. do 2 phrase_. leaving HU 4 "on"; [word_name|]. ends HU. Qed.
Lemma drop_policies_reads : reads_as F_parse_drop_row_access_policy_statement DropPolicies.
Proof. reads_. keeping HU 1; [enters; shown HU|]. do 2 phrase_. leaving HU 4 "on"; [word_name|]. ends HU. Qed.
Lemma drop_index_reads : reads_as F_parse_drop_statement_general DropIndex.
Proof.
  reads_. none HU; [enters; shown HU|]. keeping HU 1; [enters; shown HU|]. do 3 phrase_. one HU; [apply (runs_branch U HU true); [guarded HU|word_name]|]. ends HU.
Qed.
Lemma grant_reads : reads_as F_parse_grant_statement GrantRoles.
Proof. reads_. keeping HU 1; [enters; a_list HU; shown HU|]. do 3 phrase_. leaving HU 4 "to"; [enters; a_list HU; shown HU|]. ends HU. Qed.
Lemma revoke_reads : reads_as F_parse_revoke_statement RevokeRoles.
Proof. reads_. keeping HU 1; [enters; a_list HU; shown HU|]. do 3 phrase_. leaving HU 4 "from"; [enters; a_list HU; shown HU|]. ends HU. Qed.
Lemma export_data_reads : reads_as F_parse_export_data_statement ExportData.
Proof.
  reads_. do 3 phrase_. leaving HU 4 "as_"; [|ends HU]. enters. a_query HU.
  match goal with Q : wf_query _ ?q _ |- _ => apply wf_first_query in Q; apply fits_among in Q end.
  match goal with C : Forward.calls _ F_parse_select_statement _ ?l ?v ?r |- _ => assert (calls F_parse_statement [VBool false] l v r) end.
  { eapply calls_body; [reflexivity|]. cbn [prog parse_statement f_body f_params combine]. step HU. }
  shown HU.
Qed.
End WithUnicode.
