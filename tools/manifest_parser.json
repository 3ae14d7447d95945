[["C20", "proved", ["c20_ends", "c20_one_outcome"], "Exhaustion of the machine stack on deeply nested input is not modelled."], ["C21", "proved", ["c21_panics_at_eof", "c21_panic_free_refuted"], ""], ["C22", "proved", ["c22_shape"], "for ASCII-faithful Unicode tables (to_uppercase of an ASCII string is the ASCII one)"], ["C23", "proved", ["c23_no_duplicates"], "tokens are identified by literal, line and column, so no two source tokens are equal (C07)"], ["C24", "proved", ["c24_tokens_kept_or_replaced", "c24_no_token_lost", "c24_enforced_lost_refuted", "c24_merge_semicolon_lost_refuted", "c24_labelled_from_semicolon_lost_refuted", "c24_labelled_pipe_semicolon_lost_refuted"], "the code loses tokens in the situations the _refuted theorems exhibit; the other theorems show that these are the only ones"], ["C25", "proved", ["c25_comments"], "grouped (Bundles.v) says which comments belong to which token"], ["C26", "proved", ["c26_slices"], "each statement's tokens are a permutation of its slice, up to the children C24 describes"], ["C27", "proved", ["c27_located_errors"], "At the end of the input the position is that of the EOF marker, (usize::MAX, usize::MAX)."], ["C28", "proved", ["c28_comments"], ""], ["C29", "proved", ["c29_letter_case"], ""], ["C30", "proved", ["c30_layout"], "For sources of fewer than usize::MAX - 1 characters."], ["C34", "proved", ["c34_backtracking"], ""], ["C35", "proved", ["c35_children", "c35_types_and_tokens", "c35_conforming_types", "c35_extra_children_refuted", "c35_odd_children_refuted", "c35_disguised_children_refuted", "c35_undeclared_types_refuted", "c35_tokenless_types_refuted"], "The property fails for the combinations in TypesDeviations.v, each of which is shown to occur; it holds for all others. Three of them (disguised_odd_children) are shown to occur for a table that agrees with Unicode on ASCII but upper-cases some other character to a bracket or a dot; Unicode has no such character, and the theorems do not assume that."], ["C36", "proved", ["c36_required", "c36_missing_children_refuted"], "The property fails for the pairs in missing_children, each of which is shown to occur; it holds for all others."], ["C32", "proved", ["c32_order_irrelevant", "c32_distinct_keys"], "A hash map is an association list without repeated keys; same_contents compares two such lists by lookup, at every level."], ["C33", "proved", ["c33_push_node", "c33_push_node_vec", "c33_new"], ""], ["C37", "proved", ["c37_faithful", "c37_none_refuted"], "for trees without multi-line tokens"], ["C31", "proved", ["c31_grouping", "c31_binary_left", "c31_binary_right", "c31_not", "c31_field_access_refuted", "c31_ordered_refuted"], "every operator of every returned tree, any input; the levels are the documented ones except field access, which the code puts level with unary minus (c31_field_access_refuted), and nothing is claimed of what follows ASC, DESC or NULLS inside an operand (c31_ordered_refuted)"], ["C39", "proved", ["c39_scripts_are_read", "c39_unambiguous"], "for the grammar of GrammarSpec.v; statements and clauses outside it are not covered"], ["C40", "proved", ["c40_programs_are_read", "c40_unambiguous"], "for the grammar of StatementSpec.v, which includes the defining statements of DefinitionSpec.v; pipe syntax, FROM statements and the forms listed in DESIGN.md are not in the grammar"], ["C38", "proved", ["c38_roles", "c38_own_words", "c38_separators", "c38_clauses", "c38_roles_refuted", "c38_own_words_refuted"], "The property fails for the pairs in unchecked_roles and the types in unchecked_own_words (RolesSpec.v), each of which is shown to go wrong; it holds for all other entries of the tables. The marks of Asterisk, BooleanLiteral, NullLiteral, EmptyStruct, CaseExpr and IntervalLiteral are not in the tables."], ["C41", "proved", ["c41_renaming", "c41_soft_words_matter", "c41_soft_words_not_reserved", "c41_any_name_refuted"], "interchangeable (RenameSpec.v) says what may take the place of what; the exceptions are the 114 words of soft_words, each of which is shown to matter."], ["C42", "proved", ["c42_balanced_refuted"], "The wished-for property is false of the code; the theorems are the counterexamples."], ["C43", "proved", ["c43_final_semicolon_refuted"], "The wished-for property is false of the code; the theorems are the counterexamples."], ["C44", "proved", ["c44_assignment_refuted"], "The wished-for property is false of the code; the theorems are the counterexamples."], ["C45", "proved", ["c45_query_in_brackets_refuted", "c45_order_by_refuted", "c45_order_by_rejected_refuted", "c45_star_modifiers_refuted"], "The wished-for property is false of the code; the theorems are the counterexamples."], ["C46", "proved", ["c46_definitions_are_read", "c46_semicolon", "c46_unambiguous"], "for the forms of DefinitionSpec.v"], ["C47", "proved", ["c47_default_not_null_refuted", "c47_not_null_default_refuted", "c47_primary_key_not_null_refuted"], "The wished-for property is false of the code; the theorems are the counterexamples."], ["C48", "proved", ["c48_comma_refuted", "c48_name_refuted", "c48_select_refuted", "c48_as_select_refuted"], "The wished-for property is false of the code; the theorems are the counterexamples."], ["C49", "proved", ["c49_pipelines_are_read", "c49_semicolon", "c49_left_to_right", "c49_unambiguous"], "for the operators of PipeSpec.v, after FROM"], ["C50", "proved", ["c50_from_refuted", "c50_join_refuted"], "The wished-for property is false of the code; the theorems are the counterexamples."], ["C51", "proved", ["c51_space_before_pipe_refuted"], "The wished-for property is false of the code; the theorem is the counterexample."]]