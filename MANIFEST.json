{
 "claims": [
  {
   "property": "C01",
   "status": "proved",
   "theorems": [
    "c01_no_text_lost",
    "tokenizer_correct"
   ],
   "note": ""
  },
  {
   "property": "C02",
   "status": "proved",
   "theorems": [
    "c02_true_positions"
   ],
   "note": ""
  },
  {
   "property": "C03",
   "status": "proved",
   "theorems": [
    "c03_source_order"
   ],
   "note": ""
  },
  {
   "property": "C04",
   "status": "proved",
   "theorems": [
    "c04_one_eof"
   ],
   "note": "Positions are bounded by the number of characters, hence below usize::MAX for inputs of fewer than usize::MAX characters."
  },
  {
   "property": "C05",
   "status": "proved",
   "theorems": [
    "c05_terminates"
   ],
   "note": ""
  },
  {
   "property": "C06",
   "status": "proved",
   "theorems": [
    "c06_panics_iff"
   ],
   "note": ""
  },
  {
   "property": "C07",
   "status": "proved",
   "theorems": [
    "c07_located_errors"
   ],
   "note": ""
  },
  {
   "property": "C08",
   "status": "proved",
   "theorems": [
    "c08_quoted_string",
    "c08_quoted_name",
    "c08_only_quoted_strings",
    "c08_only_quoted_names",
    "c08_independent"
   ],
   "note": ""
  },
  {
   "property": "C09",
   "status": "proved",
   "theorems": [
    "c09_triple_quoted",
    "c09_only_triple_quoted"
   ],
   "note": ""
  },
  {
   "property": "C10",
   "status": "proved",
   "theorems": [
    "c10_line_comment",
    "c10_block_comment",
    "c10_only_comments"
   ],
   "note": ""
  },
  {
   "property": "C11",
   "status": "proved",
   "theorems": [
    "c11_word",
    "c11_only_words"
   ],
   "note": ""
  },
  {
   "property": "C12",
   "status": "proved",
   "theorems": [
    "c12_number",
    "c12_numeric_test"
   ],
   "note": ""
  },
  {
   "property": "C13",
   "status": "proved",
   "theorems": [
    "c13_inside_types",
    "c13_outside_types",
    "c13_nested"
   ],
   "note": ""
  },
  {
   "property": "C14",
   "status": "proved",
   "theorems": [
    "c14_longest_operator"
   ],
   "note": ""
  },
  {
   "property": "C15",
   "status": "proved",
   "theorems": [
    "c15_white_space"
   ],
   "note": ""
  },
  {
   "property": "C16",
   "status": "proved",
   "theorems": [
    "c16_letter_case"
   ],
   "note": ""
  },
  {
   "property": "C17",
   "status": "proved",
   "theorems": [
    "c17_exclusive_classes",
    "c17_reserved_not_identifier"
   ],
   "note": ""
  },
  {
   "property": "C18",
   "status": "proved",
   "theorems": [
    "c13_range_refuted"
   ],
   "note": "The wished-for property is false of the code; the theorem is the counterexample."
  },
  {
   "property": "C20",
   "status": "proved",
   "theorems": [
    "c20_ends",
    "c20_one_outcome"
   ],
   "note": "Exhaustion of the machine stack on deeply nested input is not modelled."
  },
  {
   "property": "C21",
   "status": "proved",
   "theorems": [
    "c21_panics_at_eof",
    "c21_panic_free_refuted"
   ],
   "note": ""
  },
  {
   "property": "C22",
   "status": "proved",
   "theorems": [
    "c22_shape"
   ],
   "note": "for ASCII-faithful Unicode tables (to_uppercase of an ASCII string is the ASCII one)"
  },
  {
   "property": "C23",
   "status": "proved",
   "theorems": [
    "c23_no_duplicates"
   ],
   "note": "tokens are identified by literal, line and column, so no two source tokens are equal (C07)"
  },
  {
   "property": "C24",
   "status": "proved",
   "theorems": [
    "c24_tokens_kept_or_replaced",
    "c24_no_token_lost",
    "c24_enforced_lost_refuted",
    "c24_merge_semicolon_lost_refuted",
    "c24_labelled_from_semicolon_lost_refuted",
    "c24_labelled_pipe_semicolon_lost_refuted"
   ],
   "note": "the code loses tokens in the situations the _refuted theorems exhibit; the other theorems show that these are the only ones"
  },
  {
   "property": "C25",
   "status": "proved",
   "theorems": [
    "c25_comments"
   ],
   "note": "grouped (Bundles.v) says which comments belong to which token"
  },
  {
   "property": "C26",
   "status": "proved",
   "theorems": [
    "c26_slices"
   ],
   "note": "each statement's tokens are a permutation of its slice, up to the children C24 describes"
  },
  {
   "property": "C27",
   "status": "proved",
   "theorems": [
    "c27_located_errors"
   ],
   "note": "At the end of the input the position is that of the EOF marker, (usize::MAX, usize::MAX)."
  },
  {
   "property": "C28",
   "status": "proved",
   "theorems": [
    "c28_comments"
   ],
   "note": ""
  },
  {
   "property": "C29",
   "status": "proved",
   "theorems": [
    "c29_letter_case"
   ],
   "note": ""
  },
  {
   "property": "C30",
   "status": "proved",
   "theorems": [
    "c30_layout"
   ],
   "note": "For sources of fewer than usize::MAX - 1 characters."
  },
  {
   "property": "C34",
   "status": "proved",
   "theorems": [
    "c34_backtracking"
   ],
   "note": ""
  },
  {
   "property": "C35",
   "status": "proved",
   "theorems": [
    "c35_children",
    "c35_types_and_tokens",
    "c35_conforming_types",
    "c35_extra_children_refuted",
    "c35_odd_children_refuted",
    "c35_disguised_children_refuted",
    "c35_undeclared_types_refuted",
    "c35_tokenless_types_refuted"
   ],
   "note": "The property fails for the combinations in TypesDeviations.v, each of which is shown to occur; it holds for all others. Three of them (disguised_odd_children) are shown to occur for a table that agrees with Unicode on ASCII but upper-cases some other character to a bracket or a dot; Unicode has no such character, and the theorems do not assume that."
  },
  {
   "property": "C36",
   "status": "proved",
   "theorems": [
    "c36_required",
    "c36_missing_children_refuted"
   ],
   "note": "The property fails for the pairs in missing_children, each of which is shown to occur; it holds for all others."
  },
  {
   "property": "C32",
   "status": "proved",
   "theorems": [
    "c32_order_irrelevant",
    "c32_distinct_keys"
   ],
   "note": "A hash map is an association list without repeated keys; same_contents compares two such lists by lookup, at every level."
  },
  {
   "property": "C33",
   "status": "proved",
   "theorems": [
    "c33_push_node",
    "c33_push_node_vec",
    "c33_new"
   ],
   "note": ""
  },
  {
   "property": "C37",
   "status": "proved",
   "theorems": [
    "c37_faithful",
    "c37_none_refuted"
   ],
   "note": "for trees without multi-line tokens"
  },
  {
   "property": "C31",
   "status": "proved",
   "theorems": [
    "c31_grouping",
    "c31_binary_left",
    "c31_binary_right",
    "c31_not",
    "c31_field_access_refuted",
    "c31_ordered_refuted"
   ],
   "note": "every operator of every returned tree, any input; the levels are the documented ones except field access, which the code puts level with unary minus (c31_field_access_refuted), and nothing is claimed of what follows ASC, DESC or NULLS inside an operand (c31_ordered_refuted)"
  },
  {
   "property": "C39",
   "status": "proved",
   "theorems": [
    "c39_scripts_are_read",
    "c39_unambiguous"
   ],
   "note": "for the grammar of GrammarSpec.v; statements and clauses outside it are not covered"
  },
  {
   "property": "C40",
   "status": "proved",
   "theorems": [
    "c40_programs_are_read",
    "c40_unambiguous"
   ],
   "note": "for the grammar of StatementSpec.v, which includes the defining statements of DefinitionSpec.v; pipe syntax, FROM statements and the forms listed in DESIGN.md are not in the grammar"
  },
  {
   "property": "C38",
   "status": "proved",
   "theorems": [
    "c38_roles",
    "c38_own_words",
    "c38_separators",
    "c38_clauses",
    "c38_roles_refuted",
    "c38_own_words_refuted"
   ],
   "note": "The property fails for the pairs in unchecked_roles and the types in unchecked_own_words (RolesSpec.v), each of which is shown to go wrong; it holds for all other entries of the tables. The marks of Asterisk, BooleanLiteral, NullLiteral, EmptyStruct, CaseExpr and IntervalLiteral are not in the tables."
  },
  {
   "property": "C41",
   "status": "proved",
   "theorems": [
    "c41_renaming",
    "c41_soft_words_matter",
    "c41_soft_words_not_reserved",
    "c41_any_name_refuted"
   ],
   "note": "interchangeable (RenameSpec.v) says what may take the place of what; the exceptions are the 114 words of soft_words, each of which is shown to matter."
  },
  {
   "property": "C42",
   "status": "proved",
   "theorems": [
    "c42_balanced_refuted"
   ],
   "note": "The wished-for property is false of the code; the theorems are the counterexamples."
  },
  {
   "property": "C43",
   "status": "proved",
   "theorems": [
    "c43_final_semicolon_refuted"
   ],
   "note": "The wished-for property is false of the code; the theorems are the counterexamples."
  },
  {
   "property": "C44",
   "status": "proved",
   "theorems": [
    "c44_assignment_refuted"
   ],
   "note": "The wished-for property is false of the code; the theorems are the counterexamples."
  },
  {
   "property": "C45",
   "status": "proved",
   "theorems": [
    "c45_query_in_brackets_refuted",
    "c45_order_by_refuted",
    "c45_order_by_rejected_refuted",
    "c45_star_modifiers_refuted",
    "c45_insert_refuted"
   ],
   "note": "The wished-for property is false of the code; the theorems are the counterexamples."
  },
  {
   "property": "C46",
   "status": "proved",
   "theorems": [
    "c46_definitions_are_read",
    "c46_semicolon",
    "c46_unambiguous"
   ],
   "note": "for the forms of DefinitionSpec.v"
  },
  {
   "property": "C47",
   "status": "proved",
   "theorems": [
    "c47_default_not_null_refuted",
    "c47_not_null_default_refuted",
    "c47_primary_key_not_null_refuted"
   ],
   "note": "The wished-for property is false of the code; the theorems are the counterexamples."
  },
  {
   "property": "C48",
   "status": "proved",
   "theorems": [
    "c48_comma_refuted",
    "c48_name_refuted",
    "c48_select_refuted",
    "c48_as_select_refuted",
    "c48_item_refuted",
    "c48_items_refuted"
   ],
   "note": "The wished-for property is false of the code; the theorems are the counterexamples."
  },
  {
   "property": "C49",
   "status": "proved",
   "theorems": [
    "c49_pipelines_are_read",
    "c49_semicolon",
    "c49_left_to_right",
    "c49_unambiguous"
   ],
   "note": "for the operators of PipeSpec.v, after FROM"
  },
  {
   "property": "C50",
   "status": "proved",
   "theorems": [
    "c50_from_refuted",
    "c50_join_refuted"
   ],
   "note": "The wished-for property is false of the code; the theorems are the counterexamples."
  },
  {
   "property": "C51",
   "status": "proved",
   "theorems": [
    "c51_space_before_pipe_refuted"
   ],
   "note": "The wished-for property is false of the code; the theorem is the counterexample."
  },
  {
   "property": "C52",
   "status": "proved",
   "theorems": [
    "c52_model_refuted",
    "c52_last_refuted"
   ],
   "note": "The wished-for property is false of the code; the theorems are the counterexamples."
  },
  {
   "property": "C53",
   "status": "proved",
   "theorems": [
    "c53_vector_index_refuted"
   ],
   "note": "The wished-for property is false of the code; the theorems are the counterexamples."
  },
  {
   "property": "C54",
   "status": "proved",
   "theorems": [
    "c54_snapshot_options_refuted"
   ],
   "note": "The wished-for property is false of the code; the theorems are the counterexamples."
  },
  {
   "property": "C55",
   "status": "proved",
   "theorems": [
    "c55_dot_refuted",
    "c55_bracket_refuted"
   ],
   "note": "The wished-for property is false of the code; the theorems are the counterexamples."
  }
 ]
}
