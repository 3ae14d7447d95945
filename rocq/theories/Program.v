(* Generated by tools/translate.py from /repo/src/parser.rs; do not edit.
   One MiniRust function per function of parser.rs. The comment above a definition
   gives the lines of the function, the comment after a command the line of the
   statement it translates. *)
From Verif Require Import Chars Token Cst Core MiniRust.
Local Open Scope string_scope.
Local Open Scope cmd_scope.

(* The functions, in source order (parser.rs:42-4455). *)
Inductive fn :=
| F_parse_code
| F_parse_between_operator
| F_parse_binary_operator
| F_parse_constraint
| F_parse_cte
| F_parse_enforced
| F_parse_expr
| F_parse_exprs
| F_parse_grouped_exprs
| F_parse_grouped_type_declaration_or_constraints
| F_parse_single_or_multi_token_identifier
| F_parse_identifier
| F_parse_in_operator
| F_parse_is_distinct_from_operator
| F_parse_keyword_with_grouped_exprs
| F_parse_keyword_with_statements
| F_parse_n_keywords
| F_parse_set_operator
| F_parse_statement
| F_parse_table
| F_parse_type
| F_parse_window_expr
| F_parse_with_connection_clause
| F_parse_with_clause
| F_parse_window_clause
| F_parse_xxxby_exprs
| F_parse_groupby_exprs
| F_parse_table_sample_ratio
| F_parse_pivot_config_clause
| F_parse_unpivot_config_clause
| F_parse_match_recognize_clause
| F_parse_match_recognize_config
| F_parse_by_name_clause
| F_parse_pattern_clause
| F_parse_grouped_pattern
| F_parse_pattern
| F_parse_quantifier
| F_parse_corresponding_clause
| F_push_trailing_alias
| F_parse_select_statement
| F_parse_from_statement
| F_parse_pipe_statement
| F_parse_select_pipe_operator
| F_parse_limit_pipe_operator
| F_parse_aggregate_pipe_operator
| F_parse_union_pipe_operator
| F_parse_join_pipe_operator
| F_parse_tablesample_pipe_operator
| F_parse_pivot_pipe_operator
| F_parse_unpivot_pipe_operator
| F_parse_with_pipe_operator
| F_parse_match_recognize_pipe_operator
| F_parse_base_pipe_operator
| F_parse_insert_statement
| F_parse_delete_statement
| F_parse_truncate_statement
| F_parse_update_statement
| F_parse_merge_statement
| F_parse_create_schema_statement
| F_parse_create_search_index_statement
| F_parse_create_table_statement
| F_parse_create_view_statement
| F_parse_create_function_statement
| F_parse_create_procedure_statement
| F_parse_create_row_access_policy_statement
| F_parse_create_model_statement
| F_parse_alter_schema_statement
| F_parse_alter_table_statement
| F_parse_alter_column_statement
| F_parse_alter_vector_index_statement
| F_parse_alter_view_statement
| F_parse_alter_organization_statement
| F_parse_alter_project_statement
| F_parse_alter_bicapacity_statement
| F_parse_alter_reservation_statement
| F_parse_alter_model_statement
| F_parse_drop_row_access_policy_statement
| F_parse_drop_statement_general
| F_parse_undrop_statement
| F_parse_grant_statement
| F_parse_revoke_statement
| F_parse_create_reservation_statement
| F_parse_declare_statement
| F_parse_set_statement
| F_parse_execute_statement
| F_parse_begin_statement
| F_parse_if_statement
| F_parse_labeled_statement
| F_parse_break_continue_statement
| F_parse_loop_statement
| F_parse_repeat_statement
| F_parse_while_statement
| F_parse_single_token_statement
| F_parse_for_statement
| F_parse_transaction_statement
| F_parse_raise_statement
| F_parse_case_statement
| F_parse_call_statement
| F_parse_assert_satement
| F_parse_export_data_statement
| F_parse_export_model_statement
| F_parse_load_statement
.

Definition all_fns : list fn := [F_parse_code;
  F_parse_between_operator;
  F_parse_binary_operator;
  F_parse_constraint;
  F_parse_cte;
  F_parse_enforced;
  F_parse_expr;
  F_parse_exprs;
  F_parse_grouped_exprs;
  F_parse_grouped_type_declaration_or_constraints;
  F_parse_single_or_multi_token_identifier;
  F_parse_identifier;
  F_parse_in_operator;
  F_parse_is_distinct_from_operator;
  F_parse_keyword_with_grouped_exprs;
  F_parse_keyword_with_statements;
  F_parse_n_keywords;
  F_parse_set_operator;
  F_parse_statement;
  F_parse_table;
  F_parse_type;
  F_parse_window_expr;
  F_parse_with_connection_clause;
  F_parse_with_clause;
  F_parse_window_clause;
  F_parse_xxxby_exprs;
  F_parse_groupby_exprs;
  F_parse_table_sample_ratio;
  F_parse_pivot_config_clause;
  F_parse_unpivot_config_clause;
  F_parse_match_recognize_clause;
  F_parse_match_recognize_config;
  F_parse_by_name_clause;
  F_parse_pattern_clause;
  F_parse_grouped_pattern;
  F_parse_pattern;
  F_parse_quantifier;
  F_parse_corresponding_clause;
  F_push_trailing_alias;
  F_parse_select_statement;
  F_parse_from_statement;
  F_parse_pipe_statement;
  F_parse_select_pipe_operator;
  F_parse_limit_pipe_operator;
  F_parse_aggregate_pipe_operator;
  F_parse_union_pipe_operator;
  F_parse_join_pipe_operator;
  F_parse_tablesample_pipe_operator;
  F_parse_pivot_pipe_operator;
  F_parse_unpivot_pipe_operator;
  F_parse_with_pipe_operator;
  F_parse_match_recognize_pipe_operator;
  F_parse_base_pipe_operator;
  F_parse_insert_statement;
  F_parse_delete_statement;
  F_parse_truncate_statement;
  F_parse_update_statement;
  F_parse_merge_statement;
  F_parse_create_schema_statement;
  F_parse_create_search_index_statement;
  F_parse_create_table_statement;
  F_parse_create_view_statement;
  F_parse_create_function_statement;
  F_parse_create_procedure_statement;
  F_parse_create_row_access_policy_statement;
  F_parse_create_model_statement;
  F_parse_alter_schema_statement;
  F_parse_alter_table_statement;
  F_parse_alter_column_statement;
  F_parse_alter_vector_index_statement;
  F_parse_alter_view_statement;
  F_parse_alter_organization_statement;
  F_parse_alter_project_statement;
  F_parse_alter_bicapacity_statement;
  F_parse_alter_reservation_statement;
  F_parse_alter_model_statement;
  F_parse_drop_row_access_policy_statement;
  F_parse_drop_statement_general;
  F_parse_undrop_statement;
  F_parse_grant_statement;
  F_parse_revoke_statement;
  F_parse_create_reservation_statement;
  F_parse_declare_statement;
  F_parse_set_statement;
  F_parse_execute_statement;
  F_parse_begin_statement;
  F_parse_if_statement;
  F_parse_labeled_statement;
  F_parse_break_continue_statement;
  F_parse_loop_statement;
  F_parse_repeat_statement;
  F_parse_while_statement;
  F_parse_single_token_statement;
  F_parse_for_statement;
  F_parse_transaction_statement;
  F_parse_raise_statement;
  F_parse_case_statement;
  F_parse_call_statement;
  F_parse_assert_satement;
  F_parse_export_data_statement;
  F_parse_export_model_statement;
  F_parse_load_statement].

Definition fn_name (f : fn) : string :=
  match f with
  | F_parse_code => "parse_code"
  | F_parse_between_operator => "parse_between_operator"
  | F_parse_binary_operator => "parse_binary_operator"
  | F_parse_constraint => "parse_constraint"
  | F_parse_cte => "parse_cte"
  | F_parse_enforced => "parse_enforced"
  | F_parse_expr => "parse_expr"
  | F_parse_exprs => "parse_exprs"
  | F_parse_grouped_exprs => "parse_grouped_exprs"
  | F_parse_grouped_type_declaration_or_constraints => "parse_grouped_type_declaration_or_constraints"
  | F_parse_single_or_multi_token_identifier => "parse_single_or_multi_token_identifier"
  | F_parse_identifier => "parse_identifier"
  | F_parse_in_operator => "parse_in_operator"
  | F_parse_is_distinct_from_operator => "parse_is_distinct_from_operator"
  | F_parse_keyword_with_grouped_exprs => "parse_keyword_with_grouped_exprs"
  | F_parse_keyword_with_statements => "parse_keyword_with_statements"
  | F_parse_n_keywords => "parse_n_keywords"
  | F_parse_set_operator => "parse_set_operator"
  | F_parse_statement => "parse_statement"
  | F_parse_table => "parse_table"
  | F_parse_type => "parse_type"
  | F_parse_window_expr => "parse_window_expr"
  | F_parse_with_connection_clause => "parse_with_connection_clause"
  | F_parse_with_clause => "parse_with_clause"
  | F_parse_window_clause => "parse_window_clause"
  | F_parse_xxxby_exprs => "parse_xxxby_exprs"
  | F_parse_groupby_exprs => "parse_groupby_exprs"
  | F_parse_table_sample_ratio => "parse_table_sample_ratio"
  | F_parse_pivot_config_clause => "parse_pivot_config_clause"
  | F_parse_unpivot_config_clause => "parse_unpivot_config_clause"
  | F_parse_match_recognize_clause => "parse_match_recognize_clause"
  | F_parse_match_recognize_config => "parse_match_recognize_config"
  | F_parse_by_name_clause => "parse_by_name_clause"
  | F_parse_pattern_clause => "parse_pattern_clause"
  | F_parse_grouped_pattern => "parse_grouped_pattern"
  | F_parse_pattern => "parse_pattern"
  | F_parse_quantifier => "parse_quantifier"
  | F_parse_corresponding_clause => "parse_corresponding_clause"
  | F_push_trailing_alias => "push_trailing_alias"
  | F_parse_select_statement => "parse_select_statement"
  | F_parse_from_statement => "parse_from_statement"
  | F_parse_pipe_statement => "parse_pipe_statement"
  | F_parse_select_pipe_operator => "parse_select_pipe_operator"
  | F_parse_limit_pipe_operator => "parse_limit_pipe_operator"
  | F_parse_aggregate_pipe_operator => "parse_aggregate_pipe_operator"
  | F_parse_union_pipe_operator => "parse_union_pipe_operator"
  | F_parse_join_pipe_operator => "parse_join_pipe_operator"
  | F_parse_tablesample_pipe_operator => "parse_tablesample_pipe_operator"
  | F_parse_pivot_pipe_operator => "parse_pivot_pipe_operator"
  | F_parse_unpivot_pipe_operator => "parse_unpivot_pipe_operator"
  | F_parse_with_pipe_operator => "parse_with_pipe_operator"
  | F_parse_match_recognize_pipe_operator => "parse_match_recognize_pipe_operator"
  | F_parse_base_pipe_operator => "parse_base_pipe_operator"
  | F_parse_insert_statement => "parse_insert_statement"
  | F_parse_delete_statement => "parse_delete_statement"
  | F_parse_truncate_statement => "parse_truncate_statement"
  | F_parse_update_statement => "parse_update_statement"
  | F_parse_merge_statement => "parse_merge_statement"
  | F_parse_create_schema_statement => "parse_create_schema_statement"
  | F_parse_create_search_index_statement => "parse_create_search_index_statement"
  | F_parse_create_table_statement => "parse_create_table_statement"
  | F_parse_create_view_statement => "parse_create_view_statement"
  | F_parse_create_function_statement => "parse_create_function_statement"
  | F_parse_create_procedure_statement => "parse_create_procedure_statement"
  | F_parse_create_row_access_policy_statement => "parse_create_row_access_policy_statement"
  | F_parse_create_model_statement => "parse_create_model_statement"
  | F_parse_alter_schema_statement => "parse_alter_schema_statement"
  | F_parse_alter_table_statement => "parse_alter_table_statement"
  | F_parse_alter_column_statement => "parse_alter_column_statement"
  | F_parse_alter_vector_index_statement => "parse_alter_vector_index_statement"
  | F_parse_alter_view_statement => "parse_alter_view_statement"
  | F_parse_alter_organization_statement => "parse_alter_organization_statement"
  | F_parse_alter_project_statement => "parse_alter_project_statement"
  | F_parse_alter_bicapacity_statement => "parse_alter_bicapacity_statement"
  | F_parse_alter_reservation_statement => "parse_alter_reservation_statement"
  | F_parse_alter_model_statement => "parse_alter_model_statement"
  | F_parse_drop_row_access_policy_statement => "parse_drop_row_access_policy_statement"
  | F_parse_drop_statement_general => "parse_drop_statement_general"
  | F_parse_undrop_statement => "parse_undrop_statement"
  | F_parse_grant_statement => "parse_grant_statement"
  | F_parse_revoke_statement => "parse_revoke_statement"
  | F_parse_create_reservation_statement => "parse_create_reservation_statement"
  | F_parse_declare_statement => "parse_declare_statement"
  | F_parse_set_statement => "parse_set_statement"
  | F_parse_execute_statement => "parse_execute_statement"
  | F_parse_begin_statement => "parse_begin_statement"
  | F_parse_if_statement => "parse_if_statement"
  | F_parse_labeled_statement => "parse_labeled_statement"
  | F_parse_break_continue_statement => "parse_break_continue_statement"
  | F_parse_loop_statement => "parse_loop_statement"
  | F_parse_repeat_statement => "parse_repeat_statement"
  | F_parse_while_statement => "parse_while_statement"
  | F_parse_single_token_statement => "parse_single_token_statement"
  | F_parse_for_statement => "parse_for_statement"
  | F_parse_transaction_statement => "parse_transaction_statement"
  | F_parse_raise_statement => "parse_raise_statement"
  | F_parse_case_statement => "parse_case_statement"
  | F_parse_call_statement => "parse_call_statement"
  | F_parse_assert_satement => "parse_assert_satement"
  | F_parse_export_data_statement => "parse_export_data_statement"
  | F_parse_export_model_statement => "parse_export_model_statement"
  | F_parse_load_statement => "parse_load_statement"
  end.

(* parser.rs:42-51 *)
Definition parse_code : fundef fn := {|
  f_params := [];
  f_body := (
    LetVec "stmts" XNew (* 43 *) ;;
    While (CNot (CEof 0)) (* 44 *)
     (
      LetNode "stmt" (ECall F_parse_statement [ABool (BConst true)]) (* 45 *) ;;
      VecPush "stmts" (EVar "stmt") (* 46 *) ;;
      Next (* 47 *)) ;;
    VecPush "stmts" (EConstruct N_EOF) (* 49 *) ;;
    ReturnVec (XVar "stmts") (* 50 *))
|}.

(* parser.rs:211-230 *)
Definition parse_between_operator : fundef fn := {|
  f_params := ["left"];
  f_body := (
    LetNum "precedence" (NumPrec 0) (* 212 *) ;;
    LetNode "between" (EConstruct N_BetweenOperator) (* 213 *) ;;
    Push "between" "left" (EVar "left") (* 214 *) ;;
    Next (* 215 *) ;;
    Push "between" "right_min" (ECall F_parse_expr [ANum (NumVar "precedence"); ABool (BConst false); ABool (BConst false); ABool (BConst false); ABool (BConst true)]) (* 218 *) ;;
    Next (* 222 *) ;;
    Push "between" "and" (EConstruct N_Keyword) (* 223 *) ;;
    Next (* 224 *) ;;
    Push "between" "right_max" (ECall F_parse_expr [ANum (NumVar "precedence"); ABool (BConst false); ABool (BConst false); ABool (BConst false); ABool (BConst true)]) (* 225 *) ;;
    Return (EVar "between") (* 229 *))
|}.

(* parser.rs:231-249 *)
Definition parse_binary_operator : fundef fn := {|
  f_params := ["left"];
  f_body := (
    LetNum "precedence" (NumPrec 0) (* 232 *) ;;
    LetNode "node" (EConstruct N_BinaryOperator) (* 233 *) ;;
    If (CAnd (CTok 0 (TIs "IS")) (CTok 1 (TIs "NOT"))) (* 234 *)
     (
      Next (* 235 *) ;;
      Push "node" "not" (EConstruct N_Keyword) (* 236 *))
     Skip ;;
    If (CTok 1 (TIn ["ALL"; "ANY"; "SOME"])) (* 238 *)
     (
      Next (* 239 *) ;;
      Push "node" "quantifier" (EConstruct N_Keyword) (* 240 *))
     Skip ;;
    Next (* 242 *) ;;
    Push "node" "left" (EVar "left") (* 243 *) ;;
    Push "node" "right" (ECall F_parse_expr [ANum (NumVar "precedence"); ABool (BConst false); ABool (BConst false); ABool (BConst false); ABool (BConst true)]) (* 244 *) ;;
    Return (EVar "node") (* 248 *))
|}.

(* parser.rs:250-296 *)
Definition parse_constraint : fundef fn := {|
  f_params := [];
  f_body := (
    Declare "res" (* 251 *) ;;
    If (CTok 0 (TIs "CONSTRAINT")) (* 252 *)
     (
      LetNode "constraint" (EConstruct N_Keyword) (* 253 *) ;;
      If (CTok 1 (TIs "IF")) (* 254 *)
       (
        Next (* 255 *) ;;
        LetVec "_if_not_exists" (XCall F_parse_n_keywords [ANum (NumC 3)]) (* 256 *) ;;
        Next (* 257 *) ;;
        LetNode "ident" (ECall F_parse_identifier []) (* 258 *) ;;
        Next (* 259 *) ;;
        SetNode "res" (EConstruct N_Constraint) (* 260 *) ;;
        Push "res" "constraint" (EVar "constraint") (* 261 *) ;;
        PushVec "res" "if_not_exists" (XVar "_if_not_exists") (* 262 *) ;;
        Push "res" "ident" (EVar "ident") (* 263 *))
       (
        Next (* 265 *) ;;
        LetNode "ident" (ECall F_parse_identifier []) (* 266 *) ;;
        Next (* 267 *) ;;
        SetNode "res" (EConstruct N_Constraint) (* 268 *) ;;
        Push "res" "constraint" (EVar "constraint") (* 269 *) ;;
        Push "res" "ident" (EVar "ident") (* 270 *)))
     (
      SetNode "res" (EConstruct N_Constraint) (* 273 *)) ;;
    Next (* 275 *) ;;
    Push "res" "key" (EConstruct N_Keyword) (* 276 *) ;;
    If (CTok 1 (TIs "(")) (* 277 *)
     (
      Next (* 278 *) ;;
      Push "res" "columns" (ECall F_parse_grouped_exprs [ABool (BConst false)]) (* 279 *))
     Skip ;;
    If (CTok 1 (TIs "REFERENCES")) (* 281 *)
     (
      Next (* 282 *) ;;
      LetNode "references" (EConstruct N_KeywordWithExpr) (* 283 *) ;;
      Next (* 284 *) ;;
      Push "references" "expr" (ECall F_parse_expr [ANum NumMax; ABool (BConst false); ABool (BConst true); ABool (BConst false); ABool (BConst true)]) (* 285 *) ;;
      Push "res" "references" (EVar "references") (* 289 *))
     Skip ;;
    If (CTok 1 (TIn ["NOT"; "ENFORCED"])) (* 291 *)
     (
      Next (* 292 *) ;;
      Push "res" "enforced" (ECall F_parse_enforced []) (* 293 *))
     Skip ;;
    Return (EVar "res") (* 295 *))
|}.

(* parser.rs:297-325 *)
Definition parse_cte : fundef fn := {|
  f_params := [];
  f_body := (
    LetNode "query" (EConstruct N_WithQuery) (* 298 *) ;;
    Next (* 299 *) ;;
    Push "query" "as" (EConstruct N_Keyword) (* 300 *) ;;
    Next (* 301 *) ;;
    LetNode "grouped" (EConstruct N_GroupedStatement) (* 303 *) ;;
    Next (* 304 *) ;;
    If (CTok 0 (TIs "FROM")) (* 305 *)
     (
      Push "grouped" "stmt" (ECall F_parse_from_statement []) (* 306 *))
     (
      Push "grouped" "stmt" (ECall F_parse_select_statement [ABool (BConst false); ABool (BConst true)]) (* 308 *)) ;;
    Next (* 310 *) ;;
    If (CNot (CTok 0 (TIs ")"))) (* 311 *)
     (
      Fail 0 "expected )" None (* 312 *))
     Skip ;;
    Push "grouped" "rparen" (EConstruct N_Symbol) (* 317 *) ;;
    Push "query" "stmt" (EVar "grouped") (* 319 *) ;;
    If (CTok 1 (TLiteralIs ",")) (* 320 *)
     (
      Next (* 321 *) ;;
      Push "query" "comma" (EConstruct N_Symbol) (* 322 *))
     Skip ;;
    Return (EVar "query") (* 324 *))
|}.

(* parser.rs:326-336 *)
Definition parse_enforced : fundef fn := {|
  f_params := [];
  f_body := (
    Declare "enforced" (* 327 *) ;;
    If (CTok 0 (TIs "NOT")) (* 328 *)
     (
      SetNode "enforced" (EConstruct N_KeywordSequence) (* 329 *) ;;
      Next (* 330 *) ;;
      Push "enforced" "next_keyword" (EConstruct N_Keyword) (* 331 *))
     (
      SetNode "enforced" (EConstruct N_Keyword) (* 333 *)) ;;
    Return (EVar "enforced") (* 335 *))
|}.

(* parser.rs:337-841 *)
Definition parse_expr : fundef fn := {|
  f_params := ["precedence"; "alias"; "as_table"; "after_dot"; "order"];
  f_body := (
    Declare "left" (* 345 *) ;;
    If (CVar "after_dot") (* 345 *)
     (
      SetNode "left" (EConstruct N_Identifier) (* 346 *))
     (
      SetNode "left" (EConstruct N_Unknown) (* 348 *)) ;;
    If (CVar "as_table") (* 350 *)
     (
      SetNode "left" (ECall F_parse_identifier []) (* 351 *))
     (
      If (CNot (CVar "after_dot")) (* 352 *)
       (
        (CaseUpper 0 ["*"] (* 354 *)
          (
           SetType "left" N_Asterisk (* 356 *) ;;
           (CaseUpper 1 ["REPLACE"] (* 357 *)
             (
              Next (* 359 *) ;;
              LetNode "replace" (EConstruct N_KeywordWithGroupedXXX) (* 360 *) ;;
              Next (* 362 *) ;;
              Push "replace" "group" (ECall F_parse_grouped_exprs [ABool (BConst true)]) (* 363 *) ;;
              Push "left" "replace" (EVar "replace") (* 364 *))
           (CaseUpper 1 ["EXCEPT"] (* 357 *)
             (
              Next (* 367 *) ;;
              LetNode "except" (EConstruct N_KeywordWithGroupedXXX) (* 368 *) ;;
              Next (* 370 *) ;;
              Push "except" "group" (ECall F_parse_grouped_exprs [ABool (BConst false)]) (* 371 *) ;;
              Push "left" "except" (EVar "except") (* 372 *))
            (
             Skip (* 374 *)))))
        (CaseUpper 0 ["("] (* 354 *)
          (
           Next (* 379 *) ;;
           Declare "exprs" (* 380 *) ;;
           If (CTok 0 (TIn ["WITH"; "SELECT"])) (* 381 *)
            (
             SetType "left" N_GroupedStatement (* 382 *) ;;
             Push "left" "stmt" (ECall F_parse_select_statement [ABool (BConst false); ABool (BConst true)]) (* 383 *) ;;
             Next (* 384 *) ;;
             Push "left" "rparen" (EConstruct N_Symbol) (* 385 *))
            (
             If (CTok 0 (TIs ")")) (* 386 *)
              (
               SetType "left" N_EmptyStruct (* 387 *) ;;
               Push "left" "rparen" (EConstruct N_Symbol) (* 388 *))
              (
               SetVec "exprs" (XCall F_parse_exprs [AStrs []; ABool (BConst true); ABool (BConst true)]) (* 390 *) ;;
               If (CLenIs1 "exprs") (* 391 *)
                (
                 SetType "left" N_GroupedExpr (* 392 *) ;;
                 Push "left" "expr" (EPop "exprs") (* 393 *))
                (
                 SetType "left" N_StructLiteral (* 395 *) ;;
                 PushVec "left" "exprs" (XVar "exprs") (* 396 *)) ;;
               Next (* 398 *) ;;
               Push "left" "rparen" (EConstruct N_Symbol) (* 399 *))))
        (CaseUpper 0 ["STRUCT"] (* 354 *)
          (
           LetNode "type_" (ECall F_parse_type [ABool (BConst false); ABool (BConst false)]) (* 403 *) ;;
           Next (* 404 *) ;;
           LetNode "struct_literal" (EConstruct N_StructLiteral) (* 405 *) ;;
           LetVec "exprs" XNew (* 406 *) ;;
           While (CNot (CTok 1 (TIs ")"))) (* 407 *)
            (
             Next (* 408 *) ;;
             LetNode "expr" (ECall F_parse_expr [ANum NumMax; ABool (BConst true); ABool (BConst false); ABool (BConst false); ABool (BConst true)]) (* 409 *) ;;
             If (CTok 1 (TIs ",")) (* 410 *)
              (
               Next (* 411 *) ;;
               Push "expr" "comma" (EConstruct N_Symbol) (* 412 *))
              Skip ;;
             VecPush "exprs" (EVar "expr") (* 414 *)) ;;
           Next (* 416 *) ;;
           Push "struct_literal" "rparen" (EConstruct N_Symbol) (* 417 *) ;;
           PushVec "struct_literal" "exprs" (XVar "exprs") (* 418 *) ;;
           Push "struct_literal" "type" (EVar "type_") (* 419 *) ;;
           SetNode "left" (EVar "struct_literal") (* 420 *))
        (CaseUpper 0 ["RANGE"] (* 354 *)
          (
           LetNode "type_" (ECall F_parse_type [ABool (BConst false); ABool (BConst false)]) (* 423 *) ;;
           Next (* 424 *) ;;
           LetNode "range_literal" (EConstruct N_RangeLiteral) (* 425 *) ;;
           Push "range_literal" "type" (EVar "type_") (* 426 *) ;;
           SetNode "left" (EVar "range_literal") (* 427 *))
        (CaseUpper 0 ["["] (* 354 *)
          (
           SetType "left" N_ArrayLiteral (* 431 *) ;;
           Next (* 432 *) ;;
           If (CTok 0 (TIs "]")) (* 433 *)
            (
             PushVec "left" "exprs" XNew (* 434 *))
            (
             PushVec "left" "exprs" (XCall F_parse_exprs [AStrs []; ABool (BConst false); ABool (BConst true)]) (* 436 *) ;;
             Next (* 437 *)) ;;
           Push "left" "rparen" (EConstruct N_Symbol) (* 439 *))
        (CaseUpper 0 ["ARRAY"] (* 354 *)
          (
           If (CNot (CTok 1 (TIs "("))) (* 443 *)
            (
             LetNode "type_" (ECall F_parse_type [ABool (BConst false); ABool (BConst false)]) (* 444 *) ;;
             Next (* 445 *) ;;
             LetNode "arr" (EConstruct N_ArrayLiteral) (* 446 *) ;;
             Next (* 447 *) ;;
             If (CTok 0 (TIs "]")) (* 448 *)
              (
               PushVec "arr" "exprs" XNew (* 449 *))
              (
               PushVec "arr" "exprs" (XCall F_parse_exprs [AStrs []; ABool (BConst false); ABool (BConst true)]) (* 451 *) ;;
               Next (* 452 *)) ;;
             Push "arr" "rparen" (EConstruct N_Symbol) (* 454 *) ;;
             Push "arr" "type" (EVar "type_") (* 455 *) ;;
             SetNode "left" (EVar "arr") (* 456 *))
            Skip)
        (CaseUpper 0 ["-"; "+"; "~"] (* 354 *)
          (
           SetType "left" N_UnaryOperator (* 460 *) ;;
           Next (* 461 *) ;;
           LetNode "right" (ECall F_parse_expr [ANum (NumC 102); ABool (BConst false); ABool (BConst false); ABool (BConst false); ABool (BConst true)]) (* 462 *) ;;
           Push "left" "right" (EVar "right") (* 463 *))
        (CaseUpper 0 ["DATE"; "TIME"; "DATETIME"; "TIMESTAMP"; "NUMERIC"; "BIGNUMERIC"; "DECIMAL"; "BIGDECIMAL"; "JSON"] (* 354 *)
          (
           If (COr (CTok 1 TString) (CAnd (CTok 1 (TIn ["b"; "r"; "br"; "rb"])) (CTok 2 TString))) (* 467 *)
            (
             SetType "left" N_UnaryOperator (* 471 *) ;;
             Next (* 472 *) ;;
             LetNode "right" (ECall F_parse_expr [ANum (NumC 2); ABool (BConst false); ABool (BConst false); ABool (BConst false); ABool (BConst true)]) (* 473 *) ;;
             Push "left" "right" (EVar "right") (* 474 *))
            Skip)
        (CaseUpper 0 ["INTERVAL"] (* 354 *)
          (
           SetType "left" N_IntervalLiteral (* 478 *) ;;
           Next (* 479 *) ;;
           LetNode "right" (ECall F_parse_expr [ANum NumMax; ABool (BConst false); ABool (BConst false); ABool (BConst false); ABool (BConst true)]) (* 480 *) ;;
           Next (* 481 *) ;;
           Push "left" "date_part" (EConstruct N_Keyword) (* 482 *) ;;
           If (CTok 1 (TIs "TO")) (* 483 *)
            (
             Next (* 484 *) ;;
             Push "left" "to" (EConstruct N_Keyword) (* 485 *) ;;
             Next (* 486 *) ;;
             Push "left" "to_date_part" (EConstruct N_Keyword) (* 487 *))
            Skip ;;
           Push "left" "expr" (EVar "right") (* 489 *))
        (CaseUpper 0 ["TABLE"; "MODEL"] (* 354 *)
          (
           SetType "left" N_UnaryOperator (* 492 *) ;;
           Next (* 493 *) ;;
           LetNode "right" (ECall F_parse_expr [ANum (NumC 2); ABool (BConst false); ABool (BConst true); ABool (BConst false); ABool (BConst true)]) (* 494 *) ;;
           Push "left" "right" (EVar "right") (* 495 *))
        (CaseUpper 0 ["B"; "R"; "BR"; "RB"] (* 354 *)
          (
           If (CTok 1 TString) (* 498 *)
            (
             Next (* 499 *) ;;
             LetNode "right" (ECall F_parse_expr [ANum (NumC 1); ABool (BConst false); ABool (BConst false); ABool (BConst false); ABool (BConst true)]) (* 500 *) ;;
             Push "left" "right" (EVar "right") (* 501 *) ;;
             SetType "left" N_UnaryOperator (* 502 *))
            Skip)
        (CaseUpper 0 ["WITH"] (* 354 *)
          (
           If (CNot (CTok 1 (TIs "("))) (* 506 *)
            (
             SetNode "left" (ECall F_parse_select_statement [ABool (BConst false); ABool (BConst true)]) (* 507 *))
            Skip)
        (CaseUpper 0 ["SELECT"] (* 354 *)
          (
           SetNode "left" (ECall F_parse_select_statement [ABool (BConst false); ABool (BConst true)]) (* 512 *))
        (CaseUpper 0 ["NOT"] (* 354 *)
          (
           Next (* 515 *) ;;
           LetNode "right" (ECall F_parse_expr [ANum (NumC 110); ABool (BConst false); ABool (BConst false); ABool (BConst false); ABool (BConst true)]) (* 516 *) ;;
           Push "left" "right" (EVar "right") (* 517 *) ;;
           SetType "left" N_UnaryOperator (* 518 *))
        (CaseUpper 0 ["CASE"] (* 354 *)
          (
           SetType "left" N_CaseExpr (* 521 *) ;;
           Next (* 522 *) ;;
           If (CNot (CTok 0 (TIs "WHEN"))) (* 523 *)
            (
             Push "left" "expr" (ECall F_parse_expr [ANum NumMax; ABool (BConst false); ABool (BConst false); ABool (BConst false); ABool (BConst true)]) (* 524 *) ;;
             Next (* 528 *))
            Skip ;;
           LetVec "arms" XNew (* 530 *) ;;
           While (CTok 0 (TIs "WHEN")) (* 531 *)
            (
             LetNode "arm" (EConstruct N_CaseExprArm) (* 532 *) ;;
             Next (* 533 *) ;;
             Push "arm" "expr" (ECall F_parse_expr [ANum NumMax; ABool (BConst false); ABool (BConst false); ABool (BConst false); ABool (BConst true)]) (* 534 *) ;;
             Next (* 538 *) ;;
             Push "arm" "then" (EConstruct N_Keyword) (* 539 *) ;;
             Next (* 540 *) ;;
             Push "arm" "result" (ECall F_parse_expr [ANum NumMax; ABool (BConst false); ABool (BConst false); ABool (BConst false); ABool (BConst true)]) (* 541 *) ;;
             Next (* 545 *) ;;
             VecPush "arms" (EVar "arm") (* 546 *)) ;;
           If (CTok 0 (TIs "ELSE")) (* 548 *)
            (
             LetNode "else_" (EConstruct N_CaseExprArm) (* 549 *) ;;
             Next (* 550 *) ;;
             Push "else_" "result" (ECall F_parse_expr [ANum NumMax; ABool (BConst false); ABool (BConst false); ABool (BConst false); ABool (BConst true)]) (* 551 *) ;;
             VecPush "arms" (EVar "else_") (* 555 *) ;;
             Next (* 556 *))
            Skip ;;
           PushVec "left" "arms" (XVar "arms") (* 558 *) ;;
           Push "left" "end" (EConstruct N_Keyword) (* 559 *))
         (
          Skip (* 561 *))))))))))))))))))
       Skip) ;;
    While (CPrecLt 1 "precedence") (* 565 *)
     (
      (CaseUpper 1 ["("] (* 566 *)
        (
         LetUpper "func" 0 (* 568 *) ;;
         Next (* 569 *) ;;
         LetNode "node" (EConstruct N_CallingFunction) (* 570 *) ;;
         If (CTok 1 (TIs "distinct")) (* 571 *)
          (
           Next (* 572 *) ;;
           Push "node" "distinct" (EConstruct N_Keyword) (* 573 *))
          Skip ;;
         Next (* 575 *) ;;
         Push "node" "func" (EVar "left") (* 576 *) ;;
         If (CNot (CTok 0 (TIs ")"))) (* 577 *)
          (
           (CaseVar "func" ["CAST"; "SAFE_CAST"] (* 578 *)
             (
              LetNode "cast_from" (ECall F_parse_expr [ANum NumMax; ABool (BConst false); ABool (BConst false); ABool (BConst false); ABool (BConst true)]) (* 580 *) ;;
              Next (* 582 *) ;;
              LetNode "as_" (EConstruct N_CastArgument) (* 583 *) ;;
              Push "as_" "cast_from" (EVar "cast_from") (* 584 *) ;;
              Next (* 585 *) ;;
              Push "as_" "cast_to" (ECall F_parse_type [ABool (BConst false); ABool (BConst false)]) (* 586 *) ;;
              If (CTok 1 (TIs "FORMAT")) (* 587 *)
               (
                Next (* 588 *) ;;
                LetNode "format" (EConstruct N_KeywordWithExpr) (* 589 *) ;;
                Next (* 591 *) ;;
                Push "format" "expr" (ECall F_parse_expr [ANum NumMax; ABool (BConst false); ABool (BConst false); ABool (BConst false); ABool (BConst true)]) (* 592 *) ;;
                Push "as_" "format" (EVar "format") (* 596 *))
               Skip ;;
              PushVec "node" "args" (XList [(EVar "as_")]) (* 598 *))
           (CaseVar "func" ["EXTRACT"] (* 578 *)
             (
              LetNode "datepart" (ECall F_parse_expr [ANum NumMax; ABool (BConst false); ABool (BConst false); ABool (BConst false); ABool (BConst true)]) (* 601 *) ;;
              Next (* 603 *) ;;
              LetNode "from" (EConstruct N_ExtractArgument) (* 604 *) ;;
              Next (* 605 *) ;;
              Push "from" "extract_datepart" (EVar "datepart") (* 606 *) ;;
              Push "from" "extract_from" (ECall F_parse_expr [ANum NumMax; ABool (BConst false); ABool (BConst false); ABool (BConst false); ABool (BConst true)]) (* 607 *) ;;
              If (CTok 1 (TIs "AT")) (* 611 *)
               (
                LetVec "at_time_zone" XNew (* 612 *) ;;
                Next (* 613 *) ;;
                VecPush "at_time_zone" (EConstruct N_Keyword) (* 614 *) ;;
                Next (* 615 *) ;;
                VecPush "at_time_zone" (EConstruct N_Keyword) (* 616 *) ;;
                Next (* 617 *) ;;
                VecPush "at_time_zone" (EConstruct N_Keyword) (* 618 *) ;;
                PushVec "from" "at_time_zone" (XVar "at_time_zone") (* 619 *) ;;
                Next (* 620 *) ;;
                Push "from" "time_zone" (ECall F_parse_expr [ANum NumMax; ABool (BConst false); ABool (BConst false); ABool (BConst false); ABool (BConst true)]) (* 621 *))
               Skip ;;
              PushVec "node" "args" (XList [(EVar "from")]) (* 626 *))
            (
             PushVec "node" "args" (XCall F_parse_exprs [AStrs []; ABool (BStrIs "func" "WITH"); ABool (BConst true)]) (* 629 *)))) ;;
           If (CTok 1 (TIn ["RESPECT"; "IGNORE"])) (* 635 *)
            (
             Next (* 636 *) ;;
             LetNode "ignore_or_respect" (EConstruct N_Keyword) (* 637 *) ;;
             Next (* 638 *) ;;
             PushVec "node" "ignore_nulls" (XList [(EVar "ignore_or_respect"); (EConstruct N_Keyword)]) (* 639 *))
            Skip ;;
           If (CTok 1 (TIs "ORDER")) (* 644 *)
            (
             Next (* 645 *) ;;
             LetNode "orderby" (EConstruct N_XXXByExprs) (* 646 *) ;;
             Next (* 647 *) ;;
             Push "orderby" "by" (EConstruct N_Keyword) (* 648 *) ;;
             Next (* 649 *) ;;
             PushVec "orderby" "exprs" (XCall F_parse_exprs [AStrs []; ABool (BConst false); ABool (BConst true)]) (* 650 *) ;;
             Push "node" "orderby" (EVar "orderby") (* 651 *))
            Skip ;;
           If (CTok 1 (TIs "LIMIT")) (* 653 *)
            (
             Next (* 654 *) ;;
             LetNode "limit" (EConstruct N_KeywordWithExpr) (* 655 *) ;;
             Next (* 656 *) ;;
             Push "limit" "expr" (ECall F_parse_expr [ANum NumMax; ABool (BConst false); ABool (BConst false); ABool (BConst false); ABool (BConst true)]) (* 657 *) ;;
             Push "node" "limit" (EVar "limit") (* 661 *))
            Skip ;;
           If (CTok 1 (TIs "HAVING")) (* 663 *)
            (
             Next (* 667 *) ;;
             LetNode "having" (EConstruct N_KeywordSequence) (* 668 *) ;;
             Next (* 669 *) ;;
             LetNode "max" (EConstruct N_KeywordWithExpr) (* 670 *) ;;
             Next (* 671 *) ;;
             Push "max" "expr" (ECall F_parse_expr [ANum NumMax; ABool (BConst false); ABool (BConst false); ABool (BConst false); ABool (BConst true)]) (* 672 *) ;;
             Push "having" "next_keyword" (EVar "max") (* 676 *) ;;
             Push "node" "having" (EVar "having") (* 677 *))
            Skip ;;
           Next (* 679 *))
          Skip ;;
         Push "node" "rparen" (EConstruct N_Symbol) (* 681 *) ;;
         If (CTok 1 (TIs "over")) (* 682 *)
          (
           Next (* 683 *) ;;
           LetNode "over" (EConstruct N_OverClause) (* 684 *) ;;
           Next (* 685 *) ;;
           Push "over" "window" (ECall F_parse_window_expr []) (* 686 *) ;;
           Push "node" "over" (EVar "over") (* 687 *))
          Skip ;;
         SetNode "left" (EVar "node") (* 689 *))
      (CaseUpper 1 ["["] (* 566 *)
        (
         Next (* 692 *) ;;
         LetNode "node" (EConstruct N_AccessOperator) (* 693 *) ;;
         Push "node" "left" (EVar "left") (* 694 *) ;;
         Next (* 695 *) ;;
         Push "node" "right" (ECall F_parse_expr [ANum NumMax; ABool (BConst false); ABool (BConst false); ABool (BConst false); ABool (BConst true)]) (* 696 *) ;;
         Next (* 700 *) ;;
         Push "node" "rparen" (EConstruct N_Symbol) (* 701 *) ;;
         SetNode "left" (EVar "node") (* 702 *))
      (CaseUpper 1 ["."] (* 566 *)
        (
         Next (* 705 *) ;;
         LetBool "is_chained_function" (CAnd (CNot (CDotRootIs "left" N_Identifier)) (COr (CTok 1 (TIs "(")) (CTok 2 (TIs "(")))) (* 713 *) ;;
         Declare "precedence" (* 720 *) ;;
         If (CVar "is_chained_function") (* 720 *)
          (
           SetNum "precedence" (NumPrec 0) (* 721 *))
          (
           SetNum "precedence" (NumC 101) (* 723 *)) ;;
         Declare "dot" (* 725 *) ;;
         If (CVar "is_chained_function") (* 725 *)
          (
           SetNode "dot" (EConstruct N_FunctionChain) (* 726 *))
          (
           SetNode "dot" (EConstruct N_DotOperator) (* 728 *)) ;;
         Next (* 730 *) ;;
         Push "dot" "left" (EVar "left") (* 731 *) ;;
         If (CTok 0 (TLiteralIs "*")) (* 732 *)
          (
           Push "dot" "right" (ECall F_parse_expr [ANum NumMax; ABool (BConst false); ABool (BConst false); ABool (BConst false); ABool (BConst true)]) (* 733 *))
          (
           Push "dot" "right" (ECall F_parse_expr [ANum (NumVar "precedence"); ABool (BConst false); ABool (BVar "as_table"); ABool (BNot (BVar "is_chained_function")); ABool (BConst true)]) (* 739 *)) ;;
         SetNode "left" (EVar "dot") (* 750 *))
      (CaseUpper 1 ["*"; "/"; "||"; "+"; "-"; "<<"; ">>"; "&"; "^"; "|"; "="; "<"; ">"; "<="; ">="; "<>"; "!="; "LIKE"; "AND"; "OR"; "=>"] (* 566 *)
        (
         Next (* 754 *) ;;
         SetNode "left" (ECall F_parse_binary_operator [ANode "left"]) (* 755 *))
      (CaseUpper 1 ["IS"] (* 566 *)
        (
         Next (* 758 *) ;;
         If (COr (CTok 1 (TIs "DISTINCT")) (CAnd (CTok 1 (TIs "NOT")) (CTok 2 (TIs "DISTINCT")))) (* 759 *)
          (
           SetNode "left" (ECall F_parse_is_distinct_from_operator [ANode "left"]) (* 762 *))
          (
           SetNode "left" (ECall F_parse_binary_operator [ANode "left"]) (* 764 *)))
      (CaseUpper 1 ["BETWEEN"] (* 566 *)
        (
         Next (* 768 *) ;;
         SetNode "left" (ECall F_parse_between_operator [ANode "left"]) (* 769 *))
      (CaseUpper 1 ["IN"] (* 566 *)
        (
         Next (* 772 *) ;;
         SetNode "left" (ECall F_parse_in_operator [ANode "left"]) (* 773 *))
      (CaseUpper 1 ["NOT"] (* 566 *)
        (
         Next (* 776 *) ;;
         LetNode "not" (EConstruct N_Keyword) (* 777 *) ;;
         Next (* 778 *) ;;
         If (CTok 0 (TIs "IN")) (* 779 *)
          (
           SetNode "left" (ECall F_parse_in_operator [ANode "left"]) (* 780 *) ;;
           Push "left" "not" (EVar "not") (* 781 *))
          (
           If (CTok 0 (TIs "LIKE")) (* 782 *)
            (
             SetNode "left" (ECall F_parse_binary_operator [ANode "left"]) (* 783 *) ;;
             Push "left" "not" (EVar "not") (* 784 *))
            (
             If (CTok 0 (TIs "BETWEEN")) (* 785 *)
              (
               SetNode "left" (ECall F_parse_between_operator [ANode "left"]) (* 786 *) ;;
               Push "left" "not" (EVar "not") (* 787 *))
              (
               Fail 1 "Expected `LIKE`, `BETWEEN` or `IN` but got: " (Some 1) (* 789 *)))))
       (
        Fail 0 "Something went wrong." None (* 799 *))))))))))) ;;
    If (CVar "alias") (* 807 *)
     (
      If (CTok 1 (TIs "AS")) (* 808 *)
       (
        Next (* 809 *) ;;
        Push "left" "as" (EConstruct N_Keyword) (* 810 *) ;;
        Next (* 811 *) ;;
        Push "left" "alias" (ECall F_parse_expr [ANum NumMax; ABool (BConst false); ABool (BConst false); ABool (BConst false); ABool (BConst false)]) (* 814 *))
       (
        If (CTok 1 TIdentifier) (* 818 *)
         (
          Next (* 819 *) ;;
          Push "left" "alias" (EConstruct N_Identifier) (* 820 *))
         Skip))
     Skip ;;
    If (CVar "order") (* 823 *)
     (
      If (CTok 1 (TIn ["ASC"; "DESC"])) (* 824 *)
       (
        Next (* 825 *) ;;
        LetNode "order" (EConstruct N_Keyword) (* 826 *) ;;
        Push "left" "order" (EVar "order") (* 827 *))
       Skip ;;
      If (CAnd (CTok 1 (TIn ["NULLS"])) (CTok 2 (TIn ["FIRST"; "LAST"]))) (* 829 *)
       (
        LetVec "nulls_first" XNew (* 832 *) ;;
        Next (* 833 *) ;;
        VecPush "nulls_first" (EConstruct N_Keyword) (* 834 *) ;;
        Next (* 835 *) ;;
        VecPush "nulls_first" (EConstruct N_Keyword) (* 836 *) ;;
        PushVec "left" "null_order" (XVar "nulls_first") (* 837 *))
       Skip)
     Skip ;;
    Return (EVar "left") (* 840 *))
|}.

(* parser.rs:842-872 *)
Definition parse_exprs : fundef fn := {|
  f_params := ["until"; "alias"; "order"];
  f_body := (
    LetVec "exprs" XNew (* 848 *) ;;
    LetNode "expr" (ECall F_parse_expr [ANum NumMax; ABool (BVar "alias"); ABool (BConst false); ABool (BConst false); ABool (BVar "order")]) (* 850 *) ;;
    If (CTok 1 (TIs ",")) (* 851 *)
     (
      Next (* 852 *) ;;
      Push "expr" "comma" (EConstruct N_Symbol) (* 853 *))
     (
      ReturnVec (XList [(EVar "expr")]) (* 855 *)) ;;
    VecPush "exprs" (EVar "expr") (* 857 *) ;;
    While (CAnd (CNot (CTok 1 (TInVar "until"))) (CNot (CEof 1))) (* 859 *)
     (
      Next (* 860 *) ;;
      LetNode "expr" (ECall F_parse_expr [ANum NumMax; ABool (BVar "alias"); ABool (BConst false); ABool (BConst false); ABool (BConst true)]) (* 861 *) ;;
      If (CTok 1 (TIs ",")) (* 862 *)
       (
        Next (* 863 *) ;;
        Push "expr" "comma" (EConstruct N_Symbol) (* 864 *) ;;
        VecPush "exprs" (EVar "expr") (* 865 *))
       (
        VecPush "exprs" (EVar "expr") (* 867 *) ;;
        Break (* 868 *))) ;;
    ReturnVec (XVar "exprs") (* 871 *))
|}.

(* parser.rs:873-882 *)
Definition parse_grouped_exprs : fundef fn := {|
  f_params := ["alias"];
  f_body := (
    LetNode "group" (EConstruct N_GroupedExprs) (* 874 *) ;;
    If (CNot (CTok 1 (TIs ")"))) (* 875 *)
     (
      Next (* 876 *) ;;
      PushVec "group" "exprs" (XCall F_parse_exprs [AStrs [")"]; ABool (BVar "alias"); ABool (BConst true)]) (* 877 *))
     Skip ;;
    Next (* 879 *) ;;
    Push "group" "rparen" (EConstruct N_Symbol) (* 880 *) ;;
    Return (EVar "group") (* 881 *))
|}.

(* parser.rs:883-935 *)
Definition parse_grouped_type_declaration_or_constraints : fundef fn := {|
  f_params := ["schema"; "aggregate"];
  f_body := (
    LetNode "group" (EConstruct N_GroupedTypeDeclarationOrConstraints) (* 888 *) ;;
    Next (* 889 *) ;;
    LetVec "type_declarations" XNew (* 890 *) ;;
    LetStrs "marker_tokens" [","; ">"; ")"; "TYPE"; "<"] (* 891 *) ;;
    While (CNot (CTok 0 (TIn [">"; ")"]))) (* 892 *)
     (
      Declare "type_declaration" (* 893 *) ;;
      If (CAnd (CTok 0 (TIn ["IN"; "OUT"; "INOUT"])) (CNot (CTok 2 (TInVar "marker_tokens")))) (* 894 *)
       (
        LetNode "in_out" (EConstruct N_Keyword) (* 904 *) ;;
        Next (* 905 *) ;;
        SetNode "type_declaration" (EConstruct N_TypeDeclaration) (* 906 *) ;;
        Push "type_declaration" "in_out" (EVar "in_out") (* 907 *) ;;
        Next (* 908 *) ;;
        Push "type_declaration" "type" (ECall F_parse_type [ABool (BVar "schema"); ABool (BVar "aggregate")]) (* 909 *))
       (
        If (COr (COr (CAnd (CTok 0 (TIs "PRIMARY")) (CTok 1 (TIs "KEY"))) (CAnd (CTok 0 (TIs "FOREIGN")) (CTok 1 (TIs "KEY")))) (CAnd (CTok 0 (TIs "CONSTRAINT")) (CNot (CTok 2 (TInVar "marker_tokens"))))) (* 910 *)
         (
          SetNode "type_declaration" (ECall F_parse_constraint []) (* 914 *))
         (
          If (CNot (CTok 1 (TInVar "marker_tokens"))) (* 915 *)
           (
            SetNode "type_declaration" (EConstruct N_TypeDeclaration) (* 916 *) ;;
            Next (* 917 *) ;;
            Push "type_declaration" "type" (ECall F_parse_type [ABool (BVar "schema"); ABool (BVar "aggregate")]) (* 918 *))
           (
            SetNode "type_declaration" (EEmpty N_TypeDeclaration) (* 920 *) ;;
            Push "type_declaration" "type" (ECall F_parse_type [ABool (BVar "schema"); ABool (BVar "aggregate")]) (* 921 *)))) ;;
      Next (* 923 *) ;;
      If (CTok 0 (TIs ",")) (* 924 *)
       (
        Push "type_declaration" "comma" (EConstruct N_Symbol) (* 925 *) ;;
        Next (* 926 *))
       Skip ;;
      VecPush "type_declarations" (EVar "type_declaration") (* 928 *)) ;;
    If (CNonEmpty "type_declarations") (* 930 *)
     (
      PushVec "group" "declarations" (XVar "type_declarations") (* 931 *))
     Skip ;;
    Push "group" "rparen" (EConstruct N_Symbol) (* 933 *) ;;
    Return (EVar "group") (* 934 *))
|}.

(* parser.rs:940-970 *)
Definition parse_single_or_multi_token_identifier : fundef fn := {|
  f_params := [];
  f_body := (
    LetNode "root" (EConstruct N_Identifier) (* 941 *) ;;
    LetVec "trailing_idents" XNew (* 942 *) ;;
    While CTrue (* 943 *)
     (
      If (CFirstCharIs 0 96%N) (* 945 *)
       (
        Break (* 946 *))
       Skip ;;
      If (CNoToken 1) (* 948 *)
       (
        Break (* 948 *))
       Skip ;;
      If (CTok 1 (TIn [","; "."; "("; ")"; ";"])) (* 952 *)
       (
        Break (* 953 *))
       Skip ;;
      If (CAnd (CNot (CLastCharIs 0 46%N)) (CNot CAdjacent)) (* 955 *)
       (
        Break (* 960 *))
       Skip ;;
      Next (* 962 *) ;;
      VecPush "trailing_idents" (EConstruct N_Identifier) (* 963 *)) ;;
    If (CNonEmpty "trailing_idents") (* 965 *)
     (
      SetType "root" N_MultiTokenIdentifier (* 966 *) ;;
      PushVec "root" "trailing_idents" (XVar "trailing_idents") (* 967 *))
     Skip ;;
    Return (EVar "root") (* 969 *))
|}.

(* parser.rs:936-982 *)
Definition parse_identifier : fundef fn := {|
  f_params := [];
  f_body := (
    LetNode "left" (ECall F_parse_single_or_multi_token_identifier []) (* 972 *) ;;
    While (CTok 1 (TIs ".")) (* 973 *)
     (
      Next (* 974 *) ;;
      LetNode "operator" (EConstruct N_DotOperator) (* 975 *) ;;
      Push "operator" "left" (EVar "left") (* 976 *) ;;
      Next (* 977 *) ;;
      Push "operator" "right" (ECall F_parse_single_or_multi_token_identifier []) (* 978 *) ;;
      SetNode "left" (EVar "operator") (* 979 *)) ;;
    Return (EVar "left") (* 981 *))
|}.

(* parser.rs:983-1008 *)
Definition parse_in_operator : fundef fn := {|
  f_params := ["left"];
  f_body := (
    LetNode "node" (EConstruct N_InOperator) (* 984 *) ;;
    Push "node" "left" (EVar "left") (* 985 *) ;;
    If (CTok 1 (TIs "UNNEST")) (* 986 *)
     (
      Next (* 987 *) ;;
      LetNode "unnest" (ECall F_parse_expr [ANum (NumC 102); ABool (BConst false); ABool (BConst false); ABool (BConst false); ABool (BConst true)]) (* 988 *) ;;
      SetType "unnest" N_CallingUnnest (* 992 *) ;;
      Push "node" "right" (EVar "unnest") (* 993 *))
     (
      Next (* 995 *) ;;
      If (CTok 1 (TIn ["SELECT"; "WITH"])) (* 996 *)
       (
        LetNode "lparen" (EConstruct N_GroupedStatement) (* 997 *) ;;
        Next (* 998 *) ;;
        Push "lparen" "stmt" (ECall F_parse_select_statement [ABool (BConst false); ABool (BConst true)]) (* 999 *) ;;
        Next (* 1000 *) ;;
        Push "lparen" "rparen" (EConstruct N_Symbol) (* 1001 *) ;;
        Push "node" "right" (EVar "lparen") (* 1002 *))
       (
        Push "node" "right" (ECall F_parse_grouped_exprs [ABool (BConst false)]) (* 1004 *))) ;;
    Return (EVar "node") (* 1007 *))
|}.

(* parser.rs:1009-1027 *)
Definition parse_is_distinct_from_operator : fundef fn := {|
  f_params := ["left"];
  f_body := (
    LetNum "precedence" (NumPrec 0) (* 1010 *) ;;
    LetNode "node" (EConstruct N_IsDistinctFromOperator) (* 1011 *) ;;
    Push "node" "left" (EVar "left") (* 1012 *) ;;
    If (CTok 1 (TIs "NOT")) (* 1013 *)
     (
      Next (* 1014 *) ;;
      Push "node" "not" (EConstruct N_Keyword) (* 1015 *))
     Skip ;;
    Next (* 1017 *) ;;
    Push "node" "distinct" (EConstruct N_Keyword) (* 1018 *) ;;
    Next (* 1019 *) ;;
    Push "node" "from" (EConstruct N_Keyword) (* 1020 *) ;;
    Next (* 1021 *) ;;
    Push "node" "right" (ECall F_parse_expr [ANum (NumVar "precedence"); ABool (BConst false); ABool (BConst false); ABool (BConst false); ABool (BConst true)]) (* 1022 *) ;;
    Return (EVar "node") (* 1026 *))
|}.

(* parser.rs:1028-1033 *)
Definition parse_keyword_with_grouped_exprs : fundef fn := {|
  f_params := ["alias"];
  f_body := (
    LetNode "keyword" (EConstruct N_KeywordWithGroupedXXX) (* 1029 *) ;;
    Next (* 1030 *) ;;
    Push "keyword" "group" (ECall F_parse_grouped_exprs [ABool (BVar "alias")]) (* 1031 *) ;;
    Return (EVar "keyword") (* 1032 *))
|}.

(* parser.rs:1034-1043 *)
Definition parse_keyword_with_statements : fundef fn := {|
  f_params := ["until"];
  f_body := (
    LetNode "node" (EConstruct N_KeywordWithStatements) (* 1035 *) ;;
    LetVec "stmts" XNew (* 1036 *) ;;
    While (CNot (CTok 1 (TInVar "until"))) (* 1037 *)
     (
      Next (* 1038 *) ;;
      VecPush "stmts" (ECall F_parse_statement [ABool (BConst true)]) (* 1039 *)) ;;
    PushVec "node" "stmts" (XVar "stmts") (* 1041 *) ;;
    Return (EVar "node") (* 1042 *))
|}.

(* parser.rs:1044-1052 *)
Definition parse_n_keywords : fundef fn := {|
  f_params := ["n"];
  f_body := (
    LetVec "nodes" XNew (* 1045 *) ;;
    VecPush "nodes" (EConstruct N_Keyword) (* 1046 *) ;;
    ForFrom1 "n" (* 1047 *)
     (
      Next (* 1048 *) ;;
      VecPush "nodes" (EConstruct N_Keyword) (* 1049 *)) ;;
    ReturnVec (XVar "nodes") (* 1051 *))
|}.

(* parser.rs:1053-1092 *)
Definition parse_set_operator : fundef fn := {|
  f_params := ["left"];
  f_body := (
    Declare "operator" (* 1054 *) ;;
    If (CTok 0 (TIn ["INNER"; "FULL"; "LEFT"; "OUTER"])) (* 1058 *)
     (
      Declare "method" (* 1062 *) ;;
      If (CTok 1 (TIs "OUTER")) (* 1063 *)
       (
        SetNode "method" (EConstruct N_KeywordSequence) (* 1064 *) ;;
        Next (* 1065 *) ;;
        LetNode "outer" (EConstruct N_Keyword) (* 1066 *) ;;
        Push "method" "next_keyword" (EVar "outer") (* 1067 *))
       (
        SetNode "method" (EConstruct N_Keyword) (* 1069 *)) ;;
      Next (* 1072 *) ;;
      SetNode "operator" (EConstruct N_SetOperator) (* 1073 *) ;;
      Push "operator" "method" (EVar "method") (* 1074 *))
     (
      SetNode "operator" (EConstruct N_SetOperator) (* 1076 *)) ;;
    Next (* 1078 *) ;;
    Push "operator" "distinct_or_all" (EConstruct N_Keyword) (* 1079 *) ;;
    If (CTok 1 (TIs "BY")) (* 1081 *)
     (
      Next (* 1082 *) ;;
      Push "operator" "by" (ECall F_parse_by_name_clause []) (* 1083 *))
     (
      If (CTok 1 (TIn ["STRICT"; "CORRESPONDING"])) (* 1084 *)
       (
        Next (* 1085 *) ;;
        Push "operator" "corresponding" (ECall F_parse_corresponding_clause []) (* 1086 *))
       Skip) ;;
    Push "operator" "left" (EVar "left") (* 1088 *) ;;
    Next (* 1089 *) ;;
    Push "operator" "right" (ECall F_parse_select_statement [ABool (BConst false); ABool (BConst false)]) (* 1090 *) ;;
    Return (EVar "operator") (* 1091 *))
|}.

(* parser.rs:1110 the body of the loop for one value of `offset`; [again] is the
   loop with the next offset. *)
Definition parse_statement_1110 (offset : nat) (again : cmd fn) : cmd fn :=
  (CaseUpper offset ["SCHEMA"] (* 1111 *)
    (
     Return (ECall F_parse_create_schema_statement [ABool (BVar "semicolon")]) (* 1112 *))
  (CaseUpper offset ["TABLE"] (* 1111 *)
    (
     If (CTok (S offset) (TUpperIs "FUNCTION")) (* 1114 *)
      (
       Return (ECall F_parse_create_function_statement [ABool (BVar "semicolon")]) (* 1117 *))
      (
       Return (ECall F_parse_create_table_statement [ABool (BVar "semicolon")]) (* 1119 *)))
  (CaseUpper offset ["VIEW"] (* 1111 *)
    (
     Return (ECall F_parse_create_view_statement [ABool (BVar "semicolon")]) (* 1122 *))
  (CaseUpper offset ["FUNCTION"] (* 1111 *)
    (
     Return (ECall F_parse_create_function_statement [ABool (BVar "semicolon")]) (* 1123 *))
  (CaseUpper offset ["PROCEDURE"] (* 1111 *)
    (
     Return (ECall F_parse_create_procedure_statement [ABool (BVar "semicolon")]) (* 1124 *))
  (CaseUpper offset ["ROW"] (* 1111 *)
    (
     Return (ECall F_parse_create_row_access_policy_statement [ABool (BVar "semicolon")]) (* 1125 *))
  (CaseUpper offset ["CAPACITY"; "RESERVATION"; "ASSIGNMENT"] (* 1111 *)
    (
     Return (ECall F_parse_create_reservation_statement [ABool (BVar "semicolon")]) (* 1127 *))
  (CaseUpper offset ["SEARCH"; "VECTOR"] (* 1111 *)
    (
     Return (ECall F_parse_create_search_index_statement [ABool (BVar "semicolon")]) (* 1130 *))
  (CaseUpper offset ["MODEL"] (* 1111 *)
    (
     Return (ECall F_parse_create_model_statement [ABool (BVar "semicolon")]) (* 1132 *))
   (
    again (* 1111 *))))))))))).

(* parser.rs:1148 the body of the loop for one value of `offset`; [again] is the
   loop with the next offset. *)
Definition parse_statement_1148 (offset : nat) (again : cmd fn) : cmd fn :=
  (CaseUpper offset ["SCHEMA"] (* 1149 *)
    (
     Return (ECall F_parse_alter_schema_statement [ABool (BVar "semicolon")]) (* 1150 *))
  (CaseUpper offset ["TABLE"] (* 1149 *)
    (
     Return (ECall F_parse_alter_table_statement [ABool (BVar "semicolon")]) (* 1151 *))
  (CaseUpper offset ["COLUMN"] (* 1149 *)
    (
     Return (ECall F_parse_alter_column_statement [ABool (BVar "semicolon")]) (* 1152 *))
  (CaseUpper offset ["VIEW"] (* 1149 *)
    (
     Return (ECall F_parse_alter_view_statement [ABool (BVar "semicolon")]) (* 1153 *))
  (CaseUpper offset ["VECTOR"] (* 1149 *)
    (
     Return (ECall F_parse_alter_vector_index_statement [ABool (BVar "semicolon")]) (* 1154 *))
  (CaseUpper offset ["ORGANIZATION"] (* 1149 *)
    (
     Return (ECall F_parse_alter_organization_statement [ABool (BVar "semicolon")]) (* 1156 *))
  (CaseUpper offset ["PROJECT"] (* 1149 *)
    (
     Return (ECall F_parse_alter_project_statement [ABool (BVar "semicolon")]) (* 1158 *))
  (CaseUpper offset ["BI_CAPACITY"] (* 1149 *)
    (
     Return (ECall F_parse_alter_bicapacity_statement [ABool (BVar "semicolon")]) (* 1159 *))
  (CaseUpper offset ["CAPACITY"; "RESERVATION"] (* 1149 *)
    (
     Return (ECall F_parse_alter_reservation_statement [ABool (BVar "semicolon")]) (* 1161 *))
  (CaseUpper offset ["MODEL"] (* 1149 *)
    (
     Return (ECall F_parse_alter_model_statement [ABool (BVar "semicolon")]) (* 1163 *))
   (
    again (* 1149 *)))))))))))).

(* parser.rs:1093-1228 *)
Definition parse_statement : fundef fn := {|
  f_params := ["semicolon"];
  f_body := (
    Declare "node" (* 1094 *) ;;
    (CaseUpper 0 ["WITH"; "SELECT"; "("] (* 1094 *)
      (
       SetNode "node" (ECall F_parse_select_statement [ABool (BVar "semicolon"); ABool (BConst true)]) (* 1098 *))
    (CaseUpper 0 ["FROM"] (* 1094 *)
      (
       SetNode "node" (ECall F_parse_from_statement []) (* 1100 *))
    (CaseUpper 0 ["INSERT"] (* 1094 *)
      (
       SetNode "node" (ECall F_parse_insert_statement [ABool (BVar "semicolon")]) (* 1102 *))
    (CaseUpper 0 ["DELETE"] (* 1094 *)
      (
       SetNode "node" (ECall F_parse_delete_statement [ABool (BVar "semicolon")]) (* 1103 *))
    (CaseUpper 0 ["TRUNCATE"] (* 1094 *)
      (
       SetNode "node" (ECall F_parse_truncate_statement [ABool (BVar "semicolon")]) (* 1104 *))
    (CaseUpper 0 ["UPDATE"] (* 1094 *)
      (
       SetNode "node" (ECall F_parse_update_statement [ABool (BVar "semicolon")]) (* 1105 *))
    (CaseUpper 0 ["MERGE"] (* 1094 *)
      (
       SetNode "node" (ECall F_parse_merge_statement [ABool (BVar "semicolon")]) (* 1106 *))
    (CaseUpper 0 ["CREATE"] (* 1094 *)
      (
       (parse_statement_1110 1 (parse_statement_1110 2 (parse_statement_1110 3 (parse_statement_1110 4 (parse_statement_1110 5 Skip))))) (* 1110 *) ;;
       Fail 0 "Expected `SCHEMA`, `TABLE`, `VIEW`, `FUNCTION`, `PROCEDURE`, 'CAPACITY', 'RESERVATION' or 'ASSIGNMENT' but not found around here: " (Some 0) (* 1141 *))
    (CaseUpper 0 ["ALTER"] (* 1094 *)
      (
       (parse_statement_1148 1 (parse_statement_1148 2 (parse_statement_1148 3 (parse_statement_1148 4 (parse_statement_1148 5 Skip))))) (* 1148 *) ;;
       Fail 0 "Expected `SCHEMA`, `TABLE` or `VIEW` but not found around here: " (Some 0) (* 1172 *))
    (CaseUpper 0 ["DROP"] (* 1094 *)
      (
       If (CTok 1 (TIn ["ALL"; "ROW"])) (* 1181 *)
        (
         SetNode "node" (ECall F_parse_drop_row_access_policy_statement [ABool (BVar "semicolon")]) (* 1182 *))
        (
         SetNode "node" (ECall F_parse_drop_statement_general [ABool (BVar "semicolon")]) (* 1184 *)))
    (CaseUpper 0 ["UNDROP"] (* 1094 *)
      (
       SetNode "node" (ECall F_parse_undrop_statement [ABool (BVar "semicolon")]) (* 1187 *))
    (CaseUpper 0 ["GRANT"] (* 1094 *)
      (
       SetNode "node" (ECall F_parse_grant_statement [ABool (BVar "semicolon")]) (* 1189 *))
    (CaseUpper 0 ["REVOKE"] (* 1094 *)
      (
       SetNode "node" (ECall F_parse_revoke_statement [ABool (BVar "semicolon")]) (* 1190 *))
    (CaseUpper 0 ["DECLARE"] (* 1094 *)
      (
       SetNode "node" (ECall F_parse_declare_statement [ABool (BVar "semicolon")]) (* 1192 *))
    (CaseUpper 0 ["SET"] (* 1094 *)
      (
       SetNode "node" (ECall F_parse_set_statement [ABool (BVar "semicolon")]) (* 1193 *))
    (CaseUpper 0 ["EXECUTE"] (* 1094 *)
      (
       SetNode "node" (ECall F_parse_execute_statement [ABool (BVar "semicolon")]) (* 1194 *))
    (CaseUpper 0 ["IF"] (* 1094 *)
      (
       SetNode "node" (ECall F_parse_if_statement [ABool (BVar "semicolon")]) (* 1195 *))
    (CaseUpper 0 ["BEGIN"] (* 1094 *)
      (
       If (COr (CTok 1 (TIn ["TRANSACTION"; ";"])) (CEof 1)) (* 1197 *)
        (
         Return (ECall F_parse_transaction_statement [ABool (BVar "semicolon")]) (* 1198 *))
        Skip ;;
       SetNode "node" (ECall F_parse_begin_statement [ABool (BVar "semicolon")]) (* 1200 *))
    (CaseUpper 0 ["CASE"] (* 1094 *)
      (
       SetNode "node" (ECall F_parse_case_statement [ABool (BVar "semicolon")]) (* 1202 *))
    (CaseUpper 0 ["LOAD"] (* 1094 *)
      (
       SetNode "node" (ECall F_parse_load_statement [ABool (BVar "semicolon")]) (* 1203 *))
    (CaseUpper 0 ["LOOP"] (* 1094 *)
      (
       SetNode "node" (ECall F_parse_loop_statement [ABool (BVar "semicolon")]) (* 1204 *))
    (CaseUpper 0 ["REPEAT"] (* 1094 *)
      (
       SetNode "node" (ECall F_parse_repeat_statement [ABool (BVar "semicolon")]) (* 1205 *))
    (CaseUpper 0 ["WHILE"] (* 1094 *)
      (
       SetNode "node" (ECall F_parse_while_statement [ABool (BVar "semicolon")]) (* 1206 *))
    (CaseUpper 0 ["BREAK"; "LEAVE"; "CONTINUE"; "ITERATE"] (* 1094 *)
      (
       SetNode "node" (ECall F_parse_break_continue_statement [ABool (BVar "semicolon")]) (* 1208 *))
    (CaseUpper 0 ["FOR"] (* 1094 *)
      (
       SetNode "node" (ECall F_parse_for_statement [ABool (BVar "semicolon")]) (* 1210 *))
    (CaseUpper 0 ["COMMIT"; "ROLLBACK"] (* 1094 *)
      (
       SetNode "node" (ECall F_parse_transaction_statement [ABool (BVar "semicolon")]) (* 1211 *))
    (CaseUpper 0 ["RAISE"] (* 1094 *)
      (
       SetNode "node" (ECall F_parse_raise_statement [ABool (BVar "semicolon")]) (* 1212 *))
    (CaseUpper 0 ["RETURN"] (* 1094 *)
      (
       SetNode "node" (ECall F_parse_single_token_statement [ABool (BVar "semicolon")]) (* 1213 *))
    (CaseUpper 0 ["CALL"] (* 1094 *)
      (
       SetNode "node" (ECall F_parse_call_statement [ABool (BVar "semicolon")]) (* 1214 *))
    (CaseUpper 0 ["ASSERT"] (* 1094 *)
      (
       SetNode "node" (ECall F_parse_assert_satement [ABool (BVar "semicolon")]) (* 1216 *))
    (CaseUpper 0 ["EXPORT"] (* 1094 *)
      (
       If (CTok 1 (TIs "DATA")) (* 1219 *)
        (
         SetNode "node" (ECall F_parse_export_data_statement [ABool (BVar "semicolon")]) (* 1220 *))
        (
         SetNode "node" (ECall F_parse_export_model_statement [ABool (BVar "semicolon")]) (* 1222 *)))
     (
      SetNode "node" (ECall F_parse_labeled_statement [ABool (BVar "semicolon")]) (* 1225 *))))))))))))))))))))))))))))))))) ;;
    Return (EVar "node") (* 1227 *))
|}.

(* parser.rs:1229-1415 *)
Definition parse_table : fundef fn := {|
  f_params := ["root"];
  f_body := (
    Declare "left" (* 1230 *) ;;
    (CaseUpper 0 ["("] (* 1231 *)
      (
       Declare "group" (* 1233 *) ;;
       LetBool "statement_flg" CParenOpensQuery (* 1234 *) ;;
       If (CVar "statement_flg") (* 1245 *)
        (
         Try "group" F_parse_select_statement [ABool (BConst false); ABool (BConst false)] (* 1246 *)
          (
           LetNode "group_" (EConstruct N_GroupedExpr) (* 1259 *) ;;
           Next (* 1260 *) ;;
           Push "group_" "expr" (ECall F_parse_table [ABool (BConst true)]) (* 1261 *) ;;
           Next (* 1262 *) ;;
           Push "group_" "rparen" (EConstruct N_Symbol) (* 1263 *) ;;
           SetNode "group" (EVar "group_") (* 1264 *)))
        (
         SetNode "group" (EConstruct N_GroupedExpr) (* 1268 *) ;;
         Next (* 1269 *) ;;
         Push "group" "expr" (ECall F_parse_table [ABool (BConst true)]) (* 1270 *) ;;
         Next (* 1271 *) ;;
         Push "group" "rparen" (EConstruct N_Symbol) (* 1272 *)) ;;
       SetNode "left" (EVar "group") (* 1274 *))
    (CaseUpper 0 ["UNNEST"] (* 1231 *)
      (
       SetNode "left" (ECall F_parse_expr [ANum NumMax; ABool (BConst false); ABool (BConst false); ABool (BConst false); ABool (BConst true)]) (* 1277 *) ;;
       SetType "left" N_CallingUnnest (* 1278 *))
     (
      SetNode "left" (ECall F_parse_expr [ANum NumMax; ABool (BConst false); ABool (BConst true); ABool (BConst false); ABool (BConst true)]) (* 1282 *)))) ;;
    If (CTypeIs "left" N_CallingFunction) (* 1285 *)
     (
      SetType "left" N_CallingTableFunction (* 1286 *))
     Skip ;;
    If (CNot (CAnd (CTok 1 (TIn ["PIVOT"; "UNPIVOT"; "MATCH_RECOGNIZE"])) (CTok 2 (TIn ["("; "INCLUDE"; "EXCLUDE"])))) (* 1290 *)
     (
      SetNode "left" (ECall F_push_trailing_alias [ANode "left"]) (* 1295 *))
     Skip ;;
    If (CTok 1 (TUpperIs "FOR")) (* 1298 *)
     (
      Next (* 1299 *) ;;
      LetNode "for_" (EConstruct N_ForSystemTimeAsOfClause) (* 1300 *) ;;
      Next (* 1301 *) ;;
      LetVec "system_time_as_of" XNew (* 1302 *) ;;
      VecPush "system_time_as_of" (EConstruct N_Keyword) (* 1303 *) ;;
      Next (* 1304 *) ;;
      VecPush "system_time_as_of" (EConstruct N_Keyword) (* 1305 *) ;;
      Next (* 1306 *) ;;
      VecPush "system_time_as_of" (EConstruct N_Keyword) (* 1307 *) ;;
      PushVec "for_" "system_time_as_of" (XVar "system_time_as_of") (* 1308 *) ;;
      Next (* 1309 *) ;;
      Push "for_" "expr" (ECall F_parse_expr [ANum NumMax; ABool (BConst false); ABool (BConst false); ABool (BConst false); ABool (BConst true)]) (* 1310 *) ;;
      Push "left" "for_system_time_as_of" (EVar "for_") (* 1314 *))
     Skip ;;
    If (CTok 1 (TUpperIs "WITH")) (* 1317 *)
     (
      Next (* 1318 *) ;;
      LetNode "with" (EConstruct N_WithOffsetClause) (* 1319 *) ;;
      Next (* 1320 *) ;;
      Push "with" "offset" (EConstruct N_Keyword) (* 1321 *) ;;
      If (CTok 1 (TIs "AS")) (* 1322 *)
       (
        Next (* 1323 *) ;;
        Push "with" "as" (EConstruct N_Keyword) (* 1324 *) ;;
        Next (* 1325 *) ;;
        Push "with" "alias" (EConstruct N_Identifier) (* 1326 *))
       (
        If (CTok 1 TIdentifier) (* 1327 *)
         (
          Next (* 1328 *) ;;
          Push "with" "alias" (EConstruct N_Identifier) (* 1329 *))
         Skip) ;;
      Push "left" "with_offset" (EVar "with") (* 1331 *))
     Skip ;;
    If (CTok 1 (TIs "PIVOT")) (* 1334 *)
     (
      Next (* 1335 *) ;;
      LetNode "pivot" (EConstruct N_PivotOperator) (* 1336 *) ;;
      Next (* 1337 *) ;;
      Push "pivot" "config" (ECall F_parse_pivot_config_clause []) (* 1338 *) ;;
      SetNode "pivot" (ECall F_push_trailing_alias [ANode "pivot"]) (* 1339 *) ;;
      Push "left" "pivot" (EVar "pivot") (* 1340 *))
     (
      If (CTok 1 (TIs "UNPIVOT")) (* 1341 *)
       (
        Next (* 1342 *) ;;
        LetNode "unpivot" (EConstruct N_UnpivotOperator) (* 1343 *) ;;
        If (CTok 1 (TIn ["INCLUDE"; "EXCLUDE"])) (* 1344 *)
         (
          Next (* 1345 *) ;;
          PushVec "unpivot" "include_or_exclude_nulls" (XCall F_parse_n_keywords [ANum (NumC 2)]) (* 1346 *))
         Skip ;;
        Next (* 1348 *) ;;
        Push "unpivot" "config" (ECall F_parse_unpivot_config_clause []) (* 1349 *) ;;
        SetNode "unpivot" (ECall F_push_trailing_alias [ANode "unpivot"]) (* 1350 *) ;;
        Push "left" "unpivot" (EVar "unpivot") (* 1351 *))
       (
        If (CTok 1 (TIs "MATCH_RECOGNIZE")) (* 1352 *)
         (
          Next (* 1353 *) ;;
          Push "left" "match_recognize" (ECall F_parse_match_recognize_clause []) (* 1354 *))
         Skip)) ;;
    If (CTok 1 (TIs "tablesample")) (* 1357 *)
     (
      Next (* 1359 *) ;;
      LetNode "tablesample" (EConstruct N_TableSampleClause) (* 1360 *) ;;
      Next (* 1361 *) ;;
      Push "tablesample" "system" (EConstruct N_Keyword) (* 1362 *) ;;
      Next (* 1363 *) ;;
      Push "tablesample" "group" (ECall F_parse_table_sample_ratio []) (* 1364 *) ;;
      Push "left" "tablesample" (EVar "tablesample") (* 1365 *))
     Skip ;;
    While (CAnd (CTok 1 (TIn ["left"; "right"; "cross"; "inner"; "full"; "join"; ","])) (CVar "root")) (* 1368 *)
     (
      Next (* 1372 *) ;;
      Declare "join" (* 1373 *) ;;
      If (CTok 0 (TIn ["join"; ","])) (* 1373 *)
       (
        LetNode "join_" (EConstruct N_JoinOperator) (* 1374 *) ;;
        SetNode "join" (EVar "join_") (* 1375 *))
       (
        LetNode "type_" (EConstruct N_Keyword) (* 1377 *) ;;
        Next (* 1378 *) ;;
        If (CTok 0 (TIs "OUTER")) (* 1379 *)
         (
          LetNode "outer" (EConstruct N_Keyword) (* 1380 *) ;;
          Next (* 1381 *) ;;
          LetNode "join_" (EConstruct N_JoinOperator) (* 1382 *) ;;
          Push "join_" "join_type" (EVar "type_") (* 1383 *) ;;
          Push "join_" "outer" (EVar "outer") (* 1384 *) ;;
          SetNode "join" (EVar "join_") (* 1385 *))
         (
          LetNode "join_" (EConstruct N_JoinOperator) (* 1387 *) ;;
          Push "join_" "join_type" (EVar "type_") (* 1388 *) ;;
          SetNode "join" (EVar "join_") (* 1389 *))) ;;
      Next (* 1392 *) ;;
      LetNode "right" (ECall F_parse_table [ABool (BConst false)]) (* 1393 *) ;;
      If (CTok 1 (TIs "on")) (* 1394 *)
       (
        Next (* 1395 *) ;;
        LetNode "on" (EConstruct N_KeywordWithExpr) (* 1396 *) ;;
        Next (* 1397 *) ;;
        Push "on" "expr" (ECall F_parse_expr [ANum NumMax; ABool (BConst false); ABool (BConst false); ABool (BConst false); ABool (BConst true)]) (* 1398 *) ;;
        Push "join" "on" (EVar "on") (* 1402 *))
       (
        If (CTok 1 (TIs "using")) (* 1403 *)
         (
          Next (* 1404 *) ;;
          Push "join" "using" (ECall F_parse_expr [ANum NumMax; ABool (BConst false); ABool (BConst false); ABool (BConst false); ABool (BConst true)]) (* 1405 *))
         Skip) ;;
      Push "join" "left" (EVar "left") (* 1410 *) ;;
      Push "join" "right" (EVar "right") (* 1411 *) ;;
      SetNode "left" (EVar "join") (* 1412 *)) ;;
    Return (EVar "left") (* 1414 *))
|}.

(* parser.rs:1416-1557 *)
Definition parse_type : fundef fn := {|
  f_params := ["schema"; "aggregate"];
  f_body := (
    Declare "res" (* 1417 *) ;;
    (CaseUpper 0 ["ARRAY"; "RANGE"] (* 1417 *)
      (
       LetNode "res_" (EConstruct N_Type) (* 1419 *) ;;
       If (CTok 1 (TLiteralIs "<")) (* 1420 *)
        (
         Next (* 1421 *) ;;
         LetNode "type_" (EConstruct N_GroupedType) (* 1422 *) ;;
         Next (* 1423 *) ;;
         Push "type_" "type" (ECall F_parse_type [ABool (BVar "schema"); ABool (BConst false)]) (* 1424 *) ;;
         Next (* 1425 *) ;;
         Push "type_" "rparen" (EConstruct N_Symbol) (* 1426 *) ;;
         Push "res_" "type_declaration" (EVar "type_") (* 1427 *))
        Skip ;;
       SetNode "res" (EVar "res_") (* 1429 *))
    (CaseUpper 0 ["STRUCT"; "TABLE"] (* 1417 *)
      (
       LetNode "res_" (EConstruct N_Type) (* 1432 *) ;;
       If (CTok 1 (TLiteralIs "<")) (* 1433 *)
        (
         Next (* 1434 *) ;;
         LetNode "type_" (EConstruct N_GroupedTypeDeclarationOrConstraints) (* 1435 *) ;;
         Next (* 1437 *) ;;
         LetVec "type_declarations" XNew (* 1438 *) ;;
         While (CNot (CTok 0 (TIs ">"))) (* 1439 *)
          (
           Declare "type_declaration" (* 1440 *) ;;
           If (CNot (CTok 1 (TIn [","; ">"; "TYPE"; "<"]))) (* 1441 *)
            (
             SetNode "type_declaration" (EConstruct N_TypeDeclaration) (* 1444 *) ;;
             Next (* 1445 *))
            (
             SetNode "type_declaration" (EEmpty N_TypeDeclaration) (* 1447 *)) ;;
           Push "type_declaration" "type" (ECall F_parse_type [ABool (BVar "schema"); ABool (BConst false)]) (* 1449 *) ;;
           Next (* 1450 *) ;;
           If (CTok 0 (TIs ",")) (* 1451 *)
            (
             Push "type_declaration" "comma" (EConstruct N_Symbol) (* 1452 *) ;;
             Next (* 1454 *))
            Skip ;;
           VecPush "type_declarations" (EVar "type_declaration") (* 1456 *)) ;;
         Push "type_" "rparen" (EConstruct N_Symbol) (* 1458 *) ;;
         PushVec "type_" "declarations" (XVar "type_declarations") (* 1459 *) ;;
         Push "res_" "type_declaration" (EVar "type_") (* 1460 *))
        Skip ;;
       SetNode "res" (EVar "res_") (* 1462 *))
    (CaseUpper 0 ["ANY"] (* 1417 *)
      (
       LetNode "res_" (EConstruct N_Type) (* 1465 *) ;;
       Next (* 1466 *) ;;
       Push "res_" "type" (EConstruct N_Keyword) (* 1467 *) ;;
       SetNode "res" (EVar "res_") (* 1468 *))
     (
      LetNode "res_" (EConstruct N_Type) (* 1471 *) ;;
      If (CTok 1 (TIs "(")) (* 1472 *)
       (
        Next (* 1473 *) ;;
        Push "res_" "parameter" (ECall F_parse_grouped_exprs [ABool (BConst false)]) (* 1474 *))
       Skip ;;
      SetNode "res" (EVar "res_") (* 1476 *))))) ;;
    If (CTok 1 (TIs "COLLATE")) (* 1479 *)
     (
      Next (* 1481 *) ;;
      LetNode "collate" (EConstruct N_KeywordWithExpr) (* 1482 *) ;;
      Next (* 1483 *) ;;
      Push "collate" "expr" (EConstruct N_StringLiteral) (* 1484 *) ;;
      Push "res" "collate" (EVar "collate") (* 1489 *))
     Skip ;;
    If (CTok 1 (TIs "CONSTRAINT")) (* 1491 *)
     (
      Next (* 1492 *) ;;
      LetNode "constraint" (EConstruct N_KeywordWithExpr) (* 1493 *) ;;
      Next (* 1494 *) ;;
      Push "constraint" "expr" (ECall F_parse_identifier []) (* 1495 *) ;;
      Push "res" "constraint" (EVar "constraint") (* 1496 *))
     Skip ;;
    If (CTok 1 (TIs "PRIMARY")) (* 1498 *)
     (
      Next (* 1499 *) ;;
      LetNode "primary" (EConstruct N_KeywordSequence) (* 1500 *) ;;
      Next (* 1501 *) ;;
      LetNode "key" (EConstruct N_Keyword) (* 1502 *) ;;
      Push "primary" "next_keyword" (EVar "key") (* 1503 *) ;;
      Push "res" "primarykey" (EVar "primary") (* 1504 *) ;;
      If (CTok 1 (TIn ["NOT"; "ENFORCED"])) (* 1505 *)
       (
        Next (* 1506 *) ;;
        Push "res" "enforced" (ECall F_parse_enforced []) (* 1507 *))
       Skip)
     Skip ;;
    If (CTok 1 (TIs "REFERENCES")) (* 1510 *)
     (
      Next (* 1511 *) ;;
      LetNode "references" (EConstruct N_KeywordWithExpr) (* 1512 *) ;;
      Next (* 1513 *) ;;
      LetNode "col" (ECall F_parse_expr [ANum NumMax; ABool (BConst false); ABool (BConst true); ABool (BConst false); ABool (BConst true)]) (* 1514 *) ;;
      Push "references" "expr" (EVar "col") (* 1515 *) ;;
      Push "res" "references" (EVar "references") (* 1516 *) ;;
      If (CTok 1 (TIn ["NOT"; "ENFORCED"])) (* 1517 *)
       (
        Next (* 1518 *) ;;
        Push "res" "enforced" (ECall F_parse_enforced []) (* 1519 *))
       Skip)
     Skip ;;
    If (CVar "schema") (* 1522 *)
     (
      If (CTok 1 (TIs "DEFAULT")) (* 1523 *)
       (
        Next (* 1524 *) ;;
        LetNode "default" (EConstruct N_KeywordWithExpr) (* 1525 *) ;;
        Next (* 1526 *) ;;
        Push "default" "expr" (ECall F_parse_expr [ANum NumMax; ABool (BConst false); ABool (BConst false); ABool (BConst false); ABool (BConst true)]) (* 1527 *) ;;
        Push "res" "default" (EVar "default") (* 1531 *))
       Skip ;;
      If (CTok 1 (TIs "NOT")) (* 1533 *)
       (
        Next (* 1534 *) ;;
        LetNode "not_" (EConstruct N_Keyword) (* 1535 *) ;;
        Next (* 1536 *) ;;
        LetNode "null" (EConstruct N_Keyword) (* 1537 *) ;;
        PushVec "res" "not_null" (XList [(EVar "not_"); (EVar "null")]) (* 1538 *))
       Skip ;;
      If (CTok 1 (TIs "OPTIONS")) (* 1540 *)
       (
        Next (* 1541 *) ;;
        LetNode "options" (ECall F_parse_keyword_with_grouped_exprs [ABool (BConst false)]) (* 1542 *) ;;
        Push "res" "options" (EVar "options") (* 1543 *))
       Skip)
     Skip ;;
    If (CVar "aggregate") (* 1546 *)
     (
      If (CTok 1 (TIs "NOT")) (* 1547 *)
       (
        Next (* 1548 *) ;;
        LetNode "not_" (EConstruct N_KeywordSequence) (* 1549 *) ;;
        Next (* 1550 *) ;;
        LetNode "null" (EConstruct N_Keyword) (* 1551 *) ;;
        Push "not_" "next_keyword" (EVar "null") (* 1552 *) ;;
        Push "res" "aggregate" (EVar "not_") (* 1553 *))
       Skip)
     Skip ;;
    Return (EVar "res") (* 1556 *))
|}.

(* parser.rs:1558-1643 *)
Definition parse_window_expr : fundef fn := {|
  f_params := [];
  f_body := (
    If (CTok 0 (TIs "(")) (* 1559 *)
     (
      LetNode "window" (EConstruct N_WindowSpecification) (* 1560 *) ;;
      If (CTok 1 TIdentifier) (* 1561 *)
       (
        Next (* 1562 *) ;;
        Push "window" "name" (EConstruct N_Identifier) (* 1563 *))
       Skip ;;
      If (CTok 1 (TIs "PARTITION")) (* 1565 *)
       (
        Next (* 1566 *) ;;
        LetNode "partition" (EConstruct N_XXXByExprs) (* 1567 *) ;;
        Next (* 1568 *) ;;
        Push "partition" "by" (EConstruct N_Keyword) (* 1569 *) ;;
        Next (* 1570 *) ;;
        PushVec "partition" "exprs" (XCall F_parse_exprs [AStrs []; ABool (BConst false); ABool (BConst true)]) (* 1571 *) ;;
        Push "window" "partitionby" (EVar "partition") (* 1572 *))
       Skip ;;
      If (CTok 1 (TIs "ORDER")) (* 1574 *)
       (
        Next (* 1575 *) ;;
        LetNode "order" (EConstruct N_XXXByExprs) (* 1576 *) ;;
        Next (* 1577 *) ;;
        Push "order" "by" (EConstruct N_Keyword) (* 1578 *) ;;
        Next (* 1579 *) ;;
        PushVec "order" "exprs" (XCall F_parse_exprs [AStrs []; ABool (BConst false); ABool (BConst true)]) (* 1580 *) ;;
        Push "window" "orderby" (EVar "order") (* 1581 *))
       Skip ;;
      If (CTok 1 (TIn ["RANGE"; "ROWS"])) (* 1583 *)
       (
        Next (* 1584 *) ;;
        LetNode "frame" (EConstruct N_WindowFrameClause) (* 1585 *) ;;
        If (CTok 1 (TIs "BETWEEN")) (* 1586 *)
         (
          Next (* 1588 *) ;;
          Push "frame" "between" (EConstruct N_Keyword) (* 1589 *) ;;
          Next (* 1591 *) ;;
          LetVec "frame_start" XNew (* 1592 *) ;;
          If (CTok 0 (TIn ["UNBOUNDED"; "CURRENT"])) (* 1593 *)
           (
            VecPush "frame_start" (EConstruct N_Keyword) (* 1594 *))
           (
            VecPush "frame_start" (ECall F_parse_expr [ANum NumMax; ABool (BConst false); ABool (BConst false); ABool (BConst false); ABool (BConst true)]) (* 1596 *)) ;;
          Next (* 1598 *) ;;
          VecPush "frame_start" (EConstruct N_Keyword) (* 1599 *) ;;
          PushVec "frame" "start" (XVar "frame_start") (* 1600 *) ;;
          Next (* 1601 *) ;;
          Push "frame" "and" (EConstruct N_Keyword) (* 1602 *) ;;
          Next (* 1604 *) ;;
          LetVec "frame_end" XNew (* 1605 *) ;;
          If (CTok 0 (TIn ["UNBOUNDED"; "CURRENT"])) (* 1606 *)
           (
            VecPush "frame_end" (EConstruct N_Keyword) (* 1607 *))
           (
            VecPush "frame_end" (ECall F_parse_expr [ANum NumMax; ABool (BConst false); ABool (BConst false); ABool (BConst false); ABool (BConst true)]) (* 1609 *)) ;;
          Next (* 1611 *) ;;
          VecPush "frame_end" (EConstruct N_Keyword) (* 1612 *) ;;
          PushVec "frame" "end" (XVar "frame_end") (* 1613 *))
         (
          If (CNot (CTok 1 (TIs ")"))) (* 1616 *)
           (
            Next (* 1617 *) ;;
            LetVec "frame_start" XNew (* 1618 *) ;;
            If (CTok 0 (TIn ["UNBOUNDED"; "CURRENT"])) (* 1619 *)
             (
              VecPush "frame_start" (EConstruct N_Keyword) (* 1620 *))
             (
              VecPush "frame_start" (ECall F_parse_expr [ANum NumMax; ABool (BConst false); ABool (BConst false); ABool (BConst false); ABool (BConst true)]) (* 1622 *)) ;;
            Next (* 1630 *) ;;
            VecPush "frame_start" (EConstruct N_Keyword) (* 1631 *) ;;
            PushVec "frame" "start" (XVar "frame_start") (* 1632 *))
           Skip) ;;
        Push "window" "frame" (EVar "frame") (* 1635 *))
       Skip ;;
      Next (* 1637 *) ;;
      Push "window" "rparen" (EConstruct N_Symbol) (* 1638 *) ;;
      Return (EVar "window") (* 1639 *))
     (
      Return (EConstruct N_Identifier) (* 1641 *)))
|}.

(* parser.rs:1644-1656 *)
Definition parse_with_connection_clause : fundef fn := {|
  f_params := [];
  f_body := (
    LetNode "with" (EConstruct N_KeywordSequence) (* 1645 *) ;;
    Next (* 1646 *) ;;
    LetNode "connection" (EConstruct N_KeywordWithExpr) (* 1647 *) ;;
    Next (* 1648 *) ;;
    If (CTok 0 (TIs "DEFAULT")) (* 1649 *)
     (
      Push "connection" "expr" (EConstruct N_Keyword) (* 1650 *))
     (
      Push "connection" "expr" (ECall F_parse_identifier []) (* 1652 *)) ;;
    Push "with" "next_keyword" (EVar "connection") (* 1654 *) ;;
    Return (EVar "with") (* 1655 *))
|}.

(* parser.rs:1657-1674 *)
Definition parse_with_clause : fundef fn := {|
  f_params := [];
  f_body := (
    LetNode "with" (EConstruct N_WithClause) (* 1658 *) ;;
    If (CTok 1 (TIs "RECURSIVE")) (* 1659 *)
     (
      Next (* 1660 *) ;;
      Push "with" "recursive" (EConstruct N_Keyword) (* 1661 *))
     Skip ;;
    LetVec "queries" XNew (* 1663 *) ;;
    While (CAnd (CAnd (CAnd (CNot (CTok 1 (TUpperIs "SELECT"))) (CNot (CTok 1 (TLiteralIs "(")))) (CNot (CTok 1 (TLiteralIs "|>")))) (CNot (CTok 1 (TUpperIs "FROM")))) (* 1664 *)
     (
      Next (* 1669 *) ;;
      VecPush "queries" (ECall F_parse_cte []) (* 1670 *)) ;;
    PushVec "with" "queries" (XVar "queries") (* 1672 *) ;;
    Return (EVar "with") (* 1673 *))
|}.

(* parser.rs:1675-1693 *)
Definition parse_window_clause : fundef fn := {|
  f_params := [];
  f_body := (
    LetNode "window" (EConstruct N_WindowClause) (* 1676 *) ;;
    LetVec "window_exprs" XNew (* 1677 *) ;;
    While (CTok 1 TIdentifier) (* 1678 *)
     (
      Next (* 1679 *) ;;
      LetNode "window_expr" (EConstruct N_WindowExpr) (* 1680 *) ;;
      Next (* 1681 *) ;;
      Push "window_expr" "as" (EConstruct N_Keyword) (* 1682 *) ;;
      Next (* 1683 *) ;;
      Push "window_expr" "window" (ECall F_parse_window_expr []) (* 1684 *) ;;
      If (CTok 1 (TIs ",")) (* 1685 *)
       (
        Next (* 1686 *) ;;
        Push "window_expr" "comma" (EConstruct N_Symbol) (* 1687 *))
       Skip ;;
      VecPush "window_exprs" (EVar "window_expr") (* 1689 *)) ;;
    PushVec "window" "window_exprs" (XVar "window_exprs") (* 1691 *) ;;
    Return (EVar "window") (* 1692 *))
|}.

(* parser.rs:1694-1701 *)
Definition parse_xxxby_exprs : fundef fn := {|
  f_params := [];
  f_body := (
    LetNode "xxxby" (EConstruct N_XXXByExprs) (* 1695 *) ;;
    Next (* 1696 *) ;;
    Push "xxxby" "by" (EConstruct N_Keyword) (* 1697 *) ;;
    Next (* 1698 *) ;;
    PushVec "xxxby" "exprs" (XCall F_parse_exprs [AStrs []; ABool (BConst false); ABool (BConst true)]) (* 1699 *) ;;
    Return (EVar "xxxby") (* 1700 *))
|}.

(* parser.rs:1702-1721 *)
Definition parse_groupby_exprs : fundef fn := {|
  f_params := ["alias"];
  f_body := (
    LetNode "groupby" (EConstruct N_GroupByExprs) (* 1703 *) ;;
    Next (* 1704 *) ;;
    Push "groupby" "by" (EConstruct N_Keyword) (* 1705 *) ;;
    Next (* 1706 *) ;;
    If (CTok 0 (TIn ["ROLLUP"; "CUBE"])) (* 1707 *)
     (
      PushVec "groupby" "how" (XCall F_parse_n_keywords [ANum (NumC 1)]) (* 1708 *) ;;
      Next (* 1709 *) ;;
      PushVec "groupby" "exprs" (XCall F_parse_exprs [AStrs []; ABool (BVar "alias"); ABool (BConst true)]) (* 1710 *))
     (
      If (CTok 0 (TIn ["GROUPING"])) (* 1711 *)
       (
        PushVec "groupby" "how" (XCall F_parse_n_keywords [ANum (NumC 2)]) (* 1712 *) ;;
        Next (* 1713 *) ;;
        PushVec "groupby" "exprs" (XCall F_parse_exprs [AStrs []; ABool (BVar "alias"); ABool (BConst true)]) (* 1714 *))
       (
        If (CTok 0 (TIn ["ALL"])) (* 1715 *)
         (
          PushVec "groupby" "how" (XCall F_parse_n_keywords [ANum (NumC 1)]) (* 1716 *))
         (
          PushVec "groupby" "exprs" (XCall F_parse_exprs [AStrs []; ABool (BVar "alias"); ABool (BConst true)]) (* 1718 *)))) ;;
    Return (EVar "groupby") (* 1720 *))
|}.

(* parser.rs:1722-1734 *)
Definition parse_table_sample_ratio : fundef fn := {|
  f_params := [];
  f_body := (
    LetNode "group" (EConstruct N_TableSampleRatio) (* 1723 *) ;;
    Next (* 1724 *) ;;
    Push "group" "expr" (ECall F_parse_expr [ANum NumMax; ABool (BConst false); ABool (BConst false); ABool (BConst false); ABool (BConst true)]) (* 1725 *) ;;
    Next (* 1729 *) ;;
    Push "group" "percent" (EConstruct N_Keyword) (* 1730 *) ;;
    Next (* 1731 *) ;;
    Push "group" "rparen" (EConstruct N_Symbol) (* 1732 *) ;;
    Return (EVar "group") (* 1733 *))
|}.

(* parser.rs:1735-1749 *)
Definition parse_pivot_config_clause : fundef fn := {|
  f_params := [];
  f_body := (
    LetNode "config" (EConstruct N_PivotConfig) (* 1736 *) ;;
    Next (* 1737 *) ;;
    PushVec "config" "exprs" (XCall F_parse_exprs [AStrs []; ABool (BConst true); ABool (BConst true)]) (* 1738 *) ;;
    Next (* 1739 *) ;;
    LetNode "for_" (EConstruct N_KeywordWithExpr) (* 1740 *) ;;
    Next (* 1741 *) ;;
    Push "for_" "expr" (EConstruct N_Identifier) (* 1742 *) ;;
    Push "config" "for" (EVar "for_") (* 1743 *) ;;
    Next (* 1744 *) ;;
    Push "config" "in" (ECall F_parse_keyword_with_grouped_exprs [ABool (BConst true)]) (* 1745 *) ;;
    Next (* 1746 *) ;;
    Push "config" "rparen" (EConstruct N_Symbol) (* 1747 *) ;;
    Return (EVar "config") (* 1748 *))
|}.

(* parser.rs:1750-1809 *)
Definition parse_unpivot_config_clause : fundef fn := {|
  f_params := [];
  f_body := (
    LetNode "config" (EConstruct N_UnpivotConfig) (* 1751 *) ;;
    Next (* 1752 *) ;;
    If (CTok 0 (TIs "(")) (* 1753 *)
     (
      Push "config" "expr" (ECall F_parse_grouped_exprs [ABool (BConst false)]) (* 1755 *))
     (
      Push "config" "expr" (ECall F_parse_expr [ANum NumMax; ABool (BConst true); ABool (BConst false); ABool (BConst false); ABool (BConst true)]) (* 1757 *)) ;;
    Next (* 1762 *) ;;
    LetNode "for_" (EConstruct N_KeywordWithExpr) (* 1763 *) ;;
    Next (* 1764 *) ;;
    Push "for_" "expr" (EConstruct N_Identifier) (* 1765 *) ;;
    Push "config" "for" (EVar "for_") (* 1766 *) ;;
    Next (* 1767 *) ;;
    LetNode "in_" (EConstruct N_KeywordWithGroupedXXX) (* 1768 *) ;;
    Next (* 1769 *) ;;
    LetNode "group" (EConstruct N_GroupedExprs) (* 1770 *) ;;
    LetVec "exprs" XNew (* 1771 *) ;;
    While (CNot (CTok 1 (TIs ")"))) (* 1772 *)
     (
      Next (* 1773 *) ;;
      Declare "expr" (* 1774 *) ;;
      If (CTok 0 (TIs "(")) (* 1775 *)
       (
        SetNode "expr" (ECall F_parse_grouped_exprs [ABool (BConst false)]) (* 1777 *))
       (
        SetNode "expr" (ECall F_parse_expr [ANum NumMax; ABool (BConst false); ABool (BConst false); ABool (BConst false); ABool (BConst true)]) (* 1779 *)) ;;
      If (CTok 1 (TIs "AS")) (* 1781 *)
       (
        Next (* 1782 *) ;;
        Push "expr" "as" (EConstruct N_Keyword) (* 1783 *))
       Skip ;;
      If (COr (CTok 1 TString) (CTok 1 TNumeric)) (* 1785 *)
       (
        Next (* 1786 *) ;;
        Push "expr" "row_value_alias" (ECall F_parse_expr [ANum NumMax; ABool (BConst false); ABool (BConst false); ABool (BConst false); ABool (BConst true)]) (* 1787 *))
       Skip ;;
      If (CTok 1 (TIs ",")) (* 1792 *)
       (
        Next (* 1793 *) ;;
        Push "expr" "comma" (EConstruct N_Symbol) (* 1794 *))
       (
        VecPush "exprs" (EVar "expr") (* 1796 *) ;;
        Break (* 1797 *)) ;;
      VecPush "exprs" (EVar "expr") (* 1799 *)) ;;
    Next (* 1801 *) ;;
    Push "group" "rparen" (EConstruct N_Symbol) (* 1802 *) ;;
    PushVec "group" "exprs" (XVar "exprs") (* 1803 *) ;;
    Push "in_" "group" (EVar "group") (* 1804 *) ;;
    Push "config" "in" (EVar "in_") (* 1805 *) ;;
    Next (* 1806 *) ;;
    Push "config" "rparen" (EConstruct N_Symbol) (* 1807 *) ;;
    Return (EVar "config") (* 1808 *))
|}.

(* parser.rs:1810-1816 *)
Definition parse_match_recognize_clause : fundef fn := {|
  f_params := [];
  f_body := (
    LetNode "match_recognize" (EConstruct N_MatchRecognizeClause) (* 1811 *) ;;
    Next (* 1812 *) ;;
    Push "match_recognize" "config" (ECall F_parse_match_recognize_config []) (* 1813 *) ;;
    SetNode "match_recognize" (ECall F_push_trailing_alias [ANode "match_recognize"]) (* 1814 *) ;;
    Return (EVar "match_recognize") (* 1815 *))
|}.

(* parser.rs:1817-1880 *)
Definition parse_match_recognize_config : fundef fn := {|
  f_params := [];
  f_body := (
    LetNode "config" (EConstruct N_MatchRecognizeConfig) (* 1818 *) ;;
    If (CTok 1 (TIs "PARTITION")) (* 1819 *)
     (
      Next (* 1820 *) ;;
      Push "config" "partitionby" (ECall F_parse_xxxby_exprs []) (* 1821 *))
     Skip ;;
    If (CTok 1 (TIs "ORDER")) (* 1823 *)
     (
      Next (* 1824 *) ;;
      Push "config" "orderby" (ECall F_parse_xxxby_exprs []) (* 1825 *))
     Skip ;;
    If (CTok 1 (TIs "MEASURES")) (* 1827 *)
     (
      Next (* 1828 *) ;;
      LetNode "measures" (EConstruct N_KeywordWithExprs) (* 1829 *) ;;
      Next (* 1830 *) ;;
      PushVec "measures" "exprs" (XCall F_parse_exprs [AStrs []; ABool (BConst true); ABool (BConst false)]) (* 1833 *) ;;
      Push "config" "measures" (EVar "measures") (* 1834 *))
     Skip ;;
    If (CTok 1 (TIs "AFTER")) (* 1839 *)
     (
      Next (* 1840 *) ;;
      LetNode "after" (EConstruct N_KeywordSequence) (* 1841 *) ;;
      Next (* 1842 *) ;;
      LetNode "match_" (EConstruct N_KeywordSequence) (* 1843 *) ;;
      Next (* 1844 *) ;;
      LetNode "skip" (EConstruct N_KeywordSequence) (* 1845 *) ;;
      Next (* 1846 *) ;;
      LetNode "past_to" (EConstruct N_KeywordSequence) (* 1847 *) ;;
      Next (* 1848 *) ;;
      LetNode "last_next" (EConstruct N_KeywordSequence) (* 1849 *) ;;
      Next (* 1850 *) ;;
      LetNode "row" (EConstruct N_KeywordSequence) (* 1851 *) ;;
      Push "last_next" "next_keyword" (EVar "row") (* 1852 *) ;;
      Push "past_to" "next_keyword" (EVar "last_next") (* 1853 *) ;;
      Push "skip" "next_keyword" (EVar "past_to") (* 1854 *) ;;
      Push "match_" "next_keyword" (EVar "skip") (* 1855 *) ;;
      Push "after" "next_keyword" (EVar "match_") (* 1856 *) ;;
      Push "config" "skip_rule" (EVar "after") (* 1857 *))
     Skip ;;
    If (CTok 1 (TIs "PATTERN")) (* 1859 *)
     (
      Next (* 1860 *) ;;
      LetNode "pattern" (ECall F_parse_pattern_clause []) (* 1861 *) ;;
      Push "config" "pattern" (EVar "pattern") (* 1862 *))
     Skip ;;
    If (CTok 1 (TIs "DEFINE")) (* 1864 *)
     (
      Next (* 1865 *) ;;
      LetNode "define" (EConstruct N_KeywordWithExprs) (* 1866 *) ;;
      Next (* 1867 *) ;;
      PushVec "define" "exprs" (XCall F_parse_exprs [AStrs []; ABool (BConst true); ABool (BConst false)]) (* 1870 *) ;;
      Push "config" "define" (EVar "define") (* 1871 *))
     Skip ;;
    If (CTok 1 (TIs "OPTIONS")) (* 1873 *)
     (
      Next (* 1874 *) ;;
      Push "config" "options" (ECall F_parse_keyword_with_grouped_exprs [ABool (BConst false)]) (* 1875 *))
     Skip ;;
    Next (* 1877 *) ;;
    Push "config" "rparen" (EConstruct N_Symbol) (* 1878 *) ;;
    Return (EVar "config") (* 1879 *))
|}.

(* parser.rs:1881-1899 *)
Definition parse_by_name_clause : fundef fn := {|
  f_params := [];
  f_body := (
    LetNode "by" (EConstruct N_KeywordSequence) (* 1882 *) ;;
    Next (* 1883 *) ;;
    Declare "name" (* 1884 *) ;;
    If (CTok 1 (TIs "ON")) (* 1885 *)
     (
      SetNode "name" (EConstruct N_KeywordSequence) (* 1886 *) ;;
      Next (* 1887 *) ;;
      LetNode "on" (EConstruct N_KeywordWithGroupedXXX) (* 1888 *) ;;
      Next (* 1889 *) ;;
      LetNode "columns" (ECall F_parse_grouped_exprs [ABool (BConst false)]) (* 1890 *) ;;
      Push "on" "group" (EVar "columns") (* 1892 *) ;;
      Push "name" "next_keyword" (EVar "on") (* 1893 *))
     (
      SetNode "name" (EConstruct N_Keyword) (* 1895 *)) ;;
    Push "by" "next_keyword" (EVar "name") (* 1897 *) ;;
    Return (EVar "by") (* 1898 *))
|}.

(* parser.rs:1900-1905 *)
Definition parse_pattern_clause : fundef fn := {|
  f_params := [];
  f_body := (
    LetNode "pattern" (EConstruct N_PatternClause) (* 1901 *) ;;
    Next (* 1902 *) ;;
    Push "pattern" "pattern" (ECall F_parse_pattern []) (* 1903 *) ;;
    Return (EVar "pattern") (* 1904 *))
|}.

(* parser.rs:1906-1929 *)
Definition parse_grouped_pattern : fundef fn := {|
  f_params := [];
  f_body := (
    LetNode "group" (EConstruct N_GroupedPattern) (* 1907 *) ;;
    LetVec "patterns" XNew (* 1908 *) ;;
    While (CNot (CTok 1 (TIs ")"))) (* 1909 *)
     (
      Next (* 1910 *) ;;
      If (CTok 0 (TIs "|")) (* 1911 *)
       (
        LetNode "or" (EConstruct N_OrPattern) (* 1912 *) ;;
        PushVec "or" "left" (XVar "patterns") (* 1913 *) ;;
        LetVec "right_patterns" XNew (* 1914 *) ;;
        While (CNot (CTok 1 (TIn ["|"; ")"]))) (* 1915 *)
         (
          Next (* 1916 *) ;;
          VecPush "right_patterns" (ECall F_parse_pattern []) (* 1917 *)) ;;
        PushVec "or" "right" (XVar "right_patterns") (* 1919 *) ;;
        SetVec "patterns" (XList [(EVar "or")]) (* 1920 *))
       (
        VecPush "patterns" (ECall F_parse_pattern []) (* 1922 *))) ;;
    PushVec "group" "patterns" (XVar "patterns") (* 1925 *) ;;
    Next (* 1926 *) ;;
    Push "group" "rparen" (EConstruct N_Symbol) (* 1927 *) ;;
    Return (EVar "group") (* 1928 *))
|}.

(* parser.rs:1930-1957 *)
Definition parse_pattern : fundef fn := {|
  f_params := [];
  f_body := (
    Declare "pattern" (* 1931 *) ;;
    If (CTok 0 (TIs "(")) (* 1933 *)
     (
      SetNode "pattern" (ECall F_parse_grouped_pattern []) (* 1934 *))
     (
      SetNode "pattern" (EConstruct N_Pattern) (* 1936 *)) ;;
    LetVec "suffixes" XNew (* 1939 *) ;;
    While CTrue (* 1940 *)
     (
      (CaseLiteral 1 ["?"; "+"; "*"] (* 1941 *)
        (
         Next (* 1943 *) ;;
         VecPush "suffixes" (EConstruct N_Symbol) (* 1944 *))
      (CaseLiteral 1 ["{"] (* 1941 *)
        (
         Next (* 1947 *) ;;
         VecPush "suffixes" (ECall F_parse_quantifier []) (* 1948 *))
       (
        Break (* 1951 *))))) ;;
    PushVec "pattern" "suffixes" (XVar "suffixes") (* 1955 *) ;;
    Return (EVar "pattern") (* 1956 *))
|}.

(* parser.rs:1958-1973 *)
Definition parse_quantifier : fundef fn := {|
  f_params := [];
  f_body := (
    LetNode "quantifier" (EConstruct N_PatternQuantifier) (* 1959 *) ;;
    If (CNot (CTok 1 (TIs ","))) (* 1960 *)
     (
      Next (* 1961 *) ;;
      Push "quantifier" "min" (EConstruct N_NumericLiteral) (* 1962 *))
     Skip ;;
    If (CTok 1 (TIs ",")) (* 1964 *)
     (
      Next (* 1965 *) ;;
      Push "quantifier" "comma" (EConstruct N_Symbol) (* 1966 *) ;;
      Next (* 1967 *) ;;
      Push "quantifier" "max" (EConstruct N_NumericLiteral) (* 1968 *))
     Skip ;;
    Next (* 1970 *) ;;
    Push "quantifier" "rbrace" (EConstruct N_Symbol) (* 1971 *) ;;
    Return (EVar "quantifier") (* 1972 *))
|}.

(* parser.rs:1974-1996 *)
Definition parse_corresponding_clause : fundef fn := {|
  f_params := [];
  f_body := (
    LetBool "strict_exists" (CNot CTrue) (* 1975 *) ;;
    LetNode "strict" (EEmpty N_Unknown) (* 1976 *) ;;
    If (CTok 0 (TIs "STRICT")) (* 1977 *)
     (
      SetBool "strict_exists" CTrue (* 1978 *) ;;
      SetNode "strict" (EConstruct N_KeywordSequence) (* 1979 *) ;;
      Next (* 1980 *))
     Skip ;;
    LetNode "corresponding" (EConstruct N_Keyword) (* 1982 *) ;;
    If (CTok 1 (TIs "BY")) (* 1983 *)
     (
      SetType "corresponding" N_KeywordSequence (* 1984 *) ;;
      Next (* 1985 *) ;;
      LetNode "by" (EConstruct N_KeywordWithGroupedXXX) (* 1986 *) ;;
      Next (* 1987 *) ;;
      Push "by" "group" (ECall F_parse_grouped_exprs [ABool (BConst false)]) (* 1988 *) ;;
      Push "corresponding" "next_keyword" (EVar "by") (* 1989 *))
     Skip ;;
    If (CVar "strict_exists") (* 1991 *)
     (
      Push "strict" "next_keyword" (EVar "corresponding") (* 1992 *) ;;
      SetNode "corresponding" (EVar "strict") (* 1993 *))
     Skip ;;
    Return (EVar "corresponding") (* 1995 *))
|}.

(* parser.rs:1997-2008 *)
Definition push_trailing_alias : fundef fn := {|
  f_params := ["node"];
  f_body := (
    If (CTok 1 (TIs "AS")) (* 1998 *)
     (
      Next (* 1999 *) ;;
      Push "node" "as" (EConstruct N_Keyword) (* 2000 *) ;;
      Next (* 2001 *) ;;
      Push "node" "alias" (EConstruct N_Identifier) (* 2002 *))
     (
      If (CTok 1 TIdentifier) (* 2003 *)
       (
        Next (* 2004 *) ;;
        Push "node" "alias" (EConstruct N_Identifier) (* 2005 *))
       Skip) ;;
    Return (EVar "node") (* 2007 *))
|}.

(* parser.rs:2010-2247 *)
Definition parse_select_statement : fundef fn := {|
  f_params := ["semicolon"; "root"];
  f_body := (
    If (CTok 0 (TUpperIs "(")) (* 2011 *)
     (
      LetNode "node" (EConstruct N_GroupedStatement) (* 2012 *) ;;
      Next (* 2013 *) ;;
      If (CTok 0 (TIs "FROM")) (* 2014 *)
       (
        Push "node" "stmt" (ECall F_parse_from_statement []) (* 2015 *))
       (
        Push "node" "stmt" (ECall F_parse_select_statement [ABool (BConst false); ABool (BConst true)]) (* 2017 *)) ;;
      Next (* 2019 *) ;;
      If (CNot (CTok 0 (TIs ")"))) (* 2020 *)
       (
        Fail 0 "expected )" None (* 2021 *))
       Skip ;;
      Push "node" "rparen" (EConstruct N_Symbol) (* 2026 *) ;;
      While (CAnd (CTok 1 (TIn ["UNION"; "INTERSECT"; "EXCEPT"; "INNER"; "FULL"; "LEFT"; "OUTER"])) (CVar "root")) (* 2027 *)
       (
        Next (* 2037 *) ;;
        SetNode "node" (ECall F_parse_set_operator [ANode "node"]) (* 2038 *)) ;;
      If (CAnd (CTok 1 (TIs "ORDER")) (CVar "root")) (* 2041 *)
       (
        Next (* 2042 *) ;;
        Push "node" "orderby" (ECall F_parse_xxxby_exprs []) (* 2043 *))
       Skip ;;
      If (CAnd (CTok 1 (TIs "LIMIT")) (CVar "root")) (* 2046 *)
       (
        Next (* 2047 *) ;;
        LetNode "limit" (EConstruct N_LimitClause) (* 2048 *) ;;
        Next (* 2049 *) ;;
        Push "limit" "expr" (ECall F_parse_expr [ANum NumMax; ABool (BConst false); ABool (BConst false); ABool (BConst false); ABool (BConst true)]) (* 2050 *) ;;
        If (CTok 1 (TUpperIs "OFFSET")) (* 2054 *)
         (
          Next (* 2055 *) ;;
          LetNode "offset" (EConstruct N_KeywordWithExpr) (* 2056 *) ;;
          Next (* 2057 *) ;;
          Push "offset" "expr" (ECall F_parse_expr [ANum NumMax; ABool (BConst false); ABool (BConst false); ABool (BConst false); ABool (BConst true)]) (* 2058 *) ;;
          Push "limit" "offset" (EVar "offset") (* 2062 *))
         Skip ;;
        Push "node" "limit" (EVar "limit") (* 2064 *))
       Skip ;;
      If (CAnd (CAnd (CTok 1 (TIs ";")) (CVar "semicolon")) (CVar "root")) (* 2066 *)
       (
        Next (* 2067 *) ;;
        Push "node" "semicolon" (EConstruct N_Symbol) (* 2068 *))
       (
        If (CTok 1 (TIs "|>")) (* 2069 *)
         (
          Next (* 2070 *) ;;
          Return (ECall F_parse_pipe_statement [ANode "node"]) (* 2071 *))
         Skip) ;;
      Return (EVar "node") (* 2073 *))
     Skip ;;
    If (CTok 0 (TUpperIs "WITH")) (* 2075 *)
     (
      LetNode "with" (ECall F_parse_with_clause []) (* 2076 *) ;;
      Next (* 2077 *) ;;
      Declare "node" (* 2078 *) ;;
      If (CTok 0 (TIs "FROM")) (* 2078 *)
       (
        SetNode "node" (ECall F_parse_from_statement []) (* 2079 *))
       (
        SetNode "node" (ECall F_parse_select_statement [ABool (BVar "semicolon"); ABool (BConst true)]) (* 2081 *)) ;;
      Push "node" "with" (EVar "with") (* 2083 *) ;;
      Return (EVar "node") (* 2084 *))
     Skip ;;
    LetNode "node" (EConstruct N_SelectStatement) (* 2087 *) ;;
    If (CAnd (CTok 1 (TIs "WITH")) (CNot (CTok 2 (TIs "(")))) (* 2090 *)
     (
      Next (* 2091 *) ;;
      LetNode "with" (EConstruct N_DifferentialPrivacyClause) (* 2092 *) ;;
      Next (* 2093 *) ;;
      Push "with" "differential_privacy" (EConstruct N_Keyword) (* 2094 *) ;;
      If (CTok 1 (TIs "OPTIONS")) (* 2098 *)
       (
        Next (* 2099 *) ;;
        Push "with" "options" (ECall F_parse_keyword_with_grouped_exprs [ABool (BConst false)]) (* 2100 *))
       Skip ;;
      Push "node" "differential_privacy" (EVar "with") (* 2102 *))
     Skip ;;
    If (CTok 1 (TIn ["ALL"; "DISTINCT"])) (* 2106 *)
     (
      Next (* 2107 *) ;;
      Push "node" "distinct_or_all" (EConstruct N_Keyword) (* 2108 *))
     Skip ;;
    If (CTok 1 (TUpperIs "AS")) (* 2112 *)
     (
      Next (* 2113 *) ;;
      LetNode "as_" (EConstruct N_Keyword) (* 2114 *) ;;
      Next (* 2115 *) ;;
      PushVec "node" "as_struct_or_value" (XList [(EVar "as_"); (EConstruct N_Keyword)]) (* 2116 *))
     Skip ;;
    Next (* 2122 *) ;;
    PushVec "node" "exprs" (XCall F_parse_exprs [AStrs ["FROM"; "WHERE"; "GROUP"; "HAVING"; "QUALIFY"; "WINDOW"; "ORDER"; "LIMIT"; "UNION"; "INTERSECT"; "EXCEPT"; ";"; ")"]; ABool (BConst true); ABool (BConst true)]) (* 2125 *) ;;
    If (CTok 1 (TIs "FROM")) (* 2148 *)
     (
      Next (* 2149 *) ;;
      LetNode "from" (EConstruct N_KeywordWithExpr) (* 2150 *) ;;
      Next (* 2151 *) ;;
      Push "from" "expr" (ECall F_parse_table [ABool (BConst true)]) (* 2152 *) ;;
      Push "node" "from" (EVar "from") (* 2153 *))
     Skip ;;
    If (CTok 1 (TIs "WHERE")) (* 2156 *)
     (
      Next (* 2157 *) ;;
      LetNode "where_" (EConstruct N_KeywordWithExpr) (* 2158 *) ;;
      Next (* 2159 *) ;;
      Push "where_" "expr" (ECall F_parse_expr [ANum NumMax; ABool (BConst false); ABool (BConst false); ABool (BConst false); ABool (BConst true)]) (* 2160 *) ;;
      Push "node" "where" (EVar "where_") (* 2164 *))
     Skip ;;
    If (CTok 1 (TIs "GROUP")) (* 2167 *)
     (
      Next (* 2168 *) ;;
      Push "node" "groupby" (ECall F_parse_groupby_exprs [ABool (BConst false)]) (* 2169 *))
     Skip ;;
    If (CTok 1 (TIs "HAVING")) (* 2172 *)
     (
      Next (* 2173 *) ;;
      LetNode "having" (EConstruct N_KeywordWithExpr) (* 2174 *) ;;
      Next (* 2175 *) ;;
      Push "having" "expr" (ECall F_parse_expr [ANum NumMax; ABool (BConst false); ABool (BConst false); ABool (BConst false); ABool (BConst true)]) (* 2176 *) ;;
      Push "node" "having" (EVar "having") (* 2180 *))
     Skip ;;
    If (CTok 1 (TIs "QUALIFY")) (* 2183 *)
     (
      Next (* 2184 *) ;;
      LetNode "qualify" (EConstruct N_KeywordWithExpr) (* 2185 *) ;;
      Next (* 2186 *) ;;
      Push "qualify" "expr" (ECall F_parse_expr [ANum NumMax; ABool (BConst false); ABool (BConst false); ABool (BConst false); ABool (BConst true)]) (* 2187 *) ;;
      Push "node" "qualify" (EVar "qualify") (* 2191 *))
     Skip ;;
    If (CTok 1 (TIs "WINDOW")) (* 2194 *)
     (
      Next (* 2195 *) ;;
      Push "node" "window" (ECall F_parse_window_clause []) (* 2196 *))
     Skip ;;
    If (CTok 1 (TIs "ORDER")) (* 2199 *)
     (
      Next (* 2200 *) ;;
      Push "node" "orderby" (ECall F_parse_xxxby_exprs []) (* 2201 *))
     Skip ;;
    If (CTok 1 (TIs "LIMIT")) (* 2204 *)
     (
      Next (* 2205 *) ;;
      LetNode "limit" (EConstruct N_LimitClause) (* 2206 *) ;;
      Next (* 2207 *) ;;
      Push "limit" "expr" (ECall F_parse_expr [ANum NumMax; ABool (BConst false); ABool (BConst false); ABool (BConst false); ABool (BConst true)]) (* 2208 *) ;;
      If (CTok 1 (TUpperIs "OFFSET")) (* 2212 *)
       (
        Next (* 2213 *) ;;
        LetNode "offset" (EConstruct N_KeywordWithExpr) (* 2214 *) ;;
        Next (* 2215 *) ;;
        Push "offset" "expr" (ECall F_parse_expr [ANum NumMax; ABool (BConst false); ABool (BConst false); ABool (BConst false); ABool (BConst true)]) (* 2216 *) ;;
        Push "limit" "offset" (EVar "offset") (* 2220 *))
       Skip ;;
      Push "node" "limit" (EVar "limit") (* 2222 *))
     Skip ;;
    While (CAnd (CTok 1 (TIn ["UNION"; "INTERSECT"; "EXCEPT"; "INNER"; "FULL"; "LEFT"; "OUTER"])) (CVar "root")) (* 2225 *)
     (
      Next (* 2235 *) ;;
      SetNode "node" (ECall F_parse_set_operator [ANode "node"]) (* 2236 *)) ;;
    If (CAnd (CTok 1 (TIs ";")) (CVar "semicolon")) (* 2239 *)
     (
      Next (* 2240 *) ;;
      Push "node" "semicolon" (EConstruct N_Symbol) (* 2241 *))
     (
      If (CAnd (CTok 1 (TIs "|>")) (CVar "root")) (* 2242 *)
       (
        Next (* 2243 *) ;;
        Return (ECall F_parse_pipe_statement [ANode "node"]) (* 2244 *))
       Skip) ;;
    Return (EVar "node") (* 2246 *))
|}.

(* parser.rs:2248-2263 *)
Definition parse_from_statement : fundef fn := {|
  f_params := [];
  f_body := (
    LetNode "from" (EConstruct N_FromStatement) (* 2249 *) ;;
    Next (* 2250 *) ;;
    Push "from" "expr" (ECall F_parse_table [ABool (BConst true)]) (* 2251 *) ;;
    If (CTok 1 (TIs "|>")) (* 2253 *)
     (
      Next (* 2254 *) ;;
      Return (ECall F_parse_pipe_statement [ANode "from"]) (* 2255 *))
     Skip ;;
    If (CTok 1 (TIs ";")) (* 2258 *)
     (
      Next (* 2259 *) ;;
      Push "from" "semicolon" (EConstruct N_Symbol) (* 2260 *))
     Skip ;;
    Return (EVar "from") (* 2262 *))
|}.

(* parser.rs:2264-2312 *)
Definition parse_pipe_statement : fundef fn := {|
  f_params := ["left"];
  f_body := (
    LetNode "pipe" (EConstruct N_PipeStatement) (* 2265 *) ;;
    Push "pipe" "left" (EVar "left") (* 2266 *) ;;
    Next (* 2267 *) ;;
    Declare "operator" (* 2269 *) ;;
    (CaseUpper 0 ["EXTEND"; "SET"; "DROP"; "RENAME"; "AS"; "WHERE"; "CALL"] (* 2269 *)
      (
       SetNode "operator" (ECall F_parse_base_pipe_operator [ABool (BConst false)]) (* 2271 *))
    (CaseUpper 0 ["ORDER"] (* 2269 *)
      (
       SetNode "operator" (ECall F_parse_base_pipe_operator [ABool (BConst true)]) (* 2273 *))
    (CaseUpper 0 ["SELECT"] (* 2269 *)
      (
       SetNode "operator" (ECall F_parse_select_pipe_operator []) (* 2274 *))
    (CaseUpper 0 ["LIMIT"] (* 2269 *)
      (
       SetNode "operator" (ECall F_parse_limit_pipe_operator []) (* 2275 *))
    (CaseUpper 0 ["AGGREGATE"] (* 2269 *)
      (
       SetNode "operator" (ECall F_parse_aggregate_pipe_operator []) (* 2276 *))
    (CaseUpper 0 ["UNION"; "INTERSECT"; "EXCEPT"] (* 2269 *)
      (
       SetNode "operator" (ECall F_parse_union_pipe_operator []) (* 2277 *))
    (CaseUpper 0 ["JOIN"] (* 2269 *)
      (
       SetNode "operator" (ECall F_parse_join_pipe_operator []) (* 2279 *))
    (CaseUpper 0 ["INNER"; "FULL"; "LEFT"; "RIGHT"; "CROSS"; "OUTER"] (* 2269 *)
      (
       If (COr (CTok 1 (TIs "JOIN")) (CTok 2 (TIs "JOIN"))) (* 2281 *)
        (
         SetNode "operator" (ECall F_parse_join_pipe_operator []) (* 2282 *))
        (
         SetNode "operator" (ECall F_parse_union_pipe_operator []) (* 2284 *)))
    (CaseUpper 0 ["TABLESAMPLE"] (* 2269 *)
      (
       SetNode "operator" (ECall F_parse_tablesample_pipe_operator []) (* 2287 *))
    (CaseUpper 0 ["PIVOT"] (* 2269 *)
      (
       SetNode "operator" (ECall F_parse_pivot_pipe_operator []) (* 2288 *))
    (CaseUpper 0 ["UNPIVOT"] (* 2269 *)
      (
       SetNode "operator" (ECall F_parse_unpivot_pipe_operator []) (* 2289 *))
    (CaseUpper 0 ["WITH"] (* 2269 *)
      (
       SetNode "operator" (ECall F_parse_with_pipe_operator []) (* 2290 *))
    (CaseUpper 0 ["MATCH_RECOGNIZE"] (* 2269 *)
      (
       SetNode "operator" (ECall F_parse_match_recognize_pipe_operator []) (* 2291 *))
    (CaseUpper 0 ["DISTINCT"] (* 2269 *)
      (
       SetNode "operator" (EConstruct N_Keyword) (* 2292 *))
     (
      Fail 0 "Expected pipe operator but got: " (Some 0) (* 2294 *)))))))))))))))) ;;
    Push "pipe" "right" (EVar "operator") (* 2300 *) ;;
    If (CTok 1 (TIs "|>")) (* 2302 *)
     (
      Next (* 2303 *) ;;
      Return (ECall F_parse_pipe_statement [ANode "pipe"]) (* 2304 *))
     Skip ;;
    If (CTok 1 (TIs ";")) (* 2307 *)
     (
      Next (* 2308 *) ;;
      Push "pipe" "semicolon" (EConstruct N_Symbol) (* 2309 *))
     Skip ;;
    Return (EVar "pipe") (* 2311 *))
|}.

(* parser.rs:2313-2347 *)
Definition parse_select_pipe_operator : fundef fn := {|
  f_params := [];
  f_body := (
    LetNode "operator" (EConstruct N_SelectPipeOperator) (* 2314 *) ;;
    LetVec "keywords" XNew (* 2317 *) ;;
    If (CTok 1 (TIn ["ALL"; "DISTINCT"])) (* 2318 *)
     (
      Next (* 2319 *) ;;
      VecPush "keywords" (EConstruct N_Keyword) (* 2320 *))
     Skip ;;
    If (CTok 1 (TIs "AS")) (* 2322 *)
     (
      Next (* 2323 *) ;;
      VecPush "keywords" (EConstruct N_Keyword) (* 2324 *) ;;
      Next (* 2325 *) ;;
      VecPush "keywords" (EConstruct N_Keyword) (* 2326 *))
     Skip ;;
    If (CNonEmpty "keywords") (* 2328 *)
     (
      LetNode "temp" (EPop "keywords") (* 2329 *) ;;
      WhilePop "kw" "keywords" (* 2330 *)
       (
        SetType "kw" N_KeywordSequence (* 2331 *) ;;
        Push "kw" "next_keyword" (EVar "temp") (* 2332 *) ;;
        SetNode "temp" (EVar "kw") (* 2333 *)) ;;
      Push "operator" "keywords" (EVar "temp") (* 2335 *))
     Skip ;;
    Next (* 2337 *) ;;
    LetVec "exprs" (XCall F_parse_exprs [AStrs [";"; "WINDOW"]; ABool (BConst true); ABool (BConst true)]) (* 2338 *) ;;
    PushVec "operator" "exprs" (XVar "exprs") (* 2339 *) ;;
    If (CTok 1 (TIs "WINDOW")) (* 2340 *)
     (
      Next (* 2341 *) ;;
      LetNode "window" (ECall F_parse_window_clause []) (* 2342 *) ;;
      Push "operator" "window" (EVar "window") (* 2343 *))
     Skip ;;
    Return (EVar "operator") (* 2346 *))
|}.

(* parser.rs:2348-2364 *)
Definition parse_limit_pipe_operator : fundef fn := {|
  f_params := [];
  f_body := (
    LetNode "operator" (EConstruct N_LimitPipeOperator) (* 2349 *) ;;
    Next (* 2350 *) ;;
    LetVec "exprs" (XCall F_parse_exprs [AStrs [";"; "OFFSET"]; ABool (BConst false); ABool (BConst true)]) (* 2351 *) ;;
    PushVec "operator" "exprs" (XVar "exprs") (* 2352 *) ;;
    If (CTok 1 (TIs "OFFSET")) (* 2353 *)
     (
      Next (* 2354 *) ;;
      LetNode "offset" (EConstruct N_KeywordWithExpr) (* 2355 *) ;;
      Next (* 2356 *) ;;
      Push "offset" "expr" (ECall F_parse_expr [ANum NumMax; ABool (BConst false); ABool (BConst false); ABool (BConst false); ABool (BConst true)]) (* 2357 *) ;;
      Push "operator" "offset" (EVar "offset") (* 2361 *))
     Skip ;;
    Return (EVar "operator") (* 2363 *))
|}.

(* parser.rs:2365-2375 *)
Definition parse_aggregate_pipe_operator : fundef fn := {|
  f_params := [];
  f_body := (
    LetNode "operator" (EConstruct N_AggregatePipeOperator) (* 2366 *) ;;
    Next (* 2367 *) ;;
    LetVec "exprs" (XCall F_parse_exprs [AStrs [";"; "GROUP"]; ABool (BConst true); ABool (BConst true)]) (* 2368 *) ;;
    PushVec "operator" "exprs" (XVar "exprs") (* 2369 *) ;;
    If (CTok 1 (TIs "GROUP")) (* 2370 *)
     (
      Next (* 2371 *) ;;
      Push "operator" "groupby" (ECall F_parse_groupby_exprs [ABool (BConst true)]) (* 2372 *))
     Skip ;;
    Return (EVar "operator") (* 2374 *))
|}.

(* parser.rs:2377-2416 *)
Definition parse_union_pipe_operator : fundef fn := {|
  f_params := [];
  f_body := (
    Declare "operator" (* 2378 *) ;;
    If (CTok 0 (TIn ["INNER"; "FULL"; "LEFT"; "OUTER"])) (* 2382 *)
     (
      Declare "method" (* 2386 *) ;;
      If (CTok 1 (TIs "OUTER")) (* 2387 *)
       (
        SetNode "method" (EConstruct N_KeywordSequence) (* 2388 *) ;;
        Next (* 2389 *) ;;
        LetNode "outer" (EConstruct N_Keyword) (* 2390 *) ;;
        Push "method" "next_keyword" (EVar "outer") (* 2391 *))
       (
        SetNode "method" (EConstruct N_Keyword) (* 2393 *)) ;;
      Next (* 2396 *) ;;
      SetNode "operator" (EConstruct N_UnionPipeOperator) (* 2397 *) ;;
      Push "operator" "method" (EVar "method") (* 2398 *))
     (
      SetNode "operator" (EConstruct N_UnionPipeOperator) (* 2400 *)) ;;
    Next (* 2403 *) ;;
    Push "operator" "keywords" (EConstruct N_Keyword) (* 2404 *) ;;
    If (CTok 1 (TIs "BY")) (* 2405 *)
     (
      Next (* 2406 *) ;;
      Push "operator" "by" (ECall F_parse_by_name_clause []) (* 2407 *))
     (
      If (CTok 1 (TIn ["STRICT"; "CORRESPONDING"])) (* 2408 *)
       (
        Next (* 2409 *) ;;
        Push "operator" "corresponding" (ECall F_parse_corresponding_clause []) (* 2410 *))
       Skip) ;;
    Next (* 2412 *) ;;
    LetVec "exprs" (XCall F_parse_exprs [AStrs [";"]; ABool (BConst true); ABool (BConst true)]) (* 2413 *) ;;
    PushVec "operator" "exprs" (XVar "exprs") (* 2414 *) ;;
    Return (EVar "operator") (* 2415 *))
|}.

(* parser.rs:2417-2460 *)
Definition parse_join_pipe_operator : fundef fn := {|
  f_params := [];
  f_body := (
    Declare "operator" (* 2418 *) ;;
    If (CTok 0 (TIn ["INNER"; "FULL"; "LEFT"; "RIGHT"; "CROSS"; "OUTER"])) (* 2420 *)
     (
      Declare "method" (* 2424 *) ;;
      If (CTok 1 (TIs "OUTER")) (* 2425 *)
       (
        SetNode "method" (EConstruct N_KeywordSequence) (* 2426 *) ;;
        Next (* 2427 *) ;;
        LetNode "outer" (EConstruct N_Keyword) (* 2428 *) ;;
        Push "method" "next_keyword" (EVar "outer") (* 2429 *))
       (
        SetNode "method" (EConstruct N_Keyword) (* 2431 *)) ;;
      Next (* 2434 *) ;;
      SetNode "operator" (EConstruct N_JoinPipeOperator) (* 2435 *) ;;
      Push "operator" "method" (EVar "method") (* 2436 *))
     (
      SetNode "operator" (EConstruct N_JoinPipeOperator) (* 2438 *)) ;;
    Next (* 2441 *) ;;
    PushVec "operator" "exprs" (XList [(ECall F_parse_table [ABool (BConst false)])]) (* 2442 *) ;;
    If (CTok 1 (TIs "on")) (* 2443 *)
     (
      Next (* 2444 *) ;;
      LetNode "on" (EConstruct N_KeywordWithExpr) (* 2445 *) ;;
      Next (* 2446 *) ;;
      Push "on" "expr" (ECall F_parse_expr [ANum NumMax; ABool (BConst false); ABool (BConst false); ABool (BConst false); ABool (BConst true)]) (* 2447 *) ;;
      Push "operator" "on" (EVar "on") (* 2451 *))
     (
      If (CTok 1 (TIs "using")) (* 2452 *)
       (
        Next (* 2453 *) ;;
        Push "operator" "using" (ECall F_parse_expr [ANum NumMax; ABool (BConst false); ABool (BConst false); ABool (BConst false); ABool (BConst true)]) (* 2454 *))
       Skip) ;;
    Return (EVar "operator") (* 2459 *))
|}.

(* parser.rs:2461-2469 *)
Definition parse_tablesample_pipe_operator : fundef fn := {|
  f_params := [];
  f_body := (
    LetNode "operator" (EConstruct N_TableSamplePipeOperator) (* 2462 *) ;;
    Next (* 2463 *) ;;
    Push "operator" "keywords" (EConstruct N_Keyword) (* 2464 *) ;;
    Next (* 2466 *) ;;
    Push "operator" "group" (ECall F_parse_table_sample_ratio []) (* 2467 *) ;;
    Return (EVar "operator") (* 2468 *))
|}.

(* parser.rs:2470-2476 *)
Definition parse_pivot_pipe_operator : fundef fn := {|
  f_params := [];
  f_body := (
    LetNode "operator" (EConstruct N_PivotPipeOperator) (* 2471 *) ;;
    Next (* 2472 *) ;;
    Push "operator" "config" (ECall F_parse_pivot_config_clause []) (* 2473 *) ;;
    SetNode "operator" (ECall F_push_trailing_alias [ANode "operator"]) (* 2474 *) ;;
    Return (EVar "operator") (* 2475 *))
|}.

(* parser.rs:2477-2490 *)
Definition parse_unpivot_pipe_operator : fundef fn := {|
  f_params := [];
  f_body := (
    LetNode "operator" (EConstruct N_UnpivotPipeOperator) (* 2478 *) ;;
    If (CTok 1 (TIn ["INCLUDE"; "EXCLUDE"])) (* 2479 *)
     (
      Next (* 2480 *) ;;
      LetNode "include_or_exclude" (EConstruct N_KeywordSequence) (* 2481 *) ;;
      Next (* 2482 *) ;;
      Push "include_or_exclude" "next_keyword" (EConstruct N_Keyword) (* 2483 *) ;;
      Push "operator" "keywords" (EVar "include_or_exclude") (* 2484 *))
     Skip ;;
    Next (* 2486 *) ;;
    Push "operator" "config" (ECall F_parse_unpivot_config_clause []) (* 2487 *) ;;
    SetNode "operator" (ECall F_push_trailing_alias [ANode "operator"]) (* 2488 *) ;;
    Return (EVar "operator") (* 2489 *))
|}.

(* parser.rs:2491-2495 *)
Definition parse_with_pipe_operator : fundef fn := {|
  f_params := [];
  f_body := (
    LetNode "operator" (ECall F_parse_with_clause []) (* 2492 *) ;;
    SetType "operator" N_WithPipeOperator (* 2493 *) ;;
    Return (EVar "operator") (* 2494 *))
|}.

(* parser.rs:2496-2500 *)
Definition parse_match_recognize_pipe_operator : fundef fn := {|
  f_params := [];
  f_body := (
    LetNode "operator" (ECall F_parse_match_recognize_clause []) (* 2497 *) ;;
    SetType "operator" N_MatchRecognizePipeOperator (* 2498 *) ;;
    Return (EVar "operator") (* 2499 *))
|}.

(* parser.rs:2501-2512 *)
Definition parse_base_pipe_operator : fundef fn := {|
  f_params := ["keywords"];
  f_body := (
    LetNode "operator" (EConstruct N_BasePipeOperator) (* 2502 *) ;;
    If (CVar "keywords") (* 2504 *)
     (
      Next (* 2505 *) ;;
      Push "operator" "keywords" (EConstruct N_Keyword) (* 2506 *))
     Skip ;;
    Next (* 2508 *) ;;
    LetVec "exprs" (XCall F_parse_exprs [AStrs [";"]; ABool (BConst true); ABool (BConst true)]) (* 2509 *) ;;
    PushVec "operator" "exprs" (XVar "exprs") (* 2510 *) ;;
    Return (EVar "operator") (* 2511 *))
|}.

(* parser.rs:2514-2556 *)
Definition parse_insert_statement : fundef fn := {|
  f_params := ["semicolon"];
  f_body := (
    LetNode "insert" (EConstruct N_InsertStatement) (* 2515 *) ;;
    If (CTok 1 (TIs "INTO")) (* 2516 *)
     (
      Next (* 2517 *) ;;
      Push "insert" "into" (EConstruct N_Keyword) (* 2518 *))
     Skip ;;
    If (CNot (CTok 1 (TIn ["("; "VALUES"; "ROW"]))) (* 2520 *)
     (
      Next (* 2522 *) ;;
      Push "insert" "target_name" (ECall F_parse_identifier []) (* 2523 *))
     Skip ;;
    If (CTok 1 (TIs "(")) (* 2525 *)
     (
      Next (* 2526 *) ;;
      Push "insert" "columns" (ECall F_parse_grouped_exprs [ABool (BConst false)]) (* 2527 *))
     Skip ;;
    If (CTok 1 (TIs "VALUES")) (* 2529 *)
     (
      Next (* 2530 *) ;;
      LetNode "values" (EConstruct N_KeywordWithExprs) (* 2531 *) ;;
      LetVec "lparens" XNew (* 2532 *) ;;
      While (CTok 1 (TIs "(")) (* 2533 *)
       (
        Next (* 2534 *) ;;
        LetNode "lparen" (ECall F_parse_grouped_exprs [ABool (BConst false)]) (* 2535 *) ;;
        If (CTok 1 (TIs ",")) (* 2536 *)
         (
          Next (* 2537 *) ;;
          Push "lparen" "comma" (EConstruct N_Symbol) (* 2538 *))
         Skip ;;
        VecPush "lparens" (EVar "lparen") (* 2540 *)) ;;
      PushVec "values" "exprs" (XVar "lparens") (* 2542 *) ;;
      Push "insert" "input" (EVar "values") (* 2543 *))
     (
      If (CTok 1 (TIs "ROW")) (* 2544 *)
       (
        Next (* 2545 *) ;;
        Push "insert" "input" (EConstruct N_Keyword) (* 2546 *))
       (
        Next (* 2548 *) ;;
        Push "insert" "input" (ECall F_parse_select_statement [ABool (BConst false); ABool (BConst true)]) (* 2549 *))) ;;
    If (CAnd (CTok 1 (TIs ";")) (CVar "semicolon")) (* 2551 *)
     (
      Next (* 2552 *) ;;
      Push "insert" "semicolon" (EConstruct N_Symbol) (* 2553 *))
     Skip ;;
    Return (EVar "insert") (* 2555 *))
|}.

(* parser.rs:2557-2587 *)
Definition parse_delete_statement : fundef fn := {|
  f_params := ["semicolon"];
  f_body := (
    LetNode "delete" (EConstruct N_DeleteStatement) (* 2558 *) ;;
    If (CTok 1 (TIs "FROM")) (* 2559 *)
     (
      Next (* 2560 *) ;;
      Push "delete" "from" (EConstruct N_Keyword) (* 2561 *))
     Skip ;;
    Next (* 2563 *) ;;
    LetNode "table_name" (ECall F_parse_identifier []) (* 2564 *) ;;
    If (CNot (CTok 1 (TIs "WHERE"))) (* 2565 *)
     (
      Next (* 2566 *) ;;
      If (CTok 0 (TIs "AS")) (* 2567 *)
       (
        Push "table_name" "as" (EConstruct N_Keyword) (* 2568 *) ;;
        Next (* 2569 *))
       Skip ;;
      Push "table_name" "alias" (EConstruct N_Identifier) (* 2571 *))
     Skip ;;
    Push "delete" "table_name" (EVar "table_name") (* 2573 *) ;;
    Next (* 2574 *) ;;
    LetNode "where_" (EConstruct N_KeywordWithExpr) (* 2575 *) ;;
    Next (* 2576 *) ;;
    Push "where_" "expr" (ECall F_parse_expr [ANum NumMax; ABool (BConst false); ABool (BConst false); ABool (BConst false); ABool (BConst true)]) (* 2577 *) ;;
    Push "delete" "where" (EVar "where_") (* 2581 *) ;;
    If (CAnd (CTok 1 (TIs ";")) (CVar "semicolon")) (* 2582 *)
     (
      Next (* 2583 *) ;;
      Push "delete" "semicolon" (EConstruct N_Symbol) (* 2584 *))
     Skip ;;
    Return (EVar "delete") (* 2586 *))
|}.

(* parser.rs:2588-2599 *)
Definition parse_truncate_statement : fundef fn := {|
  f_params := ["semicolon"];
  f_body := (
    LetNode "truncate" (EConstruct N_TruncateStatement) (* 2589 *) ;;
    Next (* 2590 *) ;;
    Push "truncate" "table" (EConstruct N_Keyword) (* 2591 *) ;;
    Next (* 2592 *) ;;
    Push "truncate" "table_name" (ECall F_parse_identifier []) (* 2593 *) ;;
    If (CAnd (CTok 1 (TIs ";")) (CVar "semicolon")) (* 2594 *)
     (
      Next (* 2595 *) ;;
      Push "truncate" "semicolon" (EConstruct N_Symbol) (* 2596 *))
     Skip ;;
    Return (EVar "truncate") (* 2598 *))
|}.

(* parser.rs:2600-2633 *)
Definition parse_update_statement : fundef fn := {|
  f_params := ["semicolon"];
  f_body := (
    LetNode "update" (EConstruct N_UpdateStatement) (* 2601 *) ;;
    If (CNot (CTok 1 (TIs "SET"))) (* 2602 *)
     (
      Next (* 2603 *) ;;
      Push "update" "table_name" (ECall F_parse_table [ABool (BConst true)]) (* 2604 *))
     Skip ;;
    Next (* 2606 *) ;;
    LetNode "set" (EConstruct N_KeywordWithExprs) (* 2607 *) ;;
    Next (* 2608 *) ;;
    PushVec "set" "exprs" (XCall F_parse_exprs [AStrs []; ABool (BConst false); ABool (BConst true)]) (* 2609 *) ;;
    If (CTok 1 (TIs "FROM")) (* 2610 *)
     (
      Next (* 2611 *) ;;
      LetNode "from" (EConstruct N_KeywordWithExpr) (* 2612 *) ;;
      Next (* 2613 *) ;;
      Push "from" "expr" (ECall F_parse_table [ABool (BConst true)]) (* 2614 *) ;;
      Push "update" "from" (EVar "from") (* 2615 *))
     Skip ;;
    Push "update" "set" (EVar "set") (* 2617 *) ;;
    If (CTok 1 (TIs "WHERE")) (* 2618 *)
     (
      Next (* 2619 *) ;;
      LetNode "where_" (EConstruct N_KeywordWithExpr) (* 2620 *) ;;
      Next (* 2621 *) ;;
      Push "where_" "expr" (ECall F_parse_expr [ANum NumMax; ABool (BConst false); ABool (BConst false); ABool (BConst false); ABool (BConst true)]) (* 2622 *) ;;
      Push "update" "where" (EVar "where_") (* 2626 *))
     Skip ;;
    If (CAnd (CTok 1 (TIs ";")) (CVar "semicolon")) (* 2628 *)
     (
      Next (* 2629 *) ;;
      Push "update" "semicolon" (EConstruct N_Symbol) (* 2630 *))
     Skip ;;
    Return (EVar "update") (* 2632 *))
|}.

(* parser.rs:2634-2714 *)
Definition parse_merge_statement : fundef fn := {|
  f_params := ["semicolon"];
  f_body := (
    LetNode "merge" (EConstruct N_MergeStatement) (* 2635 *) ;;
    If (CTok 1 (TIs "INTO")) (* 2636 *)
     (
      Next (* 2637 *) ;;
      Push "merge" "into" (EConstruct N_Keyword) (* 2638 *))
     Skip ;;
    Next (* 2640 *) ;;
    Push "merge" "table_name" (ECall F_parse_table [ABool (BConst true)]) (* 2641 *) ;;
    Next (* 2642 *) ;;
    LetNode "using" (EConstruct N_KeywordWithExpr) (* 2643 *) ;;
    Next (* 2644 *) ;;
    Push "using" "expr" (ECall F_parse_expr [ANum NumMax; ABool (BConst true); ABool (BConst false); ABool (BConst false); ABool (BConst true)]) (* 2645 *) ;;
    Push "merge" "using" (EVar "using") (* 2649 *) ;;
    If (CTok 1 (TIs ";")) (* 2650 *)
     (
      Next (* 2651 *) ;;
      Push "merge" "semicolon" (EConstruct N_Symbol) (* 2652 *))
     Skip ;;
    Next (* 2654 *) ;;
    LetNode "on" (EConstruct N_KeywordWithExpr) (* 2655 *) ;;
    Next (* 2656 *) ;;
    Push "on" "expr" (ECall F_parse_expr [ANum NumMax; ABool (BConst false); ABool (BConst false); ABool (BConst false); ABool (BConst true)]) (* 2657 *) ;;
    Push "merge" "on" (EVar "on") (* 2661 *) ;;
    LetVec "whens" XNew (* 2662 *) ;;
    While (CTok 1 (TIs "when")) (* 2663 *)
     (
      Next (* 2664 *) ;;
      LetNode "when" (EConstruct N_WhenClause) (* 2665 *) ;;
      If (CTok 1 (TIs "NOT")) (* 2666 *)
       (
        Next (* 2667 *) ;;
        Push "when" "not" (EConstruct N_Keyword) (* 2668 *))
       Skip ;;
      Next (* 2670 *) ;;
      Push "when" "matched" (EConstruct N_Keyword) (* 2671 *) ;;
      If (CTok 1 (TIs "BY")) (* 2672 *)
       (
        Next (* 2673 *) ;;
        LetNode "by" (EConstruct N_Keyword) (* 2674 *) ;;
        Next (* 2675 *) ;;
        LetNode "target" (EConstruct N_Keyword) (* 2676 *) ;;
        PushVec "when" "by_target_or_source" (XList [(EVar "by"); (EVar "target")]) (* 2677 *))
       Skip ;;
      If (CTok 1 (TIs "AND")) (* 2679 *)
       (
        Next (* 2680 *) ;;
        LetNode "and" (EConstruct N_KeywordWithExpr) (* 2681 *) ;;
        Next (* 2682 *) ;;
        LetNode "cond" (ECall F_parse_expr [ANum NumMax; ABool (BConst false); ABool (BConst false); ABool (BConst false); ABool (BConst true)]) (* 2683 *) ;;
        Push "and" "expr" (EVar "cond") (* 2684 *) ;;
        Push "when" "and" (EVar "and") (* 2685 *))
       Skip ;;
      Next (* 2687 *) ;;
      LetNode "then" (EConstruct N_KeywordWithStatement) (* 2688 *) ;;
      Next (* 2689 *) ;;
      Declare "stmt" (* 2690 *) ;;
      (CaseUpper 0 ["DELETE"] (* 2690 *)
        (
         SetNode "stmt" (EConstruct N_SingleTokenStatement) (* 2691 *))
      (CaseUpper 0 ["UPDATE"] (* 2690 *)
        (
         SetNode "stmt" (ECall F_parse_update_statement [ABool (BConst false)]) (* 2692 *))
      (CaseUpper 0 ["INSERT"] (* 2690 *)
        (
         SetNode "stmt" (ECall F_parse_insert_statement [ABool (BConst false)]) (* 2693 *))
       (
        Fail 0 "Expected `DELETE`, `UPDATE` or `INSERT` but got: " (Some 0) (* 2695 *))))) ;;
      Push "then" "stmt" (EVar "stmt") (* 2704 *) ;;
      Push "when" "then" (EVar "then") (* 2705 *) ;;
      VecPush "whens" (EVar "when") (* 2706 *)) ;;
    PushVec "merge" "whens" (XVar "whens") (* 2708 *) ;;
    If (CAnd (CTok 1 (TIs ";")) (CVar "semicolon")) (* 2709 *)
     (
      Next (* 2710 *) ;;
      Push "merge" "semicolon" (EConstruct N_Symbol) (* 2711 *))
     Skip ;;
    Return (EVar "merge") (* 2713 *))
|}.

(* parser.rs:2716-2757 *)
Definition parse_create_schema_statement : fundef fn := {|
  f_params := ["semicolon"];
  f_body := (
    LetNode "create" (EConstruct N_CreateSchemaStatement) (* 2717 *) ;;
    If (CTok 1 (TIs "EXTERNAL")) (* 2718 *)
     (
      Next (* 2719 *) ;;
      Push "create" "external" (EConstruct N_Keyword) (* 2720 *))
     Skip ;;
    Next (* 2722 *) ;;
    Push "create" "what" (EConstruct N_Keyword) (* 2723 *) ;;
    If (CTok 1 (TIs "IF")) (* 2724 *)
     (
      Next (* 2725 *) ;;
      PushVec "create" "if_not_exists" (XCall F_parse_n_keywords [ANum (NumC 3)]) (* 2726 *))
     Skip ;;
    Next (* 2728 *) ;;
    Push "create" "ident" (ECall F_parse_identifier []) (* 2729 *) ;;
    If (CTok 1 (TIs "DEFAULT")) (* 2730 *)
     (
      Next (* 2731 *) ;;
      LetNode "default" (EConstruct N_KeywordSequence) (* 2732 *) ;;
      Next (* 2733 *) ;;
      LetNode "collate" (EConstruct N_KeywordWithExpr) (* 2734 *) ;;
      Next (* 2735 *) ;;
      Push "collate" "expr" (ECall F_parse_expr [ANum NumMax; ABool (BConst false); ABool (BConst false); ABool (BConst false); ABool (BConst true)]) (* 2736 *) ;;
      Push "default" "next_keyword" (EVar "collate") (* 2741 *) ;;
      Push "create" "default_collate" (EVar "default") (* 2742 *))
     Skip ;;
    If (CAnd (CTok 1 (TIs "WITH")) (CTok 2 (TIs "CONNECTION"))) (* 2744 *)
     (
      Next (* 2745 *) ;;
      Push "create" "with_connection" (ECall F_parse_with_connection_clause []) (* 2746 *))
     Skip ;;
    If (CTok 1 (TIs "OPTIONS")) (* 2748 *)
     (
      Next (* 2749 *) ;;
      Push "create" "options" (ECall F_parse_keyword_with_grouped_exprs [ABool (BConst false)]) (* 2750 *))
     Skip ;;
    If (CAnd (CTok 1 (TIs ";")) (CVar "semicolon")) (* 2752 *)
     (
      Next (* 2753 *) ;;
      Push "create" "semicolon" (EConstruct N_Symbol) (* 2754 *))
     Skip ;;
    Return (EVar "create") (* 2756 *))
|}.

(* parser.rs:2758-2811 *)
Definition parse_create_search_index_statement : fundef fn := {|
  f_params := ["semicolon"];
  f_body := (
    LetNode "create" (EConstruct N_CreateIndexStatement) (* 2759 *) ;;
    If (CTok 1 (TIs "OR")) (* 2760 *)
     (
      Next (* 2761 *) ;;
      PushVec "create" "or_replace" (XCall F_parse_n_keywords [ANum (NumC 2)]) (* 2762 *))
     Skip ;;
    Next (* 2764 *) ;;
    LetNode "what" (EConstruct N_KeywordSequence) (* 2765 *) ;;
    Next (* 2766 *) ;;
    Push "what" "next_keyword" (EConstruct N_Keyword) (* 2767 *) ;;
    Push "create" "what" (EVar "what") (* 2768 *) ;;
    If (CTok 1 (TIs "IF")) (* 2769 *)
     (
      Next (* 2770 *) ;;
      PushVec "create" "if_not_exists" (XCall F_parse_n_keywords [ANum (NumC 3)]) (* 2771 *))
     Skip ;;
    Next (* 2773 *) ;;
    Push "create" "ident" (ECall F_parse_identifier []) (* 2774 *) ;;
    Next (* 2775 *) ;;
    Push "create" "on" (EConstruct N_Keyword) (* 2776 *) ;;
    Next (* 2777 *) ;;
    Push "create" "tablename" (ECall F_parse_identifier []) (* 2778 *) ;;
    Next (* 2780 *) ;;
    If (CTok 1 (TIs "ALL")) (* 2781 *)
     (
      LetNode "group" (EConstruct N_GroupedExpr) (* 2782 *) ;;
      Next (* 2783 *) ;;
      LetNode "all" (EConstruct N_KeywordSequence) (* 2784 *) ;;
      Next (* 2785 *) ;;
      Push "all" "next_keyword" (EConstruct N_Keyword) (* 2786 *) ;;
      Push "group" "expr" (EVar "all") (* 2787 *) ;;
      Next (* 2788 *) ;;
      Push "group" "rparen" (EConstruct N_Symbol) (* 2789 *) ;;
      Push "create" "column_group" (EVar "group") (* 2790 *))
     (
      Push "create" "column_group" (ECall F_parse_grouped_exprs [ABool (BConst false)]) (* 2792 *)) ;;
    If (CTok 1 (TIs "STORING")) (* 2794 *)
     (
      Next (* 2795 *) ;;
      Push "create" "storing" (ECall F_parse_keyword_with_grouped_exprs [ABool (BConst false)]) (* 2796 *))
     Skip ;;
    If (CTok 1 (TIs "PARTITION")) (* 2798 *)
     (
      Next (* 2799 *) ;;
      Push "create" "partitionby" (ECall F_parse_xxxby_exprs []) (* 2800 *))
     Skip ;;
    If (CTok 1 (TIs "OPTIONS")) (* 2802 *)
     (
      Next (* 2803 *) ;;
      Push "create" "options" (ECall F_parse_keyword_with_grouped_exprs [ABool (BConst false)]) (* 2804 *))
     Skip ;;
    If (CAnd (CTok 1 (TIs ";")) (CVar "semicolon")) (* 2806 *)
     (
      Next (* 2807 *) ;;
      Push "create" "semicolon" (EConstruct N_Symbol) (* 2808 *))
     Skip ;;
    Return (EVar "create") (* 2810 *))
|}.

(* parser.rs:2812-2922 *)
Definition parse_create_table_statement : fundef fn := {|
  f_params := ["semicolon"];
  f_body := (
    LetNode "create" (EConstruct N_CreateTableStatement) (* 2813 *) ;;
    LetBool "external" (CNot CTrue) (* 2814 *) ;;
    LetBool "snapshot" (CNot CTrue) (* 2815 *) ;;
    If (CTok 1 (TIs "OR")) (* 2816 *)
     (
      Next (* 2817 *) ;;
      PushVec "create" "or_replace" (XCall F_parse_n_keywords [ANum (NumC 2)]) (* 2818 *))
     Skip ;;
    If (CTok 1 (TIn ["TEMP"; "TEMPORARY"])) (* 2822 *)
     (
      Next (* 2823 *) ;;
      Push "create" "temp" (EConstruct N_Keyword) (* 2824 *))
     Skip ;;
    If (CTok 1 (TIs "EXTERNAL")) (* 2826 *)
     (
      SetBool "external" CTrue (* 2827 *) ;;
      Next (* 2828 *) ;;
      Push "create" "external" (EConstruct N_Keyword) (* 2829 *))
     Skip ;;
    If (CTok 1 (TIs "SNAPSHOT")) (* 2831 *)
     (
      SetBool "snapshot" CTrue (* 2832 *) ;;
      Next (* 2833 *) ;;
      Push "create" "snapshot" (EConstruct N_Keyword) (* 2834 *))
     Skip ;;
    Next (* 2836 *) ;;
    Push "create" "what" (EConstruct N_Keyword) (* 2837 *) ;;
    If (CTok 1 (TIs "IF")) (* 2838 *)
     (
      Next (* 2839 *) ;;
      PushVec "create" "if_not_exists" (XCall F_parse_n_keywords [ANum (NumC 3)]) (* 2840 *))
     Skip ;;
    Next (* 2842 *) ;;
    Push "create" "ident" (ECall F_parse_identifier []) (* 2843 *) ;;
    If (CTok 1 (TIn ["LIKE"; "COPY"])) (* 2844 *)
     (
      Next (* 2845 *) ;;
      Push "create" "like_or_copy" (EConstruct N_Keyword) (* 2846 *) ;;
      Next (* 2847 *) ;;
      Push "create" "source_table" (ECall F_parse_identifier []) (* 2848 *))
     Skip ;;
    If (CTok 1 (TIs "(")) (* 2850 *)
     (
      Next (* 2851 *) ;;
      Push "create" "column_schema_group" (ECall F_parse_grouped_type_declaration_or_constraints [ABool (BConst true); ABool (BConst false)]) (* 2852 *))
     Skip ;;
    If (CTok 1 (TIs "default")) (* 2857 *)
     (
      Next (* 2858 *) ;;
      LetNode "default" (EConstruct N_KeywordSequence) (* 2859 *) ;;
      Next (* 2860 *) ;;
      LetNode "collate" (EConstruct N_KeywordWithExpr) (* 2861 *) ;;
      Next (* 2862 *) ;;
      Push "collate" "expr" (EConstruct N_StringLiteral) (* 2863 *) ;;
      Push "default" "next_keyword" (EVar "collate") (* 2868 *) ;;
      Push "create" "default_collate" (EVar "default") (* 2869 *))
     Skip ;;
    If (CAnd (CAnd (CTok 1 (TIs "PARTITION")) (CNot (CVar "external"))) (CNot (CVar "snapshot"))) (* 2873 *)
     (
      Next (* 2874 *) ;;
      Push "create" "partitionby" (ECall F_parse_xxxby_exprs []) (* 2875 *))
     Skip ;;
    If (CAnd (CAnd (CTok 1 (TIs "CLUSTER")) (CNot (CVar "external"))) (CNot (CVar "snapshot"))) (* 2877 *)
     (
      Next (* 2878 *) ;;
      Push "create" "clusterby" (ECall F_parse_xxxby_exprs []) (* 2879 *))
     Skip ;;
    If (CAnd (CAnd (CTok 1 (TIs "WITH")) (CTok 2 (TIs "CONNECTION"))) (CVar "external")) (* 2881 *)
     (
      Next (* 2882 *) ;;
      Push "create" "with_connection" (ECall F_parse_with_connection_clause []) (* 2883 *))
     Skip ;;
    If (CAnd (CAnd (CTok 1 (TIs "WITH")) (CTok 2 (TIs "PARTITION"))) (CVar "external")) (* 2885 *)
     (
      Next (* 2886 *) ;;
      LetNode "with" (EConstruct N_WithPartitionColumnsClause) (* 2887 *) ;;
      Next (* 2888 *) ;;
      PushVec "with" "partition_columns" (XCall F_parse_n_keywords [ANum (NumC 2)]) (* 2889 *) ;;
      If (CTok 1 (TIs "(")) (* 2890 *)
       (
        Next (* 2891 *) ;;
        Push "with" "column_schema_group" (ECall F_parse_grouped_type_declaration_or_constraints [ABool (BConst false); ABool (BConst false)]) (* 2892 *))
       Skip ;;
      Push "create" "with_partition_columns" (EVar "with") (* 2897 *))
     Skip ;;
    If (CTok 1 (TIs "CLONE")) (* 2899 *)
     (
      Next (* 2900 *) ;;
      LetNode "clone" (EConstruct N_KeywordWithExpr) (* 2901 *) ;;
      Next (* 2902 *) ;;
      Push "clone" "expr" (ECall F_parse_table [ABool (BConst true)]) (* 2903 *) ;;
      Push "create" "clone" (EVar "clone") (* 2904 *))
     Skip ;;
    If (CTok 1 (TIs "OPTIONS")) (* 2906 *)
     (
      Next (* 2907 *) ;;
      Push "create" "options" (ECall F_parse_keyword_with_grouped_exprs [ABool (BConst false)]) (* 2908 *))
     Skip ;;
    If (CTok 1 (TIs "AS")) (* 2910 *)
     (
      Next (* 2911 *) ;;
      LetNode "as_" (EConstruct N_KeywordWithStatement) (* 2912 *) ;;
      Next (* 2913 *) ;;
      Push "as_" "stmt" (ECall F_parse_select_statement [ABool (BConst false); ABool (BConst true)]) (* 2914 *) ;;
      Push "create" "as" (EVar "as_") (* 2915 *))
     Skip ;;
    If (CAnd (CTok 1 (TIs ";")) (CVar "semicolon")) (* 2917 *)
     (
      Next (* 2918 *) ;;
      Push "create" "semicolon" (EConstruct N_Symbol) (* 2919 *))
     Skip ;;
    Return (EVar "create") (* 2921 *))
|}.

(* parser.rs:2923-3009 *)
Definition parse_create_view_statement : fundef fn := {|
  f_params := ["semicolon"];
  f_body := (
    LetNode "create" (EConstruct N_CreateViewStatement) (* 2925 *) ;;
    LetBool "materialized" (CNot CTrue) (* 2926 *) ;;
    If (CTok 1 (TIs "OR")) (* 2929 *)
     (
      Next (* 2930 *) ;;
      PushVec "create" "or_replace" (XCall F_parse_n_keywords [ANum (NumC 2)]) (* 2931 *))
     Skip ;;
    If (CTok 1 (TIs "MATERIALIZED")) (* 2933 *)
     (
      SetBool "materialized" CTrue (* 2934 *) ;;
      Next (* 2935 *) ;;
      Push "create" "materialized" (EConstruct N_Keyword) (* 2936 *))
     Skip ;;
    Next (* 2938 *) ;;
    Push "create" "what" (EConstruct N_Keyword) (* 2939 *) ;;
    If (CTok 1 (TIs "IF")) (* 2940 *)
     (
      Next (* 2941 *) ;;
      PushVec "create" "if_not_exists" (XCall F_parse_n_keywords [ANum (NumC 3)]) (* 2942 *))
     Skip ;;
    Next (* 2944 *) ;;
    Push "create" "ident" (ECall F_parse_identifier []) (* 2945 *) ;;
    If (CAnd (CTok 1 (TIs "(")) (CNot (CVar "materialized"))) (* 2946 *)
     (
      Next (* 2947 *) ;;
      LetNode "column_name_list" (EConstruct N_GroupedIdentWithOptions) (* 2948 *) ;;
      LetVec "idents" XNew (* 2949 *) ;;
      While CTrue (* 2950 *)
       (
        Next (* 2951 *) ;;
        If (CTok 0 (TIs ")")) (* 2952 *)
         (
          Push "column_name_list" "rparen" (EConstruct N_Symbol) (* 2953 *) ;;
          Break (* 2954 *))
         Skip ;;
        LetNode "ident" (ECall F_parse_identifier []) (* 2956 *) ;;
        SetType "ident" N_IdentWithOptions (* 2957 *) ;;
        If (CTok 1 (TIs "OPTIONS")) (* 2958 *)
         (
          Next (* 2959 *) ;;
          Push "ident" "options" (ECall F_parse_keyword_with_grouped_exprs [ABool (BConst false)]) (* 2960 *))
         Skip ;;
        If (CTok 1 (TIs ",")) (* 2962 *)
         (
          Next (* 2963 *) ;;
          Push "ident" "comma" (EConstruct N_Symbol) (* 2964 *))
         Skip ;;
        VecPush "idents" (EVar "ident") (* 2966 *)) ;;
      PushVec "column_name_list" "idents" (XVar "idents") (* 2968 *) ;;
      Push "create" "column_name_list" (EVar "column_name_list") (* 2969 *))
     Skip ;;
    If (CAnd (CTok 1 (TIs "PARTITION")) (CVar "materialized")) (* 2971 *)
     (
      Next (* 2972 *) ;;
      Push "create" "partitionby" (ECall F_parse_xxxby_exprs []) (* 2973 *))
     Skip ;;
    If (CAnd (CTok 1 (TIs "CLUSTER")) (CVar "materialized")) (* 2975 *)
     (
      Next (* 2976 *) ;;
      Push "create" "clusterby" (ECall F_parse_xxxby_exprs []) (* 2977 *))
     Skip ;;
    If (CTok 1 (TIs "OPTIONS")) (* 2979 *)
     (
      Next (* 2980 *) ;;
      Push "create" "options" (ECall F_parse_keyword_with_grouped_exprs [ABool (BConst false)]) (* 2981 *))
     Skip ;;
    If (CTok 1 (TIs "AS")) (* 2983 *)
     (
      Next (* 2984 *) ;;
      If (CTok 1 (TIs "REPLICA")) (* 2985 *)
       (
        LetNode "as_" (EConstruct N_KeywordSequence) (* 2986 *) ;;
        Next (* 2987 *) ;;
        LetNode "replica" (EConstruct N_KeywordSequence) (* 2988 *) ;;
        Next (* 2989 *) ;;
        LetNode "of" (EConstruct N_KeywordWithExpr) (* 2990 *) ;;
        Next (* 2991 *) ;;
        Push "of" "expr" (ECall F_parse_identifier []) (* 2993 *) ;;
        Push "replica" "next_keyword" (EVar "of") (* 2994 *) ;;
        Push "as_" "next_keyword" (EVar "replica") (* 2995 *) ;;
        Push "create" "as" (EVar "as_") (* 2996 *))
       (
        LetNode "as_" (EConstruct N_KeywordWithStatement) (* 2998 *) ;;
        Next (* 2999 *) ;;
        Push "as_" "stmt" (ECall F_parse_select_statement [ABool (BConst false); ABool (BConst true)]) (* 3000 *) ;;
        Push "create" "as" (EVar "as_") (* 3001 *)))
     Skip ;;
    If (CAnd (CTok 1 (TIs ";")) (CVar "semicolon")) (* 3004 *)
     (
      Next (* 3005 *) ;;
      Push "create" "semicolon" (EConstruct N_Symbol) (* 3006 *))
     Skip ;;
    Return (EVar "create") (* 3008 *))
|}.

(* parser.rs:3010-3132 *)
Definition parse_create_function_statement : fundef fn := {|
  f_params := ["semicolon"];
  f_body := (
    LetNode "node" (EConstruct N_CreateFunctionStatement) (* 3011 *) ;;
    LetBool "is_tvf" (CNot CTrue) (* 3012 *) ;;
    If (CTok 1 (TUpperIs "OR")) (* 3013 *)
     (
      Next (* 3014 *) ;;
      PushVec "node" "or_replace" (XCall F_parse_n_keywords [ANum (NumC 2)]) (* 3015 *))
     Skip ;;
    If (CTok 1 (TIn ["TEMPORARY"; "TEMP"])) (* 3017 *)
     (
      Next (* 3018 *) ;;
      Push "node" "temp" (EConstruct N_Keyword) (* 3019 *))
     Skip ;;
    If (CTok 1 (TIs "TABLE")) (* 3021 *)
     (
      Next (* 3022 *) ;;
      Push "node" "table" (EConstruct N_Keyword) (* 3023 *) ;;
      SetBool "is_tvf" CTrue (* 3024 *))
     Skip ;;
    If (CTok 1 (TIs "AGGREGATE")) (* 3026 *)
     (
      Next (* 3027 *) ;;
      Push "node" "aggregate" (EConstruct N_Keyword) (* 3028 *))
     Skip ;;
    Next (* 3030 *) ;;
    Push "node" "what" (EConstruct N_Keyword) (* 3031 *) ;;
    If (CTok 1 (TIn ["IF"])) (* 3032 *)
     (
      Next (* 3033 *) ;;
      PushVec "node" "if_not_exists" (XCall F_parse_n_keywords [ANum (NumC 3)]) (* 3034 *))
     Skip ;;
    Next (* 3036 *) ;;
    Push "node" "ident" (ECall F_parse_identifier []) (* 3037 *) ;;
    Next (* 3038 *) ;;
    Push "node" "group" (ECall F_parse_grouped_type_declaration_or_constraints [ABool (BConst false); ABool (BConst true)]) (* 3039 *) ;;
    If (CTok 1 (TIs "RETURNS")) (* 3043 *)
     (
      Next (* 3044 *) ;;
      LetNode "returns" (EConstruct N_KeywordWithType) (* 3045 *) ;;
      Next (* 3046 *) ;;
      Push "returns" "type" (ECall F_parse_type [ABool (BConst false); ABool (BConst false)]) (* 3047 *) ;;
      Push "node" "returns" (EVar "returns") (* 3048 *))
     Skip ;;
    If (CTok 1 (TIs "REMOTE")) (* 3050 *)
     (
      Next (* 3051 *) ;;
      Push "node" "remote" (EConstruct N_Keyword) (* 3052 *) ;;
      Next (* 3054 *) ;;
      LetNode "with" (EConstruct N_KeywordSequence) (* 3055 *) ;;
      Next (* 3056 *) ;;
      LetNode "connection" (EConstruct N_KeywordWithExpr) (* 3057 *) ;;
      Next (* 3058 *) ;;
      Push "connection" "expr" (ECall F_parse_identifier []) (* 3059 *) ;;
      Push "with" "next_keyword" (EVar "connection") (* 3060 *) ;;
      Push "node" "connection" (EVar "with") (* 3061 *) ;;
      If (CTok 1 (TIs "OPTIONS")) (* 3063 *)
       (
        Next (* 3064 *) ;;
        Push "node" "options" (ECall F_parse_keyword_with_grouped_exprs [ABool (BConst false)]) (* 3065 *))
       Skip)
     (
      If (CTok 1 (TIs "AS")) (* 3067 *)
       (
        Next (* 3069 *) ;;
        If (CVar "is_tvf") (* 3070 *)
         (
          LetNode "as_" (EConstruct N_KeywordWithStatement) (* 3071 *) ;;
          Next (* 3072 *) ;;
          Push "as_" "stmt" (ECall F_parse_select_statement [ABool (BConst false); ABool (BConst true)]) (* 3073 *) ;;
          Push "node" "as" (EVar "as_") (* 3074 *))
         (
          LetNode "as_" (EConstruct N_KeywordWithGroupedXXX) (* 3076 *) ;;
          Next (* 3077 *) ;;
          LetNode "group" (EConstruct N_GroupedExpr) (* 3078 *) ;;
          Next (* 3079 *) ;;
          Push "group" "expr" (ECall F_parse_expr [ANum NumMax; ABool (BConst false); ABool (BConst false); ABool (BConst false); ABool (BConst true)]) (* 3080 *) ;;
          Next (* 3084 *) ;;
          Push "group" "rparen" (EConstruct N_Symbol) (* 3085 *) ;;
          Push "as_" "group" (EVar "group") (* 3086 *) ;;
          Push "node" "as" (EVar "as_") (* 3087 *)))
       (
        If (CTok 1 (TIn ["DETERMINISTIC"; "NOT"])) (* 3091 *)
         (
          Next (* 3092 *) ;;
          If (CTok 0 (TIs "NOT")) (* 3093 *)
           (
            PushVec "node" "determinism" (XCall F_parse_n_keywords [ANum (NumC 2)]) (* 3094 *))
           (
            PushVec "node" "determinism" (XCall F_parse_n_keywords [ANum (NumC 1)]) (* 3096 *)))
         Skip ;;
        Next (* 3099 *) ;;
        LetNode "language" (EConstruct N_KeywordWithExpr) (* 3100 *) ;;
        Next (* 3101 *) ;;
        Push "language" "expr" (EConstruct N_Identifier) (* 3102 *) ;;
        Push "node" "language" (EVar "language") (* 3103 *) ;;
        If (CTok 1 (TIs "WITH")) (* 3104 *)
         (
          Next (* 3105 *) ;;
          LetNode "with" (EConstruct N_KeywordSequence) (* 3106 *) ;;
          Next (* 3107 *) ;;
          LetNode "connection" (EConstruct N_KeywordWithExpr) (* 3108 *) ;;
          Next (* 3109 *) ;;
          Push "connection" "expr" (ECall F_parse_identifier []) (* 3110 *) ;;
          Push "with" "next_keyword" (EVar "connection") (* 3111 *) ;;
          Push "node" "connection" (EVar "with") (* 3112 *))
         Skip ;;
        If (CTok 1 (TIs "OPTIONS")) (* 3114 *)
         (
          Next (* 3115 *) ;;
          Push "node" "options" (ECall F_parse_keyword_with_grouped_exprs [ABool (BConst false)]) (* 3116 *))
         Skip ;;
        Next (* 3118 *) ;;
        LetNode "as_" (EConstruct N_KeywordWithExpr) (* 3119 *) ;;
        Next (* 3120 *) ;;
        Push "as_" "expr" (ECall F_parse_expr [ANum NumMax; ABool (BConst false); ABool (BConst false); ABool (BConst false); ABool (BConst true)]) (* 3121 *) ;;
        Push "node" "as" (EVar "as_") (* 3125 *))) ;;
    If (CAnd (CTok 1 (TIs ";")) (CVar "semicolon")) (* 3127 *)
     (
      Next (* 3128 *) ;;
      Push "node" "semicolon" (EConstruct N_Symbol) (* 3129 *))
     Skip ;;
    Return (EVar "node") (* 3131 *))
|}.

(* parser.rs:3133-3196 *)
Definition parse_create_procedure_statement : fundef fn := {|
  f_params := ["semicolon"];
  f_body := (
    LetNode "create" (EConstruct N_CreateProcedureStatement) (* 3134 *) ;;
    If (CTok 1 (TIs "OR")) (* 3135 *)
     (
      Next (* 3136 *) ;;
      PushVec "create" "or_replace" (XCall F_parse_n_keywords [ANum (NumC 2)]) (* 3137 *))
     Skip ;;
    Next (* 3139 *) ;;
    Push "create" "what" (EConstruct N_Keyword) (* 3140 *) ;;
    If (CTok 1 (TIs "IF")) (* 3141 *)
     (
      Next (* 3142 *) ;;
      PushVec "create" "if_not_exists" (XCall F_parse_n_keywords [ANum (NumC 3)]) (* 3143 *))
     Skip ;;
    Next (* 3145 *) ;;
    Push "create" "ident" (ECall F_parse_identifier []) (* 3146 *) ;;
    Next (* 3147 *) ;;
    Push "create" "group" (ECall F_parse_grouped_type_declaration_or_constraints [ABool (BConst true); ABool (BConst false)]) (* 3148 *) ;;
    If (CTok 1 (TIs "EXTERNAL")) (* 3152 *)
     (
      Next (* 3153 *) ;;
      LetNode "external" (EConstruct N_KeywordSequence) (* 3154 *) ;;
      Next (* 3155 *) ;;
      LetNode "security" (EConstruct N_KeywordSequence) (* 3156 *) ;;
      Next (* 3157 *) ;;
      LetNode "external_security" (EConstruct N_Keyword) (* 3158 *) ;;
      Push "security" "next_keyword" (EVar "external_security") (* 3159 *) ;;
      Push "external" "next_keyword" (EVar "security") (* 3160 *) ;;
      Push "create" "external" (EVar "external") (* 3161 *))
     Skip ;;
    If (CTok 1 (TIs "WITH")) (* 3163 *)
     (
      Next (* 3164 *) ;;
      Push "create" "with_connection" (ECall F_parse_with_connection_clause []) (* 3165 *))
     Skip ;;
    If (CTok 1 (TIs "OPTIONS")) (* 3167 *)
     (
      Next (* 3168 *) ;;
      Push "create" "options" (ECall F_parse_keyword_with_grouped_exprs [ABool (BConst false)]) (* 3169 *))
     Skip ;;
    If (CTok 1 (TIs "LANGUAGE")) (* 3171 *)
     (
      Next (* 3172 *) ;;
      LetNode "language" (EConstruct N_KeywordWithExpr) (* 3173 *) ;;
      Next (* 3174 *) ;;
      Push "language" "expr" (EConstruct N_Identifier) (* 3175 *) ;;
      Push "create" "language" (EVar "language") (* 3176 *))
     Skip ;;
    If (CTok 1 (TIs "BEGIN")) (* 3178 *)
     (
      Next (* 3179 *) ;;
      Push "create" "stmt" (ECall F_parse_begin_statement [ABool (BConst false)]) (* 3180 *))
     (
      If (CTok 1 (TIs "AS")) (* 3181 *)
       (
        Next (* 3182 *) ;;
        LetNode "as_" (EConstruct N_KeywordWithExpr) (* 3183 *) ;;
        Next (* 3184 *) ;;
        Push "as_" "expr" (ECall F_parse_expr [ANum NumMax; ABool (BConst false); ABool (BConst false); ABool (BConst false); ABool (BConst true)]) (* 3185 *) ;;
        Push "create" "as" (EVar "as_") (* 3189 *))
       Skip) ;;
    If (CAnd (CTok 1 (TIs ";")) (CVar "semicolon")) (* 3191 *)
     (
      Next (* 3192 *) ;;
      Push "create" "semicolon" (EConstruct N_Symbol) (* 3193 *))
     Skip ;;
    Return (EVar "create") (* 3195 *))
|}.

(* parser.rs:3197-3241 *)
Definition parse_create_row_access_policy_statement : fundef fn := {|
  f_params := ["semicolon"];
  f_body := (
    LetNode "create" (EConstruct N_CreateRowAccessPolicyStatement) (* 3198 *) ;;
    If (CTok 1 (TIs "OR")) (* 3199 *)
     (
      Next (* 3200 *) ;;
      PushVec "create" "or_replace" (XCall F_parse_n_keywords [ANum (NumC 2)]) (* 3201 *))
     Skip ;;
    Next (* 3203 *) ;;
    PushVec "create" "what" (XCall F_parse_n_keywords [ANum (NumC 3)]) (* 3204 *) ;;
    If (CTok 1 (TIs "IF")) (* 3205 *)
     (
      Next (* 3206 *) ;;
      PushVec "create" "if_not_exists" (XCall F_parse_n_keywords [ANum (NumC 3)]) (* 3207 *))
     Skip ;;
    Next (* 3209 *) ;;
    Push "create" "ident" (ECall F_parse_identifier []) (* 3210 *) ;;
    Next (* 3211 *) ;;
    LetNode "on" (EConstruct N_KeywordWithExpr) (* 3212 *) ;;
    Next (* 3213 *) ;;
    Push "on" "expr" (ECall F_parse_identifier []) (* 3214 *) ;;
    Push "create" "on" (EVar "on") (* 3215 *) ;;
    If (CTok 1 (TIs "GRANT")) (* 3216 *)
     (
      Next (* 3217 *) ;;
      Push "create" "grant" (EConstruct N_Keyword) (* 3218 *) ;;
      Next (* 3219 *) ;;
      LetNode "to" (EConstruct N_KeywordWithGroupedXXX) (* 3220 *) ;;
      Next (* 3221 *) ;;
      Push "to" "group" (ECall F_parse_grouped_exprs [ABool (BConst false)]) (* 3222 *) ;;
      Push "create" "to" (EVar "to") (* 3223 *))
     Skip ;;
    Next (* 3225 *) ;;
    Push "create" "filter" (EConstruct N_Keyword) (* 3226 *) ;;
    Next (* 3227 *) ;;
    LetNode "using" (EConstruct N_KeywordWithExpr) (* 3228 *) ;;
    Next (* 3229 *) ;;
    Push "using" "expr" (ECall F_parse_expr [ANum NumMax; ABool (BConst false); ABool (BConst false); ABool (BConst false); ABool (BConst true)]) (* 3230 *) ;;
    Push "create" "using" (EVar "using") (* 3234 *) ;;
    If (CAnd (CTok 1 (TIs ";")) (CVar "semicolon")) (* 3236 *)
     (
      Next (* 3237 *) ;;
      Push "create" "semicolon" (EConstruct N_Symbol) (* 3238 *))
     Skip ;;
    Return (EVar "create") (* 3240 *))
|}.

(* parser.rs:3242-3327 *)
Definition parse_create_model_statement : fundef fn := {|
  f_params := ["semicolon"];
  f_body := (
    LetNode "create" (EConstruct N_CreateModelStatement) (* 3243 *) ;;
    If (CTok 1 (TIs "OR")) (* 3244 *)
     (
      Next (* 3245 *) ;;
      PushVec "create" "or_replace" (XCall F_parse_n_keywords [ANum (NumC 2)]) (* 3246 *))
     Skip ;;
    Next (* 3248 *) ;;
    Push "create" "what" (EConstruct N_Keyword) (* 3249 *) ;;
    If (CTok 1 (TIs "IF")) (* 3250 *)
     (
      Next (* 3251 *) ;;
      PushVec "create" "if_not_exists" (XCall F_parse_n_keywords [ANum (NumC 3)]) (* 3252 *))
     Skip ;;
    Next (* 3254 *) ;;
    Push "create" "ident" (ECall F_parse_identifier []) (* 3255 *) ;;
    If (CTok 1 (TIs "TRANSFORM")) (* 3256 *)
     (
      Next (* 3257 *) ;;
      Push "create" "transform" (ECall F_parse_keyword_with_grouped_exprs [ABool (BConst true)]) (* 3258 *))
     Skip ;;
    If (CTok 1 (TIs "INPUT")) (* 3260 *)
     (
      Next (* 3261 *) ;;
      LetNode "input" (EConstruct N_KeywordWithGroupedXXX) (* 3262 *) ;;
      Next (* 3263 *) ;;
      Push "input" "group" (ECall F_parse_grouped_type_declaration_or_constraints [ABool (BConst false); ABool (BConst false)]) (* 3264 *) ;;
      Push "create" "input" (EVar "input") (* 3268 *))
     Skip ;;
    If (CTok 1 (TIs "OUTPUT")) (* 3270 *)
     (
      Next (* 3271 *) ;;
      LetNode "output" (EConstruct N_KeywordWithGroupedXXX) (* 3272 *) ;;
      Next (* 3273 *) ;;
      Push "output" "group" (ECall F_parse_grouped_type_declaration_or_constraints [ABool (BConst false); ABool (BConst false)]) (* 3274 *) ;;
      Push "create" "output" (EVar "output") (* 3278 *))
     Skip ;;
    If (CTok 1 (TIs "REMOTE")) (* 3280 *)
     (
      Next (* 3281 *) ;;
      LetNode "remote" (EConstruct N_KeywordSequence) (* 3282 *) ;;
      Next (* 3283 *) ;;
      LetNode "with" (EConstruct N_KeywordSequence) (* 3284 *) ;;
      Next (* 3285 *) ;;
      LetNode "connection" (EConstruct N_KeywordWithExpr) (* 3286 *) ;;
      Next (* 3287 *) ;;
      If (CTok 0 (TIs "DEFAULT")) (* 3288 *)
       (
        Push "connection" "expr" (EConstruct N_Keyword) (* 3289 *))
       (
        Push "connection" "expr" (ECall F_parse_identifier []) (* 3291 *)) ;;
      Push "with" "next_keyword" (EVar "connection") (* 3293 *) ;;
      Push "remote" "next_keyword" (EVar "with") (* 3294 *) ;;
      Push "create" "remote" (EVar "remote") (* 3295 *))
     Skip ;;
    If (CTok 1 (TIs "OPTIONS")) (* 3297 *)
     (
      Next (* 3298 *) ;;
      Push "create" "options" (ECall F_parse_keyword_with_grouped_exprs [ABool (BConst false)]) (* 3299 *))
     Skip ;;
    If (CTok 1 (TIs "AS")) (* 3301 *)
     (
      Next (* 3302 *) ;;
      If (CTok 2 (TIs "training_data")) (* 3303 *)
       (
        LetNode "as_" (EConstruct N_KeywordWithGroupedXXX) (* 3304 *) ;;
        Next (* 3305 *) ;;
        LetNode "group" (EConstruct N_TrainingDataCustomHolidayClause) (* 3306 *) ;;
        Next (* 3307 *) ;;
        Push "group" "training_data" (ECall F_parse_cte []) (* 3308 *) ;;
        Next (* 3309 *) ;;
        Push "group" "custom_holiday" (ECall F_parse_cte []) (* 3310 *) ;;
        Next (* 3311 *) ;;
        Push "group" "rparen" (EConstruct N_Symbol) (* 3312 *) ;;
        Push "as_" "group" (EVar "group") (* 3313 *) ;;
        Push "create" "training_data_custom_holiday" (EVar "as_") (* 3314 *))
       (
        LetNode "as_" (EConstruct N_KeywordWithStatement) (* 3316 *) ;;
        Next (* 3317 *) ;;
        Push "as_" "stmt" (ECall F_parse_select_statement [ABool (BConst false); ABool (BConst true)]) (* 3318 *) ;;
        Push "create" "query" (EVar "as_") (* 3319 *)))
     Skip ;;
    If (CAnd (CTok 1 (TIs ";")) (CVar "semicolon")) (* 3322 *)
     (
      Next (* 3323 *) ;;
      Push "create" "semicolon" (EConstruct N_Symbol) (* 3324 *))
     Skip ;;
    Return (EVar "create") (* 3326 *))
|}.

(* parser.rs:3328-3398 *)
Definition parse_alter_schema_statement : fundef fn := {|
  f_params := ["semicolon"];
  f_body := (
    LetNode "alter" (EConstruct N_AlterSchemaStatement) (* 3329 *) ;;
    Next (* 3330 *) ;;
    Push "alter" "what" (EConstruct N_Keyword) (* 3331 *) ;;
    If (CTok 1 (TIs "IF")) (* 3332 *)
     (
      Next (* 3333 *) ;;
      PushVec "alter" "if_exists" (XCall F_parse_n_keywords [ANum (NumC 2)]) (* 3334 *))
     Skip ;;
    Next (* 3336 *) ;;
    Push "alter" "ident" (ECall F_parse_identifier []) (* 3337 *) ;;
    Next (* 3338 *) ;;
    (CaseUpper 0 ["SET"] (* 3339 *)
      (
       Push "alter" "set" (EConstruct N_Keyword) (* 3341 *) ;;
       If (CTok 1 (TIs "DEFAULT")) (* 3342 *)
        (
         Next (* 3343 *) ;;
         LetNode "default" (EConstruct N_KeywordSequence) (* 3344 *) ;;
         Next (* 3345 *) ;;
         LetNode "collate" (EConstruct N_KeywordWithExpr) (* 3346 *) ;;
         Next (* 3347 *) ;;
         Push "collate" "expr" (EConstruct N_StringLiteral) (* 3348 *) ;;
         Push "default" "next_keyword" (EVar "collate") (* 3353 *) ;;
         Push "alter" "default_collate" (EVar "default") (* 3354 *))
        Skip)
    (CaseUpper 0 ["ADD"] (* 3339 *)
      (
       LetNode "add" (EConstruct N_KeywordSequence) (* 3358 *) ;;
       Next (* 3359 *) ;;
       LetNode "replica" (EConstruct N_KeywordWithExpr) (* 3360 *) ;;
       Next (* 3361 *) ;;
       LetNode "ident" (ECall F_parse_identifier []) (* 3362 *) ;;
       Push "replica" "expr" (EVar "ident") (* 3364 *) ;;
       Push "add" "next_keyword" (EVar "replica") (* 3365 *) ;;
       Push "alter" "add" (EVar "add") (* 3366 *))
    (CaseUpper 0 ["DROP"] (* 3339 *)
      (
       LetNode "drop" (EConstruct N_KeywordSequence) (* 3369 *) ;;
       Next (* 3370 *) ;;
       LetNode "replica" (EConstruct N_KeywordWithExpr) (* 3371 *) ;;
       Next (* 3372 *) ;;
       LetNode "ident" (ECall F_parse_identifier []) (* 3373 *) ;;
       Push "replica" "expr" (EVar "ident") (* 3375 *) ;;
       Push "drop" "next_keyword" (EVar "replica") (* 3376 *) ;;
       Push "alter" "drop" (EVar "drop") (* 3377 *))
     (
      Fail 0 "Expected `SET`, `ADD` or `DROP` but got: " (Some 0) (* 3380 *))))) ;;
    If (CTok 1 (TIs "OPTIONS")) (* 3389 *)
     (
      Next (* 3390 *) ;;
      Push "alter" "options" (ECall F_parse_keyword_with_grouped_exprs [ABool (BConst false)]) (* 3391 *))
     Skip ;;
    If (CAnd (CTok 1 (TIs ";")) (CVar "semicolon")) (* 3393 *)
     (
      Next (* 3394 *) ;;
      Push "alter" "semicolon" (EConstruct N_Symbol) (* 3395 *))
     Skip ;;
    Return (EVar "alter") (* 3397 *))
|}.

(* parser.rs:3399-3568 *)
Definition parse_alter_table_statement : fundef fn := {|
  f_params := ["semicolon"];
  f_body := (
    LetNode "alter" (EConstruct N_AlterTableStatement) (* 3400 *) ;;
    Next (* 3401 *) ;;
    Push "alter" "what" (EConstruct N_Keyword) (* 3402 *) ;;
    If (CTok 1 (TIs "IF")) (* 3403 *)
     (
      Next (* 3404 *) ;;
      PushVec "alter" "if_exists" (XCall F_parse_n_keywords [ANum (NumC 2)]) (* 3405 *))
     Skip ;;
    Next (* 3407 *) ;;
    Push "alter" "ident" (ECall F_parse_identifier []) (* 3408 *) ;;
    (CaseUpper 1 ["SET"] (* 3409 *)
      (
       Next (* 3411 *) ;;
       Push "alter" "set" (EConstruct N_Keyword) (* 3412 *) ;;
       If (CTok 1 (TIs "OPTIONS")) (* 3413 *)
        (
         Next (* 3414 *) ;;
         Push "alter" "options" (ECall F_parse_keyword_with_grouped_exprs [ABool (BConst false)]) (* 3415 *))
        (
         If (CTok 1 (TIs "DEFAULT")) (* 3416 *)
          (
           Next (* 3417 *) ;;
           LetNode "default" (EConstruct N_KeywordSequence) (* 3418 *) ;;
           Next (* 3419 *) ;;
           LetNode "collate" (EConstruct N_KeywordWithExpr) (* 3420 *) ;;
           Next (* 3421 *) ;;
           Push "collate" "expr" (EConstruct N_StringLiteral) (* 3422 *) ;;
           Push "default" "next_keyword" (EVar "collate") (* 3427 *) ;;
           Push "alter" "default_collate" (EVar "default") (* 3428 *))
          Skip))
    (CaseUpper 1 ["ADD"] (* 3409 *)
      (
       If (CTok 2 (TIs "COLUMN")) (* 3432 *)
        (
         LetVec "add_columns" XNew (* 3433 *) ;;
         While (CTok 1 (TIs "ADD")) (* 3434 *)
          (
           Next (* 3435 *) ;;
           LetNode "add_column" (EConstruct N_AddColumnClause) (* 3436 *) ;;
           Next (* 3437 *) ;;
           Push "add_column" "what" (EConstruct N_Keyword) (* 3438 *) ;;
           If (CTok 1 (TIs "IF")) (* 3439 *)
            (
             Next (* 3440 *) ;;
             PushVec "add_column" "if_not_exists" (XCall F_parse_n_keywords [ANum (NumC 3)]) (* 3441 *))
            Skip ;;
           Next (* 3443 *) ;;
           LetNode "ident" (EConstruct N_TypeDeclaration) (* 3444 *) ;;
           Next (* 3445 *) ;;
           Push "ident" "type" (ECall F_parse_type [ABool (BConst true); ABool (BConst false)]) (* 3446 *) ;;
           Push "add_column" "type_declaration" (EVar "ident") (* 3447 *) ;;
           If (CTok 1 (TIs ",")) (* 3448 *)
            (
             Next (* 3449 *) ;;
             Push "add_column" "comma" (EConstruct N_Symbol) (* 3450 *))
            Skip ;;
           VecPush "add_columns" (EVar "add_column") (* 3452 *)) ;;
         PushVec "alter" "add_columns" (XVar "add_columns") (* 3454 *))
        (
         LetVec "add_constraints" XNew (* 3456 *) ;;
         While (CTok 1 (TIs "ADD")) (* 3457 *)
          (
           Next (* 3458 *) ;;
           LetNode "add_constraint" (EConstruct N_AddConstraintClause) (* 3459 *) ;;
           Next (* 3461 *) ;;
           LetNode "constraint" (ECall F_parse_constraint []) (* 3462 *) ;;
           If (CTok 1 (TIs ",")) (* 3463 *)
            (
             Next (* 3464 *) ;;
             Push "add_constraint" "comma" (EConstruct N_Symbol) (* 3465 *))
            Skip ;;
           Push "add_constraint" "what" (EVar "constraint") (* 3468 *) ;;
           VecPush "add_constraints" (EVar "add_constraint") (* 3469 *)) ;;
         PushVec "alter" "add_constraints" (XVar "add_constraints") (* 3471 *)))
    (CaseUpper 1 ["RENAME"] (* 3409 *)
      (
       If (CTok 2 (TIs "TO")) (* 3475 *)
        (
         Next (* 3476 *) ;;
         Push "alter" "rename" (EConstruct N_Keyword) (* 3477 *) ;;
         Next (* 3478 *) ;;
         LetNode "to" (EConstruct N_KeywordWithExpr) (* 3479 *) ;;
         Next (* 3480 *) ;;
         Push "to" "expr" (ECall F_parse_identifier []) (* 3481 *) ;;
         Push "alter" "to" (EVar "to") (* 3482 *))
        (
         LetVec "rename_columns" XNew (* 3484 *) ;;
         While (CTok 1 (TIs "RENAME")) (* 3485 *)
          (
           Next (* 3486 *) ;;
           LetNode "rename" (EConstruct N_RenameColumnClause) (* 3487 *) ;;
           Next (* 3488 *) ;;
           Push "rename" "column" (EConstruct N_Keyword) (* 3489 *) ;;
           If (CTok 1 (TIs "IF")) (* 3490 *)
            (
             Next (* 3491 *) ;;
             LetNode "if_" (EConstruct N_KeywordSequence) (* 3492 *) ;;
             Next (* 3493 *) ;;
             Push "if_" "next_keyword" (EConstruct N_Keyword) (* 3494 *) ;;
             Push "rename" "if_exists" (EVar "if_") (* 3495 *))
            Skip ;;
           Next (* 3497 *) ;;
           Push "rename" "ident" (ECall F_parse_identifier []) (* 3498 *) ;;
           Next (* 3499 *) ;;
           LetNode "to" (EConstruct N_KeywordWithExpr) (* 3500 *) ;;
           Next (* 3501 *) ;;
           Push "to" "expr" (ECall F_parse_identifier []) (* 3502 *) ;;
           If (CTok 1 (TIs ",")) (* 3503 *)
            (
             Next (* 3504 *) ;;
             Push "rename" "comma" (EConstruct N_Symbol) (* 3505 *))
            Skip ;;
           Push "rename" "to" (EVar "to") (* 3507 *) ;;
           VecPush "rename_columns" (EVar "rename") (* 3508 *)) ;;
         PushVec "alter" "rename_columns" (XVar "rename_columns") (* 3510 *)))
    (CaseUpper 1 ["DROP"] (* 3409 *)
      (
       LetVec "drop_columns" XNew (* 3514 *) ;;
       While (CTok 1 (TIs "DROP")) (* 3515 *)
        (
         Next (* 3516 *) ;;
         LetNode "drop_column" (EConstruct N_AlterTableDropClause) (* 3517 *) ;;
         If (CTok 1 (TIs "PRIMARY")) (* 3518 *)
          (
           Next (* 3519 *) ;;
           LetNode "pk" (EConstruct N_KeywordWithExpr) (* 3520 *) ;;
           Next (* 3521 *) ;;
           Push "pk" "expr" (EConstruct N_Keyword) (* 3522 *) ;;
           Push "drop_column" "what" (EVar "pk") (* 3523 *) ;;
           If (CTok 1 (TIs "IF")) (* 3524 *)
            (
             Next (* 3525 *) ;;
             PushVec "drop_column" "if_exists" (XCall F_parse_n_keywords [ANum (NumC 2)]) (* 3526 *))
            Skip)
          (
           Next (* 3529 *) ;;
           Push "drop_column" "what" (EConstruct N_Keyword) (* 3530 *) ;;
           If (CTok 1 (TIs "IF")) (* 3531 *)
            (
             Next (* 3532 *) ;;
             PushVec "drop_column" "if_exists" (XCall F_parse_n_keywords [ANum (NumC 2)]) (* 3533 *))
            Skip ;;
           Next (* 3535 *) ;;
           Push "drop_column" "ident" (ECall F_parse_identifier []) (* 3536 *)) ;;
         If (CTok 1 (TIs ",")) (* 3538 *)
          (
           Next (* 3539 *) ;;
           Push "drop_column" "comma" (EConstruct N_Symbol) (* 3540 *))
          Skip ;;
         VecPush "drop_columns" (EVar "drop_column") (* 3542 *)) ;;
       PushVec "alter" "drop_columns" (XVar "drop_columns") (* 3544 *))
    (CaseUpper 1 ["ALTER"] (* 3409 *)
      (
       Next (* 3547 *) ;;
       Push "alter" "alter_column_stmt" (ECall F_parse_alter_column_statement [ABool (BConst false)]) (* 3548 *))
     (
      Fail 1 "Expected `SET`, `ADD` `RENAME` or `DROP` but got: " (Some 1) (* 3554 *))))))) ;;
    If (CAnd (CTok 1 (TIs ";")) (CVar "semicolon")) (* 3563 *)
     (
      Next (* 3564 *) ;;
      Push "alter" "semicolon" (EConstruct N_Symbol) (* 3565 *))
     Skip ;;
    Return (EVar "alter") (* 3567 *))
|}.

(* parser.rs:3569-3624 *)
Definition parse_alter_column_statement : fundef fn := {|
  f_params := ["semicolon"];
  f_body := (
    LetNode "alter" (EConstruct N_AlterColumnStatement) (* 3570 *) ;;
    Next (* 3571 *) ;;
    Push "alter" "what" (EConstruct N_Keyword) (* 3572 *) ;;
    If (CTok 1 (TIs "IF")) (* 3573 *)
     (
      Next (* 3574 *) ;;
      PushVec "alter" "if_exists" (XCall F_parse_n_keywords [ANum (NumC 2)]) (* 3575 *))
     Skip ;;
    Next (* 3577 *) ;;
    Push "alter" "ident" (EConstruct N_Identifier) (* 3578 *) ;;
    Next (* 3579 *) ;;
    (CaseUpper 0 ["SET"] (* 3580 *)
      (
       Push "alter" "set" (EConstruct N_Keyword) (* 3582 *) ;;
       If (CTok 1 (TIs "OPTIONS")) (* 3583 *)
        (
         Next (* 3584 *) ;;
         Push "alter" "options" (ECall F_parse_keyword_with_grouped_exprs [ABool (BConst false)]) (* 3585 *))
        (
         If (CTok 1 (TIs "DATA")) (* 3586 *)
          (
           Next (* 3587 *) ;;
           PushVec "alter" "data_type" (XCall F_parse_n_keywords [ANum (NumC 2)]) (* 3588 *) ;;
           Next (* 3589 *) ;;
           Push "alter" "type" (ECall F_parse_type [ABool (BConst false); ABool (BConst false)]) (* 3590 *))
          (
           Next (* 3592 *) ;;
           LetNode "default" (EConstruct N_KeywordWithExpr) (* 3593 *) ;;
           Next (* 3594 *) ;;
           Push "default" "expr" (ECall F_parse_expr [ANum NumMax; ABool (BConst false); ABool (BConst false); ABool (BConst false); ABool (BConst true)]) (* 3595 *) ;;
           Push "alter" "default" (EVar "default") (* 3599 *))))
    (CaseUpper 0 ["DROP"] (* 3580 *)
      (
       If (CTok 1 (TIs "DEFAULT")) (* 3603 *)
        (
         PushVec "alter" "drop_default" (XCall F_parse_n_keywords [ANum (NumC 2)]) (* 3604 *))
        (
         PushVec "alter" "drop_not_null" (XCall F_parse_n_keywords [ANum (NumC 3)]) (* 3606 *)))
     (
      Fail 0 "Expected `SET` or `DROP` but got : " (Some 0) (* 3610 *)))) ;;
    If (CAnd (CTok 1 (TIs ";")) (CVar "semicolon")) (* 3619 *)
     (
      Next (* 3620 *) ;;
      Push "alter" "semicolon" (EConstruct N_Symbol) (* 3621 *))
     Skip ;;
    Return (EVar "alter") (* 3623 *))
|}.

(* parser.rs:3625-3654 *)
Definition parse_alter_vector_index_statement : fundef fn := {|
  f_params := ["semicolon"];
  f_body := (
    LetNode "alter" (EConstruct N_AlterVectorIndexStatement) (* 3626 *) ;;
    Next (* 3627 *) ;;
    LetNode "vector" (EConstruct N_KeywordSequence) (* 3628 *) ;;
    Next (* 3629 *) ;;
    Push "vector" "next_keyword" (EConstruct N_Keyword) (* 3630 *) ;;
    Push "alter" "what" (EVar "vector") (* 3631 *) ;;
    If (CTok 1 (TIs "IF")) (* 3632 *)
     (
      Next (* 3633 *) ;;
      PushVec "alter" "if_exists" (XCall F_parse_n_keywords [ANum (NumC 2)]) (* 3634 *))
     Skip ;;
    Next (* 3636 *) ;;
    Push "alter" "ident" (ECall F_parse_identifier []) (* 3637 *) ;;
    Next (* 3639 *) ;;
    LetNode "on" (EConstruct N_KeywordWithExpr) (* 3640 *) ;;
    Next (* 3641 *) ;;
    Push "on" "expr" (ECall F_parse_identifier []) (* 3642 *) ;;
    Push "alter" "on" (EVar "on") (* 3643 *) ;;
    Next (* 3645 *) ;;
    LetNode "operation" (EConstruct N_Keyword) (* 3646 *) ;;
    Push "alter" "operation" (EVar "operation") (* 3647 *) ;;
    If (CAnd (CTok 1 (TIs ";")) (CVar "semicolon")) (* 3649 *)
     (
      Next (* 3650 *) ;;
      Push "alter" "semicolon" (EConstruct N_Symbol) (* 3651 *))
     Skip ;;
    Return (EVar "alter") (* 3653 *))
|}.

(* parser.rs:3655-3684 *)
Definition parse_alter_view_statement : fundef fn := {|
  f_params := ["semicolon"];
  f_body := (
    LetNode "alter" (EConstruct N_AlterViewStatement) (* 3656 *) ;;
    If (CTok 1 (TIs "MATERIALIZED")) (* 3657 *)
     (
      Next (* 3658 *) ;;
      Push "alter" "materialized" (EConstruct N_Keyword) (* 3659 *))
     Skip ;;
    Next (* 3661 *) ;;
    Push "alter" "what" (EConstruct N_Keyword) (* 3662 *) ;;
    If (CTok 1 (TIs "IF")) (* 3663 *)
     (
      Next (* 3664 *) ;;
      PushVec "alter" "if_exists" (XCall F_parse_n_keywords [ANum (NumC 2)]) (* 3665 *))
     Skip ;;
    Next (* 3667 *) ;;
    Push "alter" "ident" (ECall F_parse_identifier []) (* 3668 *) ;;
    If (CTok 1 (TIs "ALTER")) (* 3669 *)
     (
      Next (* 3670 *) ;;
      LetNode "alter_column" (ECall F_parse_alter_column_statement [ABool (BConst false)]) (* 3671 *) ;;
      Push "alter" "alter_column_stmt" (EVar "alter_column") (* 3672 *))
     (
      Next (* 3674 *) ;;
      Push "alter" "set" (EConstruct N_Keyword) (* 3675 *) ;;
      Next (* 3676 *) ;;
      Push "alter" "options" (ECall F_parse_keyword_with_grouped_exprs [ABool (BConst false)]) (* 3677 *)) ;;
    If (CAnd (CTok 1 (TIs ";")) (CVar "semicolon")) (* 3679 *)
     (
      Next (* 3680 *) ;;
      Push "alter" "semicolon" (EConstruct N_Symbol) (* 3681 *))
     Skip ;;
    Return (EVar "alter") (* 3683 *))
|}.

(* parser.rs:3685-3698 *)
Definition parse_alter_organization_statement : fundef fn := {|
  f_params := ["semicolon"];
  f_body := (
    LetNode "alter" (EConstruct N_AlterOrganizationStatement) (* 3686 *) ;;
    Next (* 3687 *) ;;
    Push "alter" "what" (EConstruct N_Keyword) (* 3688 *) ;;
    Next (* 3689 *) ;;
    Push "alter" "set" (EConstruct N_Keyword) (* 3690 *) ;;
    Next (* 3691 *) ;;
    Push "alter" "options" (ECall F_parse_keyword_with_grouped_exprs [ABool (BConst false)]) (* 3692 *) ;;
    If (CAnd (CTok 1 (TIs ";")) (CVar "semicolon")) (* 3693 *)
     (
      Next (* 3694 *) ;;
      Push "alter" "semicolon" (EConstruct N_Symbol) (* 3695 *))
     Skip ;;
    Return (EVar "alter") (* 3697 *))
|}.

(* parser.rs:3699-3716 *)
Definition parse_alter_project_statement : fundef fn := {|
  f_params := ["semicolon"];
  f_body := (
    LetNode "alter" (EConstruct N_AlterProjectStatement) (* 3700 *) ;;
    Next (* 3701 *) ;;
    Push "alter" "what" (EConstruct N_Keyword) (* 3702 *) ;;
    If (CNot (CTok 1 (TIs "SET"))) (* 3703 *)
     (
      Next (* 3704 *) ;;
      Push "alter" "ident" (ECall F_parse_identifier []) (* 3705 *))
     Skip ;;
    Next (* 3707 *) ;;
    Push "alter" "set" (EConstruct N_Keyword) (* 3708 *) ;;
    Next (* 3709 *) ;;
    Push "alter" "options" (ECall F_parse_keyword_with_grouped_exprs [ABool (BConst false)]) (* 3710 *) ;;
    If (CAnd (CTok 1 (TIs ";")) (CVar "semicolon")) (* 3711 *)
     (
      Next (* 3712 *) ;;
      Push "alter" "semicolon" (EConstruct N_Symbol) (* 3713 *))
     Skip ;;
    Return (EVar "alter") (* 3715 *))
|}.

(* parser.rs:3717-3732 *)
Definition parse_alter_bicapacity_statement : fundef fn := {|
  f_params := ["semicolon"];
  f_body := (
    LetNode "alter" (EConstruct N_AlterBICapacityStatement) (* 3718 *) ;;
    Next (* 3719 *) ;;
    Push "alter" "what" (EConstruct N_Keyword) (* 3720 *) ;;
    Next (* 3721 *) ;;
    Push "alter" "ident" (ECall F_parse_identifier []) (* 3722 *) ;;
    Next (* 3723 *) ;;
    Push "alter" "set" (EConstruct N_Keyword) (* 3724 *) ;;
    Next (* 3725 *) ;;
    Push "alter" "options" (ECall F_parse_keyword_with_grouped_exprs [ABool (BConst false)]) (* 3726 *) ;;
    If (CAnd (CTok 1 (TIs ";")) (CVar "semicolon")) (* 3727 *)
     (
      Next (* 3728 *) ;;
      Push "alter" "semicolon" (EConstruct N_Symbol) (* 3729 *))
     Skip ;;
    Return (EVar "alter") (* 3731 *))
|}.

(* parser.rs:3733-3748 *)
Definition parse_alter_reservation_statement : fundef fn := {|
  f_params := ["semicolon"];
  f_body := (
    LetNode "alter" (EConstruct N_AlterReservationStatement) (* 3734 *) ;;
    Next (* 3735 *) ;;
    Push "alter" "what" (EConstruct N_Keyword) (* 3736 *) ;;
    Next (* 3737 *) ;;
    Push "alter" "ident" (ECall F_parse_identifier []) (* 3738 *) ;;
    Next (* 3739 *) ;;
    Push "alter" "set" (EConstruct N_Keyword) (* 3740 *) ;;
    Next (* 3741 *) ;;
    Push "alter" "options" (ECall F_parse_keyword_with_grouped_exprs [ABool (BConst false)]) (* 3742 *) ;;
    If (CAnd (CTok 1 (TIs ";")) (CVar "semicolon")) (* 3743 *)
     (
      Next (* 3744 *) ;;
      Push "alter" "semicolon" (EConstruct N_Symbol) (* 3745 *))
     Skip ;;
    Return (EVar "alter") (* 3747 *))
|}.

(* parser.rs:3749-3768 *)
Definition parse_alter_model_statement : fundef fn := {|
  f_params := ["semicolon"];
  f_body := (
    LetNode "alter" (EConstruct N_AlterModelStatement) (* 3750 *) ;;
    Next (* 3751 *) ;;
    Push "alter" "what" (EConstruct N_Keyword) (* 3752 *) ;;
    If (CTok 1 (TIs "IF")) (* 3753 *)
     (
      Next (* 3754 *) ;;
      PushVec "alter" "if_exists" (XCall F_parse_n_keywords [ANum (NumC 2)]) (* 3755 *))
     Skip ;;
    Next (* 3757 *) ;;
    Push "alter" "ident" (ECall F_parse_identifier []) (* 3758 *) ;;
    Next (* 3759 *) ;;
    Push "alter" "set" (EConstruct N_Keyword) (* 3760 *) ;;
    Next (* 3761 *) ;;
    Push "alter" "options" (ECall F_parse_keyword_with_grouped_exprs [ABool (BConst false)]) (* 3762 *) ;;
    If (CAnd (CTok 1 (TIs ";")) (CVar "semicolon")) (* 3763 *)
     (
      Next (* 3764 *) ;;
      Push "alter" "semicolon" (EConstruct N_Symbol) (* 3765 *))
     Skip ;;
    Return (EVar "alter") (* 3767 *))
|}.

(* parser.rs:3769-3795 *)
Definition parse_drop_row_access_policy_statement : fundef fn := {|
  f_params := ["semicolon"];
  f_body := (
    LetNode "drop" (EConstruct N_DropRowAccessPolicyStatement) (* 3770 *) ;;
    Next (* 3771 *) ;;
    If (CTok 0 (TIs "ROW")) (* 3772 *)
     (
      PushVec "drop" "what" (XCall F_parse_n_keywords [ANum (NumC 3)]) (* 3773 *))
     (
      PushVec "drop" "what" (XCall F_parse_n_keywords [ANum (NumC 4)]) (* 3775 *)) ;;
    If (CTok 1 (TIs "IF")) (* 3777 *)
     (
      Next (* 3778 *) ;;
      PushVec "drop" "if_exists" (XCall F_parse_n_keywords [ANum (NumC 2)]) (* 3779 *))
     Skip ;;
    If (CNot (CTok 1 (TIs "ON"))) (* 3781 *)
     (
      Next (* 3782 *) ;;
      Push "drop" "ident" (ECall F_parse_identifier []) (* 3783 *))
     Skip ;;
    Next (* 3785 *) ;;
    LetNode "on" (EConstruct N_KeywordWithExpr) (* 3786 *) ;;
    Next (* 3787 *) ;;
    Push "on" "expr" (ECall F_parse_identifier []) (* 3788 *) ;;
    Push "drop" "on" (EVar "on") (* 3789 *) ;;
    If (CAnd (CTok 1 (TIs ";")) (CVar "semicolon")) (* 3790 *)
     (
      Next (* 3791 *) ;;
      Push "drop" "semicolon" (EConstruct N_Symbol) (* 3792 *))
     Skip ;;
    Return (EVar "drop") (* 3794 *))
|}.

(* parser.rs:3796-3842 *)
Definition parse_drop_statement_general : fundef fn := {|
  f_params := ["semicolon"];
  f_body := (
    LetNode "drop" (EConstruct N_DropStatement) (* 3797 *) ;;
    If (CTok 1 (TIs "EXTERNAL")) (* 3798 *)
     (
      Next (* 3799 *) ;;
      Push "drop" "external" (EConstruct N_Keyword) (* 3800 *))
     (
      If (CTok 1 (TIs "MATERIALIZED")) (* 3801 *)
       (
        Next (* 3802 *) ;;
        Push "drop" "materialized" (EConstruct N_Keyword) (* 3803 *))
       (
        If (CAnd (CTok 1 (TIs "TABLE")) (CTok 2 (TIs "FUNCTION"))) (* 3804 *)
         (
          Next (* 3805 *) ;;
          Push "drop" "table" (EConstruct N_Keyword) (* 3806 *))
         Skip)) ;;
    Next (* 3808 *) ;;
    If (CTok 0 (TIs "SEARCH")) (* 3809 *)
     (
      LetNode "what" (EConstruct N_KeywordSequence) (* 3810 *) ;;
      Next (* 3811 *) ;;
      Push "what" "next_keyword" (EConstruct N_Keyword) (* 3812 *) ;;
      Push "drop" "what" (EVar "what") (* 3813 *))
     (
      Push "drop" "what" (EConstruct N_Keyword) (* 3815 *)) ;;
    If (CTok 1 (TIs "IF")) (* 3817 *)
     (
      Next (* 3818 *) ;;
      PushVec "drop" "if_exists" (XCall F_parse_n_keywords [ANum (NumC 2)]) (* 3819 *))
     Skip ;;
    Next (* 3821 *) ;;
    Push "drop" "ident" (ECall F_parse_identifier []) (* 3822 *) ;;
    If (CTok 1 (TIn ["CASCADE"; "RESTRICT"])) (* 3823 *)
     (
      Next (* 3824 *) ;;
      Push "drop" "cascade_or_restrict" (EConstruct N_Keyword) (* 3825 *))
     Skip ;;
    If (CTok 1 (TIs "on")) (* 3830 *)
     (
      Next (* 3831 *) ;;
      LetNode "on" (EConstruct N_KeywordWithExpr) (* 3832 *) ;;
      Next (* 3833 *) ;;
      Push "on" "expr" (ECall F_parse_identifier []) (* 3834 *) ;;
      Push "drop" "on" (EVar "on") (* 3835 *))
     Skip ;;
    If (CAnd (CTok 1 (TIs ";")) (CVar "semicolon")) (* 3837 *)
     (
      Next (* 3838 *) ;;
      Push "drop" "semicolon" (EConstruct N_Symbol) (* 3839 *))
     Skip ;;
    Return (EVar "drop") (* 3841 *))
|}.

(* parser.rs:3843-3858 *)
Definition parse_undrop_statement : fundef fn := {|
  f_params := ["semicolon"];
  f_body := (
    LetNode "undrop" (EConstruct N_UndropStatement) (* 3844 *) ;;
    Next (* 3845 *) ;;
    Push "undrop" "what" (EConstruct N_Keyword) (* 3846 *) ;;
    If (CTok 1 (TIs "IF")) (* 3847 *)
     (
      Next (* 3848 *) ;;
      PushVec "undrop" "if_not_exists" (XCall F_parse_n_keywords [ANum (NumC 3)]) (* 3849 *))
     Skip ;;
    Next (* 3851 *) ;;
    Push "undrop" "ident" (ECall F_parse_identifier []) (* 3852 *) ;;
    If (CAnd (CTok 1 (TIs ";")) (CVar "semicolon")) (* 3853 *)
     (
      Next (* 3854 *) ;;
      Push "undrop" "semicolon" (EConstruct N_Symbol) (* 3855 *))
     Skip ;;
    Return (EVar "undrop") (* 3857 *))
|}.

(* parser.rs:3860-3880 *)
Definition parse_grant_statement : fundef fn := {|
  f_params := ["semicolon"];
  f_body := (
    LetNode "grant" (EConstruct N_GrantStatement) (* 3861 *) ;;
    Next (* 3862 *) ;;
    PushVec "grant" "roles" (XCall F_parse_exprs [AStrs []; ABool (BConst false); ABool (BConst true)]) (* 3863 *) ;;
    Next (* 3864 *) ;;
    Push "grant" "on" (EConstruct N_Keyword) (* 3865 *) ;;
    Next (* 3866 *) ;;
    Push "grant" "resource_type" (EConstruct N_Keyword) (* 3867 *) ;;
    Next (* 3868 *) ;;
    Push "grant" "ident" (ECall F_parse_identifier []) (* 3869 *) ;;
    Next (* 3870 *) ;;
    LetNode "to" (EConstruct N_KeywordWithExprs) (* 3871 *) ;;
    Next (* 3872 *) ;;
    PushVec "to" "exprs" (XCall F_parse_exprs [AStrs []; ABool (BConst false); ABool (BConst true)]) (* 3873 *) ;;
    Push "grant" "to" (EVar "to") (* 3874 *) ;;
    If (CAnd (CTok 1 (TIs ";")) (CVar "semicolon")) (* 3875 *)
     (
      Next (* 3876 *) ;;
      Push "grant" "semicolon" (EConstruct N_Symbol) (* 3877 *))
     Skip ;;
    Return (EVar "grant") (* 3879 *))
|}.

(* parser.rs:3881-3901 *)
Definition parse_revoke_statement : fundef fn := {|
  f_params := ["semicolon"];
  f_body := (
    LetNode "revoke" (EConstruct N_RevokeStatement) (* 3882 *) ;;
    Next (* 3883 *) ;;
    PushVec "revoke" "roles" (XCall F_parse_exprs [AStrs []; ABool (BConst false); ABool (BConst true)]) (* 3884 *) ;;
    Next (* 3885 *) ;;
    Push "revoke" "on" (EConstruct N_Keyword) (* 3886 *) ;;
    Next (* 3887 *) ;;
    Push "revoke" "resource_type" (EConstruct N_Keyword) (* 3888 *) ;;
    Next (* 3889 *) ;;
    Push "revoke" "ident" (ECall F_parse_identifier []) (* 3890 *) ;;
    Next (* 3891 *) ;;
    LetNode "from" (EConstruct N_KeywordWithExprs) (* 3892 *) ;;
    Next (* 3893 *) ;;
    PushVec "from" "exprs" (XCall F_parse_exprs [AStrs []; ABool (BConst false); ABool (BConst true)]) (* 3894 *) ;;
    Push "revoke" "from" (EVar "from") (* 3895 *) ;;
    If (CAnd (CTok 1 (TIs ";")) (CVar "semicolon")) (* 3896 *)
     (
      Next (* 3897 *) ;;
      Push "revoke" "semicolon" (EConstruct N_Symbol) (* 3898 *))
     Skip ;;
    Return (EVar "revoke") (* 3900 *))
|}.

(* parser.rs:3902-3928 *)
Definition parse_create_reservation_statement : fundef fn := {|
  f_params := ["semicolon"];
  f_body := (
    LetNode "create" (EConstruct N_CreateReservationStatement) (* 3903 *) ;;
    Next (* 3904 *) ;;
    Push "create" "what" (EConstruct N_Keyword) (* 3905 *) ;;
    Next (* 3906 *) ;;
    Push "create" "ident" (ECall F_parse_identifier []) (* 3907 *) ;;
    If (CTok 1 (TIs "AS")) (* 3908 *)
     (
      Next (* 3910 *) ;;
      Push "create" "as" (EConstruct N_Keyword) (* 3911 *) ;;
      Next (* 3912 *) ;;
      Push "create" "json" (EConstruct N_Keyword) (* 3913 *) ;;
      Next (* 3914 *) ;;
      Push "create" "json_string" (ECall F_parse_expr [ANum NumMax; ABool (BConst false); ABool (BConst false); ABool (BConst false); ABool (BConst true)]) (* 3915 *))
     (
      If (CTok 1 (TIs "OPTIONS")) (* 3919 *)
       (
        Next (* 3920 *) ;;
        Push "create" "options" (ECall F_parse_keyword_with_grouped_exprs [ABool (BConst false)]) (* 3921 *))
       Skip) ;;
    If (CAnd (CTok 1 (TIs ";")) (CVar "semicolon")) (* 3923 *)
     (
      Next (* 3924 *) ;;
      Push "create" "semicolon" (EConstruct N_Symbol) (* 3925 *))
     Skip ;;
    Return (EVar "create") (* 3927 *))
|}.

(* parser.rs:3930-3965 *)
Definition parse_declare_statement : fundef fn := {|
  f_params := ["semicolon"];
  f_body := (
    LetNode "declare" (EConstruct N_DeclareStatement) (* 3931 *) ;;
    LetVec "idents" XNew (* 3932 *) ;;
    While CTrue (* 3933 *)
     (
      Next (* 3934 *) ;;
      If (CTok 1 (TIs ",")) (* 3935 *)
       (
        LetNode "ident" (ECall F_parse_identifier []) (* 3936 *) ;;
        Next (* 3937 *) ;;
        Push "ident" "comma" (EConstruct N_Symbol) (* 3938 *) ;;
        VecPush "idents" (EVar "ident") (* 3939 *))
       (
        VecPush "idents" (ECall F_parse_identifier []) (* 3941 *) ;;
        Break (* 3942 *))) ;;
    PushVec "declare" "idents" (XVar "idents") (* 3945 *) ;;
    If (CNot (CTok 1 (TIs "DEFAULT"))) (* 3946 *)
     (
      Next (* 3947 *) ;;
      Push "declare" "variable_type" (ECall F_parse_type [ABool (BConst false); ABool (BConst false)]) (* 3948 *))
     Skip ;;
    If (CTok 1 (TIs "DEFAULT")) (* 3950 *)
     (
      Next (* 3951 *) ;;
      LetNode "default" (EConstruct N_KeywordWithExpr) (* 3952 *) ;;
      Next (* 3953 *) ;;
      Push "default" "expr" (ECall F_parse_expr [ANum NumMax; ABool (BConst false); ABool (BConst false); ABool (BConst false); ABool (BConst true)]) (* 3954 *) ;;
      Push "declare" "default" (EVar "default") (* 3958 *))
     Skip ;;
    If (CAnd (CTok 1 (TIs ";")) (CVar "semicolon")) (* 3960 *)
     (
      Next (* 3961 *) ;;
      Push "declare" "semicolon" (EConstruct N_Symbol) (* 3962 *))
     Skip ;;
    Return (EVar "declare") (* 3964 *))
|}.

(* parser.rs:3966-3978 *)
Definition parse_set_statement : fundef fn := {|
  f_params := ["semicolon"];
  f_body := (
    LetNode "set" (EConstruct N_SetStatement) (* 3967 *) ;;
    Next (* 3968 *) ;;
    Push "set" "expr" (ECall F_parse_expr [ANum NumMax; ABool (BConst false); ABool (BConst false); ABool (BConst false); ABool (BConst true)]) (* 3969 *) ;;
    If (CAnd (CTok 1 (TIs ";")) (CVar "semicolon")) (* 3973 *)
     (
      Next (* 3974 *) ;;
      Push "set" "semicolon" (EConstruct N_Symbol) (* 3975 *))
     Skip ;;
    Return (EVar "set") (* 3977 *))
|}.

(* parser.rs:3979-4019 *)
Definition parse_execute_statement : fundef fn := {|
  f_params := ["semicolon"];
  f_body := (
    LetNode "execute" (EConstruct N_ExecuteStatement) (* 3980 *) ;;
    Next (* 3981 *) ;;
    Push "execute" "immediate" (EConstruct N_Keyword) (* 3982 *) ;;
    Next (* 3983 *) ;;
    Push "execute" "sql_expr" (ECall F_parse_expr [ANum NumMax; ABool (BConst false); ABool (BConst false); ABool (BConst false); ABool (BConst true)]) (* 3984 *) ;;
    If (CTok 1 (TIs "INTO")) (* 3988 *)
     (
      Next (* 3989 *) ;;
      LetNode "into" (EConstruct N_KeywordWithExprs) (* 3990 *) ;;
      LetVec "idents" XNew (* 3991 *) ;;
      While CTrue (* 3992 *)
       (
        Next (* 3993 *) ;;
        If (CTok 1 (TIs ",")) (* 3994 *)
         (
          LetNode "ident" (ECall F_parse_identifier []) (* 3995 *) ;;
          Next (* 3996 *) ;;
          Push "ident" "comma" (EConstruct N_Symbol) (* 3997 *) ;;
          VecPush "idents" (EVar "ident") (* 3998 *))
         (
          VecPush "idents" (ECall F_parse_identifier []) (* 4000 *) ;;
          Break (* 4001 *))) ;;
      PushVec "into" "exprs" (XVar "idents") (* 4004 *) ;;
      Push "execute" "into" (EVar "into") (* 4005 *))
     Skip ;;
    If (CTok 1 (TIs "USING")) (* 4007 *)
     (
      Next (* 4008 *) ;;
      LetNode "using" (EConstruct N_KeywordWithExprs) (* 4009 *) ;;
      Next (* 4010 *) ;;
      PushVec "using" "exprs" (XCall F_parse_exprs [AStrs []; ABool (BConst true); ABool (BConst true)]) (* 4011 *) ;;
      Push "execute" "using" (EVar "using") (* 4012 *))
     Skip ;;
    If (CAnd (CTok 1 (TIs ";")) (CVar "semicolon")) (* 4014 *)
     (
      Next (* 4015 *) ;;
      Push "execute" "semicolon" (EConstruct N_Symbol) (* 4016 *))
     Skip ;;
    Return (EVar "execute") (* 4018 *))
|}.

(* parser.rs:4020-4048 *)
Definition parse_begin_statement : fundef fn := {|
  f_params := ["semicolon"];
  f_body := (
    LetNode "begin" (EConstruct N_BeginStatement) (* 4021 *) ;;
    LetVec "stmts" XNew (* 4022 *) ;;
    While (CNot (CTok 1 (TIn ["END"; "EXCEPTION"]))) (* 4023 *)
     (
      Next (* 4024 *) ;;
      VecPush "stmts" (ECall F_parse_statement [ABool (BConst true)]) (* 4025 *)) ;;
    If (CNonEmpty "stmts") (* 4027 *)
     (
      PushVec "begin" "stmts" (XVar "stmts") (* 4028 *))
     Skip ;;
    If (CTok 1 (TIs "exception")) (* 4030 *)
     (
      Next (* 4031 *) ;;
      LetNode "exception" (EConstruct N_Keyword) (* 4032 *) ;;
      Next (* 4033 *) ;;
      LetNode "when" (EConstruct N_Keyword) (* 4034 *) ;;
      Next (* 4035 *) ;;
      LetNode "error" (EConstruct N_Keyword) (* 4036 *) ;;
      PushVec "begin" "exception_when_error" (XList [(EVar "exception"); (EVar "when"); (EVar "error")]) (* 4037 *) ;;
      Next (* 4038 *) ;;
      Push "begin" "then" (ECall F_parse_keyword_with_statements [AStrs ["END"]]) (* 4039 *))
     Skip ;;
    Next (* 4041 *) ;;
    Push "begin" "end" (EConstruct N_Keyword) (* 4042 *) ;;
    If (CAnd (CTok 1 (TIs ";")) (CVar "semicolon")) (* 4043 *)
     (
      Next (* 4044 *) ;;
      Push "begin" "semicolon" (EConstruct N_Symbol) (* 4045 *))
     Skip ;;
    Return (EVar "begin") (* 4047 *))
|}.

(* parser.rs:4049-4096 *)
Definition parse_if_statement : fundef fn := {|
  f_params := ["semicolon"];
  f_body := (
    LetNode "if_" (EConstruct N_IfStatement) (* 4050 *) ;;
    Next (* 4051 *) ;;
    Push "if_" "condition" (ECall F_parse_expr [ANum NumMax; ABool (BConst false); ABool (BConst false); ABool (BConst false); ABool (BConst true)]) (* 4052 *) ;;
    Next (* 4057 *) ;;
    Push "if_" "then" (ECall F_parse_keyword_with_statements [AStrs ["ELSEIF"; "ELSE"; "END"]]) (* 4058 *) ;;
    LetVec "elseifs" XNew (* 4063 *) ;;
    While (CTok 1 (TIs "ELSEIF")) (* 4064 *)
     (
      Next (* 4065 *) ;;
      LetNode "elseif" (EConstruct N_ElseIfClause) (* 4066 *) ;;
      Next (* 4067 *) ;;
      Push "elseif" "condition" (ECall F_parse_expr [ANum NumMax; ABool (BConst false); ABool (BConst false); ABool (BConst false); ABool (BConst true)]) (* 4068 *) ;;
      Next (* 4072 *) ;;
      Push "elseif" "then" (ECall F_parse_keyword_with_statements [AStrs ["ELSEIF"; "ELSE"; "END"]]) (* 4073 *) ;;
      VecPush "elseifs" (EVar "elseif") (* 4077 *)) ;;
    If (CNonEmpty "elseifs") (* 4079 *)
     (
      PushVec "if_" "elseifs" (XVar "elseifs") (* 4080 *))
     Skip ;;
    If (CTok 1 (TIs "ELSE")) (* 4083 *)
     (
      Next (* 4084 *) ;;
      Push "if_" "else" (ECall F_parse_keyword_with_statements [AStrs ["END"]]) (* 4085 *))
     Skip ;;
    Next (* 4087 *) ;;
    LetNode "end" (EConstruct N_Keyword) (* 4088 *) ;;
    Next (* 4089 *) ;;
    PushVec "if_" "end_if" (XList [(EVar "end"); (EConstruct N_Keyword)]) (* 4090 *) ;;
    If (CAnd (CTok 1 (TIs ";")) (CVar "semicolon")) (* 4091 *)
     (
      Next (* 4092 *) ;;
      Push "if_" "semicolon" (EConstruct N_Symbol) (* 4093 *))
     Skip ;;
    Return (EVar "if_") (* 4095 *))
|}.

(* parser.rs:4097-4127 *)
Definition parse_labeled_statement : fundef fn := {|
  f_params := ["semicolon"];
  f_body := (
    LetNode "label" (EConstruct N_Identifier) (* 4098 *) ;;
    Next (* 4099 *) ;;
    LetNode "colon" (EConstruct N_Symbol) (* 4100 *) ;;
    Next (* 4101 *) ;;
    LetNode "stmt" (ECall F_parse_statement [ABool (BConst false)]) (* 4102 *) ;;
    If (COr (CHasKey "stmt" "leading_label") (CHasKey "stmt" "colon")) (* 4103 *)
     (
      Fail 0 "The statement is not properly labeled: " (Some 0) (* 4108 *))
     Skip ;;
    Push "stmt" "leading_label" (EVar "label") (* 4116 *) ;;
    Push "stmt" "colon" (EVar "colon") (* 4117 *) ;;
    If (CNot (CTok 1 (TIs ";"))) (* 4118 *)
     (
      Next (* 4119 *) ;;
      Push "stmt" "trailing_label" (EConstruct N_Identifier) (* 4120 *))
     Skip ;;
    If (CAnd (CTok 1 (TIs ";")) (CVar "semicolon")) (* 4122 *)
     (
      Next (* 4123 *) ;;
      Push "stmt" "semicolon" (EConstruct N_Symbol) (* 4124 *))
     Skip ;;
    Return (EVar "stmt") (* 4126 *))
|}.

(* parser.rs:4128-4139 *)
Definition parse_break_continue_statement : fundef fn := {|
  f_params := ["semicolon"];
  f_body := (
    LetNode "node" (EConstruct N_BreakContinueStatement) (* 4129 *) ;;
    If (CNot (CTok 1 (TIs ";"))) (* 4130 *)
     (
      Next (* 4131 *) ;;
      Push "node" "label" (EConstruct N_Identifier) (* 4132 *))
     Skip ;;
    If (CAnd (CTok 1 (TIs ";")) (CVar "semicolon")) (* 4134 *)
     (
      Next (* 4135 *) ;;
      Push "node" "semicolon" (EConstruct N_Symbol) (* 4136 *))
     Skip ;;
    Return (EVar "node") (* 4138 *))
|}.

(* parser.rs:4140-4155 *)
Definition parse_loop_statement : fundef fn := {|
  f_params := ["semicolon"];
  f_body := (
    LetNode "loop_" (ECall F_parse_keyword_with_statements [AStrs ["END"]]) (* 4141 *) ;;
    SetType "loop_" N_LoopStatement (* 4142 *) ;;
    Next (* 4143 *) ;;
    LetNode "end" (EConstruct N_Keyword) (* 4144 *) ;;
    Next (* 4145 *) ;;
    PushVec "loop_" "end_loop" (XList [(EVar "end"); (EConstruct N_Keyword)]) (* 4146 *) ;;
    If (CAnd (CTok 1 (TIs ";")) (CVar "semicolon")) (* 4150 *)
     (
      Next (* 4151 *) ;;
      Push "loop_" "semicolon" (EConstruct N_Symbol) (* 4152 *))
     Skip ;;
    Return (EVar "loop_") (* 4154 *))
|}.

(* parser.rs:4156-4174 *)
Definition parse_repeat_statement : fundef fn := {|
  f_params := ["semicolon"];
  f_body := (
    LetNode "repeat" (ECall F_parse_keyword_with_statements [AStrs ["UNTIL"]]) (* 4157 *) ;;
    SetType "repeat" N_RepeatStatement (* 4158 *) ;;
    Next (* 4159 *) ;;
    LetNode "until" (EConstruct N_KeywordWithExpr) (* 4160 *) ;;
    Next (* 4161 *) ;;
    Push "until" "expr" (ECall F_parse_expr [ANum NumMax; ABool (BConst false); ABool (BConst false); ABool (BConst false); ABool (BConst true)]) (* 4162 *) ;;
    Push "repeat" "until" (EVar "until") (* 4166 *) ;;
    Next (* 4167 *) ;;
    PushVec "repeat" "end_repeat" (XCall F_parse_n_keywords [ANum (NumC 2)]) (* 4168 *) ;;
    If (CAnd (CTok 1 (TIs ";")) (CVar "semicolon")) (* 4169 *)
     (
      Next (* 4170 *) ;;
      Push "repeat" "semicolon" (EConstruct N_Symbol) (* 4171 *))
     Skip ;;
    Return (EVar "repeat") (* 4173 *))
|}.

(* parser.rs:4175-4196 *)
Definition parse_while_statement : fundef fn := {|
  f_params := ["semicolon"];
  f_body := (
    LetNode "while_" (EConstruct N_WhileStatement) (* 4176 *) ;;
    Next (* 4177 *) ;;
    Push "while_" "condition" (ECall F_parse_expr [ANum NumMax; ABool (BConst false); ABool (BConst false); ABool (BConst false); ABool (BConst true)]) (* 4178 *) ;;
    Next (* 4182 *) ;;
    Push "while_" "do" (ECall F_parse_keyword_with_statements [AStrs ["END"]]) (* 4183 *) ;;
    Next (* 4184 *) ;;
    LetNode "end" (EConstruct N_Keyword) (* 4185 *) ;;
    Next (* 4186 *) ;;
    PushVec "while_" "end_while" (XList [(EVar "end"); (EConstruct N_Keyword)]) (* 4187 *) ;;
    If (CAnd (CTok 1 (TIs ";")) (CVar "semicolon")) (* 4191 *)
     (
      Next (* 4192 *) ;;
      Push "while_" "semicolon" (EConstruct N_Symbol) (* 4193 *))
     Skip ;;
    Return (EVar "while_") (* 4195 *))
|}.

(* parser.rs:4197-4204 *)
Definition parse_single_token_statement : fundef fn := {|
  f_params := ["semicolon"];
  f_body := (
    LetNode "node" (EConstruct N_SingleTokenStatement) (* 4198 *) ;;
    If (CAnd (CTok 1 (TIs ";")) (CVar "semicolon")) (* 4199 *)
     (
      Next (* 4200 *) ;;
      Push "node" "semicolon" (EConstruct N_Symbol) (* 4201 *))
     Skip ;;
    Return (EVar "node") (* 4203 *))
|}.

(* parser.rs:4205-4223 *)
Definition parse_for_statement : fundef fn := {|
  f_params := ["semicolon"];
  f_body := (
    LetNode "for_" (EConstruct N_ForStatement) (* 4206 *) ;;
    Next (* 4207 *) ;;
    Push "for_" "ident" (EConstruct N_Identifier) (* 4208 *) ;;
    Next (* 4209 *) ;;
    LetNode "in_" (EConstruct N_KeywordWithGroupedXXX) (* 4210 *) ;;
    Next (* 4211 *) ;;
    Push "in_" "group" (ECall F_parse_select_statement [ABool (BConst false); ABool (BConst true)]) (* 4212 *) ;;
    Push "for_" "in" (EVar "in_") (* 4213 *) ;;
    Next (* 4214 *) ;;
    Push "for_" "do" (ECall F_parse_keyword_with_statements [AStrs ["END"]]) (* 4215 *) ;;
    Next (* 4216 *) ;;
    PushVec "for_" "end_for" (XCall F_parse_n_keywords [ANum (NumC 2)]) (* 4217 *) ;;
    If (CAnd (CTok 1 (TIs ";")) (CVar "semicolon")) (* 4218 *)
     (
      Next (* 4219 *) ;;
      Push "for_" "semicolon" (EConstruct N_Symbol) (* 4220 *))
     Skip ;;
    Return (EVar "for_") (* 4222 *))
|}.

(* parser.rs:4224-4235 *)
Definition parse_transaction_statement : fundef fn := {|
  f_params := ["semicolon"];
  f_body := (
    LetNode "node" (EConstruct N_TransactionStatement) (* 4225 *) ;;
    If (CTok 1 (TIs "TRANSACTION")) (* 4226 *)
     (
      Next (* 4227 *) ;;
      Push "node" "transaction" (EConstruct N_Keyword) (* 4228 *))
     Skip ;;
    If (CAnd (CTok 1 (TIs ";")) (CVar "semicolon")) (* 4230 *)
     (
      Next (* 4231 *) ;;
      Push "node" "semicolon" (EConstruct N_Symbol) (* 4232 *))
     Skip ;;
    Return (EVar "node") (* 4234 *))
|}.

(* parser.rs:4236-4253 *)
Definition parse_raise_statement : fundef fn := {|
  f_params := ["semicolon"];
  f_body := (
    LetNode "raise" (EConstruct N_RaiseStatement) (* 4237 *) ;;
    If (CTok 1 (TIs "using")) (* 4238 *)
     (
      Next (* 4239 *) ;;
      LetNode "using" (EConstruct N_KeywordWithExpr) (* 4240 *) ;;
      Next (* 4241 *) ;;
      Push "using" "expr" (ECall F_parse_expr [ANum NumMax; ABool (BConst false); ABool (BConst false); ABool (BConst false); ABool (BConst true)]) (* 4242 *) ;;
      Push "raise" "using" (EVar "using") (* 4246 *))
     Skip ;;
    If (CAnd (CTok 1 (TIs ";")) (CVar "semicolon")) (* 4248 *)
     (
      Next (* 4249 *) ;;
      Push "raise" "semicolon" (EConstruct N_Symbol) (* 4250 *))
     Skip ;;
    Return (EVar "raise") (* 4252 *))
|}.

(* parser.rs:4254-4301 *)
Definition parse_case_statement : fundef fn := {|
  f_params := ["semicolon"];
  f_body := (
    LetNode "case" (EConstruct N_CaseStatement) (* 4255 *) ;;
    If (CNot (CTok 1 (TIs "WHEN"))) (* 4256 *)
     (
      Next (* 4257 *) ;;
      Push "case" "expr" (ECall F_parse_expr [ANum NumMax; ABool (BConst false); ABool (BConst false); ABool (BConst false); ABool (BConst true)]) (* 4258 *))
     Skip ;;
    LetVec "arms" XNew (* 4263 *) ;;
    While (CTok 1 (TIs "WHEN")) (* 4264 *)
     (
      Next (* 4265 *) ;;
      LetNode "when" (EConstruct N_CaseStatementArm) (* 4266 *) ;;
      Next (* 4267 *) ;;
      Push "when" "expr" (ECall F_parse_expr [ANum NumMax; ABool (BConst false); ABool (BConst false); ABool (BConst false); ABool (BConst true)]) (* 4268 *) ;;
      Next (* 4272 *) ;;
      Push "when" "then" (EConstruct N_Keyword) (* 4273 *) ;;
      LetVec "stmts" XNew (* 4274 *) ;;
      While (CNot (CTok 1 (TIn ["WHEN"; "ELSE"; "END"]))) (* 4275 *)
       (
        Next (* 4276 *) ;;
        VecPush "stmts" (ECall F_parse_statement [ABool (BConst true)]) (* 4277 *)) ;;
      PushVec "when" "stmts" (XVar "stmts") (* 4279 *) ;;
      VecPush "arms" (EVar "when") (* 4280 *)) ;;
    If (CTok 1 (TIs "ELSE")) (* 4282 *)
     (
      Next (* 4283 *) ;;
      LetNode "else_" (EConstruct N_CaseStatementArm) (* 4284 *) ;;
      LetVec "stmts" XNew (* 4285 *) ;;
      While (CNot (CTok 1 (TIs "END"))) (* 4286 *)
       (
        Next (* 4287 *) ;;
        VecPush "stmts" (ECall F_parse_statement [ABool (BConst true)]) (* 4288 *)) ;;
      PushVec "else_" "stmts" (XVar "stmts") (* 4290 *) ;;
      VecPush "arms" (EVar "else_") (* 4291 *))
     Skip ;;
    PushVec "case" "arms" (XVar "arms") (* 4293 *) ;;
    Next (* 4294 *) ;;
    PushVec "case" "end_case" (XCall F_parse_n_keywords [ANum (NumC 2)]) (* 4295 *) ;;
    If (CAnd (CTok 1 (TIs ";")) (CVar "semicolon")) (* 4296 *)
     (
      Next (* 4297 *) ;;
      Push "case" "semicolon" (EConstruct N_Symbol) (* 4298 *))
     Skip ;;
    Return (EVar "case") (* 4300 *))
|}.

(* parser.rs:4302-4312 *)
Definition parse_call_statement : fundef fn := {|
  f_params := ["semicolon"];
  f_body := (
    LetNode "call" (EConstruct N_CallStatement) (* 4303 *) ;;
    Next (* 4304 *) ;;
    LetNode "procedure" (ECall F_parse_expr [ANum NumMax; ABool (BConst false); ABool (BConst false); ABool (BConst false); ABool (BConst true)]) (* 4305 *) ;;
    Push "call" "procedure" (EVar "procedure") (* 4306 *) ;;
    If (CAnd (CTok 1 (TIs ";")) (CVar "semicolon")) (* 4307 *)
     (
      Next (* 4308 *) ;;
      Push "call" "semicolon" (EConstruct N_Symbol) (* 4309 *))
     Skip ;;
    Return (EVar "call") (* 4311 *))
|}.

(* parser.rs:4314-4335 *)
Definition parse_assert_satement : fundef fn := {|
  f_params := ["semicolon"];
  f_body := (
    LetNode "assert" (EConstruct N_AssertStatement) (* 4315 *) ;;
    Next (* 4316 *) ;;
    Push "assert" "expr" (ECall F_parse_expr [ANum NumMax; ABool (BConst false); ABool (BConst false); ABool (BConst false); ABool (BConst true)]) (* 4317 *) ;;
    If (CTok 1 (TIs "AS")) (* 4321 *)
     (
      Next (* 4322 *) ;;
      Push "assert" "as" (EConstruct N_Keyword) (* 4323 *) ;;
      Next (* 4324 *) ;;
      Push "assert" "description" (ECall F_parse_expr [ANum NumMax; ABool (BConst false); ABool (BConst false); ABool (BConst false); ABool (BConst true)]) (* 4325 *))
     Skip ;;
    If (CAnd (CTok 1 (TIs ";")) (CVar "semicolon")) (* 4330 *)
     (
      Next (* 4331 *) ;;
      Push "assert" "semicolon" (EConstruct N_Symbol) (* 4332 *))
     Skip ;;
    Return (EVar "assert") (* 4334 *))
|}.

(* parser.rs:4337-4357 *)
Definition parse_export_data_statement : fundef fn := {|
  f_params := ["semicolon"];
  f_body := (
    LetNode "export" (EConstruct N_ExportDataStatement) (* 4338 *) ;;
    Next (* 4339 *) ;;
    Push "export" "data" (EConstruct N_Keyword) (* 4340 *) ;;
    If (CTok 1 (TIs "WITH")) (* 4341 *)
     (
      Next (* 4342 *) ;;
      Push "export" "with_connection" (ECall F_parse_with_connection_clause []) (* 4343 *))
     Skip ;;
    Next (* 4345 *) ;;
    Push "export" "options" (ECall F_parse_keyword_with_grouped_exprs [ABool (BConst false)]) (* 4346 *) ;;
    Next (* 4347 *) ;;
    LetNode "as_" (EConstruct N_KeywordWithStatement) (* 4348 *) ;;
    Next (* 4349 *) ;;
    Push "as_" "stmt" (ECall F_parse_statement [ABool (BConst false)]) (* 4350 *) ;;
    Push "export" "as" (EVar "as_") (* 4351 *) ;;
    If (CAnd (CTok 1 (TIs ";")) (CVar "semicolon")) (* 4352 *)
     (
      Next (* 4353 *) ;;
      Push "export" "semicolon" (EConstruct N_Symbol) (* 4354 *))
     Skip ;;
    Return (EVar "export") (* 4356 *))
|}.

(* parser.rs:4358-4373 *)
Definition parse_export_model_statement : fundef fn := {|
  f_params := ["semicolon"];
  f_body := (
    LetNode "export" (EConstruct N_ExportModelStatement) (* 4359 *) ;;
    Next (* 4360 *) ;;
    Push "export" "what" (EConstruct N_Keyword) (* 4361 *) ;;
    Next (* 4362 *) ;;
    Push "export" "ident" (ECall F_parse_identifier []) (* 4363 *) ;;
    If (CTok 1 (TIs "OPTIONS")) (* 4364 *)
     (
      Next (* 4365 *) ;;
      Push "export" "options" (ECall F_parse_keyword_with_grouped_exprs [ABool (BConst false)]) (* 4366 *))
     Skip ;;
    If (CAnd (CTok 1 (TIs ";")) (CVar "semicolon")) (* 4368 *)
     (
      Next (* 4369 *) ;;
      Push "export" "semicolon" (EConstruct N_Symbol) (* 4370 *))
     Skip ;;
    Return (EVar "export") (* 4372 *))
|}.

(* parser.rs:4374-4455 *)
Definition parse_load_statement : fundef fn := {|
  f_params := ["semicolon"];
  f_body := (
    LetNode "load" (EConstruct N_LoadStatement) (* 4375 *) ;;
    Next (* 4376 *) ;;
    Push "load" "data" (EConstruct N_Keyword) (* 4377 *) ;;
    Next (* 4378 *) ;;
    Push "load" "into" (EConstruct N_Keyword) (* 4379 *) ;;
    Next (* 4380 *) ;;
    Push "load" "ident" (ECall F_parse_identifier []) (* 4381 *) ;;
    If (CTok 1 (TIn ["OVERWRITE"; "PARTITIONS"])) (* 4382 *)
     (
      Next (* 4383 *) ;;
      LetNode "op" (EConstruct N_OverwritePartitionsClause) (* 4384 *) ;;
      If (CTok 0 (TIs "OVERWRITE")) (* 4385 *)
       (
        LetNode "o" (EVar "op") (* 4386 *) ;;
        SetType "o" N_Keyword (* 4387 *) ;;
        Next (* 4388 *) ;;
        SetNode "op" (EConstruct N_OverwritePartitionsClause) (* 4389 *) ;;
        Push "op" "overwrite" (EVar "o") (* 4390 *))
       Skip ;;
      Next (* 4392 *) ;;
      Push "op" "grouped_expr" (ECall F_parse_expr [ANum (NumC 101); ABool (BConst false); ABool (BConst false); ABool (BConst false); ABool (BConst true)]) (* 4396 *) ;;
      Push "load" "overwrite_partitions" (EVar "op") (* 4400 *))
     Skip ;;
    If (CTok 1 (TIs "(")) (* 4402 *)
     (
      Next (* 4403 *) ;;
      Push "load" "column_group" (ECall F_parse_grouped_type_declaration_or_constraints [ABool (BConst false); ABool (BConst false)]) (* 4404 *))
     Skip ;;
    If (CTok 1 (TIs "PARTITION")) (* 4409 *)
     (
      Next (* 4410 *) ;;
      Push "load" "partitionby" (ECall F_parse_xxxby_exprs []) (* 4411 *))
     Skip ;;
    If (CTok 1 (TIs "CLUSTER")) (* 4413 *)
     (
      Next (* 4414 *) ;;
      Push "load" "clusterby" (ECall F_parse_xxxby_exprs []) (* 4415 *))
     Skip ;;
    If (CTok 1 (TIs "OPTIONS")) (* 4417 *)
     (
      Next (* 4418 *) ;;
      Push "load" "options" (ECall F_parse_keyword_with_grouped_exprs [ABool (BConst false)]) (* 4419 *))
     Skip ;;
    Next (* 4421 *) ;;
    Push "load" "from" (EConstruct N_Keyword) (* 4422 *) ;;
    Next (* 4423 *) ;;
    Push "load" "files" (EConstruct N_Keyword) (* 4424 *) ;;
    Next (* 4425 *) ;;
    Push "load" "from_files" (ECall F_parse_grouped_exprs [ABool (BConst false)]) (* 4426 *) ;;
    If (CAnd (CTok 1 (TIs "WITH")) (CTok 2 (TIs "PARTITION"))) (* 4427 *)
     (
      Next (* 4428 *) ;;
      LetNode "with" (EConstruct N_WithPartitionColumnsClause) (* 4429 *) ;;
      Next (* 4430 *) ;;
      PushVec "with" "partition_columns" (XCall F_parse_n_keywords [ANum (NumC 2)]) (* 4431 *) ;;
      If (CTok 1 (TIs "(")) (* 4432 *)
       (
        Next (* 4433 *) ;;
        Push "with" "column_schema_group" (ECall F_parse_grouped_type_declaration_or_constraints [ABool (BConst false); ABool (BConst false)]) (* 4434 *))
       Skip ;;
      Push "load" "with_partition_columns" (EVar "with") (* 4439 *))
     Skip ;;
    If (CAnd (CTok 1 (TIs "WITH")) (CTok 2 (TIs "CONNECTION"))) (* 4441 *)
     (
      Next (* 4442 *) ;;
      Push "load" "with" (EConstruct N_Keyword) (* 4443 *) ;;
      Next (* 4444 *) ;;
      Push "load" "connection" (EConstruct N_Keyword) (* 4445 *) ;;
      Next (* 4446 *) ;;
      Push "load" "connection_name" (ECall F_parse_identifier []) (* 4447 *))
     Skip ;;
    If (CAnd (CTok 1 (TIs ";")) (CVar "semicolon")) (* 4450 *)
     (
      Next (* 4451 *) ;;
      Push "load" "semicolon" (EConstruct N_Symbol) (* 4452 *))
     Skip ;;
    Return (EVar "load") (* 4454 *))
|}.

(* The types of the parameters and of the result, from the signatures. *)
Definition fn_sig (f : fn) : list vtype * vtype :=
  match f with
  | F_parse_code => ([], TVec)
  | F_parse_between_operator => ([TNode], TNode)
  | F_parse_binary_operator => ([TNode], TNode)
  | F_parse_constraint => ([], TNode)
  | F_parse_cte => ([], TNode)
  | F_parse_enforced => ([], TNode)
  | F_parse_expr => ([TNum; TBool; TBool; TBool; TBool], TNode)
  | F_parse_exprs => ([TStrs; TBool; TBool], TVec)
  | F_parse_grouped_exprs => ([TBool], TNode)
  | F_parse_grouped_type_declaration_or_constraints => ([TBool; TBool], TNode)
  | F_parse_single_or_multi_token_identifier => ([], TNode)
  | F_parse_identifier => ([], TNode)
  | F_parse_in_operator => ([TNode], TNode)
  | F_parse_is_distinct_from_operator => ([TNode], TNode)
  | F_parse_keyword_with_grouped_exprs => ([TBool], TNode)
  | F_parse_keyword_with_statements => ([TStrs], TNode)
  | F_parse_n_keywords => ([TNum], TVec)
  | F_parse_set_operator => ([TNode], TNode)
  | F_parse_statement => ([TBool], TNode)
  | F_parse_table => ([TBool], TNode)
  | F_parse_type => ([TBool; TBool], TNode)
  | F_parse_window_expr => ([], TNode)
  | F_parse_with_connection_clause => ([], TNode)
  | F_parse_with_clause => ([], TNode)
  | F_parse_window_clause => ([], TNode)
  | F_parse_xxxby_exprs => ([], TNode)
  | F_parse_groupby_exprs => ([TBool], TNode)
  | F_parse_table_sample_ratio => ([], TNode)
  | F_parse_pivot_config_clause => ([], TNode)
  | F_parse_unpivot_config_clause => ([], TNode)
  | F_parse_match_recognize_clause => ([], TNode)
  | F_parse_match_recognize_config => ([], TNode)
  | F_parse_by_name_clause => ([], TNode)
  | F_parse_pattern_clause => ([], TNode)
  | F_parse_grouped_pattern => ([], TNode)
  | F_parse_pattern => ([], TNode)
  | F_parse_quantifier => ([], TNode)
  | F_parse_corresponding_clause => ([], TNode)
  | F_push_trailing_alias => ([TNode], TNode)
  | F_parse_select_statement => ([TBool; TBool], TNode)
  | F_parse_from_statement => ([], TNode)
  | F_parse_pipe_statement => ([TNode], TNode)
  | F_parse_select_pipe_operator => ([], TNode)
  | F_parse_limit_pipe_operator => ([], TNode)
  | F_parse_aggregate_pipe_operator => ([], TNode)
  | F_parse_union_pipe_operator => ([], TNode)
  | F_parse_join_pipe_operator => ([], TNode)
  | F_parse_tablesample_pipe_operator => ([], TNode)
  | F_parse_pivot_pipe_operator => ([], TNode)
  | F_parse_unpivot_pipe_operator => ([], TNode)
  | F_parse_with_pipe_operator => ([], TNode)
  | F_parse_match_recognize_pipe_operator => ([], TNode)
  | F_parse_base_pipe_operator => ([TBool], TNode)
  | F_parse_insert_statement => ([TBool], TNode)
  | F_parse_delete_statement => ([TBool], TNode)
  | F_parse_truncate_statement => ([TBool], TNode)
  | F_parse_update_statement => ([TBool], TNode)
  | F_parse_merge_statement => ([TBool], TNode)
  | F_parse_create_schema_statement => ([TBool], TNode)
  | F_parse_create_search_index_statement => ([TBool], TNode)
  | F_parse_create_table_statement => ([TBool], TNode)
  | F_parse_create_view_statement => ([TBool], TNode)
  | F_parse_create_function_statement => ([TBool], TNode)
  | F_parse_create_procedure_statement => ([TBool], TNode)
  | F_parse_create_row_access_policy_statement => ([TBool], TNode)
  | F_parse_create_model_statement => ([TBool], TNode)
  | F_parse_alter_schema_statement => ([TBool], TNode)
  | F_parse_alter_table_statement => ([TBool], TNode)
  | F_parse_alter_column_statement => ([TBool], TNode)
  | F_parse_alter_vector_index_statement => ([TBool], TNode)
  | F_parse_alter_view_statement => ([TBool], TNode)
  | F_parse_alter_organization_statement => ([TBool], TNode)
  | F_parse_alter_project_statement => ([TBool], TNode)
  | F_parse_alter_bicapacity_statement => ([TBool], TNode)
  | F_parse_alter_reservation_statement => ([TBool], TNode)
  | F_parse_alter_model_statement => ([TBool], TNode)
  | F_parse_drop_row_access_policy_statement => ([TBool], TNode)
  | F_parse_drop_statement_general => ([TBool], TNode)
  | F_parse_undrop_statement => ([TBool], TNode)
  | F_parse_grant_statement => ([TBool], TNode)
  | F_parse_revoke_statement => ([TBool], TNode)
  | F_parse_create_reservation_statement => ([TBool], TNode)
  | F_parse_declare_statement => ([TBool], TNode)
  | F_parse_set_statement => ([TBool], TNode)
  | F_parse_execute_statement => ([TBool], TNode)
  | F_parse_begin_statement => ([TBool], TNode)
  | F_parse_if_statement => ([TBool], TNode)
  | F_parse_labeled_statement => ([TBool], TNode)
  | F_parse_break_continue_statement => ([TBool], TNode)
  | F_parse_loop_statement => ([TBool], TNode)
  | F_parse_repeat_statement => ([TBool], TNode)
  | F_parse_while_statement => ([TBool], TNode)
  | F_parse_single_token_statement => ([TBool], TNode)
  | F_parse_for_statement => ([TBool], TNode)
  | F_parse_transaction_statement => ([TBool], TNode)
  | F_parse_raise_statement => ([TBool], TNode)
  | F_parse_case_statement => ([TBool], TNode)
  | F_parse_call_statement => ([TBool], TNode)
  | F_parse_assert_satement => ([TBool], TNode)
  | F_parse_export_data_statement => ([TBool], TNode)
  | F_parse_export_model_statement => ([TBool], TNode)
  | F_parse_load_statement => ([TBool], TNode)
  end.

Definition prog (f : fn) : fundef fn :=
  match f with
  | F_parse_code => parse_code
  | F_parse_between_operator => parse_between_operator
  | F_parse_binary_operator => parse_binary_operator
  | F_parse_constraint => parse_constraint
  | F_parse_cte => parse_cte
  | F_parse_enforced => parse_enforced
  | F_parse_expr => parse_expr
  | F_parse_exprs => parse_exprs
  | F_parse_grouped_exprs => parse_grouped_exprs
  | F_parse_grouped_type_declaration_or_constraints => parse_grouped_type_declaration_or_constraints
  | F_parse_single_or_multi_token_identifier => parse_single_or_multi_token_identifier
  | F_parse_identifier => parse_identifier
  | F_parse_in_operator => parse_in_operator
  | F_parse_is_distinct_from_operator => parse_is_distinct_from_operator
  | F_parse_keyword_with_grouped_exprs => parse_keyword_with_grouped_exprs
  | F_parse_keyword_with_statements => parse_keyword_with_statements
  | F_parse_n_keywords => parse_n_keywords
  | F_parse_set_operator => parse_set_operator
  | F_parse_statement => parse_statement
  | F_parse_table => parse_table
  | F_parse_type => parse_type
  | F_parse_window_expr => parse_window_expr
  | F_parse_with_connection_clause => parse_with_connection_clause
  | F_parse_with_clause => parse_with_clause
  | F_parse_window_clause => parse_window_clause
  | F_parse_xxxby_exprs => parse_xxxby_exprs
  | F_parse_groupby_exprs => parse_groupby_exprs
  | F_parse_table_sample_ratio => parse_table_sample_ratio
  | F_parse_pivot_config_clause => parse_pivot_config_clause
  | F_parse_unpivot_config_clause => parse_unpivot_config_clause
  | F_parse_match_recognize_clause => parse_match_recognize_clause
  | F_parse_match_recognize_config => parse_match_recognize_config
  | F_parse_by_name_clause => parse_by_name_clause
  | F_parse_pattern_clause => parse_pattern_clause
  | F_parse_grouped_pattern => parse_grouped_pattern
  | F_parse_pattern => parse_pattern
  | F_parse_quantifier => parse_quantifier
  | F_parse_corresponding_clause => parse_corresponding_clause
  | F_push_trailing_alias => push_trailing_alias
  | F_parse_select_statement => parse_select_statement
  | F_parse_from_statement => parse_from_statement
  | F_parse_pipe_statement => parse_pipe_statement
  | F_parse_select_pipe_operator => parse_select_pipe_operator
  | F_parse_limit_pipe_operator => parse_limit_pipe_operator
  | F_parse_aggregate_pipe_operator => parse_aggregate_pipe_operator
  | F_parse_union_pipe_operator => parse_union_pipe_operator
  | F_parse_join_pipe_operator => parse_join_pipe_operator
  | F_parse_tablesample_pipe_operator => parse_tablesample_pipe_operator
  | F_parse_pivot_pipe_operator => parse_pivot_pipe_operator
  | F_parse_unpivot_pipe_operator => parse_unpivot_pipe_operator
  | F_parse_with_pipe_operator => parse_with_pipe_operator
  | F_parse_match_recognize_pipe_operator => parse_match_recognize_pipe_operator
  | F_parse_base_pipe_operator => parse_base_pipe_operator
  | F_parse_insert_statement => parse_insert_statement
  | F_parse_delete_statement => parse_delete_statement
  | F_parse_truncate_statement => parse_truncate_statement
  | F_parse_update_statement => parse_update_statement
  | F_parse_merge_statement => parse_merge_statement
  | F_parse_create_schema_statement => parse_create_schema_statement
  | F_parse_create_search_index_statement => parse_create_search_index_statement
  | F_parse_create_table_statement => parse_create_table_statement
  | F_parse_create_view_statement => parse_create_view_statement
  | F_parse_create_function_statement => parse_create_function_statement
  | F_parse_create_procedure_statement => parse_create_procedure_statement
  | F_parse_create_row_access_policy_statement => parse_create_row_access_policy_statement
  | F_parse_create_model_statement => parse_create_model_statement
  | F_parse_alter_schema_statement => parse_alter_schema_statement
  | F_parse_alter_table_statement => parse_alter_table_statement
  | F_parse_alter_column_statement => parse_alter_column_statement
  | F_parse_alter_vector_index_statement => parse_alter_vector_index_statement
  | F_parse_alter_view_statement => parse_alter_view_statement
  | F_parse_alter_organization_statement => parse_alter_organization_statement
  | F_parse_alter_project_statement => parse_alter_project_statement
  | F_parse_alter_bicapacity_statement => parse_alter_bicapacity_statement
  | F_parse_alter_reservation_statement => parse_alter_reservation_statement
  | F_parse_alter_model_statement => parse_alter_model_statement
  | F_parse_drop_row_access_policy_statement => parse_drop_row_access_policy_statement
  | F_parse_drop_statement_general => parse_drop_statement_general
  | F_parse_undrop_statement => parse_undrop_statement
  | F_parse_grant_statement => parse_grant_statement
  | F_parse_revoke_statement => parse_revoke_statement
  | F_parse_create_reservation_statement => parse_create_reservation_statement
  | F_parse_declare_statement => parse_declare_statement
  | F_parse_set_statement => parse_set_statement
  | F_parse_execute_statement => parse_execute_statement
  | F_parse_begin_statement => parse_begin_statement
  | F_parse_if_statement => parse_if_statement
  | F_parse_labeled_statement => parse_labeled_statement
  | F_parse_break_continue_statement => parse_break_continue_statement
  | F_parse_loop_statement => parse_loop_statement
  | F_parse_repeat_statement => parse_repeat_statement
  | F_parse_while_statement => parse_while_statement
  | F_parse_single_token_statement => parse_single_token_statement
  | F_parse_for_statement => parse_for_statement
  | F_parse_transaction_statement => parse_transaction_statement
  | F_parse_raise_statement => parse_raise_statement
  | F_parse_case_statement => parse_case_statement
  | F_parse_call_statement => parse_call_statement
  | F_parse_assert_satement => parse_assert_satement
  | F_parse_export_data_statement => parse_export_data_statement
  | F_parse_export_model_statement => parse_export_model_statement
  | F_parse_load_statement => parse_load_statement
  end.
