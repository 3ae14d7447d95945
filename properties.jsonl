{"id": "C01", "title": "Tokenizing loses no text", "statement": "If tokenize succeeds, the source is exactly: white space, first token's literal, white space, second literal, ..., last literal, white space. Nothing that is not white space is dropped, changed, duplicated or reordered.", "quantifier": "every source string (every finite sequence of Unicode characters) and every Unicode table", "why_tests_cant": "the input space is infinite; tests sample a few dozen short snippets", "anchors": ["src/lexer.rs: Lexer::tokenize_code, next_token", "src/lib.rs: tokenize"]}
{"id": "C02", "title": "Token positions are the true source positions", "statement": "The line and column of every token other than EOF are the 1-based line and column at which its literal starts in the source, where a line ends at each '\\n' and columns count characters.", "quantifier": "every source string (every finite sequence of Unicode characters) and every Unicode table", "why_tests_cant": "the input space is infinite; tests sample a few dozen short snippets", "anchors": ["src/lexer.rs: next_char, construct_token", "src/token.rs: Token"]}
{"id": "C03", "title": "Tokens come in source order", "statement": "In the token list positions strictly increase lexicographically, so no two tokens share a position.", "quantifier": "every source string (every finite sequence of Unicode characters) and every Unicode table", "why_tests_cant": "the input space is infinite; tests sample a few dozen short snippets", "anchors": ["src/lexer.rs: tokenize_code"]}
{"id": "C04", "title": "One EOF token, at the end, and only it is empty", "statement": "A successful tokenize ends with exactly one token with the empty literal and line and column usize::MAX; all other tokens have non-empty literals with no white space at their ends except inside strings, quoted names and block comments, and real positions below usize::MAX.", "quantifier": "every source string (every finite sequence of Unicode characters) and every Unicode table, of fewer than usize::MAX - 1 characters for the last clause", "why_tests_cant": "the input space is infinite; tests sample a few dozen short snippets", "anchors": ["src/lexer.rs: tokenize_code", "src/token.rs: Token::eof"]}
{"id": "C05", "title": "Tokenizing always terminates", "statement": "tokenize returns for every input: each loop makes progress and the cursor never passes the end of the input.", "quantifier": "every source string (every finite sequence of Unicode characters) and every Unicode table", "why_tests_cant": "termination is a statement about all inputs; a test can only time out", "anchors": ["src/lexer.rs: all loops, next_char"]}
{"id": "C06", "title": "When tokenize panics", "statement": "tokenize panics (aborting the WASM instance) if and only if the first token of the source is a lone '<' (not followed by '<', '=' or '>'). On every other input it returns.", "quantifier": "every source string (every finite sequence of Unicode characters) and every Unicode table", "why_tests_cant": "the input space is infinite; tests sample a few dozen short snippets; the repository's tests contain no such input", "anchors": ["src/lexer.rs: next_token arm '<' (tokens.last().unwrap())"]}
{"id": "C07", "title": "Tokenizer errors are located", "statement": "tokenize fails only with 'EOF'-type errors located at the end of the source or an 'invalid identifier' error located at the character that follows '@'; in every case line and column denote a position of the source or its end.", "quantifier": "every source string (every finite sequence of Unicode characters) and every Unicode table", "why_tests_cant": "the input space is infinite; tests sample a few dozen short snippets", "anchors": ["src/lexer.rs: read_string, read_multiline_string, read_back_quoted, read_identifier, read_multiline_comment", "src/error.rs: BQ2CSTError"]}
{"id": "C08", "title": "Quoted strings end at the first unescaped closing quote", "statement": "A one-line quoted literal ('..', \"..\", `..`) becomes one token that starts and ends with the quote, in which every quote in between is preceded by an odd backslash escape, and the text after it is tokenized independently.", "quantifier": "every quote character, every body and every continuation", "why_tests_cant": "the input space is infinite; tests sample a few dozen short snippets", "anchors": ["src/lexer.rs: read_string, read_back_quoted, read_escaped_string..."]}
{"id": "C09", "title": "Triple-quoted strings", "statement": "A literal opened by three quotes ends at the first unescaped run of three such quotes and is one token, whatever newlines and single quotes it contains.", "quantifier": "every body and continuation", "why_tests_cant": "the input space is infinite; tests sample a few dozen short snippets", "anchors": ["src/lexer.rs: read_multiline_string"]}
{"id": "C10", "title": "Comments end where SQL says they end", "statement": "A line comment (#, --) is one token reaching to the end of its line, without trailing white space; a block comment is one token reaching to the first */ (the code also accepts /*/ as a complete comment).", "quantifier": "every comment body and continuation", "why_tests_cant": "the input space is infinite; tests sample a few dozen short snippets", "anchors": ["src/lexer.rs: read_comment, read_multiline_comment"]}
{"id": "C11", "title": "Identifiers and keywords are maximal", "statement": "A word of letters, digits and underscores starting with a letter or underscore becomes exactly one token when not followed by such a character.", "quantifier": "every word and continuation", "why_tests_cant": "the input space is infinite; tests sample a few dozen short snippets", "anchors": ["src/lexer.rs: read_identifier"]}
{"id": "C12", "title": "Numbers are read whole and classified by the numeric grammar", "statement": "A well-formed number (digits, optional fraction, optional exponent), followed by a character that cannot extend it, is one token and is classified numeric; the numeric test accepts exactly the documented grammar.", "quantifier": "every digit string, fraction, exponent and continuation", "why_tests_cant": "the input space is infinite; tests sample a few dozen short snippets", "anchors": ["src/lexer.rs: read_number", "src/token.rs: is_numeric"]}
{"id": "C13", "title": "'>>' is split exactly inside type parameters", "statement": "Between ARRAY< or STRUCT< and its matching '>' two adjacent '>' are two tokens; outside they are one shift operator.", "quantifier": "every nesting depth of type declarations", "why_tests_cant": "the input space is infinite; tests sample a few dozen short snippets", "anchors": ["src/lexer.rs: next_token arms '<' and '>' (type_declaration_depth)"]}
{"id": "C14", "title": "Operators are matched longest-first", "statement": "Two-character operators are never split into their prefixes (outside type declarations for '>>').", "quantifier": "every continuation of the source", "why_tests_cant": "the input space is infinite; tests sample a few dozen short snippets", "anchors": ["src/lexer.rs: next_token"]}
{"id": "C15", "title": "Tokenizing does not depend on the amount of white space", "statement": "Replacing any white space between tokens by any other non-empty white space (with a newline kept after line comments) leaves the sequence of literals unchanged.", "quantifier": "every source string (every finite sequence of Unicode characters) and every Unicode table and every replacement", "why_tests_cant": "the input space is infinite; tests sample a few dozen short snippets", "anchors": ["src/lexer.rs: skip_whitespace, next_token"]}
{"id": "C16", "title": "Tokenizing does not depend on letter case", "statement": "Changing the ASCII case of letters of the source changes the literals in the same way and nothing else: same number of tokens, same positions, same errors and panics.", "quantifier": "every source string (every finite sequence of Unicode characters) and every Unicode table and every re-casing", "why_tests_cant": "the input space is infinite; tests sample a few dozen short snippets", "anchors": ["src/lexer.rs: next_token, in_type_declaration test", "src/token.rs: is"]}
{"id": "C17", "title": "Token classes exclude each other", "statement": "Among identifier, numeric, string, boolean, parameter, template and comment no literal belongs to two classes, and no reserved keyword is an (unquoted) identifier.", "quantifier": "every literal", "why_tests_cant": "the classes are infinite sets", "anchors": ["src/token.rs", "src/constants.rs: KEYWORDS"]}
{"id": "C18", "title": "'>>' inside types that contain RANGE<", "statement": "One would expect '>>' to be split inside every type declaration. It is not: a RANGE< inside is not counted as an opening bracket although its '>' is counted as a closing one, so the closing brackets of a well-formed type such as STRUCT<a RANGE<DATE>, b ARRAY<RANGE<DATE>>> end in a shift operator token.", "quantifier": "there is a well-formed type declaration", "why_tests_cant": "It is a counterexample to a property over all type declarations (C13 extended to RANGE); the boundary between C13 and C18 is what a test cannot give.", "anchors": ["src/lexer.rs: read_token arms '<' and '>'"]}
{"id": "C20", "title": "Parsing always terminates", "statement": "parse returns (a tree, an error or a panic) for every input: every loop consumes a token and every recursion is well-founded, including the backtracking in FROM items.", "quantifier": "every source string (every finite sequence of Unicode characters) and every Unicode table and every token list ending in EOF", "why_tests_cant": "termination is a statement about all inputs; tests can only time out", "anchors": ["src/parser.rs: all loops and recursive calls"]}
{"id": "C21", "title": "parse panics only when the code breaks off inside a name", "statement": "A panic of parse (other than C06) happens only when an identifier is expected and the input is exhausted; it never happens at any other token. Panic-freedom itself is false.", "quantifier": "every source string (every finite sequence of Unicode characters) and every Unicode table", "why_tests_cant": "the panicking inputs are an infinite family; absence elsewhere is universal", "anchors": ["src/parser.rs: parse_identifier"]}
{"id": "C22", "title": "Shape of the result", "statement": "A successful parse returns at least one node; the last one, and only it among the top-level nodes, has type EOF; it carries no token.", "quantifier": "every source string (every finite sequence of Unicode characters) and every Unicode table that maps ASCII letters to upper case as ASCII does", "why_tests_cant": "the input space is infinite; tests sample a few dozen short snippets", "anchors": ["src/parser.rs: parse_code, construct_node"]}
{"id": "C23", "title": "The tree never invents or duplicates tokens", "statement": "Every token in a returned tree is a token of the source, and each source token (comments included) occurs in the tree at most once; the EOF token never occurs.", "quantifier": "every source string (every finite sequence of Unicode characters) and every Unicode table that maps ASCII letters to upper case as ASCII does", "why_tests_cant": "the input space is infinite; tests sample a few dozen short snippets; a violation needs a specific statement combination", "anchors": ["src/parser.rs: every parse_* function", "src/cst.rs: push_node, push_node_vec"]}
{"id": "C24", "title": "The tree loses no token", "statement": "Every token of the source occurs in the tree. This is false where a child is pushed twice under one key: [NOT] ENFORCED after PRIMARY KEY and again after REFERENCES, a semicolon after the source of MERGE and again at its end, a semicolon after a labelled FROM or pipe statement and again after the label's statement. Outside these, every token occurs exactly once.", "quantifier": "every source string (every finite sequence of Unicode characters) and every Unicode table that maps ASCII letters to upper case as ASCII does", "why_tests_cant": "needs all combinations of all statements and clauses", "anchors": ["src/parser.rs: every parse_* function", "src/cst.rs: push_node"]}
{"id": "C25", "title": "Comments are attached to the nearest token", "statement": "Each comment is attached exactly once: as trailing comment of the last token before it if it starts on the same line (and only comments lie between), otherwise as leading comment of the next token.", "quantifier": "every source string (every finite sequence of Unicode characters) and every Unicode table that maps ASCII letters to upper case as ASCII does", "why_tests_cant": "the input space is infinite; tests sample a few dozen short snippets", "anchors": ["src/parser.rs: Parser::new, next_token, construct_node"]}
{"id": "C26", "title": "Statements partition the source in order", "statement": "The k-th top-level node contains only tokens of the k-th of consecutive slices which partition the token list; each slice is non-empty.", "quantifier": "every source string (every finite sequence of Unicode characters) and every Unicode table that maps ASCII letters to upper case as ASCII does", "why_tests_cant": "the input space is infinite; tests sample a few dozen short snippets", "anchors": ["src/parser.rs: parse_code"]}
{"id": "C27", "title": "Parser errors point at a token", "statement": "Line and column of a parser error are those of a token of the source or of the EOF marker; tokenizer errors are reported before any parsing.", "quantifier": "every source string (every finite sequence of Unicode characters) and every Unicode table", "why_tests_cant": "the input space is infinite; tests sample a few dozen short snippets", "anchors": ["src/parser.rs: all Err sites", "src/error.rs: from_token", "src/lib.rs: parse"]}
{"id": "C28", "title": "Comments do not change the parse", "statement": "Inserting or deleting comments changes neither success or failure nor the tree apart from the comment children (nor, on failure, the token at which the error is reported).", "quantifier": "every two token lists that agree after removing comments", "why_tests_cant": "the input space is infinite; tests sample a few dozen short snippets", "anchors": ["src/parser.rs: get_offset_index, next_token, construct_node"]}
{"id": "C29", "title": "Letter case does not change the parse", "statement": "Changing ASCII letter case anywhere in keywords and names changes only the literals in the tree.", "quantifier": "every source and every re-casing", "why_tests_cant": "the input space is infinite; tests sample a few dozen short snippets", "anchors": ["src/parser.rs", "src/token.rs: is, in_"]}
{"id": "C30", "title": "Layout does not change the parse", "statement": "Changing white space between tokens changes only line/column in the tree, provided tokens that touch keep touching and separated tokens stay separated.", "quantifier": "every source and every re-layout", "why_tests_cant": "the input space is infinite; tests sample a few dozen short snippets", "anchors": ["src/parser.rs: parse_identifier adjacency test"]}
{"id": "C31", "title": "Operator precedence and associativity", "statement": "In every expression built from operands and binary operators, the tree returned groups operators by the documented precedence, and operators of equal precedence to the left.", "quantifier": "every flat sequence operand (operator operand)*, any length", "why_tests_cant": "the input space is infinite; tests sample a few dozen short snippets", "anchors": ["src/parser.rs: get_precedence, parse_expr, parse_binary_operator"]}
{"id": "C32", "title": "Deterministic rendering", "statement": "The textual rendering of a node does not depend on the iteration order of its hash map: two nodes with the same contents render the same.", "quantifier": "every node and every order of its children", "why_tests_cant": "hash order is random per process", "anchors": ["src/cst.rs: format, Display"]}
{"id": "C33", "title": "Children behave as a map", "statement": "push_node/push_node_vec under a key replaces the previous child under that key and leaves all other keys unchanged.", "quantifier": "every node, key and child", "why_tests_cant": "infinite", "anchors": ["src/cst.rs: push_node, push_node_vec"]}
{"id": "C34", "title": "Backtracking leaves no trace", "statement": "When the attempt to read a parenthesised FROM item as a query fails, the parser continues exactly as if the attempt had not been made.", "quantifier": "every parser state at a parenthesis", "why_tests_cant": "the input space is infinite; tests sample a few dozen short snippets", "anchors": ["src/parser.rs: parse_table (clone and restore)"]}
{"id": "C35", "title": "Every node matches its published TypeScript type", "statement": "Every node of a returned tree has only the children its type in types.rs declares, each of the declared kind (single node or list) and of a declared type, and carries a token as declared. The code violates this for a finite list of (node type, child, child type) combinations; outside that list it holds, and every combination on the list does occur (three of them only under a Unicode table in which some non-ASCII character has a bracket or a dot as its upper case).", "quantifier": "every source string (every finite sequence of Unicode characters) and every Unicode table that maps ASCII letters to upper case as ASCII does", "why_tests_cant": "150 node types times all contexts", "anchors": ["src/types.rs", "src/parser.rs"]}
{"id": "C36", "title": "Required children are present", "statement": "Every node of a returned tree has the children its TypeScript type declares as mandatory. The code violates this for a finite list of (node type, child) pairs (for instance every identifier lacks with_offset); outside that list it holds, and every pair on the list does occur.", "quantifier": "every source string (every finite sequence of Unicode characters) and every Unicode table that maps ASCII letters to upper case as ASCII does", "why_tests_cant": "150 node types times all contexts", "anchors": ["src/types.rs", "src/parser.rs"]}
{"id": "C37", "title": "The rendering tells trees apart", "statement": "Two returned trees render to the same text if and only if they have the same node types, children and token texts (positions are not rendered), as long as no token contains a line break. A missing token is rendered as None, so a struct field named None renders like a field without a name.", "quantifier": "every pair of source strings that parse, and every node of their results", "why_tests_cant": "the repository's tests compare renderings only; that equal renderings mean equal trees ranges over all trees", "anchors": ["src/cst.rs: format, Display", "src/parser/tests"]}
{"id": "C38", "title": "Words are under the roles they stand for", "statement": "In every returned tree a child under a key that stands for a fixed word holds that word (FROM under from, a comma under comma, END under end, a closing bracket under rparen, ...), in any letter case, and nodes of the statement, clause and operator types are marked with their own word. The code does not check this everywhere: 180 pairs of node type and key (for instance then of an IF, rparen of a group, the colon after a label) and 21 node types accept any word; outside that list it holds, and each listed pair holds a wrong word for some accepted text.", "quantifier": "every source string that parses, every node of the result, every key with a fixed word", "why_tests_cant": "that a key never holds another word ranges over all accepted texts, most of which are not well-formed SQL; tests only show that well-formed texts put the right word there", "anchors": ["src/parser.rs: construct_node, next_token and every push_node with the result of construct_node", "src/cst.rs: Node, push_node"]}
{"id": "C39", "title": "Queries are accepted and read as written", "statement": "A text that consists of queries, separated by semicolons, is accepted by parse, and the trees returned are exactly the ones the grammar assigns to it: every word is under the key of its role, operands are grouped by precedence, comments are with the token they are attached to. One text has one such reading. Queries: WITH [RECURSIVE], SELECT [ALL|DISTINCT] [AS STRUCT|VALUE] list, FROM with joins, subqueries, UNNEST, dashed names, aliases, WITH OFFSET, FOR SYSTEM_TIME AS OF, PIVOT and TABLESAMPLE, WHERE, GROUP BY with ROLLUP, CUBE, GROUPING SETS or ALL, HAVING, QUALIFY, WINDOW, ORDER BY, LIMIT/OFFSET, parentheses, UNION/INTERSECT/EXCEPT with BY NAME or CORRESPONDING. Expressions: names, literals with and without a type, field and array access, * with EXCEPT or REPLACE, calls with DISTINCT, NULLS, ORDER BY, LIMIT, HAVING MAX|MIN and OVER windows, CAST with FORMAT, EXTRACT with AT TIME ZONE, INTERVAL, prefix and infix operators, IS [NOT] [DISTINCT FROM], [NOT] LIKE [ANY|ALL|SOME], [NOT] BETWEEN, [NOT] IN with a list, a query or UNNEST, CASE, arrays, structs and tuples with and without types, subqueries; nested without bound.", "quantifier": "every script of the grammar, of any length and depth, with any names, literals, white space, letter case and comments, and every Unicode table that maps ASCII letters to upper case as ASCII does", "why_tests_cant": "the repository's tests fix a few hundred texts; the property ranges over all derivations of a recursive grammar", "anchors": ["src/parser.rs: parse_code, parse_statement, parse_select_statement, parse_set_operator, parse_with_clause, parse_cte, parse_table, parse_identifier, parse_exprs, parse_expr, parse_type, parse_window_expr, get_precedence", "src/lib.rs: parse"]}
{"id": "C40", "title": "Data manipulation and scripting statements are accepted and read as written", "statement": "A text that consists of statements, separated by semicolons, is accepted by parse, and the trees returned are exactly the ones the grammar assigns to it: one tree per statement, in order, every word under the key of its role, blocks nested as written. One text has one such reading. Statements: the queries of C39, INSERT with values or a query, DELETE, TRUNCATE, UPDATE [FROM], MERGE with any list of WHEN clauses, DROP, DECLARE, SET, EXECUTE IMMEDIATE [INTO] [USING], BEGIN/COMMIT/ROLLBACK [TRANSACTION], BREAK/LEAVE/CONTINUE/ITERATE [label], RETURN, RAISE [USING], CALL, ASSERT [AS], BEGIN ... [EXCEPTION WHEN ERROR THEN ...] END, IF with any number of ELSEIF and an optional ELSE, LOOP, REPEAT, WHILE, FOR ... IN, CASE, labels on blocks and loops, CREATE PROCEDURE with a BEGIN ... END body; statements nest in each other without bound.", "quantifier": "every program of the grammar, of any length and depth, with any names, literals, white space, letter case and comments, and every Unicode table that maps ASCII letters to upper case as ASCII does", "why_tests_cant": "the repository's tests fix a few hundred texts; the property ranges over all derivations of a recursive grammar, with statements nested in statements", "anchors": ["src/parser.rs: parse_code, parse_statement, parse_insert_statement, parse_delete_statement, parse_truncate_statement, parse_update_statement, parse_merge_statement, parse_drop_statement, parse_declare_statement, parse_set_statement, parse_execute_statement, parse_begin_statement, parse_if_statement, parse_loop_statement, parse_repeat_statement, parse_while_statement, parse_for_statement, parse_case_statement, parse_labeled_statement, parse_keyword_with_statements", "src/lib.rs: parse"]}
{"id": "C41", "title": "Names and literals are interchangeable", "statement": "Replacing, in any text, names by other names, quoted names by quoted names, strings by strings, numbers by numbers and @parameters by @parameters, so that the same tokens stay adjacent without white space, changes nothing else: parse fails with the same message at the corresponding token, or succeeds with the same tree up to those tokens. A name here is one that is neither reserved nor one of 114 listed words that mean something to the parser somewhere without being reserved; each word of that list really is such a word, so the exception cannot be narrowed, and without it the property is false.", "quantifier": "all pairs of texts that are tokenized into corresponding tokens; every Unicode table that agrees with ASCII on ASCII; for the exceptions: every word of the list", "why_tests_cant": "a formatter's user relies on it for every text and every renaming; tests fix both", "anchors": ["src/parser.rs: every comparison of a token with a word", "src/token.rs: is, in_, is_identifier, is_string, is_numeric, is_parameter, is_template", "src/constants.rs: KEYWORDS"]}
{"id": "C42", "title": "Accepted code has matching brackets (false)", "statement": "One would expect the round brackets of every accepted text to match. They need not: SELECT ) is accepted, the bracket becoming a node of type Unknown.", "quantifier": "there is an accepted text", "why_tests_cant": "it refutes a property over all accepted texts", "anchors": ["src/parser.rs: construct_node, parse_expr", "src/lib.rs: parse"]}
{"id": "C43", "title": "The semicolon at the end of a text is optional (false)", "statement": "One would expect a text that is accepted with a semicolon at its end to be accepted without it, as it is for queries. BREAK; is accepted and BREAK is not.", "quantifier": "there is an accepted text", "why_tests_cant": "it refutes a property over all accepted texts", "anchors": ["src/parser.rs: parse_break_continue_statement", "src/lib.rs: parse"]}
{"id": "C44", "title": "SET assigns its whole right-hand side (false)", "statement": "One would expect the tree of SET x = e to have the assignment at its root for every expression e. For an e whose operator binds weaker than '=', such as a AND b, the root is that operator and x = a its left operand.", "quantifier": "there is an expression", "why_tests_cant": "it refutes a property over all expressions", "anchors": ["src/parser.rs: parse_set_statement, parse_expr"]}
{"id": "C45", "title": "Queries compose (false)", "statement": "One would expect a query in brackets to be accepted wherever a query is, an ORDER BY after a set operation to belong to that operation, and the modifiers of a star to combine. SELECT ((SELECT 1) UNION ALL (SELECT 2)) is rejected although its inner query is accepted as a statement; the ORDER BY of SELECT 1 UNION ALL SELECT 2 ORDER BY 1 is placed under the last operand and is rejected after an operand in brackets; * EXCEPT (a) REPLACE (1 AS b) is rejected although each modifier alone is accepted. After INSERT INTO t, a query in brackets is rejected.", "quantifier": "there are queries", "why_tests_cant": "they refute properties over all queries; C39 gives the grammar for which the positive property holds", "anchors": ["src/parser.rs: parse_expr, parse_select_statement, parse_set_operator"]}
{"id": "C46", "title": "Defining statements are read as written", "statement": "A text that consists of the tokens of one statement of the defining grammar (CREATE, ALTER, DROP, UNDROP, GRANT, REVOKE, EXPORT, LOAD: 48 forms made of phrases such as OR REPLACE, IF NOT EXISTS, names, column lists with types and attributes, OPTIONS, PARTITION BY, WITH CONNECTION, AS query, lists of added, dropped and renamed columns and keys, column lists of views, CLONE), with or without a semicolon, is accepted, and the tree returned is the one the grammar assigns: every phrase under its own key, absent phrases absent. One text has one such tree.", "quantifier": "all defining statements of the grammar, of any size, with any names, comments, layout and letter case", "why_tests_cant": "there are infinitely many statements, and each form has exponentially many combinations of optional phrases", "anchors": ["src/parser.rs: parse_create_table_statement, parse_create_function_statement, parse_alter_table_statement, parse_type, parse_type_declaration, parse_statement"]}
{"id": "C47", "title": "The attributes of a column combine (false)", "statement": "One would expect the attributes of a column to be combinable. DEFAULT 1 and NOT NULL are each accepted, but DEFAULT 1 NOT NULL is rejected; NOT NULL DEFAULT 1 is read as two columns, the second one called DEFAULT; NOT NULL after PRIMARY KEY is kept under the key that stands for NOT ENFORCED.", "quantifier": "there are column definitions", "why_tests_cant": "they refute a property over all column definitions; C46 gives the combinations for which the positive property holds", "anchors": ["src/parser.rs: parse_type, parse_type_declaration"]}
{"id": "C48", "title": "What is left out of a statement is missed (false)", "statement": "One would expect a statement to be rejected if a required piece of it is missing. CREATE TABLE t (a INT64 b INT64) is accepted without its comma, DROP TABLE ; takes the semicolon for the name, and INSERT t anything a FROM b and CREATE TABLE t AS FROM u are accepted without the word SELECT. So can an item of a list: in SELECT a,,b the second comma is an item with the alias b, and in SELECT ; the semicolon is the only item.", "quantifier": "there are accepted texts", "why_tests_cant": "they refute a property over all texts", "anchors": ["src/parser.rs: parse_drop_statement_general, parse_insert_statement, parse_select_statement, parse_grouped_type_declarations"]}
{"id": "C49", "title": "Pipe syntax is read from left to right", "statement": "A text that consists of FROM, a table and operators, each after the symbol |> (WHERE, EXTEND, SET, DROP, RENAME, AS, CALL, ORDER BY, SELECT, LIMIT, AGGREGATE, the set operators, the joins, TABLESAMPLE, PIVOT, WITH, DISTINCT), is accepted. The tree has the last operator on top, and below it, on the left, the tree of the text without that operator; every operator keeps its words, expressions, conditions and aliases under their own keys. A semicolon becomes a part of the tree on top.", "quantifier": "for every table, every number of operators, every expression and query in them, every layout and placement of comments, every Unicode table that agrees with ASCII", "why_tests_cant": "operators, tables and expressions nest without bound", "anchors": ["src/parser.rs: parse_from_statement, parse_pipe_statement, parse_pipe_operator, parse_base_pipe_operator, parse_select_pipe_operator, parse_limit_pipe_operator, parse_aggregate_pipe_operator, parse_union_pipe_operator, parse_join_pipe_operator, parse_tablesample_pipe_operator, parse_pivot_pipe_operator, parse_with_pipe_operator"]}
{"id": "C50", "title": "A pipe operator applies to all that comes before it (false)", "statement": "One would expect a pipe operator to apply to everything before it. After a query in brackets it applies to that query alone: in FROM (SELECT 1) |> WHERE a the WHERE is below the FROM, and in FROM t |> JOIN (SELECT 1) |> WHERE a it is a part of the JOIN. With an alias after the bracket it is not.", "quantifier": "there are accepted texts", "why_tests_cant": "they refute a property over all pipelines; C49 gives those for which the positive property holds", "anchors": ["src/parser.rs: parse_table, parse_select_statement, parse_pipe_statement"]}
{"id": "C51", "title": "The space between a word and a symbol can be left out (false)", "statement": "One would expect white space between a word and a symbol not to matter. FROM t |>WHERE a is a pipeline, but FROM t|>WHERE a is read as a table called t|>WHERE with the alias a.", "quantifier": "there are two texts that differ in white space only", "why_tests_cant": "they refute a property over all texts; C30 and C49 give those for which the positive property holds", "anchors": ["src/parser.rs: parse_identifier, parse_table"]}
{"id": "C52", "title": "Any word that is not reserved can name a column (false)", "statement": "One would expect every word that is not reserved to be usable as the name of a column. MODEL is not reserved, yet SELECT model FROM t is read as a query without FROM, whose only item is the word model before a name FROM, with the alias t; SELECT a, model is rejected.", "quantifier": "there is a word and there are texts", "why_tests_cant": "they refute a property over all texts; C39, C40 and C46 give those for which the positive property holds", "anchors": ["src/parser.rs: parse_expr"]}
{"id": "C53", "title": "What can be created can be dropped (false)", "statement": "One would expect DROP to accept every kind of object that CREATE accepts. CREATE VECTOR INDEX and ALTER VECTOR INDEX are accepted, DROP VECTOR INDEX is rejected; DROP SEARCH INDEX is accepted.", "quantifier": "there is a kind of object", "why_tests_cant": "they refute a property over all texts; C39, C40 and C46 give those for which the positive property holds", "anchors": ["src/parser.rs: parse_drop_statement, parse_create_search_index_statement"]}
{"id": "C54", "title": "OPTIONS can be given to any table that is created (false)", "statement": "One would expect every form of CREATE TABLE to take OPTIONS. CREATE SNAPSHOT TABLE a CLONE b is accepted, and rejected with OPTIONS after it.", "quantifier": "there is a form of CREATE TABLE", "why_tests_cant": "they refute a property over all texts; C39, C40 and C46 give those for which the positive property holds", "anchors": ["src/parser.rs: parse_create_table_statement"]}
{"id": "C55", "title": "What follows a dot is a name (false)", "statement": "One would expect what follows a dot to be a name, and a text to be rejected otherwise. In SELECT a..b the second dot is read as a field named . of a, with the alias b, and in SELECT a.) the bracket is read as the name of the field; SELECT a. is rejected.", "quantifier": "there are accepted texts", "why_tests_cant": "they refute a property over all texts; C39, C40 and C46 give those for which the positive property holds", "anchors": ["src/parser.rs: parse_expr"]}
