# Formal model of bq2cst: design

## Layers

The model:

| file (rocq/theories) | contents | models |
|---|---|---|
| Chars.v, Regex.v | characters, strings, Unicode tables as parameters, regex matcher | std |
| Token.v | tokens and predicates | src/token.rs, src/constants.rs |
| Cst.v | nodes, children maps, rendering | src/cst.rs |
| Lexer.v | the tokenizer, function by function | src/lexer.rs |
| Core.v | parser state and the primitives construct_node, get_precedence, get_offset_index, get_token, is_eof, next_token, Parser::new | src/parser.rs:1-211 |
| MiniRust.v | syntax and semantics of the Rust subset the parse_* functions are written in | Rust |
| Program.v | every parse_* function as a MiniRust program, line by line | src/parser.rs:212-end |
| Api.v | parse, tokenize | src/lib.rs |
| Conformance*.v | the repository's own unit tests run against the model (tests, not proofs) | src/**/tests*.rs |

The proofs:

| files | contents | properties |
|---|---|---|
| LexSpec, LexFun, LexProofs, LexGrammar, LexTheorems, LexProps, LexInvariance, LexClasses, **Properties_Lexer** | the tokenizer | C01-C18 |
| Bundles, ParserView, ParserGeneric, ParserSpec, ParserSim, ParserInvariance, TermCheck, Typing, ParserTotal, **Properties_Parser** | facts about every MiniRust program; termination, panics, error positions, comments, case, layout | C20, C21, C27-C30, C34 |
| TreeSpec, AbsInt, NodeIndex, Shape, ShapeSound, ShapeTable, ShapeCheck, ShapeParse, TreeTheorems, **Properties_Tree** | certified static analysis; which tokens a tree holds | C22-C26 |
| TypesSchema, TypesSpec, TypesTheorems, TypesDeviations, TypesKnown, **Properties_Types** | trees against the TypeScript declarations | C35, C36 |
| RolesSpec, RolesTexts, RolesTheorems, **Properties_Roles** | fixed words are under their keys | C38 |
| RenameSpec, RenameTheorems, **Properties_Rename** | names and literals are interchangeable | C41 |
| **Properties_Findings** | expectations that the parser does not meet | C42-C45, C47, C48, C50-C55 |
| RenderSpec, RenderProofs, RenderTheorems, **Properties_Render** | children maps, rendering | C32, C33, C37 |
| GroupingSpec, GroupingDomain, GroupingSound, GroupingExpr, **Properties_Grouping** | operator precedence, for any input | C31 |
| Forward, GrammarSpec, GrammarTactics, GrammarExpr, GrammarReach, GrammarOps, GrammarBinary, GrammarItems, GrammarTypes, GrammarCalls, GrammarQuery, GrammarClauses, GrammarSelect, GrammarScript, **Properties_Grammar** | queries are read as written | C39 |
| StatementSpec, StatementDeeds, StatementDml, StatementInsert, StatementMerge, StatementBlocks, StatementControl, StatementScript, **Properties_Statement** | other statements are read as written | C40 |
| DefinitionSpec, DefinitionRules, DefinitionTypes, DefinitionPhrases, DefinitionAlter, DefinitionCreate, DefinitionDeeds, **Properties_Definition** | CREATE, ALTER, DROP, GRANT, EXPORT, LOAD are read as written | C46 |
| PipeSpec, StatementPipes, **Properties_Pipe** | pipe syntax is read as written | C49 |

The files in bold hold the theorems named in MANIFEST.json, examples that meet
their hypotheses, and `Print Assumptions`. The files ending in Spec hold the
vocabulary of the statements; they do not mention the proofs. ShapeTable.v,
NodeIndex.v, TypesSchema.v, TypesDeviations.v, RolesSpec.v, RolesTexts.v, Program.v and Conformance_*.v are
generated (tools/); ShapeTable and NodeIndex are *checked* by the kernel, so their
generators are not trusted.

The parser consists of about 110 mutually recursive functions written in a very
small imperative subset of Rust (construct a node, advance, peek, push a child,
if/match/while, call).  They are modelled *deeply*: Program.v contains their
statements as data, in the order of the source, and MiniRust.v gives the
statements their meaning (big-step interpreter, with `?`, break, return, block
scopes, moves).  Errors are values, panics are a separate outcome, running out of
fuel is a separate outcome that is proved not to happen.

Three kinds of proofs are done over this program:

1. *semantic theorems for every MiniRust program* (by induction on the program
   and the fuel): error positions, independence of comments, of case, of layout;
2. *certified static analyses*: an executable analysis of programs, a proof that
   its verdict is sound for every run, and the kernel's evaluation of the analysis
   on Program.v: no token duplicated, no token lost, termination, panics,
   conformance to types.rs;
3. *direct proofs* about the tokenizer, about operator precedence, rendering;
4. *forward proofs* about a grammar: for each phrase of a grammar that is defined
   without reference to the parser (GrammarSpec.v, StatementSpec.v), running the
   parse_* functions on the tokens of the phrase gives the tree that the grammar
   assigns to the phrase (structural induction over phrases, symbolic execution of
   the functions' bodies with the rules of Forward.v).

## Plan per property

- C01-C16: Lexer.v; induction over the input with an invariant relating the
  cursor, the consumed prefix and the token list.
- C17: case analysis on the first characters; the regex by its declarative meaning.
- C20: ranking: every loop iteration and every recursive call either consumes a
  token or goes down in a fixed rank of functions; certified analysis.
- C21: certified analysis and a refutation witness for panic-freedom.
- C22, C26: induction over the statement loop.
- C23, C24: for an arbitrary weight function on tokens, the weight of the nodes
  held by a function equals the weight of the tokens consumed (certified
  linear-ownership analysis); multiset statements follow by taking indicator weights.
- C25: invariant of next_token over comment indices.
- C27: every error is built from a token of the list.
- C28-C30: relational (two-run) induction over the interpreter.
- C31: certified analysis for the functions that do not build operators, direct
  induction over the fuel for those that do (parse_expr and its helpers).
- C32, C33: sorting; association-list laws.
- C34: semantics of the try/restore construct.
- C35, C36: certified analysis of node types and keys against the transcription of types.rs. The analysis also
  tracks that the next token is not a bracket, so that the list of deviations it leaves is exactly the list of those
  that occur. Three of these need a Unicode table with a non-ASCII character whose upper case is `(` or `.`: Unicode
  has none, but the theorems assume only what the tables say about ASCII.
- C37: induction over trees; the rendering is read back line by line.
- C38: the same analysis also bounds the word of each child; RolesSpec.v says which word each key stands for. The keys
  where the bound fails are listed, with an accepted text for each (RolesTexts.v, found by substituting words in the
  repository's test inputs, checked by computation in the kernel).
- C39, C40, C46, C49: forward proofs, by structural induction over the phrases of the grammar.
- C41: the two-run induction of C28-C30, relative to a vocabulary: the program is checked to compare tokens with the
  words of a finite list only, so two tokens that agree on these words and on the token classes are treated alike.
- C42-C45, C47, C48, C50-C55: counterexamples, checked by computation.

Properties that turn out false are stated in full and refuted by a witness
(`_refuted`), together with the strongest variant that holds.

## Trusted base

- Coq 8.16.1's kernel, including its `vm_compute` conversion (used to evaluate the
  certified checkers on Program.v and the witnesses of refutations).
- Assumptions: `Print Assumptions` answers "Closed under the global context" for
  every theorem named in MANIFEST.json; no axiom is used, neither our own nor the
  standard library's. (coqchk lists the axioms of Coq.ssr.ssrunder because that
  library is loaded by ssreflect's prelude; no theorem depends on them.)
- That the model is the code. Program.v is produced from src/parser.rs by
  tools/translate.py, statement by statement, each with its source line in a
  comment; Lexer.v, Core.v, Token.v, Cst.v and Api.v are written by hand, each
  definition with the lines it models. Evidence for this part: the repository's own
  unit tests, about 400 texts, are run on the model in Conformance_*.v and all give
  the recorded trees.
- The standard library of Rust, as modelled: `char::is_alphabetic` and
  `char::to_uppercase` are parameters (record `unicode`), and theorems that need it
  assume that they agree with ASCII on ASCII (`ascii_faithful`; satisfied by
  `ascii_tables`); `HashMap` is an association list without repeated keys (C32 shows
  that the order is not observable); `usize` is N, with usize::MAX = 2^32 - 1 (wasm32, the published target), and
  C30 states the bound on the length of the text this needs.

## What the grammars of C39, C40, C46 and C49 leave out
The parser is modelled completely, and the other properties hold for every text. The positive statements about how a text
is read cover the phrases of GrammarSpec.v, StatementSpec.v, DefinitionSpec.v and PipeSpec.v. Not among them:
- queries: UNPIVOT and MATCH_RECOGNIZE after a table, table functions, WITH DIFFERENTIAL_PRIVACY, set operators with LEFT, FULL, INNER or OUTER,
  pipe operators after a query that starts with SELECT or a bracket;
- expressions: FORMAT ... AT TIME ZONE in casts, WITH(...) expressions, braced constructors;
- pipe operators: UNPIVOT, MATCH_RECOGNIZE, WINDOW;
- definitions: LOAD with OVERWRITE PARTITIONS, FOREIGN KEY.

## Modelled
src/lexer.rs, src/token.rs, src/constants.rs, src/parser.rs and src/cst.rs
completely, parse and tokenize of src/lib.rs, the field tables of src/types.rs,
the error values of src/error.rs.

## Not modelled
wasm-bindgen/serde serialisation of the result to a JsValue; the `{:?}` rendering
of the token inside error messages; the TypeScript type text itself (only its
field tables are transcribed); exhaustion of the machine stack or of memory; arithmetic
overflow of line and column counters (a text of 2^32 characters).
