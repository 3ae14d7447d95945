(* Specification vocabulary of C41: texts that differ only in names and literals. *)
From Verif Require Import Chars Token Cst Core LexSpec.
Local Open Scope string_scope.
Local Open Scope list_scope.

(* The words that mean something to the parser somewhere although they are not reserved
   (KEYWORDS, constants.rs, are the reserved ones). *)
Definition soft_words : list string :=
  ["ADD"; "AFTER"; "AGGREGATE"; "ALTER"; "ASSERT"; "ASSIGNMENT"; "B"; "BEGIN"; "BIGDECIMAL"; "BIGNUMERIC";
   "BI_CAPACITY"; "BR"; "BREAK"; "CALL"; "CAPACITY"; "CASCADE"; "CLONE"; "CLUSTER"; "COLUMN"; "COMMIT";
   "CONNECTION"; "CONSTRAINT"; "CONTINUE"; "COPY"; "CORRESPONDING"; "DATA"; "DATE"; "DATETIME"; "DECIMAL";
   "DECLARE"; "DELETE"; "DETERMINISTIC"; "DROP"; "ELSEIF"; "ENFORCED"; "EXCEPTION"; "EXECUTE"; "EXPORT"; "EXTEND";
   "EXTERNAL"; "FIRST"; "FOREIGN"; "FORMAT"; "FUNCTION"; "GRANT"; "INCLUDE"; "INOUT"; "INPUT"; "INSERT"; "ITERATE";
   "JSON"; "KEY"; "LANGUAGE"; "LAST"; "LEAVE"; "LOAD"; "LOOP"; "MATCH_RECOGNIZE"; "MATERIALIZED"; "MEASURES";
   "MODEL"; "NUMERIC"; "OFFSET"; "OPTIONS"; "ORGANIZATION"; "OUT"; "OUTPUT"; "OVERWRITE"; "PARTITIONS"; "PATTERN";
   "PIVOT"; "PRIMARY"; "PROCEDURE"; "PROJECT"; "R"; "RAISE"; "RB"; "REFERENCES"; "REMOTE"; "RENAME"; "REPEAT";
   "REPLACE"; "REPLICA"; "RESERVATION"; "RESTRICT"; "RETURN"; "RETURNS"; "REVOKE"; "ROLLBACK"; "ROW"; "SAFE_CAST";
   "SCHEMA"; "SEARCH"; "SNAPSHOT"; "STORING"; "STRICT"; "TABLE"; "TEMP"; "TEMPORARY"; "TIME"; "TIMESTAMP";
   "TRAINING_DATA"; "TRANSACTION"; "TRANSFORM"; "TRUNCATE"; "TYPE"; "UNDROP"; "UNPIVOT"; "UNTIL"; "UPDATE";
   "VALUES"; "VECTOR"; "VIEW"; "WHILE"].

(* a name without quotes that is neither reserved nor one of these words, in whatever case *)
Definition name_start (c : char) : bool := is_letter_ascii c || N.eqb c 95.
Definition name_char (c : char) : bool := is_letter_ascii c || is_digit_char c || N.eqb c 95.
Definition plain_name (U : unicode) (s : str) : Prop :=
  (exists c r, s = c :: r /\ name_start c = true /\ Forall (fun c => name_char c = true) r) /\
  forall w, In w (KEYWORDS ++ soft_words) -> to_uppercase U s <> s_ w.
(* between two characters q *)
Definition enclosed (q : char) (s : str) : Prop := exists m, s = q :: m ++ [q].
(* @name *)
Definition named_parameter (s : str) : Prop := exists r, s = 64%N :: r /\ Forall (fun c => c <> 46%N) r.

(* texts of tokens that may take each other's place *)
Inductive interchangeable (U : unicode) (a b : str) : Prop :=
| same_text : a = b -> interchangeable U a b
| two_names : plain_name U a -> plain_name U b -> interchangeable U a b
| two_quoted_names : enclosed 96%N a -> enclosed 96%N b -> interchangeable U a b
| two_strings : enclosed 34%N a \/ enclosed 39%N a -> enclosed 34%N b \/ enclosed 39%N b -> interchangeable U a b
| two_numbers : number a -> number b -> interchangeable U a b
| two_parameters : named_parameter a -> named_parameter b -> interchangeable U a b.
