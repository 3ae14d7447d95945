(* The public entry points: /repo/src/lib.rs *)
From Verif Require Import Chars Token Cst Core MiniRust Lexer Program.
Local Open Scope string_scope.

Section WithUnicode.
Context (U : unicode).

(* parser.rs:42-51 Parser::parse_code on a freshly built parser, with a bound on the
   depth of calls and on loop iterations *)
Definition parse_tokens (fuel : nat) (ts : list token) : outcome (list node) :=
  match parser_new ts with
  | None => Panicked
  | Some s =>
      match run U prog fuel F_parse_code [] s with
      | Ok (VVec ns) _ => Success ns
      | Ok _ _ => NoFuel            (* not a list: excluded with Stuck *)
      | Err e _ => Failure e
      | Panic _ => Panicked
      | Fuel => NoFuel
      | Stuck => NoFuel
      end
  end.

(* lib.rs:18-41 parse (serialisation not modelled) *)
Definition parse (fuel : nat) (code : str) : outcome (list node) :=
  match tokenize U code with
  | Success ts => parse_tokens fuel ts
  | Failure e => Failure e
  | Panicked => Panicked
  | NoFuel => NoFuel
  end.

(* lib.rs:18-41 parse, without the bound: the outcome reached with enough fuel *)
Definition parses (code : str) (o : outcome (list node)) : Prop :=
  o <> NoFuel /\ exists fuel, parse fuel code = o.
End WithUnicode.
