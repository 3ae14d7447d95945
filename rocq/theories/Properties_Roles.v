(* The property C38 of properties.jsonl: the children of a node hold the words that their roles
   stand for. RolesSpec.v says which words those are, and lists the roles that are not checked. *)
From Verif Require Import Chars Token Cst Core MiniRust Lexer Program Api TreeSpec ParserSpec ParserGeneric
  LexSpec TypesTheorems RolesSpec RolesTheorems Properties_Lexer Properties_Parser.
Local Open Scope string_scope.
Local Open Scope list_scope.

(* C38: a role that stands for fixed words holds one of them, unless it is listed as unchecked. *)
Theorem c38_roles U code ns n x k y ws : ascii_faithful U -> parses U code (Success ns) -> In n ns -> within x n ->
  child k x = Some (CNode y) -> stands_for (n_type x) k ws -> ~ unchecked (n_type x) k -> holds U ws y.
Proof. exact (roles_hold U code ns n x k y ws). Qed.
(* A node of a type in own_words is marked with one of the words listed there. *)
Theorem c38_own_words U code ns n x ws : ascii_faithful U -> parses U code (Success ns) -> In n ns -> within x n ->
  In (n_type x, ws) own_words -> holds U ws x.
Proof. exact (own_hold U code ns n x ws). Qed.
(* At every node whatsoever, the comma of a list element is a comma and the semicolon of a statement a semicolon. *)
Theorem c38_separators U code ns n x y : ascii_faithful U -> parses U code (Success ns) -> In n ns -> within x n ->
  (child "comma" x = Some (CNode y) -> holds U [","] y) /\ (child "semicolon" x = Some (CNode y) -> holds U [";"] y).
Proof.
  intros HU P I W. split; intro C.
  - refine (checked_everywhere_hold ["comma"] [","] U code ns n x "comma" y _ HU P I W _ C); [vm_compute; reflexivity|now left].
  - refine (checked_everywhere_hold ["semicolon"] [";"] U code ns n x "semicolon" y _ HU P I W _ C); [vm_compute; reflexivity|now left].
Qed.
(* These clauses of a query start with their own keyword wherever they occur. *)
Theorem c38_clauses U code ns n x k w y : ascii_faithful U -> parses U code (Success ns) -> In n ns -> within x n ->
  In (k, w) [("having", "HAVING"); ("qualify", "QUALIFY"); ("groupby", "GROUP"); ("orderby", "ORDER"); ("limit", "LIMIT"); ("partitionby", "PARTITION")] ->
  child k x = Some (CNode y) -> holds U [w] y.
Proof.
  intros HU P I W K C. assert (H : checked_everywhere [k] [w] = true).
  { clear C. repeat (destruct K as [K|K]; [injection K as <- <-; vm_compute; reflexivity|]). destruct K. }
  refine (checked_everywhere_hold [k] [w] U code ns n x k y H HU P I W _ C). now left.
Qed.
(* The lists of unchecked roles are exact: each of them holds another word in some accepted text. *)
Theorem c38_roles_refuted t k ws : unchecked t k -> stands_for t k ws -> exists code ns n x y,
  parses ascii_tables code (Success ns) /\ In n ns /\ within x n /\ n_type x = t /\ child k x = Some (CNode y) /\ ~ holds ascii_tables ws y.
Proof. exact (unchecked_roles_slip t k ws). Qed.
Theorem c38_own_words_refuted t ws : In (t, ws) unchecked_own_words -> exists code ns n x,
  parses ascii_tables code (Success ns) /\ In n ns /\ within x n /\ n_type x = t /\ ~ holds ascii_tables ws x.
Proof. exact (unchecked_own_slip t ws). Qed.

(* An example: the hypotheses hold in an ordinary query, in lower case. *)
Definition role_text : str := s_ "select a, b from t where c group by a having d".
Definition role_nodes : list node :=
  match parse ascii_tables 60 role_text with Success ns => flat_map (nodes_below 60) ns | _ => [] end.
Definition role_seen (t : node_type) (k : string) : bool :=
  existsb (fun x => nt_eqb (n_type x) t && match child k x with Some (CNode _) => true | _ => false end)%bool role_nodes.
Example c38_example : role_seen N_SelectStatement "from" = true /\ role_seen N_SelectStatement "having" = true /\
  role_seen N_Identifier "comma" = true /\
  stands_for N_SelectStatement "from" ["FROM"] /\ ~ unchecked N_SelectStatement "from".
Proof.
  split; [vm_compute; reflexivity|]. split; [vm_compute; reflexivity|]. split; [vm_compute; reflexivity|].
  split; [apply role_words_spec; vm_compute; now left|]. rewrite <- is_unchecked_spec. vm_compute. discriminate.
Qed.
(* An example of an unchecked role: any word is taken for the THEN of an IF. *)
Example c38_then_example : unchecked N_IfStatement "then" /\ stands_for N_IfStatement "then" ["THEN"] /\
  (exists ns n y t, parses ascii_tables (s_ "IF TRUE x END IF;") (Success ns) /\ In n ns /\ n_type n = N_IfStatement /\
     child "then" n = Some (CNode y) /\ n_token y = Some t /\ literal t = s_ "x").
Proof.
  split; [apply is_unchecked_spec; vm_compute; reflexivity|]. split; [apply role_words_spec; vm_compute; now left|].
  assert (P : exists ns n rest, parses ascii_tables (s_ "IF TRUE x END IF;") (Success ns) /\ ns = n :: rest /\ n_type n = N_IfStatement /\
    match child "then" n with Some (CNode y) => match n_token y with Some t => str_eqb (literal t) (s_ "x") | None => false end | _ => false end = true).
  { eexists _, _, _. split; [split; [discriminate|]; exists 60; vm_compute; reflexivity|]. vm_compute. auto. }
  destruct P as (ns & n & rest & P & -> & T & H). destruct (child "then" n) as [[y|]|] eqn:C; try discriminate.
  destruct (n_token y) as [t|] eqn:Et; [|discriminate]. exists (n :: rest), n, y, t. apply str_eqb_eq in H. split; [exact P|]. split; [now left|]. auto.
Qed.

Definition roles_theorems := (c38_roles, c38_own_words, c38_separators, c38_clauses, c38_roles_refuted, c38_own_words_refuted).
Print Assumptions roles_theorems.
