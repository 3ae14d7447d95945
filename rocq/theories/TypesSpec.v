(* Specification vocabulary for the theorems about the published TypeScript types: how a node
   can deviate from the declaration of its type. *)
From Verif Require Import Chars Token Cst TypesSchema.
Local Open Scope string_scope.
Local Open Scope list_scope.

Definition content_kind (c : content) : kind := match c with CNode _ => OneNode | CVec _ => ManyNodes end.
Definition content_nodes (c : content) : list node := match c with CNode x => [x] | CVec l => l end.

(* the node n has the declaration d, which says f of the child k, and does not forbid it *)
Definition declares (n : node) (k : string) (f : field) : Prop :=
  exists d, declared (n_type n) = Some d /\ In (k, f) (dc_fields d) /\ fd_presence f <> Forbidden.

(* A node conforms if its type is declared and its token, its children, their kinds and their
   types are as declared. *)
Record conforms (n : node) : Prop := Conforms {
  conforms_declared : declared (n_type n) <> None;
  conforms_token : forall d, declared (n_type n) = Some d ->
    match dc_token d with
    | TokenRequired => n_token n <> None
    | TokenNull => n_token n = None
    | TokenOrNull => True
    end;
  conforms_children : forall k c, child k n = Some c ->
    exists f, declares n k f /\ content_kind c = fd_kind f /\
      forall l x, fd_types f = Some l -> In x (content_nodes c) -> In (n_type x) l;
  conforms_required : forall k f, declares n k f -> fd_presence f = Required -> child k n <> None
}.

(* The ways not to conform. *)
Inductive deviation :=
| Undeclared (t : node_type)                            (* types.rs has no such type *)
| Without_token (t : node_type)                         (* token: Token, but there is none *)
| With_token (t : node_type)                            (* token: null, but there is one *)
| Extra_child (t : node_type) (k : string)              (* not declared, or declared undefined *)
| Wrong_kind (t : node_type) (k : string)               (* a node instead of a list, or a list instead of a node *)
| Odd_child (t : node_type) (k : string) (u : node_type) (* the child, or a member of the list, has type u, which is not declared *)
| Missing_child (t : node_type) (k : string).           (* declared without "?", but absent *)

Inductive deviates (n : node) : deviation -> Prop :=
| dev_undeclared : declared (n_type n) = None -> deviates n (Undeclared (n_type n))
| dev_without_token d : declared (n_type n) = Some d -> dc_token d = TokenRequired -> n_token n = None ->
    deviates n (Without_token (n_type n))
| dev_with_token d : declared (n_type n) = Some d -> dc_token d = TokenNull -> n_token n <> None ->
    deviates n (With_token (n_type n))
| dev_extra_child d k : declared (n_type n) = Some d -> child k n <> None ->
    (forall f, ~ declares n k f) -> deviates n (Extra_child (n_type n) k)
| dev_wrong_kind k f c : child k n = Some c -> declares n k f -> content_kind c <> fd_kind f ->
    deviates n (Wrong_kind (n_type n) k)
| dev_odd_child k f c l x : child k n = Some c -> declares n k f -> fd_types f = Some l ->
    In x (content_nodes c) -> ~ In (n_type x) l -> deviates n (Odd_child (n_type n) k (n_type x))
| dev_missing_child k f : declares n k f -> fd_presence f = Required -> child k n = None ->
    deviates n (Missing_child (n_type n) k).

(* [listed l t k]: the list l has the child k of node type t *)
Definition listed (l : list (node_type * list string)) (t : node_type) (k : string) : Prop :=
  exists ks, In (t, ks) l /\ In k ks.
Definition listed_odd (l : list (list (node_type * string) * list node_type)) (t : node_type) (k : string) (u : node_type) : Prop :=
  exists tks us, In (tks, us) l /\ In (t, k) tks /\ In u us.
