#!/usr/bin/env python3
# Writes RolesSpec.v (which word each role stands for, and where the parser does not check it)
# and RolesTexts.v (accepted texts in which an unchecked role holds another word).
import json, os, sys
here = os.path.dirname(os.path.abspath(__file__))
d = json.load(open(os.path.join(here, 'roles_data.json')))
out = os.path.join(here, '..', 'rocq', 'theories')
def s(x): return '"' + x.replace('"', '""') + '"'
def ls(l): return '[' + '; '.join(map(s, l)) + ']'
def wrap(items, width=110):
    lines, cur = [], ''
    for i in items:
        if cur and len(cur) + len(i) + 2 > width: lines.append(cur + ';'); cur = i
        else: cur = cur + '; ' + i if cur else i
    return '[' + '\n   '.join(lines + [cur]) + ']'
by = {}
for t, k in d['unchecked']: by.setdefault(t, []).append(k)
spec = f'''(* Generated by tools/roles.py from tools/roles_data.json. Specification of C38: the word that each
   role of a node stands for, the roles whose word the parser does not check, and likewise for the
   node's own word. *)
From Verif Require Import Chars Token Cst.
Local Open Scope string_scope.
Local Open Scope list_scope.

(* the node holds one of these words, in whatever case it is written *)
Definition holds (U : unicode) (ws : list string) (n : node) : Prop :=
  exists t w, n_token n = Some t /\\ In w ws /\\ to_uppercase U (literal t) = s_ w.

(* the words that a role stands for, whatever node it belongs to *)
Definition words_of_role : list (string * list string) :=
  {wrap([f'({s(k)}, {ls(v)})' for k, v in d['by_role'].items()])}.
(* the words of a role at nodes of one type; these come first *)
Definition words_of_role_at : list (node_type * string * list string) :=
  {wrap([f'(N_{t}, {s(k)}, {ls(v)})' for t, k, v in d['exceptions']])}.
Definition stands_for (t : node_type) (k : string) (ws : list string) : Prop :=
  In (t, k, ws) words_of_role_at \\/ ((forall ws', ~ In (t, k, ws') words_of_role_at) /\\ In (k, ws) words_of_role).

(* the roles that the parser fills without looking at the word *)
Definition unchecked_roles : list (node_type * list string) :=
  {wrap([f'(N_{t}, {ls(v)})' for t, v in sorted(by.items())])}.
Definition unchecked (t : node_type) (k : string) : Prop := exists l, In (t, l) unchecked_roles /\\ In k l.

(* the word with which nodes of a type are marked *)
Definition own_words : list (node_type * list string) :=
  {wrap([f'(N_{t}, {ls(v)})' for t, v in sorted(d['own'].items())])}.
(* the same for the types that the parser gives without looking at the word *)
Definition unchecked_own_words : list (node_type * list string) :=
  {wrap([f'(N_{t}, {ls(v)})' for t, v in sorted(d['free'].items())])}.
'''
open(os.path.join(out, 'RolesSpec.v'), 'w').write(spec)
texts = ';\n   '.join(map(s, d['texts']))
open(os.path.join(out, 'RolesTexts.v'), 'w').write(f'''(* Generated by tools/roles.py: texts that are accepted although some word is not the one its role
   stands for. *)
From Verif Require Import Chars.
Local Open Scope string_scope.
Local Open Scope list_scope.
Definition loose_texts : list string :=
  [{texts}].
''')
