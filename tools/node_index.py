#!/usr/bin/env python3
"""Writes rocq/theories/NodeIndex.v from the list all_node_types of Cst.v."""
import os
import re

here = os.path.join(os.path.dirname(os.path.abspath(__file__)), "..", "rocq", "theories")
cst = open(os.path.join(here, "Cst.v")).read()
body = cst[cst.index("Definition all_node_types"):]
names = re.findall(r"N_\w+", body[:body.index("].")])
out = """(* Generated by tools/node_index.py from all_node_types in Cst.v: node types as numbers, so
   that sets of node types are bit sets. *)
From Verif Require Import Chars Cst.

Definition nt_idx (t : node_type) : N :=
  match t with
"""
out += "".join("  | %s => %d\n" % (n, i) for i, n in enumerate(names))
out += """  end%N.

Lemma nt_idx_nth t : List.nth_error all_node_types (N.to_nat (nt_idx t)) = Some t.
Proof. destruct t; vm_compute; reflexivity. Qed.
Lemma nt_idx_inj a b : nt_idx a = nt_idx b -> a = b.
Proof. intro H. pose proof (nt_idx_nth a) as A. rewrite H, nt_idx_nth in A. congruence. Qed.
Lemma all_node_types_complete t : List.In t all_node_types.
Proof. eapply List.nth_error_In, nt_idx_nth. Qed.
"""
open(os.path.join(here, "NodeIndex.v"), "w").write(out)
