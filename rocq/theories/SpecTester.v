(** What the mapping tester is expected to report, in terms of the behaviors of the context's class. *)
From Verif Require Import Py Heap.

(** The interface it tests, in the order it does. *)
Definition tested : list string :=
  ["__setitem__"; "__getitem__"; "get"; "__iter__"; "keys"; "iterkeys"; "values"; "itervalues"; "items"; "iteritems"; "__contains__"; "has_key";
   "__len__"; "update"; "__delitem__"; "copy"; "setdefault"; "pop"; "popitem"; "clear"].
(** Those that look at the names of children. *)
Definition looks_at_names (n : string) : Prop := n ∈ ["__getitem__"; "values"; "itervalues"; "items"; "iteritems"; "setdefault"].
(** Without Adopt children do not get the names the node checks want; UUIDAware nodes cannot be copied. *)
Definition should_fail (cls : classdef) (node_checks : bool) (n : string) : Prop :=
  (node_checks = true /\ Adopt ∉ c_behs cls /\ looks_at_names n) \/ (UUIDAware ∈ c_behs cls /\ n = "copy").
