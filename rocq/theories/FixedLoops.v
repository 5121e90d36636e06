(** Loops over a node with FixedChildren, step by step as in Loops.v. *)
From Verif Require Import Py Odict Heap Model Loops.

(** [iter(self._children)], common.py 116-118: [_children] is an odict (common.py 101), its iterator is the
    generator of Loops.v.  [__iter__] is finalized: only hooks can stand before it, Cache's passes it on
    (cache.py 119-121), Alias' does not (AliasLoops.v; classes with Alias are left out here). *)
Definition fixed_iter (self : nat) : M cursor := let! l := fixed_of self in ret (OdictFresh l).
(** [[key for key in self]] *)
Definition fixed_keys_loop (fuel : nat) (self : nat) : M (list key) := let! c := fixed_iter self in draw fuel ret c.
