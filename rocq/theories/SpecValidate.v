(** Specification of child validation. *)
From Verif Require Import Py Heap Model Observe Reach SpecPlace SpecSpaces.

(** Everything [x] holds, as an entry or as a nodespace, is a node. *)
Definition only_nodes (s : st) (x : nat) : Prop :=
  forall k v, (k, v) ∈ entries_at s x \/ (k, v) ∈ spaces_at s x -> exists c, v = VNode c.
(** All calls; storages are not written to directly, behind the back of the node. *)
Definition calls (s : st) (o : op) : Prop :=
  match o with
  | ODeepcopy _ => copyable s
  | OStore _ _ _ | OUnstore _ _ => False
  | _ => True
  end.
