(** Copies and GetattrChildren. *)
From Verif Require Import Py Heap Model SpecMapping Observe SpecTree SpecRegion.

Definition getattr_node (s : st) (g : nat) : Prop := exists cls, class_of s g = Some cls /\ GetattrChildren ∈ c_behs cls.
(** [node[k]] has no value. *)
Definition nothing_at (s : st) (g : nat) (k : key) : Prop :=
  forall cls, class_of s g = Some cls -> (to_spaces cls k -> value_at k (spaces_at s g) = None) /\ (~ to_spaces cls k -> value_at k (entries_at s g) = None).
(** A node with GetattrChildren can be reached. *)
Definition getattr_in_sight (s : st) (x : nat) : Prop := exists g, reaches s x g /\ getattr_node s g.
(** An order in which the nodes that can be reached may be visited. *)
Definition visits (s : st) (x : nat) (order : list nat) : Prop := forall i, i ∈ order <-> reaches s x i /\ exists_node s i.
