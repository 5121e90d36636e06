(** Specification of update with another node as the argument. *)
From Verif Require Import Py Heap SpecMapping Observe SpecTree SpecAny.

(** The entries of one dictionary written over those of another, one by one. *)
Fixpoint merged (d l : entries) : entries :=
  match l with [] => d | (k, v) :: r => merged (put k v d) r end.

(** [x] takes every entry of [y]. *)
Definition takes_all (cls : classdef) (s : st) (x y : nat) : Prop :=
  Forall (fun e => usable cls (fst e) /\ p_set (class_policy cls (allows s x)) (fst e) (snd e) = None) (entries_at s y).

(** What an update of [x] with the node [y] changes. *)
Record shared (cls : classdef) (s : st) (x y : nat) (s' : st) : Prop := Shared {
  sh_entries : entries_at s' x = merged (entries_at s x) (entries_at s y);
  sh_others : forall z, z <> x -> entries_at s' z = entries_at s z;
  sh_spaces : forall z, spaces_at s' z = spaces_at s z;
  (* every child of [y] now has [x] for its parent and the last of its keys for its name *)
  sh_adopts : Adopt ∈ c_behs cls -> forall k c, (k, VNode c) ∈ entries_at s y ->
    parent_at s' c = Some x /\ exists k', (k', VNode c) ∈ entries_at s y /\ name_at s' c = Some k';
  sh_places : forall c, (forall k, (k, VNode c) ∉ entries_at s y) -> keeps_place s s' c;
  sh_uuid : forall z, uuid_at s' z = uuid_at s z;
  sh_class : forall z, class_of s' z = class_of s z
}.
