(** Specification of what item operations on a node may change, in terms of
    observations. *)
From Verif Require Import Py Heap Model SpecMapping Observe.

(** Where the value goes: keys of the form __x__ go to the nodespaces of a class with Nodespaces. *)
Definition to_spaces (cls : classdef) (k : key) : Prop := Nodespaces ∈ c_behs cls /\ dunder k.

(** No node but [x] changes its entries or nodespaces. *)
Definition entries_elsewhere (s : st) (x : nat) (s' : st) : Prop :=
  forall y, y <> x -> entries_at s' y = entries_at s y /\ spaces_at s' y = spaces_at s y.
(** No node at all does. *)
Definition entries_everywhere (s s' : st) : Prop :=
  forall y, entries_at s' y = entries_at s y /\ spaces_at s' y = spaces_at s y.
Definition keeps_place (s s' : st) (y : nat) : Prop :=
  name_at s' y = name_at s y /\ parent_at s' y = parent_at s y.

(** What a successful [x[k] = v] changes. *)
Record assigned (cls : classdef) (s : st) (x : nat) (k : key) (v : val) (s' : st) : Prop := Assigned {
  as_others : entries_elsewhere s x s';
  as_entries : ~ to_spaces cls k ->
     entries_at s' x = put k v (entries_at s x) /\ spaces_at s' x = spaces_at s x;
  as_spaces : to_spaces cls k ->
     spaces_at s' x = put k v (spaces_at s x) /\ entries_at s' x = entries_at s x;
  as_places : forall y, v <> VNode y -> keeps_place s s' y;
  as_uuid : forall y, uuid_at s' y = uuid_at s y;
  as_class : forall y, class_of s' y = class_of s y
}.

(** What a successful removal of [x[k]] changes. *)
Record removed (cls : classdef) (s : st) (x : nat) (k : key) (s' : st) : Prop := Removed {
  rm_others : entries_elsewhere s x s';
  rm_entries : ~ to_spaces cls k -> held k (entries_at s x) = true /\
     entries_at s' x = remove k (entries_at s x) /\ spaces_at s' x = spaces_at s x;
  rm_spaces : to_spaces cls k -> held k (spaces_at s x) = true /\
     spaces_at s' x = remove k (spaces_at s x) /\ entries_at s' x = entries_at s x;
  rm_places : forall y, keeps_place s s' y;
  rm_uuid : forall y, uuid_at s' y = uuid_at s y;
  rm_class : forall y, class_of s' y = class_of s y
}.

(** Not a node instance. *)
Definition not_a_node (v : val) : Prop := forall c, v <> VNode c.

(** The exceptions after which Adopt gives the child its old place back: AttributeError,
    KeyError and ValueError (with its subclass UnicodeDecodeError). *)
Definition adopt_reverts (e : exc) : Prop :=
  e = AttributeError \/ (exists k, e = KeyError k) \/ (exists m, e = ValueError m) \/ e = UnicodeDecodeError.

(** The calls of a mapping that need no storage: update with nothing to assign, and
    update with more than one positional argument (refused before). *)
Definition needs_storage (c : call) : bool :=
  match c with
  | CUpdate [] [] | CUpdate [[]] [] => false
  | CUpdate (_ :: _ :: _) _ => false
  | _ => true
  end.

(** Individual assignments one after the other; that all of them succeed. *)
Fixpoint set_all (x : nat) (l : list (key * val)) (s : st) : st :=
  match l with [] => s | (k, v) :: r => set_all x r (snd (setitem x k v s)) end.
Fixpoint all_succeed (x : nat) (l : list (key * val)) (s : st) : Prop :=
  match l with [] => True | (k, v) :: r => exists s1, setitem x k v s = (Ret tt, s1) /\ all_succeed x r s1 end.
