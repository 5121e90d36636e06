(** What a client can see of a node in a state, read directly off the heap.
    The statements of the properties use these definitions together with the
    dictionary operations of SpecMapping. *)
From Verif Require Import Py Odict Aliaser Heap Model SpecMapping.

(** the class of a node object *)
Definition class_of (s : st) (x : nat) : option classdef := o_cls <$> nodes s !! x.
(** [x.name], [x.parent] *)
Definition name_at (s : st) (x : nat) : option key := o_name <$> nodes s !! x.
Definition parent_at (s : st) (x : nat) : option nat := nodes s !! x ≫= o_parent.
(** the entries in the storage of [x], in order *)
Definition entries_at (s : st) (x : nat) : list (key * val) :=
  default [] ((nodes s !! x ≫= o_storage) ≫= fun l => dicts s !! l).
(** the nodespaces of [x]: initially just itself as [__children__] *)
Definition spaces_at (s : st) (x : nat) : list (key * val) :=
  match nodes s !! x with
  | None => []
  | Some o => match o_nodespaces o with
              | None => [(KStr "__children__", VNode x)]
              | Some l => default [] (dicts s !! l)
              end
  end.
(** the cache of [x] *)
Definition cache_at (s : st) (x : nat) : list (key * val) :=
  default [] ((nodes s !! x ≫= o_cache) ≫= fun l => dicts s !! l).
(** the children of a FixedChildren node *)
Definition fixed_at (s : st) (x : nat) : list (key * val) :=
  default [] ((nodes s !! x ≫= o_children) ≫= fun l => dicts s !! l).
(** the uuid of [x] *)
Definition uuid_at (s : st) (x : nat) : option N := nodes s !! x ≫= o_uuid.
(** the identity of the index of [x] and its content *)
Definition index_id (s : st) (x : nat) : option nat := nodes s !! x ≫= o_index.
Definition index_at (s : st) (x : nat) : gmap (option N) nat :=
  default ∅ (index_id s x ≫= fun i => idxs s !! i).
(** whether lifecycle notification is suppressed on [x] *)
Definition suppressed (s : st) (x : nat) : bool :=
  match nodes s !! x with Some o => o_suppress o | None => false end.

(** [x] exists; a value does not refer to a node that does not *)
Definition exists_node (s : st) (x : nat) : Prop := is_Some (nodes s !! x).
Definition known (s : st) (v : val) : Prop :=
  match v with VNode c => exists_node s c | _ => True end.

(** Nothing a client can see of [x] differs between two states. *)
Record same_node (s s' : st) (x : nat) : Prop := SameNode {
  sn_class : class_of s' x = class_of s x;
  sn_name : name_at s' x = name_at s x;
  sn_parent : parent_at s' x = parent_at s x;
  sn_entries : entries_at s' x = entries_at s x;
  sn_spaces : spaces_at s' x = spaces_at s x;
  sn_cache : cache_at s' x = cache_at s x;
  sn_fixed : fixed_at s' x = fixed_at s x;
  sn_uuid : uuid_at s' x = uuid_at s x;
  sn_index_id : index_id s' x = index_id s x;
  sn_suppressed : suppressed s' x = suppressed s x
}.
(** Nothing at all a client can see differs. *)
Record same_world (s s' : st) : Prop := SameWorld {
  sw_nodes : forall x, same_node s s' x;
  sw_index : idxs s' = idxs s;
  sw_log : log s' = log s
}.

(** keys of the form __x__ ('__' and '___' included) *)
Definition dunder (k : key) : Prop :=
  exists t a b, k = KStr t /\ t = ("__" ++ a)%string /\ t = (b ++ "__")%string.

(** whether [x] accepts values that are not nodes *)
Definition allows (s : st) (x : nat) : bool :=
  match nodes s !! x with Some o => o_allow o | None => false end.
