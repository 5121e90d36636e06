(** Specification of ordered insertion and swapping. *)
From Verif Require Import Py Heap Model SpecMapping Observe TreeOps SetEff SpecTree.

(** The class has the behavior Order and keeps its children in an odict. *)
Definition orders (cls : classdef) : Prop := Order ∈ c_behs cls /\ OdictStorage ∈ c_behs cls /\ DictStorage ∉ c_behs cls.

(** [new] next to the entry of [ref]: the other entries keep their values and order. *)
Definition beside (before : bool) (ref : key) (new : key * val) (d d' : list (key * val)) : Prop :=
  exists l1 v l2, d = l1 ++ (ref, v) :: l2 /\
    d' = if before then l1 ++ new :: (ref, v) :: l2 else l1 ++ (ref, v) :: new :: l2.

(** What a successful insertion of [n] under the key [k] into [x] changes besides the entries of [x]. *)
Record inserted (cls : classdef) (s : st) (x n : nat) (k : key) (s' : st) : Prop := Inserted {
  ins_others : entries_elsewhere s x s';
  ins_spaces : spaces_at s' x = spaces_at s x;
  ins_places : forall y, y <> n -> keeps_place s s' y;
  ins_adopts : Adopt ∈ c_behs cls -> name_at s' n = Some k /\ parent_at s' n = Some x;
  ins_uuid : forall y, uuid_at s' y = uuid_at s y;
  ins_class : forall y, class_of s' y = class_of s y
}.

(** With Reference: the uuid of [n] is new to the tree of [x], and so are those of everything
    below [n]. *)
Definition can_join (s : st) (x n : nat) : Prop :=
  n <> x /\ is_Some (index_id s x) /\ is_Some (index_id s n) /\
  (exists u, uuid_at s n = Some u /\ index_at s x !! Some u = None) /\
  (entries_at s n = [] \/ forall u, is_Some (index_at s n !! u) -> index_at s x !! u = None).

(** The entries at two positions exchanged. *)
Definition exchanged (i j : nat) (d d' : list (key * val)) : Prop :=
  length d' = length d /\ d' !! i = d !! j /\ d' !! j = d !! i /\
  forall m, m <> i -> m <> j -> d' !! m = d !! m.

(** Only the entries of [x] changed, to [d]. *)
Record only_order (s : st) (x : nat) (d : list (key * val)) (s' : st) : Prop := OnlyOrder {
  oo_entries : entries_at s' x = d;
  oo_spaces : spaces_at s' x = spaces_at s x;
  oo_others : forall y, y <> x -> same_node s s' y;
  oo_self : class_of s' x = class_of s x /\ keeps_place s s' x /\ uuid_at s' x = uuid_at s x /\ index_id s' x = index_id s x;
  oo_idxs : idxs s' = idxs s;
  oo_log : log s' = log s
}.

(** What is asked of a new node up front: it has a name and, with Reference, a uuid the index does not know. *)
Definition admitted (cls : classdef) (s : st) (x n : nat) : Prop :=
  name_at s n <> Some KNone /\
  (Reference ∈ c_behs cls -> exists cls' u, class_of s n = Some cls' /\ (Reference ∈ c_behs cls' \/ UUIDAware ∈ c_behs cls') /\
     uuid_at s n = Some u /\ is_Some (index_id s x) /\ index_at s x !! Some u = None).
(** [n] may be put into a tree with Reference *)
Definition joins (cls : classdef) (s : st) (x n : nat) : Prop :=
  Reference ∈ c_behs cls -> occ Reference (c_behs cls) <= 1 /\ can_join s x n /\
    exists cls', class_of s n = Some cls' /\ Reference ∈ c_behs cls' /\ tree_class (c_behs cls') = true.

(** the first or the last of a list *)
Definition end_of (first : bool) {A} (l : list A) : option A := if first then head l else last l.
