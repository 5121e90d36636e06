(** Specification of the index of a tree (behaviors/reference.py). *)
From Verif Require Import Py Heap Model SpecMapping Observe NewEff SpecTree SpecUtils Reach SpecPlace.

(** Reference.node, reference.py 90-92: [self._index.get(int(uuid))]; a class without Reference has
    no [node]; [int(None)] raises. *)
Definition node_by_uuid (self : nat) (u : option N) : M val :=
  let! i := index_of self in
  match u with
  | None => raise TypeError
  | Some n => let! m := read_idx i in
              ret (match m !! Some n with Some y => VNode y | None => VNone end)
  end.
(** NodeIndex.__getitem__, reference.py 19-20: [self._index[int(key)]]. *)
Definition index_item (self : nat) (u : option N) : M val :=
  let! i := index_of self in
  match u with
  | None => raise TypeError
  | Some n => let! m := read_idx i in
              match m !! Some n with Some y => ret (VNode y) | None => raise (KeyError (KInt (Z.of_N n))) end
  end.
(** NodeIndex.__contains__, reference.py 25-26. *)
Definition index_contains (self : nat) (u : option N) : M bool :=
  let! i := index_of self in
  match u with
  | None => raise TypeError
  | Some n => let! m := read_idx i in ret (bool_decide (is_Some (m !! Some n)))
  end.

(** * Trees *)
(** [c] is the child of [p] with key [k]. *)
Definition child (s : st) (p : nat) (k : key) (c : nat) : Prop := value_at k (entries_at s p) = Some (VNode c).
(** [d] is [p] or somewhere below. *)
Inductive below (s : st) : nat -> nat -> Prop :=
| below_here x : below s x x
| below_child p k c d : child s p k c -> below s c d -> below s p d.
Definition same_tree (s : st) (x y : nat) : Prop := exists r, below s r x /\ below s r y.
(** no node has it as a child *)
Definition top (s : st) (c : nat) : Prop := forall p k, ~ child s p k c.

(** A node that is found under its own uuid: [x.node(x.uuid) is x]. *)
Definition listed (s : st) (x : nat) : Prop :=
  exists u, uuid_at s x = Some u /\ index_at s x !! Some u = Some x.

(** * Histories in which the index is used with care *)
Definition creatable (cls : classdef) : Prop := new_class (c_behs cls) = true.
(** The key goes to the storage. *)
Definition item_key (s : st) (x : nat) (k : key) : Prop :=
  exists cls, class_of s x = Some cls /\ ~ to_spaces cls k.
(** [c] has no children, is no child itself, and its uuid is new to the tree of [x]. *)
Definition lone (s : st) (x c : nat) : Prop :=
  listed s c /\ entries_at s c = [] /\ top s c /\
  forall u, uuid_at s c = Some u -> index_at s x !! Some u = None.
(** The key holds no node; a node is assigned under a string, to a listed node, and is [lone]. *)
Definition tidy_set (s : st) (x : nat) (k : key) (v : val) : Prop :=
  item_key s x k /\ (forall c, ~ child s x k c) /\
  forall c, v = VNode c -> listed s x /\ lone s x c /\ exists t, k = KStr t.
(** Several at once: different keys, and nodes with different uuids. *)
Definition tidy_sets (s : st) (x : nat) (l : list (key * val)) : Prop :=
  NoDup (map fst l) /\ NoDup (map (uuid_at s) (nodes_among (map snd l))) /\ Forall (fun kv => tidy_set s x (fst kv) (snd kv)) l.
(** Ordered insertion: under the name of the node, an unused key. *)
Definition tidy_insert (s : st) (x n : nat) : Prop :=
  exists t, name_at s n = Some (KStr t) /\ value_at (KStr t) (entries_at s x) = None /\ tidy_set s x (KStr t) (VNode n).
Definition tidy (s : st) (o : op) : Prop :=
  match o with
  | OSet x k v | OSetdefault x k v => tidy_set s x k v
  | ODel x k | OPop x k _ => listed s x /\ item_key s x k
  | ODetach x k => listed s x /\ item_key s x k /\ exists c, child s x k c
  | OPopitem x | OClear x => listed s x
  | OSetUuid x u => listed s x /\ exists n, u = Some n /\ n <> 0%N
  | OUpdate x a kw => tidy_sets s x (concat a ++ kw)
  | OInsertAt _ x n _ | OInsertEnd _ x n => tidy_insert s x n
  | OInvalidate x k => listed s x /\ (k = KNone \/ item_key s x k) /\ forall cls, class_of s x = Some cls -> VolatileStorageInvalidate ∉ c_behs cls
  | ODeepcopy _ => copyable s
  | OStore _ _ _ | OUnstore _ _ => False
  | _ => True
  end.

(** the operations that remove a subtree for good *)
Definition drops (o : op) : bool :=
  match o with ODel _ _ | OPop _ _ _ | OPopitem _ | OClear _ | OInvalidate _ _ => true | _ => false end.

(** * Changing a uuid *)
(** The key of a uuid in the index: its integer; no uuid, and the uuid whose integer is 0, give None. *)
Definition index_key (u : option N) : option N := if bool_decide (u = Some 0%N) then None else u.
(** [x] has the uuid [u] and is found under it, not under its former one; nothing else changed. *)
Record rekeyed (s : st) (x : nat) (u : option N) (s' : st) : Prop := Rekeyed {
  rk_uuid : uuid_at s' x = u;
  rk_found : index_at s' x !! index_key u = Some x;
  rk_former : index_key (uuid_at s x) <> index_key u -> index_at s' x !! index_key (uuid_at s x) = None;
  rk_entries : forall i, i <> index_key u -> i <> index_key (uuid_at s x) -> index_at s' x !! i = index_at s x !! i;
  rk_shared : forall y, index_id s y = index_id s x -> index_at s' y = index_at s' x;
  rk_indices : forall y, index_id s y <> index_id s x -> index_at s' y = index_at s y;
  rk_index : forall y, index_id s' y = index_id s y;
  rk_uuids : forall y, y <> x -> uuid_at s' y = uuid_at s y;
  rk_places : forall y, keeps_place s s' y;
  rk_content : forall y, class_of s' y = class_of s y /\ entries_at s' y = entries_at s y /\ spaces_at s' y = spaces_at s y
}.

(** * What assigning, deleting and detaching a child [c] of [x] leaves *)
(** A new child: the set of listed nodes stays; the child joins the index of its parent. *)
Record grafted (s : st) (x : nat) (k : key) (c : nat) (s' : st) : Prop := Grafted {
  gf_entries : entries_at s' x = put k (VNode c) (entries_at s x);
  gf_others : forall y, y <> x -> entries_at s' y = entries_at s y;
  gf_listed : forall y, listed s' y <-> listed s y;
  gf_content : forall i y, index_at s' x !! i = Some y <-> index_at s x !! i = Some y \/ (y = c /\ i = uuid_at s c);
  gf_index : index_id s' c = index_id s x;
  gf_kept : forall y, y <> c -> index_id s' y = index_id s y
}.
(** [del x[k]]: the nodes below [c] leave the index *)
Record pruned (s : st) (x : nat) (k : key) (c : nat) (s' : st) : Prop := Pruned {
  pr_entries : entries_at s' x = SpecMapping.remove k (entries_at s x);
  pr_listed : forall y, listed s' y <-> listed s y /\ ~ below s c y;
  pr_index : forall y, index_id s' y = index_id s y;
  pr_content : forall i y, index_at s' x !! i = Some y <-> index_at s x !! i = Some y /\ ~ below s c y;
  pr_others : forall z, index_id s z <> index_id s x -> index_at s' z = index_at s z
}.
(** [x.detach(k)]: the nodes below [c] leave the index for one of their own. *)
Record uprooted (s : st) (x : nat) (k : key) (c : nat) (s' : st) : Prop := Uprooted {
  ur_entries : entries_at s' x = SpecMapping.remove k (entries_at s x);
  ur_listed : forall y, listed s' y <-> listed s y;
  ur_kept : forall y, ~ below s c y -> index_id s' y = index_id s y;
  ur_fresh : exists n, idxs s !! n = None /\ forall y, below s c y -> index_id s' y = Some n;
  ur_own : forall i y, index_at s' c !! i = Some y <-> exists u, i = Some u /\ uuid_at s y = Some u /\ below s c y;
  ur_rest : forall i y, index_at s' x !! i = Some y <-> index_at s x !! i = Some y /\ ~ below s c y
}.
