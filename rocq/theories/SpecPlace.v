(** Specification of the position of nodes in trees. *)
From Verif Require Import Py Heap Model SpecMapping Observe TreeOps NewEff SpecTree SpecOrder Reach.

(** * Holding *)
Inductive place := InEntries | InSpaces.
(** [c] is what [p] holds under [k]; the node itself as its own [__children__] does not count. *)
Definition holds_at (s : st) (p : nat) (pl : place) (k : key) (c : nat) : Prop :=
  match pl with
  | InEntries => value_at k (entries_at s p) = Some (VNode c)
  | InSpaces => value_at k (spaces_at s p) = Some (VNode c) /\ ~ (k = KStr "__children__" /\ c = p)
  end.
Definition unheld (s : st) (c : nat) : Prop := forall p pl k, ~ holds_at s p pl k c.
(** A held child has the key as its name and the holder as its parent. *)
Definition consistent (s : st) : Prop :=
  forall p pl k c, holds_at s p pl k c -> name_at s c = Some k /\ parent_at s c = Some p.

(** * Parent chains *)
(** [l] is [x], its parent, the parent of that, and so on to a node without a parent. *)
Inductive chain (s : st) : nat -> list nat -> Prop :=
| chain_root x : exists_node s x -> parent_at s x = None -> chain s x [x]
| chain_up x p l : parent_at s x = Some p -> chain s p l -> chain s x (x :: l).
Definition acyclic (s : st) : Prop := forall x, exists_node s x -> exists l, chain s x l.

(** * Histories in which nodes are assigned with care *)
(** [c] is held nowhere and not on the parent chain of [x] (nor [x] itself). *)
Definition free (s : st) (x c : nat) : Prop := unheld s c /\ forall l, chain s x l -> c ∉ l.
Definition nodes_among (vs : list val) : list nat :=
  flat_map (fun v => match v with VNode c => [c] | _ => [] end) vs.
Definition assignable (s : st) (x : nat) (vs : list val) : Prop :=
  NoDup (nodes_among vs) /\ Forall (free s x) (nodes_among vs).
Definition insertable (s : st) (x n : nat) : Prop :=
  exists cls t, class_of s x = Some cls /\ name_at s n = Some (KStr t) /\ ~ to_spaces cls (KStr t) /\
    value_at (KStr t) (entries_at s x) = None /\ joins cls s x n /\ free s x n.

(** No class is accessed by __getattr__ for children: copy and deepcopy probe nodes for
    __deepcopy__ and __setstate__, and GetattrChildren answers such probes with KeyError. *)
Definition copyable (s : st) : Prop := forall x cls, class_of s x = Some cls -> GetattrChildren ∉ c_behs cls.
(** What the discipline asks of a call; storages are not written to directly; name and parent are assigned to nodes that are held nowhere, and no parent below the node; creation, lookup, iteration, deletion, detaching, pop,
    popitem, clear, invalidate, swap, attrs and the setting of attributes are unrestricted. *)
Definition careful (s : st) (o : op) : Prop :=
  match o with
  | OSet x _ v | OSetdefault x _ v => assignable s x [v]
  | OUpdate x a kw => assignable s x (map snd (concat a ++ kw))
  | OInsertAt _ x n _ | OInsertEnd _ x n => insertable s x n
  | ODeepcopy _ => copyable s
  | OStore _ _ _ | OUnstore _ _ => False
  | OPlace x _ p => unheld s x /\ forall q l, p = Some q -> chain s q l -> x ∉ l
  | _ => True
  end.

(** States reached, from a process that has imported classes with [H] only, by calls with [D]. *)
Inductive grown (H : classdef -> Prop) (D : st -> op -> Prop) : st -> Prop :=
| grown_init cs : (forall cn cls, cs !! cn = Some cls -> H cls) -> grown H D (St ∅ ∅ ∅ 0 1 [] (-1) cs)
| grown_step s o r s' : grown H D s -> op_ok s o -> D s o -> run_op o s = (r, s') -> grown H D s'.

(** Classes of the tree behaviors whose nodes can be created, with Adopt. *)
Definition adopting (cls : classdef) : Prop := new_class (c_behs cls) = true /\ Adopt ∈ c_behs cls.

(** * Positions *)
(** The keys in [ks] lead from [p] down to [d], each to what is looked up under it: entries, and
    nodespaces under the keys that belong to them. *)
Inductive descends (s : st) : nat -> list key -> nat -> Prop :=
| desc_here x : exists_node s x -> descends s x [] x
| desc_step p pl k c ks d : holds_at s p pl k c ->
    (pl = InSpaces -> exists cls, class_of s p = Some cls /\ to_spaces cls k) -> descends s c ks d -> descends s p (k :: ks) d.
