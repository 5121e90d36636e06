(** Rearranging the children of a node with detach and insertlast, insertbefore, insertafter (C72). *)
From Verif Require Import Py Odict Heap Model SpecMapping Observe SpecTree SpecOrder SpecReference.

(** Programs over the API. detach is src/node/behaviors/nodify.py:65-69; insertbefore, insertafter
    and insertlast are src/node/behaviors/order.py:25-49. x.insertlast(x.detach(k)) for the given keys,
    one after another *)
Definition to_the_end (x : nat) (k : key) : M unit :=
  let! v := detach x k in match v with VNode n => insertlast x n | _ => raise AttributeError end.
Definition arrange (x : nat) (order : list key) : M unit := iterM (to_the_end x) order.
(** x.insertbefore(x.detach(k), r), x.insertafter(x.detach(k), r) *)
Definition move (before : bool) (x : nat) (k : key) (r : nat) : M unit :=
  let! v := detach x k in match v with VNode n => insert_at before x n r | _ => raise AttributeError end.

(** The children of [x] are nodes, held under their names, with [x] as parent. *)
Definition children_in_place (cls : classdef) (s : st) (x : nat) : Prop :=
  forall k v, (k, v) ∈ entries_at s x ->
    exists t c, k = KStr t /\ v = VNode c /\ ~ to_spaces cls k /\ name_at s c = Some k /\ parent_at s c = Some x.
(** At most the order of the children of [x] changed. *)
Record rearranged (s : st) (x : nat) (s' : st) : Prop := Rearranged {
  re_entries : Permutation (entries_at s x) (entries_at s' x);
  re_spaces : spaces_at s' x = spaces_at s x;
  re_others : entries_elsewhere s x s';
  re_places : forall y, keeps_place s s' y;
  re_uuid : forall y, uuid_at s' y = uuid_at s y;
  re_class : forall y, class_of s' y = class_of s y
}.
(** The children of [x] have no children themselves. *)
Definition childless_children (s : st) (x : nat) : Prop := forall k c, (k, VNode c) ∈ entries_at s x -> entries_at s c = [].
(** All nodes that were in the tree of [x] are found from there by their uuids. *)
Definition found (s : st) (x : nat) (s' : st) : Prop :=
  forall y u, same_tree s x y -> uuid_at s y = Some u -> node_by_uuid x (Some u) s' = (Ret (VNode y), s').
