(** Specification of fallback lookups. *)
From Verif Require Import Py Heap Model SpecMapping Observe MappingProofs WF WFOps Views StorageProofs TreeOps SpecTree SpecPlace Reach.

(** What [p] itself holds under [k]. *)
Definition own (s : st) (p : nat) (k : key) (v : val) : Prop :=
  exists cls, class_of s p = Some cls /\
    ((to_spaces cls k /\ value_at k (spaces_at s p) = Some v) \/ (~ to_spaces cls k /\ value_at k (entries_at s p) = Some v)).
Definition lacks (s : st) (p : nat) (k : key) : Prop := forall v, ~ own s p k v.

(** [p] declares the fallback key [fk]; empty ones do not count. *)
Definition falls (s : st) (p : nat) (fk : key) : Prop :=
  (exists o, nodes s !! p = Some o /\ o_fallback o = Some fk) /\ fk <> KStr "" /\ fk <> KNone /\ fk <> KInt 0.

(** The keys lead from [r] to [n], some of them (one at least if the flag is set) replaced by the
    fallback key of the node they are looked up on.  A key is only replaced where the node also
    has a child under the key itself. *)
Inductive strays (s : st) (r : nat) : list key -> nat -> bool -> Prop :=
| sy_here : strays s r [] r false
| sy_on pre p b k c : strays s r pre p b -> own s p k (VNode c) -> strays s r (pre ++ [k]) c b
| sy_fall pre p b k c0 fk c : strays s r pre p b -> own s p k (VNode c0) -> falls s p fk -> own s p fk (VNode c) ->
    strays s r (pre ++ [k]) c true.

(** Trees of the tree behaviors and Fallback. *)
Definition fb_beh (b : behavior) : bool := tree_beh b || bool_decide (b = Fallback).
Definition fb_class (bs : list behavior) : bool := forallb fb_beh bs && storage_class bs.
Record fallback_tree (s : st) : Prop := FallbackTree {
  ft_reach : reach s;
  ft_classes : forall x cls, class_of s x = Some cls -> fb_class (c_behs cls) = true;
  ft_consistent : consistent s;
  ft_acyclic : acyclic s;
  ft_children : forall p, ~ falls s p (KStr "__children__")
}.

(** A lookup of [k] on nodes of the class goes through exactly one Fallback. *)
Definition searches (cls : classdef) (k : key) : Prop :=
  exists pre post, c_behs cls = pre ++ Fallback :: post /\ Fallback ∉ pre /\ Fallback ∉ post /\ ~ (Nodespaces ∈ pre /\ dunder k).

(** [x] is found from the root [r] under the keys. *)
Inductive leads (s : st) (r : nat) : list key -> nat -> Prop :=
| ld_here : leads s r [] r
| ld_step ks p k c : leads s r ks p -> own s p k (VNode c) -> leads s r (ks ++ [k]) c.
Definition path_to (s : st) (r : nat) (ks : list key) (x : nat) : Prop :=
  exists_node s r /\ parent_at s r = None /\ leads s r ks x /\ KStr "__children__" ∉ ks.

(** On the way (replacements included) to some proper prefix of the path there is a node whose
    fallback key cannot be followed, or whose child of that name is no node; [e] says so. *)
Definition stuck (s : st) (r : nat) (ks : list key) (e : exc) : Prop :=
  exists pre n post p b, ks = pre ++ n :: post /\ strays s r pre p b /\
    ((exists fk, falls s p fk /\ hashable fk = true /\ lacks s p fk /\ e = KeyError fk) \/
     (exists fk, falls s p fk /\ hashable fk = false /\ e = TypeError) \/
     (exists fk v, falls s p fk /\ own s p fk v /\ not_a_node v /\ e = AttributeError) \/
     (exists v, own s p n v /\ not_a_node v /\ e = AttributeError)).

(** Every declared fallback key leads to a node, and what is held under a key of the path is one. *)
Record sound_keys (s : st) (ks : list key) : Prop := SoundKeys {
  so_fall : forall p fk, falls s p fk -> exists c, own s p fk (VNode c);
  so_child : forall p n v, n ∈ ks -> own s p n v -> exists c, v = VNode c
}.
(** As [strays], but keys may also be replaced where there is no child of that name. *)
Inductive detours (s : st) (r : nat) : list key -> nat -> Prop :=
| dt_here : detours s r [] r
| dt_on pre p k c : detours s r pre p -> own s p k (VNode c) -> detours s r (pre ++ [k]) c
| dt_fall pre p k fk c : detours s r pre p -> falls s p fk -> own s p fk (VNode c) -> detours s r (pre ++ [k]) c.
