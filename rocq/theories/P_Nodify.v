(** C45, C46: acquire and filteredvalues. *)
From Verif Require Import Py Odict Aliaser Heap Model Classes WF Views SpecMapping MappingProofs TreeOps Observe ObserveFacts SpecTree
  Reach MappingProps Play SpecPlace SpecUtils PlaceProofs PlayPlace SpecNodify NodifyProofs.

(** * C45 *)
(** [p] is what the interface or the class asked for says of a node object. *)
(** acquire returns a node exactly if it is the first proper ancestor satisfying [p], in every
    reachable state, parent cycles included, *)
Theorem C45_acquire_finds : forall s p x y, reach s -> exists_node s x ->
  acquire p x s = (Ret (Some y), s) <-> first_above s (satisfies s p) x y.
Proof. intros s p x y R. exact (acquire_some s p x y (reach_wf s R)). Qed.
(** and None exactly if the ancestors end and none satisfies [p]. *)
Theorem C45_acquire_none : forall s p x, reach s -> exists_node s x ->
  acquire p x s = (Ret None, s) <-> none_above s (satisfies s p) x.
Proof. intros s p x R. exact (acquire_none s p x (reach_wf s R)). Qed.
(** It changes nothing, and runs forever only where the ancestors do not end. *)
Theorem C45_acquire_changes_nothing : forall s p x r s', reach s -> exists_node s x -> acquire p x s = (r, s') ->
  s' = s /\ (r = Exc OutOfFuel -> forall n, exists z, up s n x = Some z).
Proof. intros s p x r s' R. exact (acquire_runs s p x r s' (reach_wf s R)). Qed.
(** In trees made with care it always returns, and never the node itself. *)
Theorem C45_acquire_in_trees : forall s p x, grown adopting careful s -> exists_node s x ->
  exists l r, chain s x l /\ acquire p x s = (Ret r, s) /\ r <> Some x /\
    match r with
    | Some y => exists l1 l2, l = x :: l1 ++ y :: l2 /\ satisfies s p y /\ Forall (fun z => ~ satisfies s p z) l1
    | None => exists l', l = x :: l' /\ Forall (fun z => ~ satisfies s p z) l'
    end.
Proof.
  intros s p x G Hx. destruct (grown_ok s G) as [W T]. destruct (tk_acyc _ T x Hx) as [l C].
  destruct (acquire_chain s p x l (wd_wf _ _ W) Hx C) as (r & H). by exists l, r.
Qed.

(** An OrderedNode above a Node above a Node above a Node with an attributes node. *)
Definition C45_s := tended [BaseNode; OrderedNode; Node; NodeAttributes] [ONew ON (KStr "root") None; ONew NN (KStr "a") None; ONew NN (KStr "b") None;
  ONew NN (KStr "c") None; OSet 0 (KStr "a") (VNode 1); OSet 1 (KStr "b") (VNode 3); OSet 3 (KStr "c") (VNode 5)].
Definition is_class (n : string) (o : obj) : bool := String.eqb (c_name (o_cls o)) n.
Example C45_example : grown adopting careful C45_s /\ chain C45_s 5 [5; 3; 1; 0] /\
  fst (acquire (is_class NN) 5 C45_s) = Ret (Some 3) /\ fst (acquire (is_class ON) 5 C45_s) = Ret (Some 0) /\
  fst (acquire (is_class BN) 5 C45_s) = Ret None /\ fst (acquire (is_class NN) 1 C45_s) = Ret None /\
  satisfies C45_s (is_class NN) 5 /\ ~ satisfies C45_s (is_class ON) 3.
Proof.
  split; [apply tended_grown; by apply adoptingb_spec|].
  split. { apply (chain_up _ 5 3); [by vm_compute|]. apply (chain_up _ 3 1); [by vm_compute|]. apply (chain_up _ 1 0); [by vm_compute|]. apply chain_root; [by vm_compute; eauto|by vm_compute]. }
  split; [by vm_compute|]. split; [by vm_compute|]. split; [by vm_compute|]. split; [by vm_compute|].
  split; [eexists; split; [by vm_compute|by vm_compute]|].
  intros (o & Ho & Hp). vm_compute in Ho. injection Ho as <-. vm_compute in Hp. done.
Qed.
(** With a cycle of parents a node acquires itself, *)
Theorem C45_itself_refuted : exists s p x, reach s /\ exists_node s x /\ acquire p x s = (Ret (Some x), s).
Proof.
  exists (after [ONew BN (KStr "a") None; ONew ON (KStr "b") None; OSet 0 (KStr "b") (VNode 1); ODetach 0 (KStr "b"); OSet 1 (KStr "a") (VNode 0)]),
    (is_class BN), 0. split; [apply after_reach|]. split; [vm_compute; eauto|]. apply C45_acquire_finds; [apply after_reach|vm_compute; eauto|].
  exists 1. split; [by vm_compute|]. split; [eexists; split; by vm_compute|].
  intros [|m] z Hm; [|lia]. vm_compute. intros [= <-] (o & [= <-] & Hp). done.
Qed.
(** or does not return. *)
Theorem C45_cycle_refuted : exists s p x, reach s /\ exists_node s x /\ forall f o, nodes s !! x = Some o -> acquire_loop f p (o_parent o) s = (Exc OutOfFuel, s).
Proof.
  exists (after [ONew BN (KStr "a") None; ONew BN (KStr "b") None; OSet 0 (KStr "b") (VNode 1); ODetach 0 (KStr "b"); OSet 1 (KStr "a") (VNode 0)]),
    (is_class ON), 0. split; [apply after_reach|]. split; [vm_compute; eauto|].
  set (s := after _).
  assert (H : exists o0 o1, nodes s !! 0 = Some o0 /\ nodes s !! 1 = Some o1 /\ o_parent o0 = Some 1 /\ o_parent o1 = Some 0 /\
    is_class ON o0 = false /\ is_class ON o1 = false) by (do 2 eexists; split; [by vm_compute|]; split; by vm_compute).
  clearbody s. destruct H as (o0 & o1 & H0 & H1 & P0 & P1 & Q0 & Q1). intros f o Ho. assert (o = o0) as -> by congruence. rewrite P0. clear Ho.
  assert (E : forall x, x = 0 \/ x = 1 -> acquire_loop f (is_class ON) (Some x) s = (Exc OutOfFuel, s)).
  { induction f as [|f IH]; intros x Hx; [done|]. simpl. unfold bind, load. destruct Hx as [-> | ->].
    - rewrite H0, Q0, P0. apply IH. by right.
    - rewrite H1, Q1, P1. apply IH. by left. }
  apply E. by right.
Qed.

(** * C46 *)
(** On a class of the tree behaviors, the values of the entries for which [p] holds, in the
    order of the entries. *)
Theorem C46_filteredvalues : forall s p x cls, reach s -> class_of s x = Some cls -> tree_class (c_behs cls) = true ->
  Forall (fun e => ~ to_spaces cls (fst e)) (entries_at s x) ->
  exists l s', filteredvalues p x s = (Ret l, s') /\ struck_out p (map snd (entries_at s x)) l /\ same_world s s'.
Proof. intros s p x cls R. exact (filtered_entries s p x cls (reach_wf s R)). Qed.
(** On any node, what values() returns with the others struck out; it raises exactly if
    values() does, and has the same effects. *)
Theorem C46_filters_values : forall s p x r s', values x s = (r, s') ->
  match r with
  | Ret vs => exists l, filteredvalues p x s = (Ret l, s') /\ struck_out p vs l
  | Exc e => filteredvalues p x s = (Exc e, s')
  end.
Proof. exact filtered_of_values. Qed.

(** entries that are nodes of two classes, and a string *)
Definition C46_s := after [ONew BN (KStr "root") None; OSetAllow 0 true; ONew ON (KStr "a") None; ONew BN (KStr "b") None; ONew ON (KStr "c") None;
  OSet 0 (KStr "c") (VNode 3); OSet 0 (KStr "x") (VStr "text"); OSet 0 (KStr "b") (VNode 2); OSet 0 (KStr "a") (VNode 1)].
Definition among (l : list nat) (v : val) : bool := match v with VNode c => bool_decide (c ∈ l) | _ => false end.
Example C46_example : reach C46_s /\ class_of C46_s 0 = Some BaseNode /\ tree_class (c_behs BaseNode) = true /\
  Forall (fun e => ~ to_spaces BaseNode (fst e)) (entries_at C46_s 0) /\
  map snd (entries_at C46_s 0) = [VNode 3; VStr "text"; VNode 2; VNode 1] /\
  fst (filteredvalues (among [1; 3]) 0 C46_s) = Ret [VNode 3; VNode 1] /\
  fst (filteredvalues (among []) 0 C46_s) = Ret [].
Proof.
  split; [apply after_reach|]. split; [by vm_compute|]. split; [by vm_compute|].
  split. { apply Forall_forall. intros e _ [H _]. by apply (bool_decide_unpack _) in H || (revert H; apply (bool_decide_unpack _); by vm_compute). }
  split; [by vm_compute|]. split; by vm_compute.
Qed.

Print Assumptions C45_acquire_finds.
Print Assumptions C45_acquire_none.
Print Assumptions C45_acquire_changes_nothing.
Print Assumptions C45_acquire_in_trees.
Print Assumptions C45_itself_refuted.
Print Assumptions C45_cycle_refuted.
Print Assumptions C46_filteredvalues.
Print Assumptions C46_filters_values.
