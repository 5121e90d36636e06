(** C67: calls on several caching nodes, in any order. *)
From Verif Require Import Py Odict Heap Model Classes WF Views SpecMapping MappingProofs StorageProofs Observe SpecTree
  Reach Play SpecCache CacheProofs CacheConcert.

(** Any history of mapping calls and invalidations of keys, on any nodes in any order (parents,
    their children, nodes that hold each other): every node answers what was asked of it as a
    dictionary of its own, whatever was asked of the others in between; its cache stays up to
    date.  Nodes that are given as values may be any. *)
Theorem C67_concert : forall s l, reach s ->
  Forall (fun c => exists cls i, in_tune s (fst c) cls i) l ->
  Forall (fun c => Forall (known s) (icall_values (snd c))) l -> inval_keys_ok (map snd l) ->
  forall x cls i, in_tune s x cls i ->
    let s' := snd (run_concert l s) in
    at_node x (fst (run_concert l s)) = fst (icalls_spec i (pol cls (allows s x)) (at_node x l) (entries_at s x)) /\
    entries_at s' x = snd (icalls_spec i (pol cls (allows s x)) (at_node x l) (entries_at s x)) /\
    in_tune s' x cls i.
Proof. intros s l R H1 H2 H3. exact (proj1 (concert_history s l (reach_wf s R) H1 H2 H3)). Qed.
(** Nodes of which nothing was asked, of any class, keep what they hold: also
    those that were given as values. *)
Theorem C67_others : forall s l, reach s ->
  Forall (fun c => exists cls i, in_tune s (fst c) cls i) l ->
  Forall (fun c => Forall (known s) (icall_values (snd c))) l -> inval_keys_ok (map snd l) ->
  forall y, y ∉ map fst l -> same_contents s (snd (run_concert l s)) y.
Proof. intros s l R H1 H2 H3. exact (proj2 (concert_history s l (reach_wf s R) H1 H2 H3)). Qed.
(** So what is asked of different nodes may be reordered: two histories that ask the same of
    every node get the same answers and leave the same entries. *)
Theorem C67_order_irrelevant : forall s l l', reach s ->
  Forall (fun c => exists cls i, in_tune s (fst c) cls i) l -> Forall (fun c => exists cls i, in_tune s (fst c) cls i) l' ->
  Forall (fun c => Forall (known s) (icall_values (snd c))) l -> Forall (fun c => Forall (known s) (icall_values (snd c))) l' ->
  inval_keys_ok (map snd l) -> inval_keys_ok (map snd l') ->
  (forall x, at_node x l = at_node x l') ->
  forall x cls i, in_tune s x cls i ->
    at_node x (fst (run_concert l s)) = at_node x (fst (run_concert l' s)) /\
    entries_at (snd (run_concert l s)) x = entries_at (snd (run_concert l' s)) x.
Proof.
  intros s l l' R H1 H1' H2 H2' H3 H3' He x cls i T.
  destruct (C67_concert s l R H1 H2 H3 x cls i T) as (E1 & E2 & _). destruct (C67_concert s l' R H1' H2' H3' x cls i T) as (E1' & E2' & _).
  rewrite E1, E2, E1', E2', He. done.
Qed.

(** A caching parent and its caching child, another invalidator each. *)
Definition C67_s := after [ONew "CacheNode" KNone None; ONew "CacheVolatileNode" KNone None; ONew BN KNone None;
  OSet 0 (KStr "a") (VNode 1); OSet 1 (KStr "b") (VNode 2); OGet 0 (KStr "a")].
Definition C67_l : list (nat * icall) :=
  [(1, Call (CGet (KStr "b"))); (0, Call (CGet (KStr "a"))); (1, Invalidates (KStr "b")); (0, Call (CSet (KStr "b") (VNode 2)));
   (1, Call (CIn (KStr "b"))); (0, Call CKeys); (1, Call (CSet (KStr "a") (VNode 0))); (0, Invalidates (KStr "a")); (0, Call (CGet (KStr "b"))); (1, Call CValues)].
Lemma C67_tune : in_tune C67_s 0 CacheNode Through /\ in_tune C67_s 1 CacheVolatileNode Below.
Proof.
  split; (constructor; [vm_compute; reflexivity|reflexivity|reflexivity| |]).
  - replace (cache_at C67_s 0) with [(KStr "a", VNode 1)] by (vm_compute; reflexivity).
    replace (entries_at C67_s 0) with [(KStr "a", VNode 1)] by (vm_compute; reflexivity). intros k v H. exact H.
  - intros H. contradiction H. by apply (bool_decide_unpack _).
  - replace (cache_at C67_s 1) with (@nil (key * val)) by (vm_compute; reflexivity). intros k v H. discriminate H.
  - intros H. contradiction H. by apply (bool_decide_unpack _).
Qed.
Example C67_example : reach C67_s /\ Forall (fun c => exists cls i, in_tune C67_s (fst c) cls i) C67_l /\
  Forall (fun c => Forall (known C67_s) (icall_values (snd c))) C67_l /\ inval_keys_ok (map snd C67_l) /\
  at_node 0 (fst (run_concert C67_l C67_s)) = [AVal (VNode 1); ANone; AKeys [KStr "a"; KStr "b"]; ANone; AVal (VNode 2)] /\
  at_node 1 (fst (run_concert C67_l C67_s)) = [AVal (VNode 2); ANone; ABool false; ANone; AVals [VNode 0]] /\
  entries_at (snd (run_concert C67_l C67_s)) 0 = [(KStr "b", VNode 2)] /\ cache_at (snd (run_concert C67_l C67_s)) 1 = [(KStr "a", VNode 0)].
Proof.
  destruct C67_tune as [T0 T1]. split; [apply after_reach|].
  assert (E0 : exists cls i, in_tune C67_s 0 cls i) by (exists CacheNode, Through; exact T0).
  assert (E1 : exists cls i, in_tune C67_s 1 cls i) by (exists CacheVolatileNode, Below; exact T1).
  split; [unfold C67_l; repeat (apply Forall_cons; split; [simpl fst; assumption|]); apply Forall_nil; exact I|].
  split.
  { unfold C67_l. repeat (apply Forall_cons; split; [simpl snd; simpl icall_values; repeat (apply Forall_cons; split; [vm_compute; eexists; reflexivity|]); apply Forall_nil; exact I|]). apply Forall_nil; exact I. }
  split.
  { unfold C67_l, inval_keys_ok. simpl map. repeat (apply Forall_cons; split; [first [exact I|split; [discriminate|reflexivity]]|]). apply Forall_nil; exact I. }
  vm_compute. repeat split.
Qed.
Print Assumptions C67_concert.
Print Assumptions C67_others.
Print Assumptions C67_order_irrelevant.
