(** C72: the children of a node can be brought into any order. *)
From Verif Require Import Py Odict Aliaser Heap Model Classes WF Views SpecMapping MappingProofs StorageProofs TreeOps SetEff Observe ObserveFacts SpecTree Reach MappingProps Play SpecOrder OrderProofs SpecPlace SpecUtils PlaceProofs PlayPlace SpecReference RefTree RefSteps RefHistory PlayRef P_Reference SpecArrange ArrangeProofs.

(** Whatever order of the keys is asked for, detaching the children and inserting them at the end,
    in that order, succeeds and gives that order. Nothing else changes: each key keeps its value,
    each node its name, parent and uuid, and the entries of all other nodes stay. *)
Theorem C72_arrange : forall s x cls order,
  reach s -> class_of s x = Some cls -> tree_class (c_behs cls) = true -> orders cls ->
  Adopt ∈ c_behs cls -> Reference ∉ c_behs cls -> children_in_place cls s x ->
  Permutation order (dkeys (entries_at s x)) ->
  exists s', arrange x order s = (Ret tt, s') /\ dkeys (entries_at s' x) = order /\ rearranged s x s'.
Proof.
  intros s x cls order R Hc Ht Ho Ha Hr HP P. destruct (arranged_all x cls Ht Ho Ha reach (fun _ H => H) (detached_plain x cls Ht Hr) order s R Hc HP P) as (s' & A & B & C & _). by exists s'.
Qed.
(** A single child can be moved next to any other one; the others keep their order. *)
Theorem C72_move : forall before s x cls t c r rk,
  reach s -> class_of s x = Some cls -> tree_class (c_behs cls) = true -> orders cls ->
  Adopt ∈ c_behs cls -> Reference ∉ c_behs cls -> children_in_place cls s x ->
  (KStr t, VNode c) ∈ entries_at s x -> name_at s r = Some rk -> rk <> KStr t -> is_Some (value_at rk (entries_at s x)) ->
  exists s', move before x (KStr t) r s = (Ret tt, s') /\
    beside before rk (KStr t, VNode c) (remove (KStr t) (entries_at s x)) (entries_at s' x) /\ rearranged s x s'.
Proof.
  intros before s x cls t c r rk R Hc Ht Ho Ha Hr HP Hin Hn Hne Hv.
  destruct (moved x cls Ht Ho Ha reach (fun _ H => H) (detached_plain x cls Ht Hr) before s t c r rk R Hc HP Hin Hn Hne Hv) as (s' & A & B & C & _). by exists s'.
Qed.
(** Moving it before the child it was followed by undoes this. *)
Theorem C72_back : forall before s x cls t c r rk n nk l1 v l2,
  reach s -> class_of s x = Some cls -> tree_class (c_behs cls) = true -> orders cls ->
  Adopt ∈ c_behs cls -> Reference ∉ c_behs cls -> children_in_place cls s x ->
  entries_at s x = l1 ++ (KStr t, VNode c) :: (nk, v) :: l2 -> name_at s n = Some nk ->
  name_at s r = Some rk -> rk <> KStr t -> is_Some (value_at rk (entries_at s x)) ->
  exists s1 s2, move before x (KStr t) r s = (Ret tt, s1) /\ move true x (KStr t) n s1 = (Ret tt, s2) /\
    entries_at s2 x = entries_at s x /\ rearranged s x s2.
Proof.
  intros before s x cls t c r rk n nk l1 v l2 R Hc Ht Ho Ha Hr HP He Hn Hr1 Hne Hv.
  destruct (moved_back x cls Ht Ho Ha reach (fun _ H => H) (detached_plain x cls Ht Hr) before s t c r rk n nk l1 v l2 R Hc HP He Hn Hr1 Hne Hv) as (s1 & s2 & A & B & C & D & _). by exists s1, s2.
Qed.

(** Trees with Reference: if the children have no children themselves, the same holds, the tree
    can be used further in the same way, and every node is still found by its uuid. *)
Theorem C72_arrange_reference : forall s x cls order,
  grown creatable tidy s -> listed s x -> class_of s x = Some cls -> orders cls -> Adopt ∈ c_behs cls ->
  children_in_place cls s x -> childless_children s x -> Permutation order (dkeys (entries_at s x)) ->
  exists s', arrange x order s = (Ret tt, s') /\ dkeys (entries_at s' x) = order /\ rearranged s x s' /\
    grown creatable tidy s' /\ listed s' x /\ found s x s'.
Proof.
  intros s x cls order G L Hc Ho Ha HP HL P. pose proof (new_tree _ (wd_nodes _ _ (proj1 (grown_tidy s G)) _ _ Hc)) as Ht.
  assert (K : kempt x s) by done. destruct (arranged_all x cls Ht Ho Ha (kempt x) (kempt_reach x) (detached_kempt x cls Ha) order s K Hc HP P) as (s' & A & B & C & K').
  exists s'. pose proof (kempt_found x s s' K K' C). destruct K' as (? & ? & ?). done.
Qed.
Theorem C72_move_reference : forall before s x cls t c r rk,
  grown creatable tidy s -> listed s x -> class_of s x = Some cls -> orders cls -> Adopt ∈ c_behs cls ->
  children_in_place cls s x -> childless_children s x ->
  (KStr t, VNode c) ∈ entries_at s x -> name_at s r = Some rk -> rk <> KStr t -> is_Some (value_at rk (entries_at s x)) ->
  exists s', move before x (KStr t) r s = (Ret tt, s') /\
    beside before rk (KStr t, VNode c) (remove (KStr t) (entries_at s x)) (entries_at s' x) /\ rearranged s x s' /\
    grown creatable tidy s' /\ listed s' x /\ found s x s'.
Proof.
  intros before s x cls t c r rk G L Hc Ho Ha HP HL Hin Hn Hne Hv. pose proof (new_tree _ (wd_nodes _ _ (proj1 (grown_tidy s G)) _ _ Hc)) as Ht.
  assert (K : kempt x s) by done. destruct (moved x cls Ht Ho Ha (kempt x) (kempt_reach x) (detached_kempt x cls Ha) before s t c r rk K Hc HP Hin Hn Hne Hv) as (s' & A & B & C & K').
  exists s'. pose proof (kempt_found x s s' K K' C). destruct K' as (? & ? & ?). done.
Qed.


(** A root with the children a, b, c, where b has a child d. *)
Definition C72_s := after [ONew "OrderableNode" (KStr "root") None; ONew "OrderableNode" (KStr "a") None; ONew "OrderableNode" (KStr "b") None; ONew "OrderableNode" (KStr "c") None;
  ONew "OrderableNode" (KStr "d") None; OSet 0 (KStr "a") (VNode 1); OSet 0 (KStr "b") (VNode 2); OSet 0 (KStr "c") (VNode 3); OSet 2 (KStr "d") (VNode 4)].
Example C72_example : reach C72_s /\ class_of C72_s 0 = Some OrderableNode /\ tree_class (c_behs OrderableNode) = true /\ orders OrderableNode /\
  Adopt ∈ c_behs OrderableNode /\ Reference ∉ c_behs OrderableNode /\ children_in_place OrderableNode C72_s 0 /\
  Permutation [KStr "c"; KStr "a"; KStr "b"] (dkeys (entries_at C72_s 0)) /\
  entries_at (snd (arrange 0 [KStr "c"; KStr "a"; KStr "b"] C72_s)) 0 = [(KStr "c", VNode 3); (KStr "a", VNode 1); (KStr "b", VNode 2)] /\
  entries_at C72_s 0 = [(KStr "a", VNode 1); (KStr "b", VNode 2); (KStr "c", VNode 3)] /\
  name_at C72_s 2 = Some (KStr "b") /\ name_at C72_s 3 = Some (KStr "c") /\ is_Some (value_at (KStr "c") (entries_at C72_s 0)) /\
  entries_at (snd (move false 0 (KStr "a") 3 C72_s)) 0 = [(KStr "b", VNode 2); (KStr "c", VNode 3); (KStr "a", VNode 1)] /\
  entries_at (snd (move true 0 (KStr "a") 2 (snd (move false 0 (KStr "a") 3 C72_s)))) 0 = entries_at C72_s 0.
Proof.
  split; [apply after_reach|]. split; [done|]. split; [done|]. split; [by apply (bool_decide_unpack _)|]. split; [by apply (bool_decide_unpack _)|]. split; [by apply (bool_decide_unpack _)|].
  assert (E : entries_at C72_s 0 = [(KStr "a", VNode 1); (KStr "b", VNode 2); (KStr "c", VNode 3)]) by (vm_compute; reflexivity).
  split.
  { intros k v. rewrite E, !elem_of_cons, elem_of_nil. intros [[= -> ->]|[[= -> ->]|[[= -> ->]|[]]]];
      [exists "a"%string, 1|exists "b"%string, 2|exists "c"%string, 3]; (split; [reflexivity|]; split; [reflexivity|]; split; [by apply nskey_dunder_false|]; split; vm_compute; reflexivity). }
  split; [rewrite E; simpl; apply (Permutation_cons_append [KStr "a"; KStr "b"])|]. split; [vm_compute; reflexivity|]. split; [exact E|].
  split; [vm_compute; reflexivity|]. split; [vm_compute; reflexivity|]. split; [vm_compute; by eexists|]. split; vm_compute; reflexivity.
Qed.

(** The same with Reference; b is childless. *)
Definition C72_r := groomed [Node; NodeAttributes] [ONew NN (KStr "root") None; ONew NN (KStr "a") None; ONew NN (KStr "b") None; ONew NN (KStr "c") None;
  OSet 0 (KStr "a") (VNode 2); OSet 0 (KStr "b") (VNode 4); OSet 0 (KStr "c") (VNode 6)].
Lemma C72_r_entries : entries_at C72_r 0 = [(KStr "a", VNode 2); (KStr "b", VNode 4); (KStr "c", VNode 6)].
Proof. vm_compute. reflexivity. Qed.
Example C72_reference_example : grown creatable tidy C72_r /\ listed C72_r 0 /\ class_of C72_r 0 = Some Node /\ orders Node /\ Adopt ∈ c_behs Node /\
  children_in_place Node C72_r 0 /\ childless_children C72_r 0 /\ Permutation [KStr "c"; KStr "a"; KStr "b"] (dkeys (entries_at C72_r 0)) /\
  entries_at (snd (arrange 0 [KStr "c"; KStr "a"; KStr "b"] C72_r)) 0 = [(KStr "c", VNode 6); (KStr "a", VNode 2); (KStr "b", VNode 4)] /\
  name_at C72_r 6 = Some (KStr "c") /\ is_Some (value_at (KStr "c") (entries_at C72_r 0)) /\
  entries_at (snd (move false 0 (KStr "a") 6 C72_r)) 0 = [(KStr "b", VNode 4); (KStr "c", VNode 6); (KStr "a", VNode 2)].
Proof.
  split; [apply groomed_grown; vm_compute; reflexivity|]. split; [apply listedb_spec; vm_compute; reflexivity|]. split; [vm_compute; reflexivity|]. split; [by apply (bool_decide_unpack _)|]. split; [by apply (bool_decide_unpack _)|].
  split.
  { intros k v. rewrite C72_r_entries, !elem_of_cons, elem_of_nil. intros [[= -> ->]|[[= -> ->]|[[= -> ->]|[]]]];
      [exists "a"%string, 2|exists "b"%string, 4|exists "c"%string, 6]; (split; [reflexivity|]; split; [reflexivity|]; split; [by apply nskey_dunder_false|]; split; vm_compute; reflexivity). }
  split. { intros k c. rewrite C72_r_entries, !elem_of_cons, elem_of_nil. intros [[= -> ->]|[[= -> ->]|[[= -> ->]|[]]]]; vm_compute; reflexivity. }
  split; [rewrite C72_r_entries; simpl; apply (Permutation_cons_append [KStr "a"; KStr "b"])|]. split; [vm_compute; reflexivity|].
  split; [vm_compute; reflexivity|]. split; [vm_compute; by eexists|]. vm_compute; reflexivity.
Qed.
(** Not so for subtrees: after bringing the children into the order they already have, a grandchild
    does not find the root any more, though nothing is raised and the order is as asked for. *)
Definition C72_deep := groomed [Node; NodeAttributes] [ONew NN (KStr "root") None; ONew NN (KStr "a") None; ONew NN (KStr "b") None;
  OSet 0 (KStr "a") (VNode 2); OSet 2 (KStr "b") (VNode 4)].
Lemma C72_deep_entries : entries_at C72_deep 0 = [(KStr "a", VNode 2)].
Proof. vm_compute. reflexivity. Qed.
Theorem C72_subtree_refuted : exists s x cls order s' y u,
  grown creatable tidy s /\ listed s x /\ class_of s x = Some cls /\ orders cls /\ Adopt ∈ c_behs cls /\ children_in_place cls s x /\
  order = dkeys (entries_at s x) /\ arrange x order s = (Ret tt, s') /\ entries_at s' x = entries_at s x /\
  same_tree s x y /\ uuid_at s x = Some u /\ fst (node_by_uuid y (Some u) s) = Ret (VNode x) /\ fst (node_by_uuid y (Some u) s') = Ret VNone.
Proof.
  exists C72_deep, 0, Node, [KStr "a"], (snd (arrange 0 [KStr "a"] C72_deep)), 4, 1%N.
  split; [apply groomed_grown; vm_compute; reflexivity|]. split; [apply listedb_spec; vm_compute; reflexivity|]. split; [vm_compute; reflexivity|]. split; [by apply (bool_decide_unpack _)|]. split; [by apply (bool_decide_unpack _)|].
  split.
  { intros k v. rewrite C72_deep_entries, elem_of_list_singleton. intros [= -> ->]. exists "a"%string, 2. split; [reflexivity|]; split; [reflexivity|]; split; [by apply nskey_dunder_false|]; split; vm_compute; reflexivity. }
  split; [vm_compute; reflexivity|]. split; [apply outcome; vm_compute; reflexivity|]. split; [vm_compute; reflexivity|].
  split. { exists 0. split; [constructor|]. apply (below_child _ 0 (KStr "a") 2); [vm_compute; reflexivity|]. apply (below_child _ 2 (KStr "b") 4); [vm_compute; reflexivity|constructor]. }
  split; [vm_compute; reflexivity|]. split; [vm_compute; reflexivity|]. vm_compute. reflexivity.
Qed.

Print Assumptions C72_arrange.
Print Assumptions C72_move.
Print Assumptions C72_back.
Print Assumptions C72_example.
Print Assumptions C72_arrange_reference.
Print Assumptions C72_move_reference.
Print Assumptions C72_reference_example.
Print Assumptions C72_subtree_refuted.
