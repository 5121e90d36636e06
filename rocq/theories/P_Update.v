(** C56: update with another node shares its children. *)
From Verif Require Import Py Odict OdictFacts Aliaser Heap Model Classes WF Views SpecMapping MappingProofs TreeOps Observe ObserveFacts SpecTree
  Reach MappingProps Play SpecPlace SpecAny AnyMapping SpecUpdate UpdateProofs SpecOrder SpecUtils Utils OrderProofs PlaceProofs PathTree PlayPlace.

(** [x.update(y)] for nodes of any two classes of the tree behaviors (the class of [x] without
    Reference): in every reachable state, if [x] takes every entry of [y], it succeeds; [x] ends
    with its entries overwritten by those of [y] and nothing is taken away from [y]; the
    children of [y] have [x] for their parent if the class of [x] adopts. *)
Theorem C56_update_shares : forall s x y cx cy,
  reach s -> class_of s x = Some cx -> tree_class (c_behs cx) = true -> Reference ∉ c_behs cx ->
  class_of s y = Some cy -> tree_class (c_behs cy) = true -> Forall (fun e => ~ to_spaces cy (fst e)) (entries_at s y) ->
  takes_all cx s x y ->
  exists s', update_from x y s = (Ret tt, s') /\ shared cx s x y s'.
Proof. intros s x y cx cy R. apply update_from_shares. by apply reach_wf. Qed.
(** What the entries are then: first the keys [x] had, in their order, then the keys only [y] has, in
    theirs; under every key of [y] its value there, under the others that of [x]. *)
Theorem C56_merged_entries : forall s x y cx cy,
  reach s -> class_of s x = Some cx -> tree_class (c_behs cx) = true -> Reference ∉ c_behs cx ->
  class_of s y = Some cy -> tree_class (c_behs cy) = true -> Forall (fun e => ~ to_spaces cy (fst e)) (entries_at s y) ->
  takes_all cx s x y ->
  exists s', update_from x y s = (Ret tt, s') /\
    map fst (entries_at s' x) = map fst (entries_at s x) ++ filter (fun k => k ∉ map fst (entries_at s x)) (map fst (entries_at s y)) /\
    forall k, value_at k (entries_at s' x) = match value_at k (entries_at s y) with Some v => Some v | None => value_at k (entries_at s x) end.
Proof.
  intros s x y cx cy R Hx Tx Rx Hy Ty Hn HT. pose proof (reach_wf _ R) as W. destruct (update_from_shares s x y cx cy W Hx Tx Rx Hy Ty Hn HT) as (s' & E & S).
  exists s'. split; [done|]. rewrite (sh_entries _ _ _ _ _ S). split; [apply merged_keys; by apply entries_nodup|]. intros k. apply merged_value; by apply entries_nodup.
Qed.
(** A node updated with itself keeps its entries. *)
Theorem C56_with_itself : forall s x cx,
  reach s -> class_of s x = Some cx -> tree_class (c_behs cx) = true -> Reference ∉ c_behs cx -> takes_all cx s x x ->
  exists s', update_from x x s = (Ret tt, s') /\ forall z, entries_at s' z = entries_at s z.
Proof.
  intros s x cx R Hx Tx Rx HT. pose proof (reach_wf _ R) as W. destruct (update_from_shares s x x cx cx W Hx Tx Rx Hx Tx) as (s' & E & S); [|done|].
  { eapply Forall_impl; [exact HT|]. intros e [Hu _]. by apply usable_apart. }
  exists s'. split; [done|]. intros z. destruct (decide (z = x)) as [->|Hz]; [|by apply (sh_others _ _ _ _ _ S)].
  rewrite (sh_entries _ _ _ _ _ S). apply merged_self; [by apply entries_nodup|by apply entries_nodup|done].
Qed.
(** The state afterwards, also when the update raises, is one all other theorems speak about. *)
Theorem C56_reach : forall s x y r s', reach s -> exists_node s x -> exists_node s y -> update_from x y s = (r, s') -> reach s'.
Proof. exact update_from_reach. Qed.

(** So whenever the other node has a child, that child is held by it afterwards without having it
    for its parent, even if every held child knew its place before (C06). *)
Theorem C56_held_by_both : forall s x y cx cy k c,
  reach s -> class_of s x = Some cx -> tree_class (c_behs cx) = true -> Reference ∉ c_behs cx -> Adopt ∈ c_behs cx ->
  class_of s y = Some cy -> tree_class (c_behs cy) = true -> Forall (fun e => ~ to_spaces cy (fst e)) (entries_at s y) ->
  takes_all cx s x y -> y <> x -> value_at k (entries_at s y) = Some (VNode c) ->
  exists s', update_from x y s = (Ret tt, s') /\ holds_at s' x InEntries k c /\ holds_at s' y InEntries k c /\ parent_at s' c = Some x.
Proof.
  intros s x y cx cy k c R Hx Tx Rx Ax Hy Ty Hn HT Hne Hv. pose proof (reach_wf _ R) as W. destruct (update_from_shares s x y cx cy W Hx Tx Rx Hy Ty Hn HT) as (s' & E & S).
  exists s'. split; [done|]. unfold holds_at. rewrite (sh_others _ _ _ _ _ S y Hne), (sh_entries _ _ _ _ _ S). rewrite merged_value by (by apply entries_nodup). rewrite Hv.
  split; [done|]. split; [done|]. rewrite value_at_spec in Hv. apply dget_Some_in in Hv. by destruct (sh_adopts _ _ _ _ _ S Ax k c Hv).
Qed.

(** An ordered node with the children a and b updated with one that has b and c. *)
Definition C56_s := after [ONew BN (KStr "x") None; ONew ON (KStr "y") None; ONew BN (KStr "p") None; ONew BN (KStr "q") None; ONew BN (KStr "r") None;
  OSet 0 (KStr "a") (VNode 2); OSet 0 (KStr "b") (VNode 3); OSet 1 (KStr "c") (VNode 4); OSet 1 (KStr "b") (VNode 2)].
Definition C56_t := snd (update_from 0 1 C56_s).
Example C56_values : entries_at C56_t 0 = [(KStr "a", VNode 2); (KStr "b", VNode 2); (KStr "c", VNode 4)] /\
  entries_at C56_t 1 = [(KStr "c", VNode 4); (KStr "b", VNode 2)] /\ parent_at C56_t 4 = Some 0 /\ parent_at C56_t 2 = Some 0 /\ name_at C56_t 2 = Some (KStr "b") /\
  entries_at (snd (update_from 3 1 C56_s)) 3 = [(KStr "c", VNode 4); (KStr "b", VNode 2)].
Proof. split; [vm_compute; reflexivity|]. split; [vm_compute; reflexivity|]. split; [vm_compute; reflexivity|]. split; [vm_compute; reflexivity|]. split; vm_compute; reflexivity. Qed.
Example C56_example : reach C56_s /\ class_of C56_s 0 = Some BaseNode /\ class_of C56_s 1 = Some OrderedNode /\ tree_class (c_behs BaseNode) = true /\ tree_class (c_behs OrderedNode) = true /\
  Forall (fun e => ~ to_spaces OrderedNode (fst e)) (entries_at C56_s 1) /\ takes_all BaseNode C56_s 0 1 /\ takes_all OrderedNode C56_s 1 1 /\ value_at (KStr "c") (entries_at C56_s 1) = Some (VNode 4).
Proof.
  assert (E : entries_at C56_s 1 = [(KStr "c", VNode 4); (KStr "b", VNode 2)]) by (vm_compute; reflexivity).
  assert (N0 : Nodespaces ∉ c_behs BaseNode) by (by apply (bool_decide_unpack _)). assert (N1 : Nodespaces ∉ c_behs OrderedNode) by (by apply (bool_decide_unpack _)).
  split; [apply after_reach|]. split; [vm_compute; reflexivity|]. split; [vm_compute; reflexivity|]. split; [reflexivity|]. split; [reflexivity|]. unfold takes_all. rewrite E.
  split; [do 2 (apply Forall_cons_2; [intros [H _]; exact (N1 H)|]); apply Forall_nil_2|].
  split; [do 2 (apply Forall_cons_2; [split; [intros H; destruct (N0 H)|vm_compute; reflexivity]|]); apply Forall_nil_2|].
  split; [do 2 (apply Forall_cons_2; [split; [intros H; destruct (N1 H)|vm_compute; reflexivity]|]); apply Forall_nil_2|]. vm_compute; reflexivity.
Qed.
(** Before this update every held child knows its place, afterwards one does not. *)
Definition C56_g := tended [BaseNode] [ONew BN (KStr "x") None; ONew BN (KStr "y") None; ONew BN (KStr "c") None; OSet 1 (KStr "c") (VNode 2)].
Theorem C56_no_tree_refuted : exists s x y s' k c, grown adopting careful s /\ update_from x y s = (Ret tt, s') /\ reach s' /\
  holds_at s' y InEntries k c /\ parent_at s' c <> Some y.
Proof.
  exists C56_g, 0, 1, (snd (update_from 0 1 C56_g)), (KStr "c"), 2. assert (G : grown adopting careful C56_g) by (apply tended_grown; by apply adoptingb_spec).
  split; [exact G|]. split; [vm_compute; reflexivity|]. split; [|split; [vm_compute; reflexivity|vm_compute; congruence]].
  apply (update_from_reach C56_g 0 1 (fst (update_from 0 1 C56_g))); [exact (grown_reach adopting careful _ G)|vm_compute; eexists; reflexivity|vm_compute; eexists; reflexivity|apply surjective_pairing].
Qed.

Print Assumptions C56_update_shares.
Print Assumptions C56_merged_entries.
Print Assumptions C56_with_itself.
Print Assumptions C56_reach.
Print Assumptions C56_held_by_both.
Print Assumptions C56_no_tree_refuted.
