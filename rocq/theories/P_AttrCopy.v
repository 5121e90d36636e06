(** C66: GetattrChildren and copies. *)
From Verif Require Import Py Odict Aliaser Heap Model Classes WF Observe Reach Play SpecMapping TreeOps SpecTree SpecCopy SpecRegion Refs RefsProofs Utils AttrCopy SpecAttrCopy AttrCopyProofs.

(** copy() of a node with GetattrChildren fails, whatever it holds; no node changes.  [old]: Python before 3.11. *)
Theorem C66_copy_fails : forall s x cls old,
  reach s -> class_of s x = Some cls -> tree_class (c_behs cls) = true -> DefaultInit ∈ c_behs cls -> GetattrChildren ∈ c_behs cls -> UUIDAware ∉ c_behs cls ->
  exists e s', copy_g old x s = (Exc e, s') /\ (forall y, exists_node s y -> same_node s s' y) /\
    (old = false -> e = KeyError (KStr "__setstate__")) /\ (old = true -> nothing_at s x (KStr "__getstate__") -> e = KeyError (KStr "__getstate__")).
Proof. intros s x cls old R Hc Ht _. apply copy_fails; [by apply reach_wf|done|done]. Qed.
(** Without GetattrChildren the questions of the copy module change nothing: C41. *)
Theorem C66_copy_without : forall s x cls old, class_of s x = Some cls -> GetattrChildren ∉ c_behs cls -> copy_g old x s = copy x s.
Proof. exact copy_plain. Qed.

(** deepcopy() of a node from which a node with GetattrChildren can be reached (by parents, children, attributes)
    fails, in whatever order the nodes are visited; nothing changes.  It is a KeyError unless such a node holds
    something under the name __deepcopy__. *)
Theorem C66_deepcopy_fails : forall s x order,
  reach s -> visits s x order -> getattr_in_sight s x ->
  (forall g cls, reaches s x g -> class_of s g = Some cls -> GetattrChildren ∈ c_behs cls -> tree_class (c_behs cls) = true) ->
  exists e s', deepcopy_g order x s = (Exc e, s') /\ same_world s s' /\
    ((forall g, reaches s x g -> getattr_node s g -> nothing_at s g (KStr "__deepcopy__")) -> e = KeyError (KStr "__deepcopy__")).
Proof. intros s x order R. apply deepcopy_getattr. by apply reach_wf. Qed.
(** Otherwise it is the deep copy of C42 and C43. *)
Theorem C66_deepcopy_without : forall s x order, visits s x order -> ~ getattr_in_sight s x -> deepcopy_g order x s = deepcopy x s.
Proof. exact deepcopy_plain. Qed.
(** There always is such an order. *)
Theorem C66_order_exists : forall s x, reach s -> exists_node s x -> exists order, visits s x order.
Proof.
  intros s x R [o Ho]. pose proof (reach_wf s R) as W. exists (List.filter (fun i => bool_decide (exists_node s i)) (reached s x)). intros i. rewrite elem_of_list_In, filter_In, <- elem_of_list_In, bool_decide_eq_true. split.
  - intros [H1 H2]. split; [by apply reached_reaches|done].
  - intros [H1 [oi Hi]]. split; [|by exists oi]. apply reaches_reached; try done; [by destruct (wf_nodes _ W _ _ Ho)|by destruct (wf_nodes _ W _ _ Hi)].
Qed.

(** So one node with GetattrChildren anywhere in a tree of adopting nodes rules out deep copies of every node of
    it, also of those that have nothing to do with it. *)
Definition C66_g := mkclass "G" (GetattrChildren :: c_behs BaseNode).
Definition C66_s := after_in [C66_g; BaseNode] [ONew BN (KStr "r") None; ONew "G" (KStr "g") None; ONew BN KNone None; ONew BN KNone None;
  OSet 0 (KStr "g") (VNode 1); OSet 0 (KStr "b") (VNode 2); OSet 1 (KStr "__deepcopy__") (VNode 3); ONew BN KNone None; ONew "G" KNone None; OSet 6 (KStr "g") (VNode 7)].
Lemma C66_reach : reach C66_s.
Proof. apply after_in_reach. Qed.
Definition C66_order (x : nat) : list nat := List.filter (fun i => match nodes C66_s !! i with Some _ => true | None => false end) (reached C66_s x).
Theorem C66_sibling_refuted : exists s x cls order, reach s /\ class_of s x = Some cls /\ GetattrChildren ∉ c_behs cls /\ entries_at s x = [] /\ visits s x order /\
  fst (deepcopy_g order x s) = Exc TypeError.
Proof.
  assert (V : forall x, existsb (Nat.eqb x) [0; 1; 2; 3; 6; 7] = true -> visits C66_s x (C66_order x)).
  { intros x Hx. assert (Hn : exists_node C66_s x).
    { simpl in Hx. repeat (apply orb_true_iff in Hx as [Hx|Hx]; [apply Nat.eqb_eq in Hx; subst x; vm_compute; eexists; reflexivity|]). discriminate Hx. }
    pose proof (reach_wf _ C66_reach) as W. intros i. unfold C66_order. rewrite elem_of_list_In, filter_In, <- elem_of_list_In. unfold exists_node. split.
    - intros [H1 H2]. split; [apply reached_reaches; exact H1|]. destruct (nodes C66_s !! i) as [o|]; [exists o; reflexivity|discriminate H2].
    - intros [H1 [o Ho]]. destruct Hn as [ox Hox]. split; [|rewrite Ho; reflexivity]. apply reaches_reached; [exact W|exact (proj1 (wf_nodes _ W _ _ Hox))|exact (proj1 (wf_nodes _ W _ _ Ho))|exact H1]. }
  exists C66_s, 2, BaseNode, (C66_order 2). split; [exact C66_reach|]. split; [vm_compute; reflexivity|]. split; [apply (bool_decide_unpack _); vm_compute; reflexivity|].
  split; [vm_compute; reflexivity|]. split; [apply V; vm_compute; reflexivity|]. vm_compute. reflexivity.
Qed.
(** the hypotheses are met: the node itself, and one that holds it *)
Example C66_example : class_of C66_s 7 = Some C66_g /\ tree_class (c_behs C66_g) = true /\ GetattrChildren ∈ c_behs C66_g /\ UUIDAware ∉ c_behs C66_g /\ DefaultInit ∈ c_behs C66_g /\
  fst (copy_g false 7 C66_s) = Exc (KeyError (KStr "__setstate__")) /\ fst (copy_g true 7 C66_s) = Exc (KeyError (KStr "__getstate__")) /\
  getattr_in_sight C66_s 6 /\ fst (deepcopy_g (C66_order 6) 6 C66_s) = Exc (KeyError (KStr "__deepcopy__")) /\
  fst (copy_g true 6 C66_s) = fst (copy 6 C66_s).
Proof.
  split; [vm_compute; reflexivity|]. split; [vm_compute; reflexivity|]. do 3 (split; [apply (bool_decide_unpack _); vm_compute; reflexivity|]). do 2 (split; [vm_compute; reflexivity|]).
  split. { exists 7. split; [apply reached_reaches; apply (bool_decide_unpack _); vm_compute; reflexivity|]. exists C66_g. split; [vm_compute; reflexivity|apply (bool_decide_unpack _); vm_compute; reflexivity]. }
  split; vm_compute; reflexivity.
Qed.
(** what the original holds under __setstate__ is not asked *)
Definition C66_state := after_in [C66_g; BaseNode] [ONew "G" (KStr "g") None; ONew BN KNone None; OSet 0 (KStr "__setstate__") (VNode 1)].
Example C66_setstate_example : reach C66_state /\ class_of C66_state 0 = Some C66_g /\ entries_at C66_state 0 = [(KStr "__setstate__", VNode 1)] /\
  fst (copy_g false 0 C66_state) = Exc (KeyError (KStr "__setstate__")).
Proof. split; [apply after_in_reach|]. vm_compute. repeat split. Qed.
Print Assumptions C66_copy_fails.
Print Assumptions C66_copy_without.
Print Assumptions C66_deepcopy_fails.
Print Assumptions C66_deepcopy_without.
Print Assumptions C66_order_exists.
Print Assumptions C66_sibling_refuted.
