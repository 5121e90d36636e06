(** C41, C42, C43: copies. *)
From Verif Require Import Py Odict Aliaser Heap Model Classes WF Views SpecMapping MappingProofs StorageProofs TreeOps Dup Observe ObserveFacts SpecTree SpecReference
  Reach MappingProps Play SpecPlace SpecCopy ShallowProofs DeepProofs.

(** [copyable] and [GetattrChildren ∉ ...]: see SpecCopy. *)

(** * C41 *)
(** copy() returns a node that was not there, with the class, name, parent, entries, cache and
    index of the original, and changes nothing else. *)
Theorem C41_copy : forall s x cls, reach s -> class_of s x = Some cls -> UUIDAware ∉ c_behs cls -> GetattrChildren ∉ c_behs cls ->
  exists c s', copy x s = (Ret c, s') /\ ~ exists_node s c /\ looks_like s x s' c /\
    (forall y, exists_node s y -> same_node s s' y) /\ idxs s' = idxs s /\ log s' = log s.
Proof. intros s x cls R Hc Hu _. exact (copy_looks s x cls (reach_wf s R) Hc Hu). Qed.
(** If the storage has been created before, the two have the same entries forever after, whatever
    operations follow on whatever nodes, those that raise included. *)
Theorem C41_shared_entries : forall s x cls c s' ops, reach s -> class_of s x = Some cls -> GetattrChildren ∉ c_behs cls -> touched s x ->
  copy x s = (Ret c, s') -> entries_at (after_ops ops s') x = entries_at (after_ops ops s') c.
Proof. intros s x cls c s' ops R Hc _. exact (shared_entries s x cls c s' ops (reach_wf s R) Hc). Qed.
(** Calls on the two, in any order, then answer like calls on one dictionary. *)
Theorem C41_shared_calls : forall s x cls c s' l, reach s -> class_of s x = Some cls -> plain_class (c_behs cls) = true -> GetattrChildren ∉ c_behs cls ->
  touched s x -> copy x s = (Ret c, s') -> Forall (fun bc : bool * call => Forall (known s') (call_values (snd bc))) l ->
  exists s2, run_both x c l s' = (fst (calls_spec (validating_policy (accepts_all s x)) (map snd l) (entries_at s x)), s2) /\
    entries_at s2 x = snd (calls_spec (validating_policy (accepts_all s x)) (map snd l) (entries_at s x)) /\ entries_at s2 c = entries_at s2 x.
Proof. intros s x cls c s' l R Hc Hp _. exact (shared_calls s x cls c s' l (reach_wf s R) Hc Hp). Qed.
(** If it has not, they answer like calls on two dictionaries that start empty. *)
Theorem C41_separate_calls : forall s x cls c s' l, reach s -> class_of s x = Some cls -> plain_class (c_behs cls) = true -> GetattrChildren ∉ c_behs cls ->
  untouched s x -> copy x s = (Ret c, s') -> Forall (fun bc : bool * call => Forall (known s') (call_values (snd bc))) l ->
  exists s2, run_both x c l s' = (fst (two_dicts (validating_policy (accepts_all s x)) (validating_policy (accepts_all s x)) l [] []), s2) /\
    (entries_at s2 x, entries_at s2 c) = snd (two_dicts (validating_policy (accepts_all s x)) (validating_policy (accepts_all s x)) l [] []).
Proof. intros s x cls c s' l R Hc Hp _. exact (separate_calls s x cls c s' l (reach_wf s R) Hc Hp). Qed.

(** An OrderedNode below another, with one entry; and one without. *)
Definition C41_s := after [ONew ON (KStr "root") None; ONew ON (KStr "a") None; ONew ON (KStr "b") None; OSet 0 (KStr "a") (VNode 1); OSetAllow 1 true;
  OSet 1 (KStr "k") (VInt 1); OSet 0 (KStr "b") (VNode 2)].
Definition C41_calls := [(true, CSet (KStr "n") (VInt 2)); (false, CKeys); (false, CDel (KStr "k")); (true, CKeys); (true, CGet (KStr "k"))].
Example C41_example : reach C41_s /\ touched C41_s 1 /\ untouched C41_s 2 /\
  let c := next_id C41_s in let s' := snd (copy 1 C41_s) in
  fst (copy 1 C41_s) = Ret c /\ name_at s' c = Some (KStr "a") /\ parent_at s' c = Some 0 /\ entries_at s' c = [(KStr "k", VInt 1)] /\
  entries_at (after_ops [OSet c (KStr "m") (VInt 3); ODel 0 (KStr "a"); ODel c (KStr "k")] s') 1 = [(KStr "m", VInt 3)] /\
  fst (run_both 1 c C41_calls s') = [ANone; AKeys [KStr "k"; KStr "n"]; ANone; AKeys [KStr "n"]; AExc (KeyError (KStr "k"))].
Proof.
  split; [apply after_reach|]. split; [eexists _, _; split; vm_compute; done|]. split; [eexists; split; vm_compute; done|].
  repeat split; vm_compute; done.
Qed.
Example C41_untouched_example : let c := next_id C41_s in let s' := snd (copy 2 C41_s) in
  let '(a, s2) := run_both 2 c [(true, CSet (KStr "x") (VNode 0)); (false, CKeys); (false, CSet (KStr "y") (VNode 0)); (true, CKeys)] s' in
  a = [ANone; AKeys []; ANone; AKeys [KStr "x"]] /\
  entries_at s2 2 = [(KStr "x", VNode 0)] /\ entries_at s2 c = [(KStr "y", VNode 0)].
Proof. vm_compute. done. Qed.
(** The copy of a node with an index shares the index but is not in it. *)
Theorem C41_copy_in_index_refuted : exists s x c s' u, reach s /\ copy x s = (Ret c, s') /\ uuid_at s' c = Some u /\ index_at s' c !! Some u <> Some c.
Proof.
  set (s := after [ONew NN (KStr "root") None]). exists s, 0, (next_id s), (snd (copy 0 s)), 1%N.
  split; [apply after_reach|]. split; [by vm_compute|]. split; [by vm_compute|]. by vm_compute.
Qed.

(** * C42 *)
(** There is a renaming of objects such that deepcopy() returns the new name of the node, and
    every node has a copy with the same class, name, keys, order and values, whose references,
    the parent among them, are renamed. Copies are nodes that were not there, share no
    dictionary and no index with nodes that were, and nothing changes for these. *)
Theorem C42_deepcopy : forall s x cls, reach s -> copyable s -> class_of s x = Some cls -> UUIDAware ∉ c_behs cls ->
  exists f s', deepcopy x s = (Ret (f x), s') /\ deep_copied f s s' /\ forall y, exists_node s y -> uuid_at s' (f y) = uuid_at s y.
Proof.
  intros s x cls R _ Hc Hu. destruct (deepcopy_plain s x cls (reach_wf s R) Hc Hu) as (f & s' & E & C & N). exists f, s'.
  split; [exact E|]. split; [exact C|]. intros y Hy. exact (nu_others _ _ _ _ N y Hy (fun z => z)).
Qed.
(** UNSET is not kept: where the original holds it, the copy holds another object. *)
Theorem C42_unset_kept_refuted : forall s x cls, reach s -> copyable s -> class_of s x = Some cls -> UUIDAware ∉ c_behs cls ->
  exists f s', deepcopy x s = (Ret (f x), s') /\ deep_copied f s s' /\
    forall y k, exists_node s y -> value_at k (entries_at s y) = Some VUnset ->
      exists v, value_at k (entries_at s' (f y)) = Some v /\ v <> VUnset.
Proof.
  intros s x cls R Hg Hc Hu. destruct (C42_deepcopy s x cls R Hg Hc Hu) as (f & s' & E & C & _). exists f, s'. split; [exact E|]. split; [exact C|].
  intros y k Hy Hv. exists (VUnsetCopy (f 0)). split; [|discriminate]. rewrite (mi_entries _ _ _ _ (dc_mirror _ _ _ C y Hy)).
  rewrite Dup.value_at_renamed, Hv. reflexivity.
Qed.
(** Neither is any other object that is no node and no constant: where the original holds one, the
    copy holds another, the same one in all places where the original holds the same one. *)
Theorem C42_objects : forall s x cls, reach s -> copyable s -> class_of s x = Some cls -> UUIDAware ∉ c_behs cls ->
  exists f s', deepcopy x s = (Ret (f x), s') /\ deep_copied f s s' /\
    forall y k m, exists_node s y -> value_at k (entries_at s y) = Some (VObj m) ->
      value_at k (entries_at s y) = value_at k (entries_at s' y) /\
      exists m', value_at k (entries_at s' (f y)) = Some (VObj m') /\ m' <> m /\
        forall z k' n, exists_node s z -> value_at k' (entries_at s z) = Some (VObj n) -> (value_at k' (entries_at s' (f z)) = Some (VObj m') <-> n = m).
Proof.
  intros s x cls R Hg Hc Hu. destruct (C42_deepcopy s x cls R Hg Hc Hu) as (f & s' & E & C & _). exists f, s'. split; [exact E|]. split; [exact C|].
  intros y k m Hy Hv. destruct (dc_original _ _ _ C y Hy) as [N _]. split; [by rewrite (sn_entries _ _ _ N)|]. exists (f m). split; [|split].
  - rewrite (mi_entries _ _ _ _ (dc_mirror _ _ _ C y Hy)), Dup.value_at_renamed, Hv. reflexivity.
  - exact (dc_moved _ _ _ C y m Hy).
  - intros z k' n Hz Hw. rewrite (mi_entries _ _ _ _ (dc_mirror _ _ _ C z Hz)), Dup.value_at_renamed, Hw. simpl. split; [|by intros ->].
    intros [= H]. by apply (dc_inj _ _ _ C).
Qed.
Definition C42_shared := after [ONew ON (KStr "root") None; ONew ON (KStr "a") None; OSetAllow 0 true; OSetAllow 1 true; OSet 0 (KStr "a") (VNode 1);
  OSet 0 (KStr "o") (VObj 7); OSet 1 (KStr "o") (VObj 7); OSet 1 (KStr "p") (VObj 8)].
Example C42_objects_example : reach C42_shared /\
  let '(r, s') := deepcopy 0 C42_shared in exists c d m n, r = Ret c /\ entries_at s' c = [(KStr "a", VNode d); (KStr "o", VObj m)] /\
    entries_at s' d = [(KStr "o", VObj m); (KStr "p", VObj n)] /\ m <> 7 /\ m <> n /\ n <> 8.
Proof. split; [apply after_reach|]. vm_compute. eexists _, _, _, _. repeat split; discriminate. Qed.
(** A copied node in the middle of a tree, with attributes and an index. *)
Definition C42_s := after [ONew NN (KStr "root") None; ONew NN (KStr "a") None; ONew NN (KStr "b") None;
  OSet 0 (KStr "a") (VNode 2); OSet 2 (KStr "b") (VNode 4); OAttrs 2].
Example C42_example : reach C42_s /\ (forall x, exists_node C42_s x -> exists cls, class_of C42_s x = Some cls /\ GetattrChildren ∉ c_behs cls) /\
  let '(r, s') := deepcopy 2 C42_s in
  match r with
  | Ret c => exists p d, parent_at s' c = Some p /\ p <> 0 /\ entries_at s' c = [(KStr "b", VNode d)] /\ d <> 4 /\
      entries_at s' p = [(KStr "a", VNode c)] /\ name_at s' d = Some (KStr "b") /\ parent_at s' d = Some c /\ entries_at s' 0 = [(KStr "a", VNode 2)]
  | Exc _ => False
  end.
Proof.
  split; [apply after_reach|]. split.
  - intros x [o Ho]. exists (o_cls o). unfold class_of. rewrite Ho. split; [done|].
    assert (H : map_Forall (fun _ o => GetattrChildren ∉ c_behs (o_cls o)) (nodes C42_s)).
    { apply (map_Forall_to_list (M := gmap nat)). vm_compute map_to_list. repeat constructor; by vm_compute; intros H; repeat (apply elem_of_cons in H as [?|H]; [done|]); apply elem_of_nil in H. }
    by apply (H x).
  - vm_compute. by eexists _, _.
Qed.

(** * C43 *)
(** copy() raises and changes nothing. *)
Theorem C43_copy_raises : forall s x cls, class_of s x = Some cls -> UUIDAware ∈ c_behs cls -> copy x s = (Exc RuntimeError, s).
Proof. exact copy_uuid_aware. Qed.
(** deepcopy() of a tree of nodes is a deep copy in which the copies of the UUIDAware nodes below
    the copied one have new uuids, all different; the originals keep theirs (deep_copied). *)
Theorem C43_deepcopy : forall s x cls, reach s -> copyable s -> class_of s x = Some cls -> UUIDAware ∈ c_behs cls -> c_recursiv cls = true -> node_tree s x ->
  exists f s', deepcopy x s = (Ret (f x), s') /\ deep_copied f s s' /\ new_uuids f (fun y => below s x y /\ aware s y) s s'.
Proof.
  intros s x cls R _ Hc Hu Er T. assert (Hr : Reference ∉ c_behs cls).
  { destruct (nt_class _ _ T x (below_here _ _)) as (cls' & Hc' & _ & Hr). by assert (cls' = cls) as -> by congruence. }
  pose proof (deepcopy_uuids s x cls (reach_wf s R) Hc Hu Hr (fun _ => T)) as H. rewrite Er in H. exact H.
Qed.
(** With overwrite_recursiv_on_copy off, only the copy itself gets a new uuid; any content will do. *)
Theorem C43_deepcopy_flat : forall s x cls, reach s -> copyable s -> class_of s x = Some cls -> UUIDAware ∈ c_behs cls -> Reference ∉ c_behs cls -> c_recursiv cls = false ->
  exists f s', deepcopy x s = (Ret (f x), s') /\ deep_copied f s s' /\ new_uuids f (fun y => y = x /\ aware s y) s s'.
Proof.
  intros s x cls R _ Hc Hu Hr Er. pose proof (deepcopy_uuids s x cls (reach_wf s R) Hc Hu Hr) as H. rewrite Er in H. by apply H.
Qed.
(** detach() keeps all uuids. *)
Theorem C43_detach : forall s x cls k v s', reach s -> class_of s x = Some cls -> tree_class (c_behs cls) = true ->
  (Reference ∈ c_behs cls -> all_tree_classes s) -> detach x k s = (Ret v, s') -> forall y, uuid_at s' y = uuid_at s y.
Proof.
  intros s x cls k v s' R Hc Ht H E. destruct (detach_removes s x cls k v s' (reach_wf s R) Hc Ht H E) as [_ D]. exact (rm_uuid _ _ _ _ _ D).
Qed.

(** A root with two children, one of them with a child. *)
Definition UN := "UUIDNode".
Definition C43_s := after [ONew UN (KStr "root") None; ONew UN (KStr "a") None; ONew UN (KStr "b") None; ONew UN (KStr "c") None;
  OSet 0 (KStr "a") (VNode 1); OSet 1 (KStr "b") (VNode 2); OSet 0 (KStr "c") (VNode 3)].
Lemma C43_children y k v : value_at k (entries_at C43_s y) = Some v -> y < 4 ->
  (y, k, v) = (0, KStr "a", VNode 1) \/ (y, k, v) = (0, KStr "c", VNode 3) \/ (y, k, v) = (1, KStr "b", VNode 2).
Proof.
  intros H Hy. rewrite value_at_spec in H. apply OdictFacts.dget_Some_in in H.
  assert (E : entries_at C43_s 0 = [(KStr "a", VNode 1); (KStr "c", VNode 3)] /\ entries_at C43_s 1 = [(KStr "b", VNode 2)] /\ entries_at C43_s 2 = [] /\ entries_at C43_s 3 = []) by (vm_compute; done).
  revert E H. generalize (entries_at C43_s). intros e (E0 & E1 & E2 & E3) H. destruct y as [|[|[|[|y]]]]; [rewrite E0 in H|rewrite E1 in H|rewrite E2 in H|rewrite E3 in H|lia];
    repeat (apply elem_of_cons in H as [[= -> ->]|H]; [clear; tauto|]); by apply elem_of_nil in H.
Qed.
Lemma C43_below x y : below C43_s x y -> x < 4 -> y < 4 /\ (x = y \/ x < y).
Proof.
  induction 1 as [x|p k c d Hc Hb IH]; intros Hx; [split; [done|by left]|].
  destruct (C43_children p k (VNode c) Hc Hx) as [[= -> -> ->]|[[= -> -> ->]|[= -> -> ->]]]; (destruct IH as [? [?|?]]; [lia| |]; (split; [done|right; lia])).
Qed.
Example C43_example : reach C43_s /\ node_tree C43_s 0 /\ aware C43_s 2 /\ below C43_s 0 2 /\ map (uuid_at C43_s) [0; 1; 2; 3] = [Some 1%N; Some 2%N; Some 3%N; Some 4%N] /\ let '(r, s') := deepcopy 0 C43_s in
  match r with
  | Ret c => exists a b d, entries_at s' c = [(KStr "a", VNode a); (KStr "c", VNode d)] /\ entries_at s' a = [(KStr "b", VNode b)] /\ map (uuid_at s') [c; a; b; d] = [Some 5%N; Some 6%N; Some 7%N; Some 8%N] /\ map (uuid_at s') [0; 1; 2; 3] = map (uuid_at C43_s) [0; 1; 2; 3] /\ fst (copy c s') = Exc RuntimeError
  | Exc _ => False
  end.
Proof.
  split; [apply after_reach|]. split.
  { constructor.
    - intros y Hy. apply C43_below in Hy as [Hy _]; [|lia]. exists UUIDNode.
      assert (H : forall y, y < 4 -> class_of C43_s y = Some UUIDNode) by (intros z Hz; destruct z as [|[|[|[|z]]]]; [..|lia]; by vm_compute).
      split; [by apply H|]. split; [by vm_compute|]. vm_compute. intros Hin. repeat (apply elem_of_cons in Hin as [?|Hin]; [done|]). by apply elem_of_nil in Hin.
    - intros y k v Hy Hv. apply C43_below in Hy as [Hy _]; [|lia]. destruct (C43_children y k v Hv Hy) as [[= -> -> ->]|[[= -> -> ->]|[= -> -> ->]]]; by eexists.
    - intros y k v cls Hy Hv Hc. apply C43_below in Hy as [Hy _]; [|lia]. intros [Hn _].
      assert (H : forall y, y < 4 -> class_of C43_s y = Some UUIDNode) by (intros z Hz; destruct z as [|[|[|[|z]]]]; [..|lia]; by vm_compute).
      rewrite (H y Hy) in Hc. injection Hc as <-. vm_compute in Hn. repeat (apply elem_of_cons in Hn as [?|Hn]; [done|]). by apply elem_of_nil in Hn.
    - intros y k c Hy Hc Hb. apply C43_below in Hy as [Hy _]; [|lia].
      destruct (C43_children y k (VNode c) Hc Hy) as [[= -> -> ->]|[[= -> -> ->]|[= -> -> ->]]]; (apply C43_below in Hb as [_ ?]; lia). }
  split; [exists UUIDNode; split; [by vm_compute|]; unfold UUIDNode; simpl; set_solver|].
  split. { apply (below_child _ 0 (KStr "a") 1); [by vm_compute|]. apply (below_child _ 1 (KStr "b") 2); [by vm_compute|]. constructor. }
  split; [by vm_compute|]. vm_compute. by eexists _, _, _.
Qed.
(** With a value that is no node in the tree, deepcopy raises. *)
Theorem C43_value_child_refuted : exists s x cls, reach s /\ class_of s x = Some cls /\ UUIDAware ∈ c_behs cls /\ fst (deepcopy x s) = Exc AttributeError.
Proof.
  exists (after [ONew UN (KStr "root") None; OSet 0 (KStr "a") (VInt 1)]), 0, UUIDNode. split; [apply after_reach|]. split; [by vm_compute|].
  split; [unfold UUIDNode; simpl; set_solver|]. by vm_compute.
Qed.

Print Assumptions C41_copy.
Print Assumptions C41_shared_entries.
Print Assumptions C41_shared_calls.
Print Assumptions C41_separate_calls.
Print Assumptions C41_copy_in_index_refuted.
Print Assumptions C42_deepcopy.
Print Assumptions C42_unset_kept_refuted.
Print Assumptions C42_objects.
Print Assumptions C43_copy_raises.
Print Assumptions C43_deepcopy.
Print Assumptions C43_deepcopy_flat.
Print Assumptions C43_detach.
Print Assumptions C43_value_child_refuted.
