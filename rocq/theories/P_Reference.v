(** C12, C13, C14: the index of a tree. *)
From Verif Require Import Py Odict Aliaser Heap Model Classes WF Views SpecMapping MappingProofs TreeOps Observe ObserveFacts NewEff SpecTree
  Reach MappingProps Play SpecPlace SpecUtils PlaceProofs PlayPlace SpecReference RefTree RefSteps RefHistory PlayRef.

Lemma outcome {A} (p : res A * st) r : fst p = r -> p = (r, snd p).
Proof. destruct p; simpl; congruence. Qed.

(** * C12 *)
(** The histories [grown creatable tidy]: any calls, those that raise included, in which nodes
    are assigned (one by one, with setdefault, several with update, or with the ordered insertions)
    to listed nodes only, under string keys that hold no node, while they are childless, nobody's child,
    listed, and their uuid is new to the tree; item keys are deleted from and detached from
    listed nodes; uuids other than 0 are assigned to listed nodes; a value that is no node does not
    replace one; listed nodes are invalidated (through the plain Invalidate, at item keys or as a whole);
    nodes are deepcopied while no GetattrChildren node exists. *)

(** The index of a listed node has exactly the nodes of its tree, each under its uuid. *)
Theorem C12_index_exact : forall s x i y, grown creatable tidy s -> listed s x ->
  index_at s x !! i = Some y <-> exists u, i = Some u /\ uuid_at s y = Some u /\ same_tree s x y.
Proof. intros s x i y G. destruct (grown_tidy s G) as [W T]. exact (index_exact s x i y (wd_wf _ _ W) T). Qed.
(** All nodes of the tree of a listed node, and no other listed nodes, share its index. *)
Theorem C12_shared_index : forall s x y, grown creatable tidy s -> listed s x ->
  listed s y /\ index_id s y = index_id s x <-> same_tree s x y.
Proof. intros s x y G. destruct (grown_tidy s G) as [W T]. exact (index_tree s x y (wd_wf _ _ W) T). Qed.
(** [node(uuid)] finds a node anywhere in the tree from anywhere in the tree, *)
Theorem C12_node_finds : forall s x y u, grown creatable tidy s -> listed s x -> same_tree s x y -> uuid_at s y = Some u ->
  node_by_uuid x (Some u) s = (Ret (VNode y), s).
Proof.
  intros s x y u G Lx St Hu. destruct (grown_tidy s G) as [W T]. apply (node_lookup s x u (Some y) (wd_wf _ _ W) Lx).
  apply (index_exact s x (Some u) y (wd_wf _ _ W) T Lx). by exists u.
Qed.
(** and None for a uuid no node of the tree has. *)
Theorem C12_node_unknown : forall s x u, grown creatable tidy s -> listed s x -> (forall y, same_tree s x y -> uuid_at s y <> Some u) ->
  node_by_uuid x (Some u) s = (Ret VNone, s) /\ index_item x (Some u) s = (Exc (KeyError (KInt (Z.of_N u))), s).
Proof.
  intros s x u G Lx Hu. destruct (grown_tidy s G) as [W T]. apply (node_unknown s x u (wd_wf _ _ W) Lx).
  apply (index_exact_none s x u (wd_wf _ _ W) T Lx Hu).
Qed.
(** Two nodes of a tree have different uuids. *)
Theorem C12_uuids_differ : forall s x y u, grown creatable tidy s -> listed s x -> same_tree s x y -> uuid_at s x = Some u -> uuid_at s y = Some u -> x = y.
Proof.
  intros s x y u G Lx St Hx Hy. destruct (grown_tidy s G) as [W T]. destruct (proj2 (index_tree s x y (wd_wf _ _ W) T Lx) St) as [Ly Hi].
  exact (listed_inj s x y u Lx Ly (eq_sym Hi) Hx Hy).
Qed.
(** A node is the child of one node, under one key; no node is below its children. *)
Theorem C12_child_once : forall s p k p' k' c, grown creatable tidy s -> child s p k c -> child s p' k' c -> p = p' /\ k = k'.
Proof. intros s p k p' k' c G. exact (to_single s (proj2 (grown_tidy s G)) p k p' k' c). Qed.
Theorem C12_no_cycle : forall s p k c, grown creatable tidy s -> child s p k c -> ~ below s c p.
Proof. intros s p k c G. exact (child_not_below s (proj2 (grown_tidy s G)) p k c). Qed.

(** A created node of a class with Reference is listed, *)
Theorem C12_created_listed : forall s cn cls name parent, grown creatable tidy s -> classes s !! cn = Some cls -> Reference ∈ c_behs cls ->
  (forall p, parent = Some p -> exists_node s p) -> exists x s', new_node cn name parent s = (Ret x, s') /\ listed s' x /\ ~ exists_node s x.
Proof. intros s cn cls name parent G. destruct (grown_tidy s G) as [W T]. exact (created_listed s cn cls name parent W T). Qed.
(** and stays listed until something is deleted with del, pop, popitem, clear or invalidate. *)
Theorem C12_stays_listed : forall s o r s' x, grown creatable tidy s -> op_ok s o -> tidy s o -> drops o = false ->
  run_op o s = (r, s') -> listed s x -> listed s' x.
Proof. exact stays_listed. Qed.

(** The assignment succeeds and takes the node into the index. *)
Theorem C12_assign : forall s x k c, grown creatable tidy s -> tidy_set s x k (VNode c) ->
  exists s', setitem x k (VNode c) s = (Ret tt, s') /\ grafted s x k c s'.
Proof.
  intros s x k c G H. destruct (grown_tidy s G) as [W T]. destruct (set_child s x k c W T (proj1 H) H) as (s' & E & _ & _ & R). exact (ex_intro _ s' (conj E R)).
Qed.
(** Deleting a child does not raise; exactly the nodes below it leave the index. *)
Theorem C12_delete : forall s x k c, grown creatable tidy s -> listed s x -> child s x k c ->
  exists s', delitem x k s = (Ret tt, s') /\ pruned s x k c s'.
Proof.
  intros s x k c G Lx H. destruct (grown_tidy s G) as [W T]. destruct (delete_child s x k c W T Lx H) as (s' & E & _ & _ & R). exact (ex_intro _ s' (conj E R)).
Qed.
(** Detaching a child does not raise; the nodes below it leave the index and get one of their own. *)
Theorem C12_detach : forall s x k c, grown creatable tidy s -> listed s x -> child s x k c ->
  exists s', detach x k s = (Ret (VNode c), s') /\ uprooted s x k c s'.
Proof.
  intros s x k c G Lx H. destruct (grown_tidy s G) as [W T]. destruct (detach_child s x k c W T Lx H) as (s' & E & _ & _ & R). exact (ex_intro _ s' (conj E R)).
Qed.

(** deepcopy of a listed node gives a tree of new nodes with the same uuids; searching it by uuid
    finds the copies, searching the original tree still finds the originals. *)
Theorem C12_deepcopy : forall s x, grown creatable tidy s -> copyable s -> listed s x ->
  exists f s', deepcopy x s = (Ret (f x), s') /\ grown creatable tidy s' /\
    forall y u, same_tree s x y -> uuid_at s y = Some u ->
      ~ exists_node s (f y) /\ uuid_at s' (f y) = Some u /\ same_tree s' (f x) (f y) /\
      node_by_uuid (f x) (Some u) s' = (Ret (VNode (f y)), s') /\ node_by_uuid x (Some u) s' = (Ret (VNode y), s').
Proof. exact deepcopy_found. Qed.

(** A root with the children a, d and a value, below a b and below b c, a Reference node of another
    class; b has got another uuid. *)
Definition ref_classes := [Node; NodeAttributes; ReferenceNode].
Definition ref_ops := [ONew NN (KStr "root") None; ONew NN (KStr "a") None; ONew NN (KStr "b") None; ONew "ReferenceNode" (KStr "c") None; ONew NN (KStr "d") None;
  OSet 0 (KStr "a") (VNode 2); OSet 2 (KStr "b") (VNode 4); OSet 4 (KStr "c") (VNode 6); OSet 0 (KStr "d") (VNode 8); OSet 0 (KStr "n") (VInt 7);
  OSetUuid 4 (Some 50%N); OAttrs 4; OSetAllow 0 true; OSet 0 (KStr "n") (VInt 7); OSwap 0 2 8].
Definition C12_s := groomed ref_classes ref_ops.
Lemma C12_s_grown : grown creatable tidy C12_s.
Proof. apply groomed_grown. vm_compute. reflexivity. Qed.
Example C12_example : grown creatable tidy C12_s /\ map (index_id C12_s) [0; 2; 4; 6; 8] = repeat (Some 1) 5 /\
  entries_at C12_s 0 = [(KStr "d", VNode 8); (KStr "a", VNode 2); (KStr "n", VInt 7)] /\
  entries_at C12_s 2 = [(KStr "b", VNode 4)] /\ entries_at C12_s 4 = [(KStr "c", VNode 6)] /\
  Forall (listed C12_s) [0; 2; 4; 6; 8] /\ fst (node_by_uuid 8 (Some 50%N) C12_s) = Ret (VNode 4).
Proof.
  split; [exact C12_s_grown|]. split; [vm_compute; reflexivity|]. split; [vm_compute; reflexivity|]. split; [vm_compute; reflexivity|].
  split; [vm_compute; reflexivity|]. split; [|vm_compute; reflexivity].
  repeat (constructor; [apply listedb_spec; vm_compute; reflexivity|]). constructor.
Qed.
(** The hypotheses of the step theorems. *)
Example C12_steps_example : listed C12_s 0 /\ child C12_s 0 (KStr "a") 2 /\ below C12_s 2 6 /\ ~ below C12_s 2 8 /\
  fst (delitem 0 (KStr "a") C12_s) = Ret tt /\ map_to_list (index_at (snd (delitem 0 (KStr "a") C12_s)) 8) = [(Some 1%N, 0); (Some 5%N, 8)] /\
  fst (detach 0 (KStr "a") C12_s) = Ret (VNode 2) /\ map_to_list (index_at (snd (detach 0 (KStr "a") C12_s)) 0) = [(Some 1%N, 0); (Some 5%N, 8)] /\
  map_to_list (index_at (snd (detach 0 (KStr "a") C12_s)) 4) = [(Some 2%N, 2); (Some 50%N, 4); (Some 4%N, 6)].
Proof.
  assert (H2 : child C12_s 0 (KStr "a") 2) by (vm_compute; reflexivity). assert (H4 : child C12_s 2 (KStr "b") 4) by (vm_compute; reflexivity).
  assert (H6 : child C12_s 4 (KStr "c") 6) by (vm_compute; reflexivity). assert (H8 : child C12_s 0 (KStr "d") 8) by (vm_compute; reflexivity).
  assert (B : below C12_s 2 6). { apply (below_child _ 2 (KStr "b") 4); [exact H4|]. apply (below_child _ 4 (KStr "c") 6); [exact H6|constructor]. }
  assert (N : ~ below C12_s 2 8).
  { intros N. pose proof (siblings_apart C12_s (proj2 (grown_tidy _ C12_s_grown)) 0 (KStr "a") (KStr "d") 2 8 8 H2 H8 N (below_here _ _)) as S. discriminate S. }
  split; [apply listedb_spec; vm_compute; reflexivity|]. split; [exact H2|]. split; [exact B|]. split; [exact N|]. repeat split; vm_compute; reflexivity.
Qed.
Example C12_assign_example : exists s, grown creatable tidy s /\ tidy_set s 6 (KStr "e") (VNode 17).
Proof.
  exists (groomed ref_classes (ref_ops ++ [ONew NN (KStr "x") None])). split; [apply groomed_grown; vm_compute; reflexivity|]. apply tidy_setb_spec. vm_compute. reflexivity.
Qed.
(** a and d are detached, d is assigned below a, the root is cleared. *)
Definition C12_s2 := groomed ref_classes (ref_ops ++ [ODetach 0 (KStr "a"); ODetach 0 (KStr "d"); OSet 6 (KStr "d") (VNode 8); OClear 0]).
Example C12_moved_example : grown creatable tidy C12_s2 /\ map (index_id C12_s2) [0; 2; 4; 6; 8] = [Some 1; Some 17; Some 17; Some 17; Some 17] /\
  map_to_list (index_at C12_s2 2) = [(Some 2%N, 2); (Some 50%N, 4); (Some 4%N, 6); (Some 5%N, 8)] /\ map_to_list (index_at C12_s2 0) = [(Some 1%N, 0)].
Proof. split; [apply groomed_grown; vm_compute; reflexivity|]. repeat split; vm_compute; reflexivity. Qed.

(** A tree of three is deepcopied through its middle node; then the root of the original is invalidated. *)
Definition InvRef := mkclass "InvRef" [Invalidate; Adopt; Reference; DefaultInit; Nodify; OdictStorage].
Definition copy_ops := [ONew "InvRef" (KStr "root") None; ONew "InvRef" (KStr "a") None; ONew NN (KStr "b") None; OSet 0 (KStr "a") (VNode 2); OSet 2 (KStr "b") (VNode 4)].
Definition C12_s4 := groomed (InvRef :: ref_classes) copy_ops.
Definition C12_s5 := groomed (InvRef :: ref_classes) (copy_ops ++ [ODeepcopy 2; OInvalidate 0 (KStr "a")]).
Example C12_deepcopy_example : grown creatable tidy C12_s4 /\ copyable C12_s4 /\ listed C12_s4 2 /\ fst (deepcopy 2 C12_s4) = Ret 11 /\
  grown creatable tidy C12_s5 /\ entries_at C12_s5 0 = [] /\ map_to_list (index_at C12_s5 0) = [(Some 1%N, 0)] /\
  entries_at C12_s5 9 = [(KStr "a", VNode 11)] /\ map_to_list (index_at C12_s5 13) = [(Some 2%N, 11); (Some 1%N, 9); (Some 3%N, 13)].
Proof.
  split; [apply groomed_grown; vm_compute; reflexivity|]. split; [apply copyableb_spec; vm_compute; reflexivity|]. split; [apply listedb_spec; vm_compute; reflexivity|].
  split; [vm_compute; reflexivity|]. split; [apply groomed_grown; vm_compute; reflexivity|]. repeat split; vm_compute; reflexivity.
Qed.

(** e and f are inserted beside d and at the front, g, a value and h come with one update, below
    g comes i; an insertion beside a node that is no child of the root is refused. *)
Definition C12_s3 := groomed ref_classes (ref_ops ++ [ONew NN (KStr "e") None; ONew NN (KStr "f") None; ONew NN (KStr "g") None; ONew NN (KStr "h") None; ONew NN (KStr "i") None;
  OInsertAt true 0 17 6; OInsertAt true 0 17 8; OInsertEnd true 0 19; OUpdate 0 [[(KStr "g", VNode 21); (KStr "v", VInt 1)]] [(KStr "h", VNode 23)]; OInsertEnd false 21 25]).
Example C12_batch_example : grown creatable tidy C12_s3 /\
  entries_at C12_s3 0 = [(KStr "f", VNode 19); (KStr "e", VNode 17); (KStr "d", VNode 8); (KStr "a", VNode 2); (KStr "n", VInt 7);
    (KStr "g", VNode 21); (KStr "v", VInt 1); (KStr "h", VNode 23)] /\ entries_at C12_s3 21 = [(KStr "i", VNode 25)] /\
  map (index_id C12_s3) [0; 17; 19; 21; 23; 25] = repeat (Some 1) 6 /\ size (index_at C12_s3 25) = 10 /\
  (exists u, uuid_at C12_s3 25 = Some u /\ fst (node_by_uuid 19 (Some u) C12_s3) = Ret (VNode 25)).
Proof.
  split; [apply groomed_grown; vm_compute; reflexivity|]. split; [vm_compute; reflexivity|]. split; [vm_compute; reflexivity|]. split; [vm_compute; reflexivity|].
  split; [vm_compute; reflexivity|]. eexists. split; vm_compute; reflexivity.
Qed.

(** * C13 *)
(** In every reachable state, for every node of a class with Reference that has an index, and
    every uuid: one used by another node in the index is refused and nothing changes; *)
Theorem C13_used_uuid_refused : forall s x cls u y, reach s -> class_of s x = Some cls -> Reference ∈ c_behs cls -> is_Some (index_id s x) ->
  index_at s x !! index_key u = Some y -> y <> x ->
  assign_uuid x u s = (Exc (ValueError "Given uuid was already used for another Node"), s).
Proof. intros s x cls u y R. exact (uuid_used s x cls u y (reach_wf s R)). Qed.
(** otherwise the node is found under the new uuid, not under the former one, and nothing else changes. *)
Theorem C13_uuid_rekeyed : forall s x cls u, reach s -> class_of s x = Some cls -> Reference ∈ c_behs cls -> is_Some (index_id s x) ->
  (forall y, index_at s x !! index_key u = Some y -> y = x) -> exists s', assign_uuid x u s = (Ret tt, s') /\ rekeyed s x u s'.
Proof. intros s x cls u R. exact (uuid_rekeys s x cls u (reach_wf s R)). Qed.
(** In a tidy history [node(uuid)] tells whether a uuid is used: refused exactly if a node of the
    tree other than [x] has it. *)
Theorem C13_refused_iff_in_tree : forall s x n, grown creatable tidy s -> listed s x -> n <> 0%N ->
  (exists y, y <> x /\ same_tree s x y /\ uuid_at s y = Some n) <->
  fst (assign_uuid x (Some n) s) = Exc (ValueError "Given uuid was already used for another Node").
Proof. intros s x n G. destruct (grown_tidy s G) as [W T]. exact (refused_iff s x n W T). Qed.
Example C13_example : reach C12_s /\ class_of C12_s 6 = Some ReferenceNode /\ index_id C12_s 6 = Some 1 /\
  index_at C12_s 6 !! index_key (Some 50%N) = Some 4 /\ fst (assign_uuid 6 (Some 50%N) C12_s) = Exc (ValueError "Given uuid was already used for another Node") /\
  index_at C12_s 6 !! index_key (Some 51%N) = None /\ fst (assign_uuid 6 (Some 51%N) C12_s) = Ret tt /\
  index_at C12_s 6 !! index_key (Some 4%N) = Some 6 /\ fst (assign_uuid 6 (Some 4%N) C12_s) = Ret tt.
Proof. split; [exact (grown_reach _ _ _ C12_s_grown)|]. repeat split; vm_compute; reflexivity. Qed.
(** The uuid with the integer 0 is filed under None, so [node] does not find the node under it,
    and a second node without a uuid is refused in the tree. *)
Theorem C13_zero_uuid_refuted : exists s x s', grown creatable tidy s /\ listed s x /\ assign_uuid x (Some 0%N) s = (Ret tt, s') /\
  uuid_at s' x = Some 0%N /\ fst (node_by_uuid x (Some 0%N) s') = Ret VNone /\
  exists y, fst (assign_uuid y None s') = Exc (ValueError "Given uuid was already used for another Node").
Proof.
  exists C12_s, 6, (snd (assign_uuid 6 (Some 0%N) C12_s)). split; [exact C12_s_grown|]. split; [apply listedb_spec; vm_compute; reflexivity|].
  split; [exact (outcome (assign_uuid 6 (Some 0%N) C12_s) _ ltac:(vm_compute; reflexivity))|]. split; [vm_compute; reflexivity|]. split; [vm_compute; reflexivity|].
  exists 4. vm_compute. reflexivity.
Qed.

(** * C14 *)
(** Assigning a node that has children leaves its descendants with an index of their own: a node
    added below them is not found from the root, and deleting the subtree raises KeyError. *)
Definition split_s := after [ONew NN (KStr "root") None; ONew NN (KStr "a") None; ONew NN (KStr "b") None; OSet 2 (KStr "b") (VNode 4); OSet 0 (KStr "a") (VNode 2);
  ONew NN (KStr "c") None; OSet 4 (KStr "c") (VNode 9)].
Theorem C14_subtree_splits_index : exists s root k a d u, reach s /\ child s root k a /\ below s a d /\ uuid_at s d = Some u /\
  fst (node_by_uuid root (Some u) s) = Ret VNone /\ index_id s d <> index_id s root /\ fst (delitem root k s) = Exc (KeyError (KInt (Z.of_N u))).
Proof.
  exists split_s, 0, (KStr "a"), 2, 9, 4%N. split; [apply after_reach|]. split; [vm_compute; reflexivity|]. split.
  { apply (below_child _ 2 (KStr "b") 4); [vm_compute; reflexivity|]. apply (below_child _ 4 (KStr "c") 9); [vm_compute; reflexivity|constructor]. }
  repeat split; vm_compute; first [reflexivity|discriminate].
Qed.
(** Overwriting a key leaves the replaced node in the index. *)
Definition stale_s := after [ONew NN (KStr "root") None; ONew NN (KStr "a") None; ONew NN (KStr "b") None; OSet 0 (KStr "a") (VNode 2); OSet 0 (KStr "a") (VNode 4)].
Theorem C14_overwrite_leaves_stale_entry : exists s root c u, reach s /\ uuid_at s c = Some u /\
  fst (node_by_uuid root (Some u) s) = Ret (VNode c) /\ SpecReference.top s c /\ SpecReference.top s root /\ c <> root.
Proof.
  exists stale_s, 0, 2, 2%N. split; [apply after_reach|]. split; [vm_compute; reflexivity|]. split; [vm_compute; reflexivity|].
  split; [apply topb_spec; vm_compute; reflexivity|]. split; [apply topb_spec; vm_compute; reflexivity|discriminate].
Qed.
(** A childless node can be assigned twice; deleting one key makes the node unknown to the index
    though it is still in the tree, and deleting the other one raises KeyError. *)
Definition twice_s := after [ONew NN (KStr "root") None; ONew NN (KStr "a") None; OSet 0 (KStr "a") (VNode 2); OSet 0 (KStr "b") (VNode 2)].
Theorem C14_childless_node_twice : exists s root k k' c u s', reach s /\ child s root k c /\ child s root k' c /\ k <> k' /\ uuid_at s c = Some u /\
  delitem root k s = (Ret tt, s') /\ child s' root k' c /\ fst (node_by_uuid root (Some u) s') = Ret VNone /\
  fst (delitem root k' s') = Exc (KeyError (KInt (Z.of_N u))).
Proof.
  exists twice_s, 0, (KStr "a"), (KStr "b"), 2, 2%N, (snd (delitem 0 (KStr "a") twice_s)). split; [apply after_reach|]. split; [vm_compute; reflexivity|].
  split; [vm_compute; reflexivity|]. split; [discriminate|]. split; [vm_compute; reflexivity|].
  split; [exact (outcome (delitem 0 (KStr "a") twice_s) _ ltac:(vm_compute; reflexivity))|]. repeat split; vm_compute; reflexivity.
Qed.
(** Assigning a node removed with del imports the index of its former tree, without the node itself. *)
Definition import_s := after [ONew NN (KStr "root") None; ONew NN (KStr "a") None; ONew NN (KStr "b") None; ONew NN (KStr "other") None;
  OSet 0 (KStr "a") (VNode 2); OSet 0 (KStr "b") (VNode 4); ODel 0 (KStr "a"); OSet 6 (KStr "a") (VNode 2)].
Theorem C14_deleted_node_imports_index : exists s other k c foreign u uc, reach s /\ SpecReference.top s other /\ SpecReference.top s foreign /\ other <> foreign /\
  child s other k c /\ uuid_at s foreign = Some u /\ fst (node_by_uuid other (Some u) s) = Ret (VNode foreign) /\
  uuid_at s c = Some uc /\ fst (node_by_uuid other (Some uc) s) = Ret VNone.
Proof.
  exists import_s, 6, (KStr "a"), 2, 0, 1%N, 2%N. split; [apply after_reach|]. split; [apply topb_spec; vm_compute; reflexivity|]. split; [apply topb_spec; vm_compute; reflexivity|].
  split; [discriminate|]. repeat split; vm_compute; reflexivity.
Qed.
(** A childless node with a uuid the tree already has takes over its entry. *)
Definition clash_s := after [ONew NN (KStr "root") None; ONew NN (KStr "a") None; ONew NN (KStr "b") None; OSetUuid 2 (Some 77%N); OSetUuid 4 (Some 77%N);
  OSet 0 (KStr "a") (VNode 2); OSet 0 (KStr "b") (VNode 4)].
Theorem C14_uuid_clash : exists s root k k' c c' u, reach s /\ child s root k c /\ child s root k' c' /\ c <> c' /\ uuid_at s c = Some u /\ uuid_at s c' = Some u /\
  fst (node_by_uuid root (Some u) s) = Ret (VNode c').
Proof.
  exists clash_s, 0, (KStr "a"), (KStr "b"), 2, 4, 77%N. split; [apply after_reach|]. split; [vm_compute; reflexivity|]. split; [vm_compute; reflexivity|].
  split; [discriminate|]. repeat split; vm_compute; reflexivity.
Qed.

Print Assumptions C12_index_exact.
Print Assumptions C12_delete.
Print Assumptions C12_detach.
Print Assumptions C12_stays_listed.
Print Assumptions C12_deepcopy.
Print Assumptions C13_used_uuid_refused.
Print Assumptions C13_uuid_rekeyed.
Print Assumptions C14_subtree_splits_index.

Print Assumptions C12_shared_index.
Print Assumptions C12_node_finds.
Print Assumptions C12_node_unknown.
Print Assumptions C12_uuids_differ.
Print Assumptions C12_child_once.
Print Assumptions C12_no_cycle.
Print Assumptions C12_created_listed.
Print Assumptions C12_assign.
Print Assumptions C13_refused_iff_in_tree.
Print Assumptions C13_zero_uuid_refuted.
Print Assumptions C14_overwrite_leaves_stale_entry.
Print Assumptions C14_childless_node_twice.
Print Assumptions C14_deleted_node_imports_index.
Print Assumptions C14_uuid_clash.
