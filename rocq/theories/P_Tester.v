(** C65: what the mapping tester that ships with the package reports. *)
From Verif Require Import Py Odict Aliaser Heap Model Classes SpecMapping MappingProofs StorageProofs WF Observe ObserveFacts Reach Play SpecTester Tester TesterProofs.

(** Run on a reachable empty node of storage, adoption, validation and passive behaviors with such a class
    for the children, the tester reports on the twenty functions in its order, and reports exactly those
    that fail for a reason: with the node checks, those that look at the names of children if the class does
    not adopt; copy if it is UUIDAware.  It leaves the node empty.  GetattrChildren: see C41. *)
Theorem C65_reports : forall s x cls cn kcls nc vs s',
  reach s -> class_of s x = Some cls -> plain_class (c_behs cls) = true -> GetattrChildren ∉ c_behs cls -> entries_at s x = [] ->
  classes s !! cn = Some kcls -> plain_class (c_behs kcls) = true -> DefaultInit ∈ c_behs kcls ->
  run_tester cn x nc s = (vs, s') ->
  map fst vs = tested /\ (forall n v, (n, v) ∈ vs -> v = OK <-> ~ should_fail cls nc n) /\ entries_at s' x = [].
Proof. intros s x cls cn kcls nc vs s' H1 H2 H3 _ H4 H5 H6 H7 H8. destruct (tester_reports s x cls cn kcls nc vs s' H1 H2 H3 H4 H5 H6 H7 H8) as (? & ? & ? & _). done. Qed.
(** So it reports no failure at all if the class adopts and is not UUIDAware. *)
Theorem C65_adopting_passes : forall s x cls cn kcls nc vs s',
  reach s -> class_of s x = Some cls -> plain_class (c_behs cls) = true -> GetattrChildren ∉ c_behs cls -> entries_at s x = [] ->
  classes s !! cn = Some kcls -> plain_class (c_behs kcls) = true -> DefaultInit ∈ c_behs kcls ->
  Adopt ∈ c_behs cls -> UUIDAware ∉ c_behs cls -> run_tester cn x nc s = (vs, s') -> vs = map (fun n => (n, OK)) tested.
Proof.
  intros s x cls cn kcls nc vs s' H1 H2 H3 _ H4 H5 H6 H7 Ha Hu H8. destruct (tester_reports s x cls cn kcls nc vs s' H1 H2 H3 H4 H5 H6 H7 H8) as (Hn & Hv & _). rewrite <- Hn, map_map.
  assert (H : Forall (fun nv : string * verdict => snd nv = OK) vs). { apply Forall_forall. intros [n v] Hin. apply (Hv n v Hin). intros [(_ & Ha' & _)|[Hu' _]]; tauto. }
  clear Hn Hv H8. induction H as [|[n v] vs Hv _ IH]; [done|]. simpl in *. subst v. by rewrite <- IH.
Qed.
(** It is run on a new node of the class if it is given none. *)
Theorem C65_fresh : forall s cn cls nc, reach s -> classes s !! cn = Some cls -> plain_class (c_behs cls) = true -> GetattrChildren ∉ c_behs cls -> DefaultInit ∈ c_behs cls ->
  exists x vs s', run_fresh cn nc s = (Ret x, (vs, s')) /\ map fst vs = tested /\ (forall n v, (n, v) ∈ vs -> v = OK <-> ~ should_fail cls nc n) /\ entries_at s' x = [].
Proof. intros s cn cls nc H1 H2 H3 _. exact (fresh_reports s cn cls nc H1 H2 H3). Qed.
(** The node keeps its name and parent, unless it is UUIDAware and the node checks are on: copying fails
    between renaming the node and giving the name back. *)
Theorem C65_place : forall s x cls cn kcls nc vs s',
  reach s -> class_of s x = Some cls -> plain_class (c_behs cls) = true -> GetattrChildren ∉ c_behs cls -> entries_at s x = [] ->
  classes s !! cn = Some kcls -> plain_class (c_behs kcls) = true -> DefaultInit ∈ c_behs kcls ->
  run_tester cn x nc s = (vs, s') ->
  (UUIDAware ∉ c_behs cls \/ nc = false -> name_at s' x = name_at s x /\ parent_at s' x = parent_at s x) /\
  (UUIDAware ∈ c_behs cls -> nc = true -> name_at s' x = Some (KStr "nametopcopy")).
Proof. intros s x cls cn kcls nc vs s' H1 H2 H3 _ H4 H5 H6 H7 H8. destruct (tester_reports s x cls cn kcls nc vs s' H1 H2 H3 H4 H5 H6 H7 H8) as (_ & _ & _ & ?). done. Qed.

Definition C65_u := mkclass "U" (UUIDAware :: c_behs BaseNode).
Definition C65_w := mkclass "W" [DefaultInit; Nodify; DictStorage].
Definition C65_s := after_in [C65_u; C65_w; BaseNode] [ONew BN (KStr "root") None; ONew BN KNone None; OSet 0 (KStr "a") (VNode 1); ONew "U" (KStr "u") (Some 0); ONew "W" (KStr "w") None].
Lemma C65_reach : reach C65_s.
Proof. apply after_in_reach. Qed.
Definition failing (l : list (string * verdict)) : list string := map fst (List.filter (fun nv => match snd nv with OK => false | _ => true end) l).
(** A node in a tree, one that cannot be copied and one that does not adopt. *)
Example C65_example : reach C65_s /\ entries_at C65_s 1 = [] /\ class_of C65_s 1 = Some BaseNode /\ plain_class (c_behs BaseNode) = true /\ GetattrChildren ∉ c_behs BaseNode /\
  Adopt ∈ c_behs BaseNode /\ UUIDAware ∉ c_behs BaseNode /\ classes C65_s !! BN = Some BaseNode /\ DefaultInit ∈ c_behs BaseNode /\ parent_at C65_s 1 = Some 0 /\
  fst (run_tester BN 1 true C65_s) = map (fun n => (n, OK)) tested /\ name_at (snd (run_tester BN 1 true C65_s)) 1 = Some (KStr "a") /\
  parent_at (snd (run_tester BN 1 true C65_s)) 1 = Some 0 /\ entries_at (snd (run_tester BN 1 true C65_s)) 1 = [].
Proof. split; [exact C65_reach|]. repeat split; try (vm_compute; reflexivity); apply (bool_decide_unpack _); vm_compute; reflexivity. Qed.
Example C65_fails_example : class_of C65_s 3 = Some C65_u /\ class_of C65_s 4 = Some C65_w /\ plain_class (c_behs C65_u) = true /\ plain_class (c_behs C65_w) = true /\
  failing (fst (run_tester BN 3 true C65_s)) = ["copy"] /\ failing (fst (run_tester BN 4 true C65_s)) = ["__getitem__"; "values"; "itervalues"; "items"; "iteritems"; "setdefault"] /\
  failing (fst (run_tester BN 4 false C65_s)) = [].
Proof. vm_compute. repeat split; reflexivity. Qed.
(** The node classes that ship with the package, new and given no context: all pass, but AbstractNode. *)
Example C65_shipped : forallb (fun cls => bool_decide (failing (fst (snd (run_fresh (c_name cls) true (after_in [cls; NodeAttributes] [])))) = [])) [BaseNode; OrderedNode; Node; OrderableNode] = true /\
  fst (snd (run_fresh (c_name AbstractNode) true (after_in [AbstractNode; NodeAttributes] []))) <> [] /\
  failing (fst (snd (run_fresh (c_name AbstractNode) true (after_in [AbstractNode; NodeAttributes] [])))) = tested.
Proof. split; [vm_compute; reflexivity|]. split; vm_compute; [discriminate|reflexivity]. Qed.

(** The tester does not leave every node where it was: a UUIDAware one ends with another name, and with a
    parent that is no node. *)
Theorem C65_restores_refuted : exists s x cls, reach s /\ class_of s x = Some cls /\ plain_class (c_behs cls) = true /\ entries_at s x = [] /\
  name_at s x = Some (KStr "u") /\ parent_at s x = Some 0 /\ name_at (snd (run_tester BN x true s)) x = Some (KStr "nametopcopy") /\
  exists m, parent_at (snd (run_tester BN x true s)) x = Some m /\ ~ exists_node (snd (run_tester BN x true s)) m.
Proof.
  exists C65_s, 3, C65_u. split; [exact C65_reach|]. do 6 (split; [vm_compute; reflexivity|]).
  assert (H : exists m, parent_at (snd (run_tester BN 3 true C65_s)) 3 = Some m /\ bool_decide (is_Some (nodes (snd (run_tester BN 3 true C65_s)) !! m)) = false).
  { eexists. split; vm_compute; reflexivity. }
  destruct H as (m & H1 & H2). exists m. split; [exact H1|]. apply bool_decide_eq_false in H2. exact H2.
Qed.
(** The node must be empty: a mapping that holds something is reported not to be one. *)
Theorem C65_used_node_refuted : exists s x cls, reach s /\ class_of s x = Some cls /\ plain_class (c_behs cls) = true /\ Adopt ∈ c_behs cls /\ UUIDAware ∉ c_behs cls /\
  entries_at s x <> [] /\ failing (fst (run_tester BN x true s)) <> [].
Proof.
  exists C65_s, 0, BaseNode. split; [exact C65_reach|]. split; [vm_compute; reflexivity|]. split; [vm_compute; reflexivity|].
  split; [apply (bool_decide_unpack _); vm_compute; reflexivity|]. split; [apply (bool_decide_unpack _); vm_compute; reflexivity|]. split; vm_compute; discriminate.
Qed.
Definition C65_run := run_fresh (c_name Node) true (after_in [Node; NodeAttributes] []).
(** That nothing is reported does not make a class a mapping: Node passes, and yet a key of its nodespaces is
    assigned, read back and not among the keys. *)
Theorem C65_passing_suffices_refuted : exists s x s', C65_run = (Ret x, (map (fun n => (n, OK)) tested, s)) /\
  setitem x (KStr "__a__") (VNode x) s = (Ret tt, s') /\ fst (getitem x (KStr "__a__") s') = Ret (VNode x) /\ fst (keys x s') = Ret [].
Proof.
  assert (Hr : fst C65_run = Ret 0) by (vm_compute; reflexivity). assert (Hv : fst (snd C65_run) = map (fun n => (n, OK)) tested) by (vm_compute; reflexivity).
  assert (H1 : fst (setitem 0 (KStr "__a__") (VNode 0) (snd (snd C65_run))) = Ret tt) by (vm_compute; reflexivity).
  exists (snd (snd C65_run)), 0, (snd (setitem 0 (KStr "__a__") (VNode 0) (snd (snd C65_run)))). split; [|split; [|split; vm_compute; reflexivity]].
  - rewrite <- Hv, <- Hr. rewrite <- (surjective_pairing (snd C65_run)). apply surjective_pairing.
  - rewrite <- H1. apply surjective_pairing.
Qed.

Print Assumptions C65_reports.
Print Assumptions C65_adopting_passes.
Print Assumptions C65_fresh.
Print Assumptions C65_place.
Print Assumptions C65_restores_refuted.
Print Assumptions C65_used_node_refuted.
Print Assumptions C65_passing_suffices_refuted.
