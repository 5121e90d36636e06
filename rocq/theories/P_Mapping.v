(** C01, C02, C04, C05, C08, C09, C51: nodes as mappings. *)
From Verif Require Import Py Odict Aliaser Heap Model Classes WF SpecMapping MappingProofs StorageProofs
  TreeOps Observe SpecTree Reach MappingProps Play.

(** * C01 *)
(** A node just created by BaseNode(name, parent) or OrderedNode(name, parent), or by a
    class with the same behaviors: every sequence of mapping calls answers what an empty
    insertion-ordered dictionary with the class' policy on values would. *)
Theorem C01_fresh_node_is_ordered_mapping : forall s cls cn name parent,
  c_behs cls = BaseNode_behs \/ c_behs cls = OrderedNode_behs ->
  reach s -> classes s !! cn = Some cls -> (forall p, parent = Some p -> exists_node s p) ->
  exists x s1, new_node cn name parent s = (Ret x, s1) /\ nodes s !! x = None /\ entries_at s1 x = [] /\
    forall l, Forall (fun c => Forall (known s1) (call_values c)) l ->
    exists s2, run_calls x l s1 = (fst (calls_spec (validating_policy (c_allow cls)) l []), s2)
      /\ entries_at s2 x = snd (calls_spec (validating_policy (c_allow cls)) l []).
Proof.
  intros s cls cn name parent Hb R. exact (fresh_mapping cls s cn name parent Hb (reach_wf s R) (reach_uuid s R)).
Qed.
(** The same from any reachable state and content of such a node. *)
Theorem C01_ordered_mapping : forall s x cls l,
  c_behs cls = BaseNode_behs \/ c_behs cls = OrderedNode_behs ->
  reach s -> class_of s x = Some cls ->
  Forall (fun c => Forall (known s) (call_values c)) l ->
  exists s', run_calls x l s = (fst (calls_spec (validating_policy (allows s x)) l (entries_at s x)), s')
    /\ entries_at s' x = snd (calls_spec (validating_policy (allows s x)) l (entries_at s x)).
Proof. intros s x cls l Hb R. exact (any_state_mapping_std s x cls l Hb (reach_wf s R)). Qed.

Definition C01_ex := after [ONew BN KNone None; ONew ON KNone None; OSet 0 (KStr "b") (VNode 1); OSetAllow 0 true;
                            OSet 0 (KStr "a") (VInt 1)].
Example C01_example :
  reach C01_ex /\ class_of C01_ex 0 = Some BaseNode /\
  entries_at C01_ex 0 = [(KStr "b", VNode 1); (KStr "a", VInt 1)] /\
  fst (run_calls 0 [CSet (KStr "c") (VStr "x"); CSet (KStr "b") (VInt 2); CKeys; CPopitem; CGet (KStr "c");
                    CPop (KStr "a") None; CGetDefault (KUnhashable 0) VNone; CItems; CPop (KStr "a") None; CPop (KStr "a") (Some VNone)] C01_ex)
  = [ANone; ANone; AKeys [KStr "b"; KStr "a"; KStr "c"]; AItem (KStr "c") (VStr "x"); AExc (KeyError (KStr "c"));
     AVal (VInt 1); AExc TypeError; AItems [(KStr "b", VInt 2)]; AExc (KeyError (KStr "a")); AVal VNone].
Proof. split; [apply after_reach|]. vm_compute. done. Qed.

(** * C02 *)
(** For every class built from storage, validation, adoption, nodespaces, reference, order,
    attributes and lifecycle (in any order and number). *)
Theorem C02_assignment : forall s x cls k v s',
  reach s -> class_of s x = Some cls -> tree_class (c_behs cls) = true -> known s v ->
  setitem x k v s = (Ret tt, s') -> assigned cls s x k v s'.
Proof. intros s x cls k v s' R. exact (setitem_assigned s x cls k v s' (reach_wf s R)). Qed.
Theorem C02_deletion : forall s x cls k s',
  reach s -> class_of s x = Some cls -> tree_class (c_behs cls) = true ->
  (Reference ∈ c_behs cls -> all_tree_classes s) ->
  delitem x k s = (Ret tt, s') -> removed cls s x k s'.
Proof. intros s x cls k s' R. exact (delitem_removed s x cls k s' (reach_wf s R)). Qed.
(** A refused assignment or deletion changes no entries, and at most the place of the value. *)
Theorem C02_refused_assignment : forall s x cls k v e s',
  reach s -> class_of s x = Some cls -> tree_class (c_behs cls) = true -> known s v ->
  setitem x k v s = (Exc e, s') -> entries_everywhere s s' /\ forall y, v <> VNode y -> keeps_place s s' y.
Proof. intros s x cls k v e s' R. exact (setitem_failed s x cls k v e s' (reach_wf s R)). Qed.
Theorem C02_refused_deletion : forall s x cls k e s',
  reach s -> class_of s x = Some cls -> tree_class (c_behs cls) = true ->
  (Reference ∈ c_behs cls -> all_tree_classes s) ->
  delitem x k s = (Exc e, s') -> entries_everywhere s s' /\ forall y, keeps_place s s' y.
Proof. intros s x cls k e s' R. exact (delitem_failed s x cls k e s' (reach_wf s R)). Qed.

(** node 0 holds node 2 as "a"; node 6 is new *)
Definition C02_ex := after [ONew NN KNone None; ONew NN KNone None; OSet 0 (KStr "a") (VNode 2);
                            ONew NN KNone None].
Example C02_example : reach C02_ex /\ class_of C02_ex 0 = Some Node /\ tree_class (c_behs Node) = true /\
  all_tree_classes C02_ex /\
  fst (setitem 0 (KStr "b") (VNode 6) C02_ex) = Ret tt /\
  entries_at (snd (setitem 0 (KStr "b") (VNode 6) C02_ex)) 0 = [(KStr "a", VNode 2); (KStr "b", VNode 6)] /\
  fst (delitem 0 (KStr "a") C02_ex) = Ret tt /\ entries_at (snd (delitem 0 (KStr "a") C02_ex)) 0 = [] /\
  fst (setitem 0 (KInt 1) (VNode 6) C02_ex) = Exc AttributeError.
Proof.
  split; [apply after_reach|]. split; [done|]. split; [done|]. split.
  { apply treesb_spec. done. }
  vm_compute. done.
Qed.

(** * C04 *)
Theorem C04_adoption : forall s x cls k c s',
  reach s -> class_of s x = Some cls -> tree_class (c_behs cls) = true -> Adopt ∈ c_behs cls -> exists_node s c ->
  setitem x k (VNode c) s = (Ret tt, s') ->
  name_at s' c = Some k /\ parent_at s' c = Some x /\ exists s'', getitem x k s' = (Ret (VNode c), s'').
Proof. intros s x cls k c s' R. exact (adoption s x cls k c s' (reach_wf s R)). Qed.
Example C04_example : Adopt ∈ c_behs Node /\ Adopt ∈ c_behs BaseNode /\ Adopt ∈ c_behs OrderedNode /\
  exists_node C02_ex 6 /\ name_at C02_ex 6 = Some KNone /\ parent_at C02_ex 6 = None /\
  let s' := snd (setitem 0 (KStr "b") (VNode 6) C02_ex) in
  fst (setitem 0 (KStr "b") (VNode 6) C02_ex) = Ret tt /\
  name_at s' 6 = Some (KStr "b") /\ parent_at s' 6 = Some 0 /\ fst (getitem 0 (KStr "b") s') = Ret (VNode 6).
Proof.
  split; [by apply (bool_decide_unpack _)|]. split; [by apply (bool_decide_unpack _)|]. split; [by apply (bool_decide_unpack _)|].
  split; [vm_compute; eauto|]. vm_compute. done.
Qed.

(** * C05 *)
(** Whatever runs below Adopt ([next] is any computation). *)
Theorem C05_refused_child_keeps_place : forall next x k c s e s',
  set_stage Adopt next x k (VNode c) s = (Exc e, s') -> adopt_reverts e -> keeps_place s s' c.
Proof. exact refused_keeps. Qed.
(** For item assignment on any class of the tree behaviors. *)
Theorem C05_refused_child_keeps_place_node : forall s x cls k c s' e,
  reach s -> class_of s x = Some cls -> tree_class (c_behs cls) = true -> exists_node s c ->
  setitem x k (VNode c) s = (Exc e, s') -> adopt_reverts e -> keeps_place s s' c.
Proof. intros s x cls k c s' e R. exact (refused_keeps_class s x cls k c s' e (reach_wf s R)). Qed.
(** After any other exception the child is where the rest of the stack left it, which
    started with the child already renamed and reparented and did not get it reverted. *)
Theorem C05_other_exceptions_stick : forall next x k c s e s' o,
  nodes s !! c = Some o ->
  set_stage Adopt next x k (VNode c) s = (Exc e, s') -> ~ adopt_reverts e ->
  exists s1, name_at s1 c = Some k /\ parent_at s1 c = Some x /\
    (forall y, y <> c -> nodes s1 !! y = nodes s !! y) /\ dicts s1 = dicts s /\ idxs s1 = idxs s /\ log s1 = log s /\
    (next x k (VNode c) s1 = (Exc e, s') \/ e = Dangling).
Proof. exact other_exceptions_stick. Qed.
(** node 0 is a Node, 2 an OrderedNode, 3 an AbstractNode, 4 a BaseNode *)
Definition C05_ex := after [ONew NN KNone None; ONew ON KNone None; ONew AN KNone None; ONew BN (KStr "x") (Some 2)].
(** a refusal with ValueError, one with KeyError/AttributeError, and the two ways the
    child is left behind: an unhashable key and a node without storage *)
Example C05_example : reach C05_ex /\
  (let '(r, s') := setitem 0 (KInt 1) (VNode 4) C05_ex in
   r = Exc AttributeError /\ name_at s' 4 = Some (KStr "x") /\ parent_at s' 4 = Some 2) /\
  (let '(r, s') := setitem 0 (KStr "a") (VNode 4) C05_ex in
   r = Exc AttributeError /\ name_at s' 4 = Some (KStr "x") /\ parent_at s' 4 = Some 2) /\
  (let '(r, s') := setitem 2 (KUnhashable 7) (VNode 4) C05_ex in
   r = Exc TypeError /\ name_at s' 4 = Some (KUnhashable 7) /\ parent_at s' 4 = Some 2 /\ entries_at s' 2 = []) /\
  (let '(r, s') := setitem 3 (KStr "a") (VNode 4) C05_ex in
   r = Exc NotImplementedError /\ name_at s' 4 = Some (KStr "a") /\ parent_at s' 4 = Some 3).
Proof. split; [apply after_reach|]. vm_compute. done. Qed.

(** * C08 *)
Theorem C08_detach : forall s x cls k v s',
  reach s -> class_of s x = Some cls -> tree_class (c_behs cls) = true ->
  (Reference ∈ c_behs cls -> all_tree_classes s) ->
  detach x k s = (Ret v, s') ->
  (exists s1, getitem x k s = (Ret v, s1) /\ same_world s s1) /\ removed cls s x k s'.
Proof. intros s x cls k v s' R. exact (detach_removes s x cls k v s' (reach_wf s R)). Qed.
Theorem C08_detach_missing : forall s x cls k,
  reach s -> class_of s x = Some cls -> tree_class (c_behs cls) = true ->
  (Reference ∈ c_behs cls -> all_tree_classes s) -> hashable k = true ->
  (to_spaces cls k -> held k (spaces_at s x) = false) ->
  (~ to_spaces cls k -> held k (entries_at s x) = false) ->
  exists s', detach x k s = (Exc (KeyError k), s') /\ entries_everywhere s s' /\ forall y, keeps_place s s' y.
Proof. intros s x cls k R. exact (detach_absent s x cls k (reach_wf s R)). Qed.
(** Without Reference, detaching a key that is there succeeds (for Reference see P_Reference). *)
Theorem C08_detach_present : forall s x cls k v,
  reach s -> class_of s x = Some cls -> tree_class (c_behs cls) = true -> Reference ∉ c_behs cls ->
  hashable k = true -> (Nodespaces ∈ c_behs cls -> exists t, k = KStr t) ->
  (to_spaces cls k -> value_at k (spaces_at s x) = Some v) ->
  (~ to_spaces cls k -> value_at k (entries_at s x) = Some v) ->
  exists s', detach x k s = (Ret v, s').
Proof. intros s x cls k v R. exact (detach_present s x cls k v (reach_wf s R)). Qed.
Example C08_example :
  let '(r, s') := detach 0 (KStr "a") C02_ex in
  r = Ret (VNode 2) /\ entries_at s' 0 = [] /\ name_at s' 2 = Some (KStr "a") /\ parent_at s' 2 = Some 0 /\
  fst (path_of 2 s') = Ret [KNone; KStr "a"] /\ fst (detach 0 (KStr "a") s') = Exc (KeyError (KStr "a")).
Proof. vm_compute. done. Qed.

(** * C09 *)
(** [set_all x pre s] is the state after the individual assignments of [pre]. *)
Theorem C09_update_applies_a_prefix : forall x args kw s, length args <= 1 ->
  (exists s', update x args kw s = (Ret tt, s') /\ all_succeed x (concat args ++ kw) s /\ s' = set_all x (concat args ++ kw) s) \/
  (exists pre k v post e s', concat args ++ kw = pre ++ (k, v) :: post /\
     update x args kw s = (Exc e, s') /\
     all_succeed x pre s /\ setitem x k v (set_all x pre s) = (Exc e, s')).
Proof. exact update_prefix. Qed.
Theorem C09_update_arguments : forall x args kw s, 1 < length args -> update x args kw s = (Exc TypeError, s).
Proof. exact update_too_many. Qed.
Example C09_example :
  let '(r, s') := update 0 [[(KStr "b", VNode 6); (KStr "c", VInt 1)]] [(KStr "d", VNode 2)] C02_ex in
  r = Exc (ValueError "Non-node childs are not allowed.") /\
  entries_at s' 0 = [(KStr "a", VNode 2); (KStr "b", VNode 6)] /\
  fst (update 0 [[]; []] [] C02_ex) = Exc TypeError.
Proof. vm_compute. done. Qed.

(** * C51 *)
Theorem C51_abstract_node : forall s x cls c,
  class_of s x = Some cls -> c_behs cls = AbstractNode_behs -> Forall (known s) (call_values c) ->
  exists s', entries_everywhere s s' /\
    run_call x c s = (if needs_storage c then AExc NotImplementedError
                      else match c with CUpdate (_ :: _ :: _) _ => AExc TypeError | _ => ANone end, s').
Proof. exact abstract_call. Qed.
Example C51_example : class_of C05_ex 3 = Some AbstractNode /\ c_behs AbstractNode = AbstractNode_behs /\
  map (fun c => fst (run_call 3 c C05_ex)) [CSet (KStr "a") (VNode 4); CLen; CIn (KStr "a"); CUpdate [] []; CClear]
  = [AExc NotImplementedError; AExc NotImplementedError; AExc NotImplementedError; ANone; AExc NotImplementedError].
Proof. vm_compute. done. Qed.

Print Assumptions C01_fresh_node_is_ordered_mapping.
Print Assumptions C01_ordered_mapping.
Print Assumptions C02_assignment.
Print Assumptions C02_deletion.
Print Assumptions C02_refused_assignment.
Print Assumptions C02_refused_deletion.
Print Assumptions C04_adoption.
Print Assumptions C05_refused_child_keeps_place.
Print Assumptions C05_refused_child_keeps_place_node.
Print Assumptions C05_other_exceptions_stick.
Print Assumptions C08_detach.
Print Assumptions C08_detach_missing.
Print Assumptions C08_detach_present.
Print Assumptions C09_update_applies_a_prefix.
Print Assumptions C09_update_arguments.
Print Assumptions C51_abstract_node.
