(** C24, C25: children made on demand, and fixed children. *)
From Verif Require Import Py Odict Aliaser Heap Model Classes MonadFacts WF Views SpecMapping MappingProofs StorageProofs TreeOps Observe SpecTree
  Reach MappingProps Play SpecFactory FactoryProofs FixedProofs.

(** * C24 *)
(** Iterating a node with ChildFactory yields the declared keys in their order and changes
    nothing, whatever has been created or stored ([factory_first]: ChildFactory comes before
    the storage). *)
Theorem C24_iter_yields_factories : forall s x cls,
  class_of s x = Some cls -> factory_class (c_behs cls) = true -> factory_first (c_behs cls) = true ->
  keys x s = (Ret (map fst (c_factories cls)), s).
Proof. exact factory_iter. Qed.
(** The first access of a factory key makes a new child of the declared class, stores it under
    the key (as its parent's child, if the class adopts) and touches no other node. *)
Theorem C24_first_access_creates : forall s x cls k cn made,
  reach s -> class_of s x = Some cls -> factory_class (c_behs cls) = true ->
  value_at k (entries_at s x) = None -> hashable k = true -> offered k (c_factories cls) = Some cn ->
  classes s !! cn = Some made -> FixedChildren ∉ c_behs made ->
  exists c s', getitem x k s = (Ret (VNode c), s') /\ made_child cls made s x k c s'.
Proof. intros s x cls k cn made R. exact (factory_works s x cls k cn made (reach_wf s R)). Qed.
(** Without the assumption on the declared class: access either makes the child, or the
    constructor failed and nothing that existed has changed. *)
Theorem C24_first_access_outcome : forall s x cls k cn r s',
  reach s -> class_of s x = Some cls -> factory_class (c_behs cls) = true ->
  value_at k (entries_at s x) = None -> hashable k = true -> offered k (c_factories cls) = Some cn ->
  getitem x k s = (r, s') ->
  match r with
  | Ret v => exists c made, v = VNode c /\ classes s !! cn = Some made /\ made_child cls made s x k c s'
  | Exc e => only_new s s'
  end.
Proof. intros s x cls k cn r s' R H1 H2 H3 H4 H5 H6. exact (proj1 (factory_asked s x cls k cn r s' (reach_wf s R) H1 H2 H3 H4 H5 H6)). Qed.
(** Once a child is there, every later access returns it, after any history of calls none of
    which sets or removes that key. *)
Theorem C24_once : forall s x cls k c l,
  reach s -> class_of s x = Some cls -> factory_class (c_behs cls) = true -> value_at k (entries_at s x) = Some (VNode c) ->
  Forall (fun c => may_change k c = false /\ Forall (known s) (call_values c)) l ->
  exists s', getitem x k (snd (run_calls x l s)) = (Ret (VNode c), s') /\ same_world (snd (run_calls x l s)) s'.
Proof. intros s x cls k c l R. exact (factory_once s x cls k c l (reach_wf s R)). Qed.
(** A key neither stored nor declared raises KeyError. *)
Theorem C24_unknown_key : forall s x cls k,
  reach s -> class_of s x = Some cls -> factory_class (c_behs cls) = true ->
  value_at k (entries_at s x) = None -> (hashable k = true -> offered k (c_factories cls) = None) ->
  exists s', getitem x k s = (Exc (if hashable k then KeyError k else TypeError), s') /\ same_world s s'.
Proof. intros s x cls k R. exact (factory_nothing s x cls k (reach_wf s R)). Qed.

Definition FacNode := Class "FacNode" [ChildFactory; NodeChildValidate; Adopt; DefaultInit; Nodify; OdictStorage]
  [(KStr "a", "FacNode"); (KStr "b", "FacNode")] [] None false "FacNode" true None.
Definition C24_s := after_in [FacNode] [ONew "FacNode" KNone None; OGet 0 (KStr "b")].
Example C24_example : reach C24_s /\ class_of C24_s 0 = Some FacNode /\ factory_class (c_behs FacNode) = true /\ factory_first (c_behs FacNode) = true /\
  hashable (KStr "a") = true /\ offered (KStr "a") (c_factories FacNode) = Some "FacNode" /\ classes C24_s !! "FacNode" = Some FacNode /\
  FixedChildren ∉ c_behs FacNode /\ value_at (KStr "a") (entries_at C24_s 0) = None /\
  (exists c c', value_at (KStr "b") (entries_at C24_s 0) = Some (VNode c) /\ name_at C24_s c = Some (KStr "b") /\ parent_at C24_s c = Some 0 /\
     fst (run_calls 0 [CKeys; CGet (KStr "a"); CGet (KStr "b"); CKeys; CGet (KStr "c")] C24_s) =
       [AKeys [KStr "a"; KStr "b"]; AVal (VNode c'); AVal (VNode c); AKeys [KStr "a"; KStr "b"]; AExc (KeyError (KStr "c"))]) /\
  Forall (fun c => may_change (KStr "b") c = false /\ Forall (known C24_s) (call_values c)) [CKeys; CGet (KStr "a"); CDel (KStr "a"); CSet (KStr "a") (VNode 0)].
Proof.
  split; [apply after_in_reach|]. split; [done|]. split; [done|]. split; [done|]. split; [done|]. split; [done|]. split; [done|].
  split; [by apply (bool_decide_unpack _)|]. split; [vm_compute; done|].
  split; [eexists _, _; split; [vm_compute; reflexivity|]; split; [vm_compute; done|]; split; [vm_compute; done|]; vm_compute; reflexivity|].
  repeat (constructor; [split; [done|]; simpl; repeat (constructor; [try done; vm_compute; eauto|]); constructor|]). constructor.
Qed.

(** * C25 *)
(** Constructing a node with FixedChildren makes the declared children, in their order, each
    of its class, new, with its key as name and the node as parent. *)
Theorem C25_construction : forall s cn cls name parent x s',
  reach s -> classes s !! cn = Some cls -> occ FixedChildren (c_behs cls) = 1 -> (forall q, parent = Some q -> exists_node s q) ->
  new_node cn name parent s = (Ret x, s') -> exists cs, fixed_made s' x (c_fixed cls) cs /\ class_of s' x = Some cls.
Proof. intros s cn cls name parent x s' R. exact (new_fixed s cn cls name parent x s' (reach_wf s R)). Qed.
(** Every history of mapping calls is answered like by a dictionary that refuses all changes,
    and the children and their order stay; no dict, no index and no log entry anywhere is
    changed.  If the class does not adopt, nothing at all is changed. *)
Theorem C25_immutable : forall s x cls l,
  reach s -> class_of s x = Some cls -> fixed_class (c_behs cls) = true -> has_fixed s x ->
  Forall (fun c => Forall (known s) (call_values c)) l ->
  exists s', run_calls x l s = (fst (calls_spec (readonly_policy (open_to_all cls s x)) l (fixed_at s x)), s') /\
    fixed_at s' x = fixed_at s x /\ has_fixed s' x /\ renamed s s' /\ (Adopt ∉ c_behs cls -> s' = s).
Proof. intros s x cls l R. exact (fixed_read_only s x cls l (reach_wf s R)). Qed.

Definition FixedNode := Class "FixedNode" [NodeChildValidate; DefaultInit; Nodify; FixedChildren]
  [] [(KStr "a", "node.base.BaseNode"); (KStr "b", "node.base.BaseNode")] None false "FixedNode" true None.
Definition FixedAdopt := Class "FixedAdopt" [NodeChildValidate; Adopt; DefaultInit; Nodify; FixedChildren]
  [] [(KStr "a", "node.base.BaseNode"); (KStr "b", "node.base.BaseNode")] None false "FixedNode" true None.
Definition C25_s cn := after_in [FixedNode; FixedAdopt; BaseNode] [ONew cn KNone None].
(** With Adopt, a refused assignment renames and reparents the value passed; passing one of
    the fixed children under another key leaves it with a name that is not its key. *)
Theorem C25_adopting_names_refuted : exists s x cls k c,
  reach s /\ class_of s x = Some cls /\ fixed_class (c_behs cls) = true /\ Adopt ∈ c_behs cls /\ has_fixed s x /\
  value_at k (fixed_at s x) = Some (VNode c) /\ name_at s c = Some k /\
  exists k' e s', setitem x k' (VNode c) s = (Exc e, s') /\ value_at k (fixed_at s' x) = Some (VNode c) /\ name_at s' c = Some k' /\ k' <> k.
Proof.
  exists (C25_s "FixedAdopt"), 0, FixedAdopt, (KStr "a").
  destruct (value_at (KStr "a") (fixed_at (C25_s "FixedAdopt") 0)) as [v|] eqn:E; [|vm_compute in E; done].
  destruct v as [| | | | | | |c| | | |]; try (vm_compute in E; done). exists c.
  split; [apply after_in_reach|]. split; [done|]. split; [done|]. split; [by apply (bool_decide_unpack _)|]. split; [vm_compute; eauto|]. split; [done|].
  vm_compute in E. injection E as <-. split; [done|]. exists (KStr "b"), NotImplementedError, (snd (setitem 0 (KStr "b") (VNode 2) (C25_s "FixedAdopt"))).
  split; [|vm_compute; done]. assert (E1 : fst (setitem 0 (KStr "b") (VNode 2) (C25_s "FixedAdopt")) = Exc NotImplementedError) by (vm_compute; done).
  destruct (setitem _ _ _ _). simpl in *. by rewrite E1.
Qed.
Example C25_example : let s := C25_s "FixedNode" in
  reach s /\ class_of s 0 = Some FixedNode /\ fixed_class (c_behs FixedNode) = true /\ has_fixed s 0 /\ occ FixedChildren (c_behs FixedNode) = 1 /\
  Adopt ∉ c_behs FixedNode /\ (exists c c', fixed_at s 0 = [(KStr "a", VNode c); (KStr "b", VNode c')] /\ c <> c' /\
   fst (run_calls 0 [CSet (KStr "a") (VNode 0); CSet (KStr "a") (VInt 1); CDel (KStr "a"); CPopitem; CClear; CKeys; CGet (KStr "b"); CIn (KStr "c")] s) =
    [AExc NotImplementedError; AExc (ValueError "Non-node childs are not allowed."); AExc NotImplementedError; AExc NotImplementedError; AExc NotImplementedError;
     AKeys [KStr "a"; KStr "b"]; AVal (VNode c'); ABool false]).
Proof.
  split; [apply after_in_reach|]. split; [done|]. split; [done|]. split; [vm_compute; eauto|]. split; [done|].
  split; [by apply (bool_decide_unpack _)|]. eexists _, _. split; [vm_compute; reflexivity|]. vm_compute. done.
Qed.
(** A storage besides changes nothing, and the children know their parent. *)
Definition FixedStored := Class "FixedStored" [NodeChildValidate; DefaultInit; Nodify; DictStorage; FixedChildren]
  [] [(KStr "a", "node.base.BaseNode")] None false "FixedNode" true None.
Example C25_stored_example : let s := after_in [FixedStored; BaseNode] [ONew "FixedStored" KNone None] in
  reach s /\ class_of s 0 = Some FixedStored /\ fixed_class (c_behs FixedStored) = true /\ has_fixed s 0 /\
  (exists c, fixed_at s 0 = [(KStr "a", VNode c)] /\ parent_at s c = Some 0 /\ name_at s c = Some (KStr "a")) /\
  fst (run_calls 0 [CSet (KStr "a") (VNode 0); CDel (KStr "a"); CKeys] s) = [AExc NotImplementedError; AExc NotImplementedError; AKeys [KStr "a"]].
Proof.
  split; [apply after_in_reach|]. split; [vm_compute; reflexivity|]. split; [reflexivity|]. split; [vm_compute; eauto|].
  split; [eexists; split; [vm_compute; reflexivity|split; vm_compute; reflexivity]|vm_compute; reflexivity].
Qed.

Print Assumptions C24_iter_yields_factories.
Print Assumptions C24_first_access_creates.
Print Assumptions C24_first_access_outcome.
Print Assumptions C24_once.
Print Assumptions C24_unknown_key.
Print Assumptions C25_construction.
Print Assumptions C25_immutable.
Print Assumptions C25_adopting_names_refuted.
