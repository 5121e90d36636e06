(** C57: children and attributes with Python's attribute syntax. *)
From Verif Require Import Py Odict Aliaser Heap Model Classes WF Views SpecMapping MappingProofs TreeOps Observe ObserveFacts SpecTree
  Reach MappingProps Play SpecOrder SpecPlace Utils SpecUtils OrderProofs PlaceProofs PathTree PlayPlace SpecSpaces SpaceProofs AttrsEff PlaySpaces AttrProofs.

(** [own]: the names Python's normal attribute lookup finds. For every other name a node of a class with
    GetattrChildren gives the child of that name; a missing child is a KeyError. *)
Theorem C57_children_as_attributes : forall own s x cls n,
  reach s -> class_of s x = Some cls -> tree_class (c_behs cls) = true -> GetattrChildren ∈ c_behs cls -> own n = false ->
  exists s', same_world s s' /\
    (~ to_spaces cls (KStr n) -> node_getattr own x n s =
       (match value_at (KStr n) (entries_at s x) with Some v => Ret (FromContext v) | None => Exc (KeyError (KStr n)) end, s')) /\
    (to_spaces cls (KStr n) -> node_getattr own x n s =
       (match value_at (KStr n) (spaces_at s x) with Some v => Ret (FromContext v) | None => Exc (KeyError (KStr n)) end, s')).
Proof. intros own s x cls n R. apply node_getattr_eff. by apply reach_wf. Qed.
(** Attributes of the node shadow its children, whatever they are. *)
Theorem C57_shadowed : forall own s x n, exists_node s x -> own n = true -> node_getattr own x n s = (Ret (OwnAttribute n), s).
Proof. exact node_getattr_own. Qed.
Theorem C57_other_classes : forall own s x cls n, class_of s x = Some cls -> GetattrChildren ∉ c_behs cls -> own n = false ->
  node_getattr own x n s = (Exc AttributeError, s).
Proof. exact node_getattr_none. Qed.
(** So with GetattrChildren hasattr never answers False, and getattr never falls back to its default. *)
Theorem C57_hasattr_never_false : forall own s x cls n,
  reach s -> class_of s x = Some cls -> tree_class (c_behs cls) = true -> GetattrChildren ∈ c_behs cls ->
  fst (py_hasattr (node_getattr own x n) s) <> Ret false /\
  forall d, fst (py_getattr (node_getattr own x n) d s) = fst (node_getattr own x n s).
Proof. intros own s x cls n R. apply node_hasattr. by apply reach_wf. Qed.
(** [node.attrs.n = v] for a class with attribute_access_for_attrs: the value is an entry of the node in the
    nodespace __attrs__, the next [node.attrs.n] (another wrapper) reads it, and the children stay. *)
Theorem C57_attrs_written : forall s x cls n v s',
  grown simple plain s -> class_of s x = Some cls -> Nodespaces ∈ c_behs cls -> known s v -> ~ dunder (KStr n) ->
  attrs_setattr x n v s = (Ret tt, s') ->
  exists a, value_at (KStr "__attrs__") (spaces_at s' x) = Some (VNode a) /\ value_at (KStr n) (entries_at s' a) = Some v /\
    (a <> x -> entries_at s' x = entries_at s x) /\
    forall own, fst (attrs_getattr own x n s') = Ret (if own n then OwnAttribute n else FromContext v).
Proof. exact attrs_write. Qed.
(** Reading gives the entry, or AttributeError. *)
Theorem C57_attrs_read : forall own s x cls n a s1,
  grown simple plain s -> class_of s x = Some cls -> Nodespaces ∈ c_behs cls -> own n = false -> ~ dunder (KStr n) ->
  attrs_of x s = (Ret (VNode a), s1) ->
  fst (attrs_getattr own x n s) = match value_at (KStr n) (entries_at s1 a) with Some v => Ret (FromContext v) | None => Exc AttributeError end.
Proof. exact attrs_read. Qed.

(** A node with the children a and keys: the second is shadowed by the method. *)
Definition Getattr := mkclass "Getattr" [GetattrChildren; Adopt; DefaultInit; Nodify; DictStorage].
Definition C57_own (n : string) : bool := bool_decide (n ∈ ["keys"; "context"]).
Definition C57_s := after_in [Getattr] [ONew "Getattr" (KStr "x") None; OSet 0 (KStr "a") (VInt 1); OSet 0 (KStr "keys") (VInt 2)].
Example C57_example : reach C57_s /\ class_of C57_s 0 = Some Getattr /\ tree_class (c_behs Getattr) = true /\ GetattrChildren ∈ c_behs Getattr /\
  fst (node_getattr C57_own 0 "a" C57_s) = Ret (FromContext (VInt 1)) /\ fst (node_getattr C57_own 0 "keys" C57_s) = Ret (OwnAttribute "keys") /\
  fst (py_hasattr (node_getattr C57_own 0 "b") C57_s) = Exc (KeyError (KStr "b")).
Proof.
  split; [apply after_in_reach|]. split; [vm_compute; reflexivity|]. split; [reflexivity|]. split; [repeat constructor|].
  split; [vm_compute; reflexivity|]. split; vm_compute; reflexivity.
Qed.
Definition C57_t := lived plainb [Node; NodeAttributes] [ONew NN (KStr "root") None; ONew NN (KStr "c") None; OSet 0 (KStr "c") (VNode 2)].
Example C57_attrs_example : grown simple plain C57_t /\ class_of C57_t 0 = Some Node /\ Nodespaces ∈ c_behs Node /\ ~ dunder (KStr "n") /\
  fst (attrs_setattr 0 "n" (VInt 3) C57_t) = Ret tt /\
  fst (attrs_getattr C57_own 0 "n" C57_t) = Exc AttributeError /\
  fst (attrs_getattr C57_own 0 "n" (snd (attrs_setattr 0 "n" (VInt 3) C57_t))) = Ret (FromContext (VInt 3)) /\
  (* the name of an attribute of the wrapper is stored, but cannot be read that way *)
  fst (attrs_setattr 0 "context" (VInt 4) C57_t) = Ret tt /\
  fst (attrs_getattr C57_own 0 "context" (snd (attrs_setattr 0 "context" (VInt 4) C57_t))) = Ret (OwnAttribute "context").
Proof.
  split; [eapply lived_grown; [exact plainb_spec|by apply simple_all]|]. split; [vm_compute; reflexivity|]. split; [repeat constructor|].
  split; [intros H; assert (nskey [Nodespaces] (KStr "n") = true) by (apply nskey_dunder; split; [left|exact H]); discriminate|].
  split; [vm_compute; reflexivity|]. split; [vm_compute; reflexivity|]. split; [vm_compute; reflexivity|]. split; vm_compute; reflexivity.
Qed.
(** A program that asks a GetattrChildren node for an optional attribute gets a KeyError. *)
Theorem C57_optional_attribute_refuted : exists own s x n d, reach s /\ own n = false /\
  fst (py_getattr (node_getattr own x n) d s) = Exc (KeyError (KStr n)).
Proof. exists C57_own, C57_s, 0, "b", (FromContext VNone). split; [apply after_in_reach|]. split; [reflexivity|vm_compute; reflexivity]. Qed.

Print Assumptions C57_children_as_attributes.
Print Assumptions C57_shadowed.
Print Assumptions C57_other_classes.
Print Assumptions C57_hasattr_never_false.
Print Assumptions C57_attrs_written.
Print Assumptions C57_attrs_read.
Print Assumptions C57_optional_attribute_refuted.
