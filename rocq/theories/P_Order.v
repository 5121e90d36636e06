(** C15, C16, C17: ordered insertion and swapping. *)
From Verif Require Import Py Odict Aliaser Heap Model Classes WF Views SpecMapping MappingProofs StorageProofs TreeOps SetEff Observe ObserveFacts SpecTree
  Reach MappingProps Play SpecOrder OrderProofs.

(** * C15 *)
(** insertbefore and insertafter put a named node whose name is no key yet next to the entry of
    the reference node; the other entries keep their values and their order. *)
Theorem C15_insert_beside : forall before s x n r cls t rk,
  reach s -> class_of s x = Some cls -> tree_class (c_behs cls) = true -> orders cls ->
  name_at s n = Some (KStr t) -> ~ to_spaces cls (KStr t) -> value_at (KStr t) (entries_at s x) = None ->
  name_at s r = Some rk -> is_Some (value_at rk (entries_at s x)) -> joins cls s x n ->
  exists s', insert_at before x n r s = (Ret tt, s') /\
    beside before rk (KStr t, VNode n) (entries_at s x) (entries_at s' x) /\ inserted cls s x n (KStr t) s'.
Proof. intros before s x n r cls t rk R Hc Ht Ho. exact (insert_works before s x n r cls t rk (reach_wf s R) Hc Ht (orders_ordering cls Ho)). Qed.
(** insertfirst and insertlast put it first and last. The children are held under their own
    names, which Adopt sees to. *)
Theorem C15_insert_at_end : forall first s x n cls t,
  reach s -> class_of s x = Some cls -> tree_class (c_behs cls) = true -> orders cls ->
  name_at s n = Some (KStr t) -> ~ to_spaces cls (KStr t) -> value_at (KStr t) (entries_at s x) = None -> joins cls s x n ->
  (forall rk v, end_of first (entries_at s x) = Some (rk, v) -> ~ to_spaces cls rk /\ exists r, v = VNode r /\ name_at s r = Some rk) ->
  exists s', insert_end first x n s = (Ret tt, s') /\
    entries_at s' x = (if first then (KStr t, VNode n) :: entries_at s x else entries_at s x ++ [(KStr t, VNode n)]) /\
    inserted cls s x n (KStr t) s'.
Proof.
  intros first s x n cls t R Hc Ht Ho. pose proof (orders_ordering cls Ho) as H.
  exact (insert_end_works first s x n cls t (reach_wf s R) Hc Ht (proj1 (ordering_inv _ H)) (fun _ => H)).
Qed.

(** A root with the children a and b, and a third node c with a child d that joins them. *)
Definition C15_s := after [ONew NN (KStr "root") None; ONew NN (KStr "a") None; ONew NN (KStr "b") None; ONew NN (KStr "c") None;
  ONew NN (KStr "d") None; OSet 0 (KStr "a") (VNode 2); OSet 0 (KStr "b") (VNode 4); OSet 6 (KStr "d") (VNode 8)].
Example C15_example : reach C15_s /\ class_of C15_s 0 = Some Node /\ tree_class (c_behs Node) = true /\ orders Node /\
  name_at C15_s 6 = Some (KStr "c") /\ ~ to_spaces Node (KStr "c") /\ value_at (KStr "c") (entries_at C15_s 0) = None /\
  name_at C15_s 4 = Some (KStr "b") /\ is_Some (value_at (KStr "b") (entries_at C15_s 0)) /\ joins Node C15_s 0 6 /\
  (forall first rk v, end_of first (entries_at C15_s 0) = Some (rk, v) -> ~ to_spaces Node rk /\ exists r, v = VNode r /\ name_at C15_s r = Some rk) /\
  dkeys (entries_at (snd (insertbefore 0 6 4 C15_s)) 0) = [KStr "a"; KStr "c"; KStr "b"] /\
  dkeys (entries_at (snd (insertafter 0 6 4 C15_s)) 0) = [KStr "a"; KStr "b"; KStr "c"] /\
  dkeys (entries_at (snd (insertafter 0 6 2 C15_s)) 0) = [KStr "a"; KStr "c"; KStr "b"] /\
  dkeys (entries_at (snd (insertfirst 0 6 C15_s)) 0) = [KStr "c"; KStr "a"; KStr "b"] /\
  parent_at (snd (insertfirst 0 6 C15_s)) 6 = Some 0.
Proof.
  split; [apply after_reach|]. split; [done|]. split; [done|]. split; [by apply (bool_decide_unpack _)|]. split; [done|]. split.
  { by apply nskey_dunder_false. }
  split; [vm_compute; done|]. split; [vm_compute; done|]. split; [vm_compute; by eexists|]. split.
  { intros _. split; [vm_compute; lia|]. split; [|exists Node; split; [vm_compute; done|]; split; [by apply (bool_decide_unpack _)|done]].
    split; [done|]. split; [vm_compute; by eexists|]. split; [vm_compute; by eexists|]. split.
    - eexists. split; vm_compute; reflexivity.
    - right. intros u [y Hy]. apply elem_of_map_to_list in Hy.
      replace (map_to_list (index_at C15_s 6)) with [(Some 4%N, 6); (Some 5%N, 8)] in Hy by (vm_compute; done).
      repeat (apply elem_of_cons in Hy as [[= -> ->]|Hy]; [vm_compute; done|]). by apply elem_of_nil in Hy. }
  split; [|vm_compute; done].
  intros first rk v. replace (entries_at C15_s 0) with [(KStr "a", VNode 2); (KStr "b", VNode 4)] by (vm_compute; done).
  destruct first; simpl; intros [= <- <-]; (split; [by apply nskey_dunder_false|]); eexists; (split; [done|vm_compute; done]).
Qed.

(** * C16 *)
(** A node without a name: ValueError, nothing changes. *)
Theorem C16_unnamed_refused : forall before s x n r cls, class_of s x = Some cls -> Order ∈ c_behs cls -> name_at s n = Some KNone ->
  insert_at before x n r s = (Exc (ValueError "Given node has no __name__ set."), s).
Proof. exact unnamed_refused. Qed.
(** With Reference, a node whose uuid the index knows: KeyError, nothing changes. *)
Theorem C16_known_refused : forall before s x n r cls cls' k u,
  reach s -> class_of s x = Some cls -> Order ∈ c_behs cls -> Reference ∈ c_behs cls -> class_of s n = Some cls' ->
  Reference ∈ c_behs cls' \/ UUIDAware ∈ c_behs cls' -> name_at s n = Some k -> k <> KNone ->
  uuid_at s n = Some u -> is_Some (index_id s x) -> is_Some (index_at s x !! Some u) ->
  insert_at before x n r s = (Exc (KeyError (KStr "Given node already contained in tree.")), s).
Proof. intros before s x n r cls cls' k u R. exact (known_refused before s x n r cls cls' k u (reach_wf s R)). Qed.
(** A reference node whose name is no key of [x]: ValueError, nothing changes. *)
Theorem C16_absent_refused : forall before s x n r cls k rk,
  reach s -> class_of s x = Some cls -> tree_class (c_behs cls) = true -> orders cls ->
  name_at s n = Some k -> admitted cls s x n -> name_at s r = Some rk -> value_at rk (entries_at s x) = None ->
  exists m s', insert_at before x n r s = (Exc (ValueError m), s') /\ same_world s s'.
Proof. intros before s x n r cls k rk R Hc Ht Ho. exact (absent_refused before s x n r cls k rk (reach_wf s R) Hc Ht (orders_ordering cls Ho)). Qed.
(** A class without Order, or one that does not keep its children in an odict: an exception,
    AttributeError if the new node is admitted, and nothing changes. *)
Theorem C16_no_odict_refused : forall before s x n r cls,
  reach s -> class_of s x = Some cls -> tree_class (c_behs cls) = true -> Order ∉ c_behs cls \/ OdictStorage ∉ c_behs cls ->
  exists e s', insert_at before x n r s = (Exc e, s') /\ (exists_node s n -> admitted cls s x n -> e = AttributeError) /\ same_world s s'.
Proof. intros before s x n r cls R. exact (no_odict_insert before s x n r cls (reach_wf s R)). Qed.
Definition C16_s := after [ONew "OrderReferenceNode" (KStr "root") None; ONew "OrderReferenceNode" (KStr "a") None;
  ONew "OrderReferenceNode" (KStr "n") None; ONew "OrderReferenceNode" (KStr "b") None;
  OSet 0 (KStr "a") (VNode 2); OSetUuid 6 (Some 2%N); OSet 4 (KStr "b") (VNode 6)].
(** The reference node itself is not looked at: a stranger with the name of a child will do. *)
Theorem C16_stranger_accepted_refuted : exists s x n r s',
  reach s /\ parent_at s r = None /\ (forall k, value_at k (entries_at s x) <> Some (VNode r)) /\
  insertbefore x n r s = (Ret tt, s') /\ dkeys (entries_at s' x) = [KStr "n"; KStr "a"].
Proof.
  exists (after [ONew "OrderableNode" (KStr "root") None; ONew "OrderableNode" (KStr "a") None; ONew "OrderableNode" (KStr "a") None;
                 ONew "OrderableNode" (KStr "n") None; OSet 0 (KStr "a") (VNode 1)]), 0, 3, 2. eexists.
  split; [apply after_reach|]. split; [done|]. split; [|split; [apply surjective_pairing|vm_compute; done]].
  intros k. replace (entries_at _ 0) with [(KStr "a", VNode 1)] by (vm_compute; done). unfold value_at. simpl. case_bool_decide; simpl; congruence.
Qed.
(** A failure found later leaves the node among the entries: the subtree of the new node shares
    a uuid with the tree. *)
Theorem C16_late_failure_refuted : exists s x n r s' m,
  reach s /\ parent_at s n = None /\ dkeys (entries_at s x) = [KStr "a"] /\
  insertbefore x n r s = (Exc (ValueError m), s') /\
  entries_at s' x = (KStr "n", VNode n) :: entries_at s x /\ parent_at s' n = None.
Proof.
  exists C16_s, 0, 4, 2. eexists _, _.
  split; [apply after_reach|]. split; [vm_compute; done|]. split; [vm_compute; done|].
  split; [rewrite (surjective_pairing (insertbefore _ _ _ _)); apply f_equal2; [vm_compute; reflexivity|reflexivity]|vm_compute; done].
Qed.
(** insertfirst and insertlast on an empty node take a node without a name. *)
Theorem C16_unnamed_at_end_refuted : forall first, exists s x n s',
  reach s /\ name_at s n = Some KNone /\ entries_at s x = [] /\
  insert_end first x n s = (Ret tt, s') /\ entries_at s' x = [(KNone, VNode n)].
Proof.
  intros first. exists (after [ONew "OrderableNode" (KStr "root") None; ONew "OrderableNode" KNone None]), 0, 1. eexists.
  split; [apply after_reach|]. split; [done|]. split; [done|].
  split; [rewrite (surjective_pairing (insert_end _ _ _ _)); apply f_equal2; [destruct first; vm_compute; reflexivity|reflexivity]|destruct first; vm_compute; done].
Qed.
Definition C16_t := after [ONew "OrderReferenceNode" (KStr "root") None; ONew "OrderReferenceNode" (KStr "a") None; ONew "OrderReferenceNode" (KStr "n") None;
  ONew "OrderReferenceNode" KNone None; OSet 0 (KStr "a") (VNode 2)].
Example C16_example : reach C16_t /\ class_of C16_t 0 = Some OrderReferenceNode /\ tree_class (c_behs OrderReferenceNode) = true /\ orders OrderReferenceNode /\
  name_at C16_t 6 = Some KNone /\
  (name_at C16_t 2 = Some (KStr "a") /\ uuid_at C16_t 2 = Some 2%N /\ is_Some (index_id C16_t 0) /\ is_Some (index_at C16_t 0 !! Some 2%N)) /\
  (name_at C16_t 4 = Some (KStr "n") /\ admitted OrderReferenceNode C16_t 0 4 /\ value_at (KStr "n") (entries_at C16_t 0) = None) /\
  name_at C16_t 0 = Some (KStr "root") /\ value_at (KStr "root") (entries_at C16_t 0) = None /\
  fst (insertbefore 0 4 0 C16_t) = Exc (ValueError "Given reference node not child of self.") /\
  fst (insertbefore 0 2 2 C16_t) = Exc (KeyError (KStr "Given node already contained in tree.")).
Proof.
  split; [apply after_reach|]. split; [done|]. split; [done|]. split; [by apply (bool_decide_unpack _)|]. split; [done|]. split; [vm_compute; repeat split; by eexists|].
  split; [|vm_compute; done]. split; [vm_compute; done|]. split; [|vm_compute; done]. split; [vm_compute; done|]. intros _. exists OrderReferenceNode, 3%N.
  split; [done|]. split; [left; by apply (bool_decide_unpack _)|]. vm_compute. repeat split; by eexists.
Qed.

(** * C17 *)
(** swap exchanges the positions of the two keys; nothing else changes. *)
Theorem C17_swap : forall s x a b cls ka kb i j va vb,
  reach s -> class_of s x = Some cls -> storage_class (c_behs cls) = true -> orders cls ->
  name_at s a = Some ka -> name_at s b = Some kb -> ka <> kb ->
  entries_at s x !! i = Some (ka, va) -> entries_at s x !! j = Some (kb, vb) ->
  exists d s', swap x a b s = (Ret tt, s') /\ exchanged i j (entries_at s x) d /\ only_order s x d s'.
Proof. intros s x a b cls ka kb i j va vb R Hc Hst Ho. exact (swap_works s x a b cls ka kb i j va vb (reach_wf s R) Hc Hst (orders_ordering cls Ho)). Qed.
(** Performing it twice restores the order. *)
Theorem C17_swap_twice : forall s x a b cls s1 s2,
  reach s -> class_of s x = Some cls -> storage_class (c_behs cls) = true -> orders cls -> exists_node s a -> exists_node s b ->
  swap x a b s = (Ret tt, s1) -> swap x a b s1 = (Ret tt, s2) ->
  entries_at s2 x = entries_at s x.
Proof. intros s x a b cls s1 s2 R Hc Hst Ho. exact (swap_twice s x a b cls s1 s2 (reach_wf s R) Hc Hst (orders_ordering cls Ho)). Qed.
(** Equal keys: ValueError; an absent key: KeyError; nothing changes. *)
Theorem C17_swap_refused : forall s x a b cls ka kb,
  reach s -> class_of s x = Some cls -> storage_class (c_behs cls) = true -> orders cls ->
  name_at s a = Some ka -> name_at s b = Some kb ->
  ka = kb \/ value_at ka (entries_at s x) = None \/ value_at kb (entries_at s x) = None ->
  exists s', swap x a b s = (Exc (if decide (ka = kb) then ValueError "Swap keys are equal"
                                  else KeyError (if value_at ka (entries_at s x) then kb else ka)), s') /\ same_world s s'.
Proof. intros s x a b cls ka kb R Hc Hst Ho. exact (swap_refused s x a b cls ka kb (reach_wf s R) Hc Hst (orders_ordering cls Ho)). Qed.
(** A class without Order, or one that does not keep its children in an odict: AttributeError,
    nothing changes. *)
Theorem C17_no_odict_refused : forall s x a b cls,
  reach s -> class_of s x = Some cls -> storage_class (c_behs cls) = true -> Order ∉ c_behs cls \/ OdictStorage ∉ c_behs cls ->
  exists s', swap x a b s = (Exc AttributeError, s') /\ same_world s s'.
Proof. intros s x a b cls R. exact (no_odict_swap s x a b cls (reach_wf s R)). Qed.
Example C17_example : exists s, reach s /\ class_of s 0 = Some Node /\ storage_class (c_behs Node) = true /\ orders Node /\
  entries_at s 0 = [(KStr "a", VNode 2); (KStr "b", VNode 4); (KStr "c", VNode 6)] /\
  name_at s 2 = Some (KStr "a") /\ name_at s 6 = Some (KStr "c") /\ name_at s 8 = Some (KStr "d") /\
  entries_at (snd (swap 0 6 2 s)) 0 = [(KStr "c", VNode 6); (KStr "b", VNode 4); (KStr "a", VNode 2)] /\
  fst (swap 0 2 2 s) = Exc (ValueError "Swap keys are equal") /\ fst (swap 0 2 8 s) = Exc (KeyError (KStr "d")).
Proof.
  exists (after [ONew NN (KStr "root") None; ONew NN (KStr "a") None; ONew NN (KStr "b") None; ONew NN (KStr "c") None;
  ONew NN (KStr "d") None; OSet 0 (KStr "a") (VNode 2); OSet 0 (KStr "b") (VNode 4); OSet 6 (KStr "d") (VNode 8); OInsertEnd false 0 6]).
  split; [apply after_reach|]. split; [done|]. split; [done|]. split; [by apply (bool_decide_unpack _)|]. vm_compute. done.
Qed.
(** Order over dicts: the methods are there and do not work, except for insertion into an empty
    node; without Order there are no such methods. *)
Definition DictOrdered := mkclass "DictOrdered" [Adopt; Order; DefaultInit; Nodify; DictStorage].
Definition C17_d := after_in [DictOrdered; OrderedNode] [ONew "DictOrdered" (KStr "root") None; ONew "DictOrdered" (KStr "a") None; ONew "DictOrdered" (KStr "b") None;
  ONew ON (KStr "o") None; OInsertEnd false 0 1; OSet 0 (KStr "b") (VNode 2); OSet 3 (KStr "x") (VNode 1); OSet 3 (KStr "y") (VNode 2)].
Example C17_no_odict_example : reach C17_d /\
  class_of C17_d 0 = Some DictOrdered /\ tree_class (c_behs DictOrdered) = true /\ OdictStorage ∉ c_behs DictOrdered /\
  class_of C17_d 3 = Some OrderedNode /\ tree_class (c_behs OrderedNode) = true /\ Order ∉ c_behs OrderedNode /\
  dkeys (entries_at C17_d 0) = [KStr "a"; KStr "b"] /\ dkeys (entries_at C17_d 3) = [KStr "x"; KStr "y"] /\
  admitted DictOrdered C17_d 0 3 /\
  fst (swap 0 1 2 C17_d) = Exc AttributeError /\ fst (swap 3 1 2 C17_d) = Exc AttributeError /\
  fst (insertbefore 0 3 1 C17_d) = Exc AttributeError /\ fst (insertfirst 3 0 C17_d) = Exc AttributeError.
Proof.
  split; [apply after_in_reach|]. split; [done|]. split; [done|]. split; [by apply (bool_decide_unpack _)|].
  split; [done|]. split; [done|]. split; [by apply (bool_decide_unpack _)|]. split; [vm_compute; done|]. split; [vm_compute; done|].
  split; [split; [vm_compute; done|]; intros H; exfalso; revert H; by apply (bool_decide_unpack _)|]. vm_compute. done.
Qed.

Print Assumptions C15_insert_beside.
Print Assumptions C15_insert_at_end.
Print Assumptions C16_unnamed_refused.
Print Assumptions C16_known_refused.
Print Assumptions C16_absent_refused.
Print Assumptions C16_no_odict_refused.
Print Assumptions C16_stranger_accepted_refuted.
Print Assumptions C16_late_failure_refuted.
Print Assumptions C16_unnamed_at_end_refuted.
Print Assumptions C17_swap.
Print Assumptions C17_swap_twice.
Print Assumptions C17_swap_refused.
Print Assumptions C17_no_odict_refused.
