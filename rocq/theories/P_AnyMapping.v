(** C54: whatever the behaviors and their order, a node is an ordered mapping. *)
From Verif Require Import Py Odict Aliaser Heap Model Classes WF Views SpecMapping MappingProofs TreeOps Observe ObserveFacts NewEff SpecTree
  Reach MappingProps Play SpecPlace SpecReference RefTree RefSteps RefHistory ValidateProofs SpecAny AnyMapping.

(** For every class made of the tree behaviors without Reference, in any order, with either storage:
    in every reachable state, a node that holds usable keys only (C10: it does unless a reserved name
    was inserted with the ordering API) answers every sequence of calls with usable keys, those that
    raise included, as the ordered dictionary of its entries, and ends with the entries that one has. *)
Theorem C54_ordered_mapping : forall s x cls l,
  reach s -> class_of s x = Some cls -> tree_class (c_behs cls) = true -> Reference ∉ c_behs cls ->
  Forall (usable cls) (map fst (entries_at s x)) ->
  Forall (fun c => Forall (usable cls) (call_keys c) /\ Forall (known s) (call_values c)) l ->
  exists s', run_calls x l s = (fst (calls_spec (class_policy cls (allows s x)) l (entries_at s x)), s') /\
    entries_at s' x = snd (calls_spec (class_policy cls (allows s x)) l (entries_at s x)).
Proof. exact any_mapping. Qed.
(** In particular a new node is an empty ordered dictionary. *)
Theorem C54_fresh_node_is_ordered_mapping : forall s cn cls name parent,
  reach s -> classes s !! cn = Some cls -> tree_class (c_behs cls) = true -> DefaultInit ∈ c_behs cls -> UUIDAware ∉ c_behs cls -> Reference ∉ c_behs cls ->
  (forall p, parent = Some p -> exists_node s p) ->
  exists x s1, new_node cn name parent s = (Ret x, s1) /\ ~ exists_node s x /\ entries_at s1 x = [] /\
    forall l, Forall (fun c => Forall (usable cls) (call_keys c) /\ Forall (known s1) (call_values c)) l ->
    exists s2, run_calls x l s1 = (fst (calls_spec (class_policy cls (c_allow cls)) l []), s2) /\
      entries_at s2 x = snd (calls_spec (class_policy cls (c_allow cls)) l []).
Proof. exact any_fresh. Qed.
(** So two nodes with the same entries answer alike, whatever else their classes are made of, if both
    or none of them validate. *)
Theorem C54_composition_does_not_show : forall s x cls t y cls' l,
  reach s -> class_of s x = Some cls -> tree_class (c_behs cls) = true -> Reference ∉ c_behs cls -> Forall (usable cls) (map fst (entries_at s x)) ->
  reach t -> class_of t y = Some cls' -> tree_class (c_behs cls') = true -> Reference ∉ c_behs cls' -> Forall (usable cls') (map fst (entries_at t y)) ->
  (NodeChildValidate ∈ c_behs cls <-> NodeChildValidate ∈ c_behs cls') -> allows s x = allows t y -> entries_at s x = entries_at t y ->
  Forall (fun c => Forall (usable cls) (call_keys c) /\ Forall (known s) (call_values c)) l ->
  Forall (fun c => Forall (usable cls') (call_keys c) /\ Forall (known t) (call_values c)) l ->
  fst (run_calls x l s) = fst (run_calls y l t) /\ entries_at (snd (run_calls x l s)) x = entries_at (snd (run_calls y l t)) y.
Proof.
  intros s x cls t y cls' l R1 C1 T1 N1 U1 R2 C2 T2 N2 U2 Hv Ha He L1 L2.
  destruct (any_mapping s x cls l R1 C1 T1 N1 U1 L1) as (s' & E1 & F1). destruct (any_mapping t y cls' l R2 C2 T2 N2 U2 L2) as (t' & E2 & F2).
  assert (Hp : class_policy cls (allows s x) = class_policy cls' (allows t y)).
  { unfold class_policy. rewrite Ha. destruct (decide (NodeChildValidate ∈ c_behs cls)), (decide (NodeChildValidate ∈ c_behs cls')); tauto. }
  rewrite E1, E2. simpl. rewrite F1, F2, Hp, He. done.
Qed.

(** A class with everything, and one with the storage only. *)
Definition Rich := mkclass "Rich" [DefaultInit; Lifecycle; Order; Nodespaces; Attributes; Adopt; Invalidate; AsAttrAccess; OdictStorage; Nodify].
Definition Bare := mkclass "Bare" [DictStorage; DefaultInit; Nodify].
Definition C54_s := after_in [Rich; Bare; NodeAttributes] [ONew "Rich" (KStr "r") None; ONew "Bare" (KStr "b") None; OSet 0 (KStr "a") (VNode 1); OSet 1 (KStr "a") (VNode 1)].
Definition C54_calls := [CSet (KStr "b") (VInt 1); CSet (KStr "a") VNone; CGet (KStr "c"); CDel (KStr "a"); CSetdefault (KStr "x") (VNode 0); CUpdate [[(KStr "a", VInt 2)]] [(KStr "b", VInt 3)];
  CItems; CPopitem; CPop (KStr "x") None; CDel (KStr "x"); CLen; CClear; CKeys].
Lemma C54_usable t : nskey [Nodespaces] (KStr t) = false -> usable Rich (KStr t).
Proof. intros H _. split; [by exists t|]. intros Hd. assert (nskey [Nodespaces] (KStr t) = true) by (apply nskey_dunder; split; [left|done]). congruence. Qed.
Lemma C54_first : is_Some (nodes C54_s !! 0).
Proof. vm_compute. eexists. reflexivity. Qed.
Lemma C54_entries_usable : Forall (usable Rich) (map fst (entries_at C54_s 0)).
Proof. assert (E : map fst (entries_at C54_s 0) = [KStr "a"]) by (vm_compute; reflexivity). rewrite E. constructor; [by apply C54_usable|constructor]. Qed.
Lemma C54_calls_usable s : exists_node s 0 -> Forall (fun c => Forall (usable Rich) (call_keys c) /\ Forall (known s) (call_values c)) C54_calls.
Proof.
  intros K. unfold C54_calls.
  repeat (constructor; [split; simpl; repeat (constructor; [match goal with |- usable _ _ => apply C54_usable; reflexivity | |- _ => first [exact I|exact K] end|]); constructor|]). constructor.
Qed.
Example C54_example : reach C54_s /\ class_of C54_s 0 = Some Rich /\ class_of C54_s 1 = Some Bare /\ tree_class (c_behs Rich) = true /\ tree_class (c_behs Bare) = true /\
  Forall (usable Rich) (map fst (entries_at C54_s 0)) /\ Forall (fun c => Forall (usable Rich) (call_keys c) /\ Forall (known C54_s) (call_values c)) C54_calls /\
  fst (run_calls 0 C54_calls C54_s) = [ANone; ANone; AExc (KeyError (KStr "c")); ANone; AVal (VNode 0); ANone; AItems [(KStr "b", VInt 3); (KStr "x", VNode 0); (KStr "a", VInt 2)];
    AItem (KStr "a") (VInt 2); AVal (VNode 0); AExc (KeyError (KStr "x")); ALen 1; ANone; AKeys []] /\
  fst (run_calls 1 C54_calls C54_s) = fst (run_calls 0 C54_calls C54_s).
Proof.
  split; [exact (after_in_reach _ _)|]. split; [vm_compute; reflexivity|]. split; [vm_compute; reflexivity|]. split; [reflexivity|]. split; [reflexivity|].
  split; [exact C54_entries_usable|]. split; [exact (C54_calls_usable C54_s C54_first)|]. split; vm_compute; reflexivity.
Qed.

(** With other keys the order shows: validation and nodespaces both refuse an integer under an
    integer key, and the first one asked raises. *)
Definition VN := mkclass "VN" [NodeChildValidate; Nodespaces; Adopt; DefaultInit; Nodify; OdictStorage].
Definition NV := mkclass "NV" [Nodespaces; NodeChildValidate; Adopt; DefaultInit; Nodify; OdictStorage].
Theorem C54_order_shows_refuted : exists s k v, reach s /\ class_of s 0 = Some VN /\ class_of s 1 = Some NV /\ entries_at s 0 = entries_at s 1 /\ known s v /\
  fst (setitem 0 k v s) = Exc (ValueError "Non-node childs are not allowed.") /\ fst (setitem 1 k v s) = Exc AttributeError.
Proof.
  exists (after_in [VN; NV] [ONew "VN" KNone None; ONew "NV" KNone None]), (KInt 3), (VInt 1). split; [apply after_in_reach|].
  split; [vm_compute; reflexivity|]. split; [vm_compute; reflexivity|]. split; [vm_compute; reflexivity|]. split; [exact I|]. split; vm_compute; reflexivity.
Qed.

Print Assumptions C54_ordered_mapping.
Print Assumptions C54_fresh_node_is_ordered_mapping.
Print Assumptions C54_composition_does_not_show.
Print Assumptions C54_order_shows_refuted.
