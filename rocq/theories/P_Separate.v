(** C63 *)
From Verif Require Import Py Odict Aliaser Heap Model Classes WF Observe Reach Play Serializer SpecRegion RegionOps RegionDeep RegionSerial.

(** Calls on the nodes [ws] and on whatever is reached from them or created meanwhile
    change nothing that can be reached from a node separate from them; it stays
    separate. *)
Theorem C63_separate_trees s ws x l :
  reach s -> sound s -> exists_node s x -> (forall w, w ∈ ws -> separate s x w) -> Forall (given (of s ws)) l ->
  let s' := run_ops l s in
  (forall y, reaches s x y -> same_node s s' y /\ untouched s s' y) /\
  (forall y, reaches s' x y <-> reaches s x y) /\
  (forall w, w ∈ ws -> separate s' x w).
Proof.
  intros R S Hx Hs Hl s'. destruct (separate_untouched s ws x l (reach_wf s R) S (live_lt s x (reach_wf s R) Hx) Hs Hl) as (H1 & H2 & H3).
  split; [|split; [exact H2|]].
  - intros y Hy. split; [exact (same_node_of s s' x y H1 Hy)|exact (H1 y Hy)].
  - intros w Hw i. exact (H3 w i Hw).
Qed.
Print Assumptions C63_separate_trees.

(** New nodes without a parent, deep copies and deserialized trees have nothing in
    common with what existed before; ... *)
Theorem C63_new_objects_separate s :
  reach s -> sound s ->
  (forall cn n c s', new_node cn n None s = (Ret c, s') -> forall x, exists_node s x -> separate s' x c) /\
  (forall y c s', deepcopy y s = (Ret c, s') -> forall x, exists_node s x -> separate s' x c) /\
  (forall f ot j v s', deserialize f (std_env ot) j None s = (Ret v, s') ->
     forall x c, exists_node s x -> holds v c -> separate s' x c).
Proof.
  intros R S. pose proof (reach_wf s R) as W. split; [|split].
  - intros cn n c s' E x Hx. destruct (new_since s cn n _ s' W E) as (C & O & Q).
    exact (since_separate s s' W C O x c S (live_lt s x W Hx) (Q c eq_refl)).
  - intros y c s' E x Hx. destruct (copy_since s y _ s' W E) as (C & O & Q).
    exact (since_separate s s' W C O x c S (live_lt s x W Hx) (Q c eq_refl)).
  - intros f ot j v s' E x c Hx Hc. destruct (deserialize_since s f ot j _ s' W E) as (C & O & Q).
    exact (since_separate s s' W C O x c S (live_lt s x W Hx) (Q v c eq_refl Hc)).
Qed.
Print Assumptions C63_new_objects_separate.

(** ... so whatever is done with them, or goes wrong making them, leaves every older node as it was. *)
Theorem C63_old_nodes_kept s l x :
  reach s -> Forall (given (fun i => next_id s <= i)) l -> exists_node s x ->
  (forall cn n r s', new_node cn n None s = (r, s') -> same_node s (run_ops l s') x) /\
  (forall y r s', deepcopy y s = (r, s') -> same_node s (run_ops l s') x) /\
  (forall f ot j r s', deserialize f (std_env ot) j None s = (r, s') -> same_node s (run_ops l s') x).
Proof.
  intros R Hl Hx. pose proof (reach_wf s R) as W. pose proof (live_lt s x W Hx) as Lx. split; [|split].
  - intros cn n r s' E. destruct (new_since s cn n _ s' W E) as (C & O & _).
    exact (same_below s _ x W (fun i => since_program s s' C O l i Hl) Lx).
  - intros y r s' E. destruct (copy_since s y _ s' W E) as (C & O & _).
    exact (same_below s _ x W (fun i => since_program s s' C O l i Hl) Lx).
  - intros f ot j r s' E. destruct (deserialize_since s f ot j _ s' W E) as (C & O & _).
    exact (same_below s _ x W (fun i => since_program s s' C O l i Hl) Lx).
Qed.
Print Assumptions C63_old_nodes_kept.

Lemma pair_of {A B} (p : A * B) a : fst p = a -> p = (a, snd p).
Proof. destruct p. simpl. by intros ->. Qed.
(** A detached child is not separate from the tree it was in: it still has its parent. *)
Definition C63_d : st := after [ONew BN (KStr "root") None; ONew BN KNone None; OSet 0 (KStr "a") (VNode 1)].
Theorem C63_detached_separate_refuted :
  exists s x k c s', reach s /\ detach x k s = (Ret (VNode c), s') /\ entries_at s' x = [] /\ ~ separate s' x c.
Proof.
  exists C63_d, 0, (KStr "a"), 1, (snd (detach 0 (KStr "a") C63_d)). split; [apply after_reach|].
  split; [|split; [vm_compute; reflexivity|]].
  - apply pair_of. vm_compute. reflexivity.
  - apply child_of. vm_compute. reflexivity.
Qed.
Print Assumptions C63_detached_separate_refuted.

(** Nor is a shallow copy of a node whose storage was used: it shares the storage. *)
Theorem C63_shallow_copy_separate_refuted :
  exists s x c s' k v, reach s /\ copy x s = (Ret c, s') /\ ~ separate s' x c /\
    entries_at (snd (setitem c k v s')) x <> entries_at s' x.
Proof.
  exists C63_d, 0, 3, (snd (copy 0 C63_d)), (KStr "b"), (VNode 1). split; [apply after_reach|]. split; [|split].
  - apply pair_of. vm_compute. reflexivity.
  - apply (shared_storage _ _ _ 2); vm_compute; reflexivity.
  - vm_compute. discriminate.
Qed.
Print Assumptions C63_shallow_copy_separate_refuted.

(** Two trees, one of them with an index, and a program on it. *)
Definition C63_s : st := after
  [ONew NN (KStr "r") None; ONew NN KNone None; OSet 0 (KStr "a") (VNode 2); OAttrs 2;
   ONew BN (KStr "q") None; ONew BN KNone None; OSet 8 (KStr "b") (VNode 9)].
Definition C63_l : list op :=
  [ODetach 0 (KStr "a"); ONew NN KNone None; OSet 0 (KStr "n") (VNode 12); OSetUuid 0 (Some 77%N); OAttrs 0].
Example C63_example :
  reach C63_s /\ sound C63_s /\ exists_node C63_s 8 /\ separate C63_s 8 0 /\ Forall (given (of C63_s [0])) C63_l /\
  map fst (entries_at C63_s 8) = [KStr "b"] /\ map fst (entries_at (run_ops C63_l C63_s) 8) = [KStr "b"] /\
  map fst (entries_at C63_s 0) = [KStr "a"] /\ map fst (entries_at (run_ops C63_l C63_s) 0) = [KStr "n"].
Proof.
  split; [apply after_reach|]. split; [apply sound_computed; vm_compute; reflexivity|].
  split; [apply existsb_node_spec; vm_compute; reflexivity|].
  split; [apply (separate_computed _ _ _ [8; 9; 10] [0; 1; 2; 4; 5; 6; 7]); vm_compute; reflexivity|].
  split.
  { assert (H0 : of C63_s [0] 0) by (right; exists 0; split; [left|apply rtc_refl]).
    assert (H1 : of C63_s [0] 12). { left. apply Nat.leb_le. vm_compute. reflexivity. }
    unfold C63_l. constructor; [exact H0|]. constructor; [intros q Hq; discriminate Hq|].
    constructor; [split; [exact H0|exact (vin_node _ 12 H1)]|]. constructor; [exact H0|]. constructor; [exact H0|constructor]. }
  split; [vm_compute; reflexivity|]. split; [vm_compute; reflexivity|]. split; vm_compute; reflexivity.
Qed.
