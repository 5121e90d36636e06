(** C64: tree locks and copies. *)
From Verif Require Import Py Odict Aliaser Heap Model Classes WF Observe Reach Play SpecMapping SpecCopy SpecRegion Refs RefsProofs Utils LockCopy SpecLockCopy LockCopyProofs.

(** deepcopy() of a node from which a lock can be reached fails, and nothing changes. *)
Theorem C64_lock_prevents_deepcopy w x :
  lock_reach w -> exists_node (l_st w) x -> lock_in_sight w x -> deepcopy_l x w = (Exc TypeError, w).
Proof. intros R. exact (deepcopy_refused w x (lock_reach_ok w R)). Qed.
(** Otherwise it does what it does in programs without locks (C42, C43). *)
Theorem C64_deepcopy_without_lock w x r s' :
  lock_reach w -> exists_node (l_st w) x -> ~ lock_in_sight w x -> deepcopy x (l_st w) = (r, s') ->
  deepcopy_l x w = (r, Lst s' (l_lock w) (l_made w)).
Proof. intros R. exact (deepcopy_free w x r s' (lock_reach_ok w R)). Qed.

(** Once a node was locked, for the rest of the program all nodes which then have the root it had get the
    same lock, and they, like all nodes from which this root can be reached, cannot be deepcopied. *)
Theorem C64_locked_for_good w x l w1 w2 :
  lock_reach w -> exists_node (l_st w) x -> tree_lock x w = (Ret (TheLock l), w1) -> rtc lock_step w1 w2 ->
  exists r, root_of x (l_st w) = (Ret (Some r), l_st w) /\
    forall y, exists_node (l_st w2) y ->
      (root_of y (l_st w2) = (Ret (Some r), l_st w2) -> tree_lock y w2 = (Ret (TheLock l), w2) /\ deepcopy_l y w2 = (Exc TypeError, w2)) /\
      (reaches (l_st w2) y r -> deepcopy_l y w2 = (Exc TypeError, w2)).
Proof.
  intros R Hx E S. pose proof (lock_reach_ok w R) as K. destruct (lock_on_root w x l w1 E) as (r & Er & _ & El). exists r. split; [exact Er|].
  destruct (lock_step_ok w w1 K (ls_lock w x _ w1 Hx E)) as (K1 & _). destruct (lock_steps_ok w1 w2 K1 S) as (K2 & _ & L2).
  intros y Hy. assert (D : reaches (l_st w2) y r -> deepcopy_l y w2 = (Exc TypeError, w2)).
  { intros Hr. apply (deepcopy_refused w2 y K2 Hy). exists r. split; [exact Hr|]. exists l. exact (L2 r l El). }
  split; [|exact D]. intros Hr. split; [exact (same_lock w2 y r l Hr (L2 r l El))|].
  apply D. destruct (root_reaches _ _ _ _ Hr) as (_ & q & Eq & Hq). injection Eq as ->. exact Hq.
Qed.
(** Locks are not shared by trees: a new lock is different from all others. *)
Theorem C64_own_lock_each w x r : lock_reach w -> exists_node (l_st w) x -> root_of x (l_st w) = (Ret (Some r), l_st w) ->
  (forall cls, class_of (l_st w) r = Some cls -> GetattrChildren ∉ c_behs cls) ->
  exists l w1, tree_lock x w = (Ret (TheLock l), w1) /\ l_st w1 = l_st w /\ forall y, y <> r -> l_lock w !! y <> Some l.
Proof. intros R Hx. exact (own_lock w x r (lock_reach_made w R)). Qed.

(** A shallow copy takes over the lock of the original: both have the same lock, if they have no parent. *)
Theorem C64_copy_takes_lock w x cls l :
  lock_reach w -> class_of (l_st w) x = Some cls -> UUIDAware ∉ c_behs cls -> GetattrChildren ∉ c_behs cls ->
  l_lock w !! x = Some l -> parent_at (l_st w) x = None ->
  exists c w', copy_l x w = (Ret c, w') /\ looks_like (l_st w) x (l_st w') c /\
    tree_lock c w' = (Ret (TheLock l), w') /\ tree_lock x w = (Ret (TheLock l), w).
Proof. intros R Hc Hu _. exact (copy_lock_same w x cls l (lock_reach_ok w R) Hc Hu). Qed.

(** If the root has GetattrChildren and was not locked before, TreeLock asks its children for [_treelock]: locking
    fails with their KeyError, and a child of this name is taken for the lock. *)
Theorem C64_getattr_children_refuted w x r cls :
  lock_reach w -> exists_node (l_st w) x -> root_of x (l_st w) = (Ret (Some r), l_st w) ->
  class_of (l_st w) r = Some cls -> GetattrChildren ∈ c_behs cls -> ~ has_lock w r ->
  (forall e s', getitem r (KStr "_treelock") (l_st w) = (Exc e, s') -> e <> AttributeError ->
     tree_lock x w = (Exc e, Lst s' (l_lock w) (l_made w))) /\
  (forall v s', getitem r (KStr "_treelock") (l_st w) = (Ret v, s') -> v <> VNone ->
     tree_lock x w = (Ret (NoLock v), Lst s' (l_lock w) (l_made w))).
Proof. intros _ _. exact (getattr_lock w x r cls). Qed.

Lemma pair_of {A B} (p : A * B) a : fst p = a -> p = (a, snd p).
Proof. destruct p. simpl. by intros ->. Qed.
Definition no_deepcopy (o : op) : bool := match o with ODeepcopy _ => false | _ => true end.
Lemma play_locks l : forall s s' m n, forallb no_deepcopy l = true -> play l s = Some s' -> rtc lock_step (Lst s m n) (Lst s' m n).
Proof.
  induction l as [|o l IH]; simpl; intros s s' m n Hn E; [injection E as ->; apply rtc_refl|].
  apply andb_true_iff in Hn as [H1 H2]. destruct (op_okb s o) eqn:Hok; [|done].
  eapply rtc_l; [|exact (IH _ s' m n H2 E)]. apply (ls_call _ o (fst (run_op o s))); [exact (op_okb_spec _ _ Hok)|intros x ->; discriminate H1|].
  unfold elsewhere. simpl. destruct (run_op o s). reflexivity.
Qed.
Lemma played l : bool_decide (is_Some (next_id <$> play l st0)) = true -> play l st0 = Some (after l).
Proof. intros H%bool_decide_eq_true. unfold after. destruct (play l st0); [done|]. by destruct H. Qed.
(** A tree of three and a node of its own; the lowest node of the tree is locked. *)
Definition C64_l := [ONew BN (KStr "r") None; ONew BN KNone None; ONew BN KNone None; ONew BN (KStr "q") None;
  OSet 0 (KStr "a") (VNode 1); OSet 1 (KStr "b") (VNode 2)].
Definition C64_s : st := after C64_l.
Definition C64_w : lst := Lst C64_s ∅ 0.
Definition C64_w1 : lst := snd (tree_lock 2 C64_w).
Example C64_example :
  lock_reach C64_w /\ exists_node C64_s 2 /\ tree_lock 2 C64_w = (Ret (TheLock 0), C64_w1) /\
  fst (deepcopy_l 1 C64_w) = Ret (next_id C64_s + 1) /\ lock_reach C64_w1 /\ lock_in_sight C64_w1 1 /\ ~ lock_in_sight C64_w1 3 /\
  fst (deepcopy_l 1 C64_w1) = Exc TypeError /\ fst (deepcopy_l 3 C64_w1) = Ret (next_id C64_s + 3) /\
  fst (tree_lock 0 C64_w1) = Ret (TheLock 0) /\ fst (tree_lock 3 C64_w1) = Ret (TheLock 1).
Proof.
  assert (R : lock_reach C64_w).
  { exists (classes st0). apply (play_locks C64_l st0); [reflexivity|]. apply played. vm_compute. reflexivity. }
  assert (X : forall i, existsb_node C64_s i = true -> exists_node C64_s i) by (intros i; apply existsb_node_spec).
  assert (E : tree_lock 2 C64_w = (Ret (TheLock 0), C64_w1)). { unfold C64_w1. apply (pair_of (tree_lock 2 C64_w)). vm_compute. reflexivity. }
  assert (X2 : exists_node C64_s 2) by (apply X; vm_compute; reflexivity).
  assert (R1 : lock_reach C64_w1). { destruct R as [cs R]. exists cs. eapply rtc_r; [exact R|]. exact (ls_lock C64_w 2 _ _ X2 E). }
  assert (E1 : forall i, exists_node C64_s i -> exists_node (l_st C64_w1) i) by (apply (lock_step_ok _ _ (lock_reach_ok _ R) (ls_lock C64_w 2 _ _ X2 E))).
  assert (X1 : forall i, existsb_node C64_s i = true -> exists_node (l_st C64_w1) i) by (intros i Hi; apply E1, X, Hi).
  split; [exact R|]. split; [exact X2|]. split; [exact E|]. split; [vm_compute; reflexivity|]. split; [exact R1|].
  split; [apply (in_sight _ _ (lock_reach_ok _ R1) (X1 1 ltac:(vm_compute; reflexivity))); vm_compute; reflexivity|].
  split; [intros H; apply (in_sight _ _ (lock_reach_ok _ R1) (X1 3 ltac:(vm_compute; reflexivity))) in H; vm_compute in H; discriminate H|].
  split; [vm_compute; reflexivity|]. split; [vm_compute; reflexivity|]. split; vm_compute; reflexivity.
Qed.
(** a copy of the locked root has its lock *)
Example C64_copy_example : fst (copy_l 0 C64_w1) = Ret 6 /\ fst (tree_lock 6 (snd (copy_l 0 C64_w1))) = Ret (TheLock 0).
Proof. split; vm_compute; reflexivity. Qed.
Print Assumptions C64_lock_prevents_deepcopy.
Print Assumptions C64_deepcopy_without_lock.
Print Assumptions C64_locked_for_good.
Print Assumptions C64_own_lock_each.
Print Assumptions C64_copy_takes_lock.
Print Assumptions C64_getattr_children_refuted.
