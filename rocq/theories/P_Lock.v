(** C39, C40: tree locks. *)
From Verif Require Import Py Lock SpecLock LockProofs.

(** * C39 *)
(** Once the root carries its lock, at most one thread is inside blocks for nodes of the tree. *)
Theorem C39_tree_lock_excludes r root attr next l0 c t1 t2 :
  attr !! r = Some l0 -> lreach_in r root attr next c ->
  inside_block c t1 (fun n => g_root c n = r) -> inside_block c t2 (fun n => g_root c n = r) -> t1 = t2.
Proof. exact (tree_exclusive r root attr next l0 c t1 t2). Qed.

(** Whatever threads do to trees: blocks using the same lock object exclude each other. *)
Theorem C39_one_holder root attr next c l t1 t2 K1 m1 n1 K2 m2 n2 :
  lreach root attr next c ->
  g_thr c !! t1 = Some (K1, m1) -> KRelease l n1 ∈ K1 ->
  g_thr c !! t2 = Some (K2, m2) -> KRelease l n2 ∈ K2 -> t1 = t2.
Proof. intros H. exact (exclusive c l t1 t2 K1 m1 n1 K2 m2 n2 (lreach_inv root attr next c H)). Qed.

(** With one tree, threads (also nesting blocks) never block each other forever. *)
Theorem C39_no_deadlock r root attr next l0 c t K m :
  attr !! r = Some l0 -> lreach_in r root attr next c -> (forall n, g_root c n = r) ->
  g_thr c !! t = Some (K, m) -> K <> [] -> exists t' c', lstep t' c = Some c'.
Proof. exact (no_deadlock r root attr next l0 c t K m). Qed.

(** A root that carries no lock yet: any two threads about to lock nodes of its tree can both
    get inside. *)
Theorem C39_first_use_races_refuted c t1 t2 n1 n2 b1 b2 p1 p2 K1 K2 r :
  t1 <> t2 -> g_attr c !! r = None -> g_root c n1 = r -> g_root c n2 = r ->
  g_held c !! g_next c = None -> g_held c !! S (g_next c) = None ->
  g_thr c !! t1 = Some (KStmts (Locked n1 b1 :: p1) :: K1, Normal) ->
  g_thr c !! t2 = Some (KStmts (Locked n2 b2 :: p2) :: K2, Normal) ->
  exists ts c', sched ts c = Some c' /\ g_root c' = g_root c /\
    inside_block c' t1 (fun n => n = n1) /\ inside_block c' t2 (fun n => n = n2).
Proof. exact (race c t1 t2 n1 n2 b1 b2 p1 p2 K1 K2 r). Qed.

(** * C40 *)
(** However a block is left (mode m: normally or by any exception), the release is possible at
    once, raises nothing itself, gives back exactly one hold of exactly the lock taken, and
    the exception goes on unchanged. *)
Theorem C40_release root attr next c t l n K m :
  lreach root attr next c -> g_thr c !! t = Some (KRelease l n :: K, m) ->
  exists c', lstep t c = Some c' /\ g_thr c' !! t = Some (K, m) /\ holds c t l = S (holds c' t l) /\
    (forall t' l', (t', l') <> (t, l) -> holds c' t' l' = holds c t' l') /\
    (forall t', t' <> t -> g_thr c' !! t' = g_thr c !! t') /\ g_root c' = g_root c /\ g_attr c' = g_attr c.
Proof. exact (release_prop root attr next c t l n K m). Qed.

(** No thread ever releases a lock it does not hold. *)
Theorem C40_no_runtime_error root attr next c t K m :
  lreach root attr next c -> g_thr c !! t = Some (K, m) -> m <> RuntimeErr.
Proof. intros H. exact (li_mode c (lreach_inv root attr next c H) t K m). Qed.

(** A thread holds a lock exactly as often as it is inside blocks that took it. *)
Theorem C40_balanced root attr next c t K m l :
  lreach root attr next c -> g_thr c !! t = Some (K, m) ->
  holds c t l = length (List.filter (fun f => match f with KRelease l' _ => Nat.eqb l' l | _ => false end) K).
Proof. exact (balanced_prop root attr next c t K m l). Qed.

(** After a block the thread holds what it held before it, even if nodes moved to other trees
    in between; a finished thread holds nothing. *)
Theorem C40_block_neutral root attr next c c' t n b p K m m' l :
  lreach root attr next c -> lreach root attr next c' ->
  g_thr c !! t = Some (KStmts (Locked n b :: p) :: K, m) -> g_thr c' !! t = Some (KStmts p :: K, m') ->
  holds c' t l = holds c t l.
Proof. exact (neutral_prop root attr next c c' t n b p K m m' l). Qed.
Theorem C40_finished root attr next c t l :
  lreach root attr next c -> finished c t -> holds c t l = 0.
Proof. exact (finished_prop root attr next c t l). Qed.

(** * Concrete cases *)
(** two threads nesting blocks in one tree with root 1; the second raises inside *)
Definition prog1 : list stmt := [Locked 2 [Work; Locked 3 [Work]]; Work].
Definition prog2 : list stmt := [Try [Locked 4 [Raise 7]]; Locked 2 []].
Definition root1 : nat -> nat := fun _ => 1.
Definition start : cfg := put 11 ([KStmts prog2], Normal) (put 10 ([KStmts prog1], Normal) (Cfg root1 {[ 1 := 5 ]} ∅ 6 ∅)).
Lemma start_reach : lreach_in 1 root1 {[ 1 := 5 ]} 6 start.
Proof.
  apply lin_spawn; [apply lin_spawn; [constructor|done|]|done|]; repeat constructor.
Qed.
Lemma sched_reach r root attr next ts : forall c c', lreach_in r root attr next c -> sched ts c = Some c' -> lreach_in r root attr next c'.
Proof.
  induction ts as [|t ts IH]; simpl; intros c c' H E; [by injection E as <-|].
  destruct (lstep t c) as [c''|] eqn:El; [|done]. eapply IH; [|exact E]. by eapply lin_step.
Qed.
Definition run1 (ts : list nat) : cfg := default start (sched ts start).
Lemma run1_reach ts : lreach_in 1 root1 {[ 1 := 5 ]} 6 (run1 ts).
Proof.
  unfold run1. destruct (sched ts start) as [c|] eqn:E; [|apply start_reach]. eapply sched_reach; [apply start_reach|exact E].
Qed.
Example C39_witness :
  inside_block (run1 [10; 10; 10; 10; 10; 10; 10; 11; 11; 11]) 10 (fun n => g_root start n = 1) /\
  holds (run1 [10; 10; 10; 10; 10; 10; 10; 11; 11; 11]) 10 5 = 2 /\
  lstep 11 (run1 [10; 10; 10; 10; 10; 10; 10; 11; 11; 11]) = None /\
  lreach_in 1 root1 {[ 1 := 5 ]} 6 (run1 [10; 10; 10; 10; 10; 10; 10; 11; 11; 11]).
Proof.
  split; [|split; [|split]].
  - eexists _, _, _, 3. split; [vm_compute; reflexivity|]. split; [|done]. repeat (first [left; done|right]); left.
  - vm_compute. done.
  - vm_compute. done.
  - apply run1_reach.
Qed.
(** Leaving the inner block does not let the other thread in; leaving the outer one does. *)
Example C39_nested_example :
  let inner_left := run1 (repeat 10 10 ++ [11; 11; 11]) in let left := run1 (repeat 10 12 ++ [11; 11; 11]) in
  lreach_in 1 root1 {[ 1 := 5 ]} 6 inner_left /\ holds inner_left 10 5 = 1 /\ inside_block inner_left 10 (fun n => g_root start n = 1) /\
  (lstep 11 inner_left = None /\ holds left 10 5 = 0 /\ is_Some (lstep 11 left)).
Proof.
  split; [apply run1_reach|]. split; [by vm_compute|]. split; [|split; [by vm_compute|]; split; [by vm_compute|]; vm_compute; eauto].
  eexists _, _, _, 2. split; [vm_compute; reflexivity|]. split; [|done]. repeat (first [left; done|right]); left.
Qed.
(** the same programs on a tree that was never locked *)
Example C39_race_witness : exists ts c', sched ts (put 11 ([KStmts [Locked 4 [Work]]], Normal) (put 10 ([KStmts prog1], Normal) (Cfg root1 ∅ ∅ 6 ∅))) = Some c' /\
  inside_block c' 10 (fun n => n = 2) /\ inside_block c' 11 (fun n => n = 4).
Proof.
  destruct (C39_first_use_races_refuted (put 11 ([KStmts [Locked 4 [Work]]], Normal) (put 10 ([KStmts prog1], Normal) (Cfg root1 ∅ ∅ 6 ∅)))
    10 11 2 4 [Work; Locked 3 [Work]] [Work] [Work] [] [] [] 1) as (ts & c' & H1 & _ & H2); try done. eauto.
Qed.
Example C40_witness :
  g_thr (run1 [11; 11; 11; 11; 11; 11]) !! 11 = Some ([KRelease 5 4; KStmts []; KTry; KStmts [Locked 2 []]], Raising 7) /\
  holds (run1 [11; 11; 11; 11; 11; 11]) 11 5 = 1 /\ holds (run1 [11; 11; 11; 11; 11; 11; 11]) 11 5 = 0 /\
  lreach_in 1 root1 {[ 1 := 5 ]} 6 (run1 [11; 11; 11; 11; 11; 11]).
Proof.
  split; [vm_compute; done|]. split; [vm_compute; done|]. split; [vm_compute; done|]. apply run1_reach.
Qed.
Print Assumptions C39_tree_lock_excludes.
Print Assumptions C39_one_holder.
Print Assumptions C39_no_deadlock.
Print Assumptions C39_first_use_races_refuted.
Print Assumptions C40_release.
Print Assumptions C40_no_runtime_error.
Print Assumptions C40_balanced.
Print Assumptions C40_block_neutral.
Print Assumptions C40_finished.
