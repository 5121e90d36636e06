(** Programs that take tree locks. *)
From Verif Require Import Py Heap Model Observe Reach SpecRegion LockCopy.

(** A program: calls as in [reach], except that deep copies come across locks, and TreeLock(node). *)
Inductive lock_step (w : lst) : lst -> Prop :=
| ls_call o r w' : op_ok (l_st w) o -> (forall x, o <> ODeepcopy x) -> elsewhere (run_op o) w = (r, w') -> lock_step w w'
| ls_deepcopy x r w' : exists_node (l_st w) x -> deepcopy_l x w = (r, w') -> lock_step w w'
| ls_lock x r w' : exists_node (l_st w) x -> tree_lock x w = (r, w') -> lock_step w w'.
Definition lock_reach (w : lst) : Prop := exists cs, rtc lock_step (Lst (St ∅ ∅ ∅ 0 1 [] (-1) cs) ∅ 0) w.

(** the node has been the root of a node that was locked *)
Definition has_lock (w : lst) (y : nat) : Prop := is_Some (l_lock w !! y).
(** a lock can be reached *)
Definition lock_in_sight (w : lst) (x : nat) : Prop := exists y, reaches (l_st w) x y /\ has_lock w y.
