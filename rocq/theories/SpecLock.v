(** Specifications for locking. *)
From Verif Require Import Py Lock.

(** Configurations a process gets into: threads with arbitrary programs, nothing held; then
    any schedule.  New threads may start any time. *)
Inductive lreach (root : nat -> nat) (attr : gmap nat nat) (next : nat) : cfg -> Prop :=
| lreach_init : lreach root attr next (Cfg root attr ∅ next ∅)
| lreach_spawn c t p : lreach root attr next c -> g_thr c !! t = None -> lreach root attr next (put t ([KStmts p], Normal) c)
| lreach_step c t c' : lreach root attr next c -> lstep t c = Some c' -> lreach root attr next c'.

(** Thread [t] is inside a block for a node for which [P] holds. *)
Definition inside_block (c : cfg) (t : nat) (P : nat -> Prop) : Prop :=
  exists K m l n, g_thr c !! t = Some (K, m) /\ KRelease l n ∈ K /\ P n.

(** Programs that leave the tree with root [r] alone: the same nodes have this root. *)
Fixpoint keeps_tree (r : nat) (a : stmt) : Prop :=
  match a with
  | Locked _ b | Try b => (fix all l := match l with [] => True | x :: q => keeps_tree r x /\ all q end) b
  | Reroot g => forall f n, g f n = r <-> f n = r
  | _ => True
  end.
(** Every thread was started with such a program. *)
Inductive lreach_in (r : nat) (root : nat -> nat) (attr : gmap nat nat) (next : nat) : cfg -> Prop :=
| lin_init : lreach_in r root attr next (Cfg root attr ∅ next ∅)
| lin_spawn c t p : lreach_in r root attr next c -> g_thr c !! t = None -> Forall (keeps_tree r) p ->
    lreach_in r root attr next (put t ([KStmts p], Normal) c)
| lin_step c t c' : lreach_in r root attr next c -> lstep t c = Some c' -> lreach_in r root attr next c'.

(** How often a thread holds a lock. *)
Definition holds (c : cfg) (t l : nat) : nat :=
  match g_held c !! l with Some (o, k) => if decide (o = t) then k else 0 | None => 0 end.
(** A schedule: a list of threads taking steps in turn. *)
Fixpoint sched (ts : list nat) (c : cfg) : option cfg :=
  match ts with [] => Some c | t :: r => match lstep t c with Some c' => sched r c' | None => None end end.
Definition finished (c : cfg) (t : nat) : Prop := exists m, g_thr c !! t = Some ([], m).
