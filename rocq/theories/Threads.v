(** Threads that work on a tree while they take its lock: locking.py together with the data
    the lock is meant to protect.

    The data [D] is whatever the threads share (the tree); [L] is what a thread knows (local
    variables, results of calls).  A [Work] statement of Lock.v is one step on the data: from what the
    thread knows and the data it computes both anew and what the thread goes on with ([act]).
    So branches, loops and exceptions may depend on what was read, and a call like [node[k] = v]
    may be cut into as many steps as one likes. *)
From Verif Require Import Py Lock.

Record world (L D : Type) := World {
  w_cfg : cfg;             (* who runs what, locks, roots *)
  w_loc : gmap nat L;      (* what each thread knows *)
  w_data : D
}.
Arguments World {L D}.
Arguments w_cfg {L D}.
Arguments w_loc {L D}.
Arguments w_data {L D}.
Definition work (L D : Type) := nat -> L -> D -> L * D * list stmt.

(** One step of thread [t]: as in Lock.v (locking.py 5-36); a [Work] step acts on the data. *)
Definition wstep {L D} (act : work L D) (t : nat) (w : world L D) : option (world L D) :=
  match g_thr (w_cfg w) !! t, w_loc w !! t with
  | Some (KStmts (Work :: p) :: K, Normal), Some l =>
      let '(l', d', q) := act t l (w_data w) in
      Some (World (put t (KStmts q :: KStmts p :: K, Normal) (w_cfg w)) (<[t := l']> (w_loc w)) d')
  | _, _ =>
      match lstep t (w_cfg w) with
      | Some c => Some (World c (w_loc w) (w_data w))
      | None => None
      end
  end.
(** [threading.Thread(target=p).start()] *)
Definition spawn {L D} (t : nat) (p : list stmt) (l : L) (w : world L D) : world L D :=
  World (put t ([KStmts p], Normal) (w_cfg w)) (<[t := l]> (w_loc w)) (w_data w).
