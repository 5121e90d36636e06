(** locking.py: TreeLock and locktree, as threads interleaving step by step. *)
From Verif Require Import Py.

Notation lnode := nat (only parsing).    (* a node *)
Notation lockid := nat (only parsing).   (* an RLock object *)

(** What threads do.  [Locked n b] is [with TreeLock(n): b] (locking.py 5-22) as well as a call
    of a locktree-decorated method of node n with body b (25-36): both construct the lock
    object, acquire, run the body and release in any case.  [Reroot g]: any change to the tree
    that changes which root nodes have.  [Raise e]: any exception of client code. *)
Inductive stmt :=
| Locked (n : lnode) (b : list stmt)
| Reroot (g : (lnode -> lnode) -> lnode -> lnode)
| Work
| Raise (e : nat)
| Try (b : list stmt).

(** What a thread still has to do; the steps of TreeLock.__init__ (7-11), acquire (13-14),
    release (18-19).  [KRelease l n]: the thread is inside a block for node n that will release
    lock l. *)
Inductive frame :=
| KStmts (p : list stmt)
| KGetattr (r : lnode) (n : lnode) (b : list stmt)  (* getattr(root, '_treelock', None) is next *)
| KCreate (r : lnode) (n : lnode) (b : list stmt)   (* RLock() is next *)
| KStore (r : lnode) (l : lockid) (n : lnode) (b : list stmt) (* root._treelock = lock is next *)
| KAcquire (l : lockid) (n : lnode) (b : list stmt)
| KRelease (l : lockid) (n : lnode)
| KTry.
(** RuntimeError: release of a lock the thread does not hold *)
Inductive lmode := Normal | Raising (e : nat) | RuntimeErr.

Record cfg := Cfg {
  g_root : lnode -> lnode;                    (* node.root, for every node *)
  g_attr : gmap lnode lockid;                 (* root._treelock *)
  g_held : gmap lockid (nat * nat);           (* held RLocks: owner and how often *)
  g_next : lockid;
  g_thr : gmap nat (list frame * lmode)
}.
Definition put (t : nat) (x : list frame * lmode) (c : cfg) : cfg :=
  Cfg (g_root c) (g_attr c) (g_held c) (g_next c) (<[t := x]> (g_thr c)).

(** RLock.acquire in a thread: possible if the lock is free or the thread's own. *)
Definition acquire (t : nat) (l : lockid) (h : gmap lockid (nat * nat)) : option (gmap lockid (nat * nat)) :=
  match h !! l with
  | None => Some (<[l := (t, 1)]> h)
  | Some (o, k) => if decide (o = t) then Some (<[l := (t, S k)]> h) else None
  end.
(** RLock.release: None if the thread does not hold it (RuntimeError). *)
Definition release (t : nat) (l : lockid) (h : gmap lockid (nat * nat)) : option (gmap lockid (nat * nat)) :=
  match h !! l with
  | Some (o, S k) => if decide (o = t) then Some (match k with O => delete l h | _ => <[l := (t, k)]> h end) else None
  | _ => None
  end.

(** One step of a thread. *)
Definition lstep (t : nat) (c : cfg) : option cfg :=
  match g_thr c !! t with
  | None => None
  | Some ([], _) => None
  | Some (f :: K, Normal) =>
      match f with
      | KStmts [] => Some (put t (K, Normal) c)
      | KStmts (a :: p) =>
          match a with
          | Locked n b => Some (put t (KGetattr (g_root c n) n b :: KStmts p :: K, Normal) c)
          | Reroot g => Some (Cfg (g (g_root c)) (g_attr c) (g_held c) (g_next c) (<[t := (KStmts p :: K, Normal)]> (g_thr c)))
          | Work => Some (put t (KStmts p :: K, Normal) c)
          | Raise e => Some (put t (KStmts p :: K, Raising e) c)
          | Try b => Some (put t (KStmts b :: KTry :: KStmts p :: K, Normal) c)
          end
      | KGetattr r n b =>
          match g_attr c !! r with
          | Some l => Some (put t (KAcquire l n b :: K, Normal) c)
          | None => Some (put t (KCreate r n b :: K, Normal) c)
          end
      | KCreate r n b =>
          Some (Cfg (g_root c) (g_attr c) (g_held c) (S (g_next c)) (<[t := (KStore r (g_next c) n b :: K, Normal)]> (g_thr c)))
      | KStore r l n b =>
          Some (Cfg (g_root c) (<[r := l]> (g_attr c)) (g_held c) (g_next c) (<[t := (KAcquire l n b :: K, Normal)]> (g_thr c)))
      | KAcquire l n b =>
          match acquire t l (g_held c) with
          | Some h => Some (Cfg (g_root c) (g_attr c) h (g_next c) (<[t := (KStmts b :: KRelease l n :: K, Normal)]> (g_thr c)))
          | None => None
          end
      | KRelease l n =>
          match release t l (g_held c) with
          | Some h => Some (Cfg (g_root c) (g_attr c) h (g_next c) (<[t := (K, Normal)]> (g_thr c)))
          | None => Some (put t (K, RuntimeErr) c)
          end
      | KTry => Some (put t (K, Normal) c)
      end
  | Some (f :: K, m) =>
      match f with
      | KRelease l n =>
          match release t l (g_held c) with
          | Some h => Some (Cfg (g_root c) (g_attr c) h (g_next c) (<[t := (K, m)]> (g_thr c)))
          | None => Some (put t (K, RuntimeErr) c)
          end
      | KTry => Some (put t (K, Normal) c)
      | _ => Some (put t (K, m) c)
      end
  end.
