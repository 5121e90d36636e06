(** Tree locks as attributes of nodes.  TreeLock keeps its RLock on the root node, as [_treelock] in the
    instance's [__dict__] (locking.py 7-11), where attribute access and copies come across it.
    What acquiring and releasing do is in Lock.v. *)
From Verif Require Import Py Heap Model Utils Refs.

Record lst := Lst {
  l_st : st;
  l_lock : gmap nat nat;   (* the nodes with [_treelock] in their [__dict__], and which RLock it is *)
  l_made : nat             (* how many RLocks were made *)
}.
(** any other call of the library: it does not touch [_treelock] *)
Definition elsewhere {A} (m : M A) (w : lst) : res A * lst :=
  let '(r, s') := m (l_st w) in (r, Lst s' (l_lock w) (l_made w)).

(** what [self.lock] is *)
Inductive lock_ref :=
| TheLock (l : nat)     (* an RLock *)
| NoLock (v : val).     (* some other object *)

(** names found by the normal lookup: no class of this library defines [_treelock] *)
Definition own_names (w : lst) (r : nat) (n : string) : bool :=
  String.eqb n "_treelock" && bool_decide (is_Some (l_lock w !! r)).
(** [root._treelock = RLock()], locking.py 11 *)
Definition make_lock (r : nat) (w : lst) : res lock_ref * lst :=
  (Ret (TheLock (l_made w)), Lst (l_st w) (<[r := l_made w]> (l_lock w)) (S (l_made w))).
(** [TreeLock(node)], locking.py 7-11 *)
Definition tree_lock (x : nat) (w : lst) : res lock_ref * lst :=
  match elsewhere (root_of x) w with
  | (Ret (Some r), w1) =>
      match elsewhere (py_getattr (let! a := node_getattr (own_names w1 r) r "_treelock" in ret (Some a)) None) w1 with
      | (Ret (Some (FromContext VNone)), w2) | (Ret None, w2) => make_lock r w2
      | (Ret (Some (FromContext v)), w2) => (Ret (NoLock v), w2)
      | (Ret (Some (OwnAttribute _)), w2) =>
          match l_lock w2 !! r with Some l => (Ret (TheLock l), w2) | None => make_lock r w2 end
      | (Exc e, w2) => (Exc e, w2)
      end
  | (Ret None, w1) => (Exc Unspecified, w1)
  | (Exc e, w1) => (Exc e, w1)
  end.

(** [copy()], mapping.py 151-153 and nodify.py 33-38: copy.copy takes over the [__dict__] *)
Definition copy_l (x : nat) (w : lst) : res nat * lst :=
  match copy x (l_st w) with
  | (Ret c, s') => (Ret c, Lst s' (match l_lock w !! x with Some l => <[c := l]> (l_lock w) | None => l_lock w end) (l_made w))
  | (Exc e, s') => (Exc e, Lst s' (l_lock w) (l_made w))
  end.
(** [deepcopy()], mapping.py 155-158: copy.deepcopy copies everything it comes across, and an RLock
    cannot be copied (TypeError).  Until then it has only made new objects, which are lost. *)
Definition deepcopy_l (x : nat) (w : lst) : res nat * lst :=
  if existsb (fun i => bool_decide (is_Some (l_lock w !! i))) (reached (l_st w) x) then (Exc TypeError, w)
  else elsewhere (deepcopy x) w.
