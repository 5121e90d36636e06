(** Specification for threads that take the lock of a tree around everything they do to it. *)
From Verif Require Import Py SpecMapping Lock SpecLock Threads.
From stdpp Require Import relations.

(** * Discipline *)
(** What may be done inside a block: anything, as long as the nodes locked belong to the tree
    with root [r] and the tree keeps its nodes. *)
Fixpoint inner (r : nat) (root : nat -> nat) (a : stmt) : Prop :=
  match a with
  | Locked n b => root n = r /\ (fix all l := match l with [] => True | x :: q => inner r root x /\ all q end) b
  | Try b => (fix all l := match l with [] => True | x :: q => inner r root x /\ all q end) b
  | Reroot g => forall f n, g f n = r <-> f n = r
  | Work | Raise _ => True
  end.
(** Outside of blocks the data is not touched. *)
Fixpoint outer (r : nat) (root : nat -> nat) (a : stmt) : Prop :=
  match a with
  | Locked n b => root n = r /\ Forall (inner r root) b
  | Try b => (fix all l := match l with [] => True | x :: q => outer r root x /\ all q end) b
  | Reroot g => forall f n, g f n = r <-> f n = r
  | Raise _ => True
  | Work => False
  end.
(** Threads may start with certain programs, and know something at the beginning. *)
Definition starts (L : Type) := nat -> list stmt -> L -> Prop.
(** The discipline of a process: its threads work on the data inside of blocks only. *)
Definition disciplined {L D} (r : nat) (root : nat -> nat) (start : starts L) (act : work L D) : Prop :=
  (forall t p l, start t p l -> Forall (outer r root) p) /\
  (forall t l d, Forall (inner r root) (snd (act t l d))).
(** What a process gets to: threads start any time and take steps in any order. *)
Inductive threads_reach {L D} (start : starts L) (act : work L D) (root : nat -> nat) (attr : gmap nat nat) (next : nat) (d : D) : world L D -> Prop :=
| tr_init : threads_reach start act root attr next d (World (Cfg root attr ∅ next ∅) ∅ d)
| tr_spawn w t p l : threads_reach start act root attr next d w -> g_thr (w_cfg w) !! t = None -> start t p l ->
    threads_reach start act root attr next d (spawn t p l w)
| tr_step w t w' : threads_reach start act root attr next d w -> wstep act t w = Some w' ->
    threads_reach start act root attr next d w'.

(** * Running one block after the other *)
(** A thread all by itself; locks play no part. *)
Record solo (L D : Type) := Solo { a_todo : list frame; a_mode : lmode; a_loc : L; a_data : D }.
Arguments Solo {L D}.
Arguments a_todo {L D}.
Arguments a_mode {L D}.
Arguments a_loc {L D}.
Arguments a_data {L D}.
Definition alone_step {L D} (act : work L D) (t : nat) (a : solo L D) : option (solo L D) :=
  match a_todo a, a_mode a with
  | [], _ => None
  | KStmts [] :: K, Normal => Some (Solo K Normal (a_loc a) (a_data a))
  | KStmts (x :: p) :: K, Normal =>
      match x with
      | Locked _ b => Some (Solo (KStmts b :: KStmts p :: K) Normal (a_loc a) (a_data a))
      | Reroot _ => Some (Solo (KStmts p :: K) Normal (a_loc a) (a_data a))
      | Work => let '(l, d, q) := act t (a_loc a) (a_data a) in Some (Solo (KStmts q :: KStmts p :: K) Normal l d)
      | Raise e => Some (Solo (KStmts p :: K) (Raising e) (a_loc a) (a_data a))
      | Try b => Some (Solo (KStmts b :: KTry :: KStmts p :: K) Normal (a_loc a) (a_data a))
      end
  | KTry :: K, _ => Some (Solo K Normal (a_loc a) (a_data a))
  | _ :: K, m => Some (Solo K m (a_loc a) (a_data a))
  end.
Definition alone {L D} (act : work L D) (t : nat) : solo L D -> solo L D -> Prop :=
  rtc (fun a b => alone_step act t a = Some b).

(** All threads, without any lock, where a whole block is a single step. *)
Record serial (L D : Type) := Serial { z_thr : gmap nat (list frame * lmode); z_loc : gmap nat L; z_data : D }.
Arguments Serial {L D}.
Arguments z_thr {L D}.
Arguments z_loc {L D}.
Arguments z_data {L D}.
Definition at_block (K : list frame) (m : lmode) : bool :=
  match K, m with KStmts (Locked _ _ :: _) :: _, Normal => true | _, _ => false end.
Inductive serial_reach {L D} (start : starts L) (act : work L D) (d : D) : serial L D -> Prop :=
| sr_init : serial_reach start act d (Serial ∅ ∅ d)
| sr_spawn z t p l : serial_reach start act d z -> z_thr z !! t = None -> start t p l ->
    serial_reach start act d (Serial (<[t := ([KStmts p], Normal)]> (z_thr z)) (<[t := l]> (z_loc z)) (z_data z))
| sr_block z t n b p K m l l' d' : serial_reach start act d z ->
    z_thr z !! t = Some (KStmts (Locked n b :: p) :: K, Normal) -> z_loc z !! t = Some l ->
    alone act t (Solo [KStmts b] Normal l (z_data z)) (Solo [] m l' d') ->
    serial_reach start act d (Serial (<[t := (KStmts p :: K, m)]> (z_thr z)) (<[t := l']> (z_loc z)) d')
| sr_other z t K m l K' m' : serial_reach start act d z ->
    z_thr z !! t = Some (K, m) -> z_loc z !! t = Some l -> at_block K m = false ->
    alone_step act t (Solo K m l (z_data z)) = Some (Solo K' m' l (z_data z)) ->
    serial_reach start act d (Serial (<[t := (K', m')]> (z_thr z)) (z_loc z) (z_data z)).

(** The bodies of the blocks of a program that works inside of blocks only. *)
Fixpoint bodies (Q : list stmt -> Prop) (a : stmt) : Prop :=
  match a with
  | Locked _ b => Q b
  | Try b => (fix all l := match l with [] => True | x :: q => bodies Q x /\ all q end) b
  | Work => False
  | Reroot _ | Raise _ => True
  end.

(** * Calls on a node from several threads *)
(** What belongs to a thread in a list of blocks. *)
Definition of_thread {A} (t : nat) (l : list (nat * list A)) : list (list A) :=
  map snd (List.filter (fun e => Nat.eqb (fst e) t) l).
(** Blocks of calls, run one after another on one dictionary: what each block gets. *)
Fixpoint in_turn (p : policy) (order : list (nat * list call)) (d : list (key * val)) : list (nat * list answer) * list (key * val) :=
  match order with
  | [] => ([], d)
  | (t, cs) :: r =>
      let '(ans, d1) := calls_spec p cs d in
      let '(rest, d2) := in_turn p r d1 in ((t, ans) :: rest, d2)
  end.
