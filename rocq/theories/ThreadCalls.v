(** Threads calling the mapping API of a node inside [with TreeLock(node)] blocks. *)
From Verif Require Import Py Odict Aliaser Heap Model SpecMapping MappingProofs Lock Threads.

(** A thread that runs one block [with TreeLock(n): ...] (locking.py 5-22) per list of calls;
    [code] is how the body of such a block is written down in steps. *)
Definition locked_calls (code : list call -> list stmt) (n : nat) (blocks : list (list call)) : list stmt :=
  map (fun cs => Locked n (code cs)) blocks.

(** The simplest way: every call is one step; the thread knows the calls it still has to make
    and the answers it got (an exception is caught and kept as answer). *)
Definition one_step_each (cs : list call) : list stmt := map (fun _ => Work) cs.
Definition call_work (x : nat) : work (list call * list answer) st := fun _ l s =>
  match fst l with
  | [] => (l, s, [])
  | c :: r => let '(a, s') := run_call x c s in ((r, snd l ++ [a]), s', [])
  end.

(** A thread that counts: [with TreeLock(n): x[k] = x[k] + 1], reading and writing in two steps. *)
Inductive tally := Unread | Seen (v : Z) | Stored | Failed.
Definition count_work (x : nat) (k : key) : work tally st := fun _ l s =>
  match l with
  | Unread => let '(a, s') := run_call x (CGet k) s in
             (match a with AVal (VInt v) => Seen v | _ => Failed end, s', [])
  | Seen v => let '(a, s') := run_call x (CSet k (VInt (v + 1))) s in
              (match a with ANone => Stored | _ => Failed end, s', [])
  | _ => (l, s, [])
  end.
Definition count_code (n : nat) : list stmt := [Locked n [Work; Work]].
