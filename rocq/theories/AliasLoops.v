(** Iterating over a node with Alias step by step, with calls in between (alias.py 157-172).

    Alias' [__iter__] is a generator: nothing of its body runs before the first question, and once it was
    left, by its end or by an exception, every further question gets StopIteration.  For classes whose [__iter__] is
    that of a storage with one Alias before it; what the generator loops over is the iterator of Loops.v. *)
From Verif Require Import Py Odict Aliaser Heap Model Reach Loops.

Inductive gen :=
| Asleep              (* not started *)
| Awake (c : cursor)  (* suspended at yield, alias.py 162 or 164, in the loop over [c] *)
| Left.               (* body left *)

(** The loop from line 159 on to the next yield.  The try of line 160 is around the aliaser only, not
    around the loop's own iterator. *)
Fixpoint gen_run (fuel : nat) (al : option aliaser) (c : cursor) (s : st) : res (option key) * gen :=
  match fuel with
  | O => (Exc OutOfFuel, Left)
  | S f =>
      match iter_next c s with
      | (Ret (Some k), c') =>
          match alias_with alias al k with
          | Ret a => (Ret (Some a), Awake c')
          | Exc (KeyError m) => if aliaser_enumerable al then gen_run f al c' s else (Exc (KeyError m), Left)
          | Exc e => (Exc e, Left)
          end
      | (Ret None, _) => (Ret None, Left)
      | (Exc e, _) => (Exc e, Left)
      end
  end.
(** More than the number of questions the loop can ask in one go. *)
Definition gen_fuel (c : cursor) (s : st) : nat :=
  S (match c with
     | DictIter _ ks _ _ => length ks
     | OdictFresh l | OdictAt l _ => length (keys_in s l)
     | DictBroken | Exhausted => 0
     end).
(** [next(generator)] of [x]; the first one starts the iterator of the storage. *)
Definition gen_next (x : nat) (g : gen) (s : st) : res (option key) * gen * st :=
  let al := match nodes s !! x with Some o => c_aliaser (o_cls o) | None => None end in
  match g with
  | Asleep =>
      match iter_start x s with
      | (Ret c, s1) => (gen_run (gen_fuel c s1) al c s1, s1)
      | (Exc e, s1) => (Exc e, Left, s1)
      end
  | Awake c => (gen_run (gen_fuel c s) al c s, s)
  | Left => (Ret None, Left, s)
  end.
Definition gen_watch (s s' : st) (g : gen) : gen := match g with Awake c => Awake (iter_watch s s' c) | _ => g end.

(** A program that holds the generator of [x]: asks it, and makes calls. *)
Fixpoint gloop (x : nat) (g : gen) (s : st) (l : list action) : list (res (option key)) * gen * st :=
  match l with
  | [] => ([], g, s)
  | Next :: r => let '(a, g1, s1) := gen_next x g s in let '(al, g2, s2) := gloop x g1 s1 r in (a :: al, g2, s2)
  | Call o :: r => let s1 := snd (run_op o s) in gloop x (gen_watch s s1 g) s1 r
  end.
(** [iter(x)] and the program [l]. *)
Definition told_by (x : nat) (s : st) (l : list action) : list (res (option key)) := fst (fst (gloop x Asleep s l)).

(** [[key for key in self]], mapping.py 81-85, as the loop it is. *)
Fixpoint gdraw (fuel : nat) (x : nat) (g : gen) : M (list key) :=
  match fuel with
  | O => raise OutOfFuel
  | S n => fun s =>
      match gen_next x g s with
      | (Ret (Some k), g', s') => bind (gdraw n x g') (fun l => ret (k :: l)) s'
      | (Ret None, _, s') => (Ret [], s')
      | (Exc e, _, s') => (Exc e, s')
      end
  end.
