(** C60: what a loop over a node sees, in terms of the keys of the node. *)
From Verif Require Import Py Odict Aliaser Heap Model SpecMapping Observe Reach Plumber Loops.

Definition keys_at (s : st) (x : nat) : list key := map fst (entries_at s x).
(** [iter(x)] is the iterator of the storage of that kind. *)
Definition loops_over (kind : behavior) (cls : classdef) : Prop :=
  (kind = DictStorage \/ kind = OdictStorage) /\ endpoint "__iter__" (c_behs cls) = Some kind /\ Alias ∉ hooks "__iter__" (c_behs cls).
(** How often the iterator is asked. *)
Fixpoint asked (l : list action) : nat :=
  match l with [] => 0 | Next :: r => S (asked r) | Call _ :: r => asked r end.
Definition state_after (s : st) (l : list action) : st :=
  foldl (fun s a => match a with Next => s | Call o => snd (run_op o s) end) s l.
(** The calls mention existing objects, and each leads from a state to another in that relation. *)
Fixpoint every_call (P : st -> st -> Prop) (s : st) (l : list action) : Prop :=
  match l with
  | [] => True
  | Next :: r => every_call P s r
  | Call o :: r => let s1 := snd (run_op o s) in op_ok s o /\ P s s1 /\ every_call P s1 r
  end.
(** The keys [ks], one per question, then the end. *)
Definition one_by_one (ks : list key) (n : nat) : list (res (option key)) := map (fun i => Ret (ks !! i)) (seq 0 n).
(** The answer of an odict's iterator after the answer [prev], if the keys are now [ks]. *)
Definition follow (prev : option (res (option key))) (ks : list key) : res (option key) :=
  match prev with
  | None => Ret (ks !! 0)
  | Some (Ret (Some k)) =>
      match list_find (eq k) ks with
      | Some (i, _) => Ret (ks !! S i)
      | None => Exc (KeyError k)
      end
  | Some _ => Ret None
  end.
(** Keys by position, as long as there are any. *)
Fixpoint by_position (x i : nat) (s : st) (l : list action) : list (res (option key)) :=
  match l with
  | [] => []
  | Next :: r =>
      match keys_at s x !! i with
      | Some k => Ret (Some k) :: by_position x (S i) s r
      | None => replicate (S (asked r)) (Ret None)
      end
  | Call o :: r => by_position x i (snd (run_op o s)) r
  end.
