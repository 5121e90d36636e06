(** C69: what a loop over a node with renamed keys sees. *)
From Verif Require Import Py Odict Aliaser Heap Model SpecMapping Observe Reach Plumber Loops SpecLoops.

(** [iter(x)] is the generator of Alias over the iterator of the storage of that kind. *)
Definition aliases_over (kind : behavior) (cls : classdef) : Prop :=
  (kind = DictStorage \/ kind = OdictStorage) /\ endpoint "__iter__" (c_behs cls) = Some kind /\
  exists pre post, hooks "__iter__" (c_behs cls) = pre ++ Alias :: post /\ Alias ∉ pre /\ Alias ∉ post.
(** What a client is told of keys [ks] of which [out] gives the names it knows: one name after the other; keys
    without a name are left out if [skip], and otherwise end the matter with the exception. *)
Fixpoint told (out : key -> res key) (skip : bool) (ks : list key) : list (res (option key)) :=
  match ks with
  | [] => []
  | k :: r =>
      match out k with
      | Ret a => Ret (Some a) :: told out skip r
      | Exc (KeyError m) => if skip then told out skip r else [Exc (KeyError m)]
      | Exc e => [Exc e]
      end
  end.
(** [n] answers: those, then the end again and again. *)
Definition first_answers (n : nat) (l : list (res (option key))) : list (res (option key)) :=
  map (fun i => default (Ret None) (l !! i)) (seq 0 n).
(** The keys that follow [k]; [None] if it is not there. *)
Fixpoint rest_after (k : key) (ks : list key) : option (list key) :=
  match ks with
  | [] => None
  | k' :: r => if decide (k' = k) then Some r else rest_after k r
  end.
