(** What the lifecycle properties are about: events handed to the subscribers. *)
From Verif Require Import Py Odict Aliaser Heap Model SpecMapping Observe SpecTree Reach.

(** [b] is plumbed exactly once. *)
Definition once (b : behavior) (bs : list behavior) : Prop :=
  exists pre post, bs = pre ++ b :: post /\ b ∉ pre /\ b ∉ post.
(** Between the two states exactly the events [l] were sent, none if [x] suppresses notification. *)
Definition told (x : nat) (l : list event) (s s' : st) : Prop :=
  log s' = log s ++ (if suppressed s x then [] else l).
(** Nothing was sent. *)
Definition untold (s s' : st) : Prop := log s' = log s.
(** The entries after the assignments [l]. *)
Definition put_all (l d : list (key * val)) : list (key * val) := fold_left (fun d e => put (fst e) (snd e) d) l d.
Definition added (x : nat) (e : key * val) : event := EvAdded (snd e) x (fst e).
Definition dropped (x : nat) (e : key * val) : event := EvRemoved (snd e) x (fst e).

(** A history: calls one after the other, failing or not. *)
Fixpoint run_all (l : list op) (s : st) : st :=
  match l with
  | [] => s
  | o :: l => run_all l (snd (run_op o s))
  end.
Definition not_detach (x : nat) (o : op) : Prop := forall k, o <> ODetach x k.
(** The last detach on [x] in the history failed. *)
Definition detach_failed_last (x : nat) (l : list op) (s : st) : Prop :=
  exists l1 k l2 e, l = l1 ++ ODetach x k :: l2 /\ Forall (not_detach x) l2 /\ fst (run_op (ODetach x k) (run_all l1 s)) = Exc e.
