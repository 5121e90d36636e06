(** Specification of acquire and filteredvalues. *)
From Verif Require Import Py Heap Observe.

(** the parent of the parent ... of [x], [n] times *)
Fixpoint up (s : st) (n : nat) (x : nat) : option nat :=
  match n with
  | O => Some x
  | S n => match up s n x with Some y => parent_at s y | None => None end
  end.
(** [y] is the first node on the way up from [x], [x] itself excluded, that satisfies [P]. *)
Definition first_above (s : st) (P : nat -> Prop) (x y : nat) : Prop :=
  exists n, up s (S n) x = Some y /\ P y /\ forall m z, m < n -> up s (S m) x = Some z -> ~ P z.
(** The way up from [x] ends, and no node on it satisfies [P]. *)
Definition none_above (s : st) (P : nat -> Prop) (x : nat) : Prop :=
  (exists n, up s (S n) x = None) /\ forall m z, up s (S m) x = Some z -> ~ P z.
(** what the predicate on objects says of a node *)
Definition satisfies (s : st) (p : obj -> bool) (y : nat) : Prop := exists o, nodes s !! y = Some o /\ p o = true.

(** [l] is what is left of [vs] when the values for which [p] fails are struck out. *)
Inductive struck_out (p : val -> bool) : list val -> list val -> Prop :=
| so_nil : struck_out p [] []
| so_keep v vs l : p v = true -> struck_out p vs l -> struck_out p (v :: vs) (v :: l)
| so_drop v vs l : p v = false -> struck_out p vs l -> struck_out p (v :: vs) l.
