(** Which objects can be reached from which, and what it means that trees have
    nothing in common. *)
From Verif Require Import Py Heap Model Reach.

(** a node held by a value, directly or in a list or dict *)
Inductive holds : val -> nat -> Prop :=
| holds_node x : holds (VNode x) x
| holds_list l v x : v ∈ l -> holds v x -> holds (VList l) x
| holds_dict l k v x : (k, v) ∈ l -> holds v x -> holds (VDict l) x.

(** object [i] has a reference to object [j]: an attribute of a node, a value of
    its storage, cache, nodespaces or fixed children, an entry of its index *)
Inductive points (s : st) : nat -> nat -> Prop :=
| to_parent i o j : nodes s !! i = Some o -> o_parent o = Some j -> points s i j
| to_storage i o j : nodes s !! i = Some o -> o_storage o = Some j -> points s i j
| to_cache i o j : nodes s !! i = Some o -> o_cache o = Some j -> points s i j
| to_children i o j : nodes s !! i = Some o -> o_children o = Some j -> points s i j
| to_nodespaces i o j : nodes s !! i = Some o -> o_nodespaces o = Some j -> points s i j
| to_index i o j : nodes s !! i = Some o -> o_index o = Some j -> points s i j
| to_value i d k v j : dicts s !! i = Some d -> (k, v) ∈ d -> holds v j -> points s i j
| to_indexed i m u j : idxs s !! i = Some m -> m !! u = Some j -> points s i j.
Definition reaches (s : st) : nat -> nat -> Prop := rtc (points s).
(** no object can be reached from both *)
Definition separate (s : st) (x y : nat) : Prop := forall i, reaches s x i -> reaches s y i -> False.

(** nodes inside of lists and dicts which are held as values exist; of other
    references [reach] guarantees it *)
Definition sound (s : st) : Prop :=
  forall i d k v j, dicts s !! i = Some d -> (k, v) ∈ d -> holds v j -> is_Some (nodes s !! j).

(** the object is the same in both states *)
Definition untouched (s s' : st) (i : nat) : Prop :=
  nodes s' !! i = nodes s !! i /\ dicts s' !! i = dicts s !! i /\ idxs s' !! i = idxs s !! i.

Definition in_val (A : nat -> Prop) (v : val) : Prop := forall x, holds v x -> A x.
(** the nodes a call is given *)
Definition given (A : nat -> Prop) (o : op) : Prop :=
  match o with
  | ONew _ _ p => forall q, p = Some q -> A q
  | OGet x _ | ODel x _ | ODetach x _ | OPopitem x | OClear x | OIter x | OValues x | OItems x | OAttrs x
  | OInvalidate x _ | OSetUuid x _ | OSetAllow x _ | OSetFallback x _ | OPath x | ORoot x | ODeepcopy x | OUnstore x _ => A x
  | OSet x _ v | OSetdefault x _ v | OStore x _ v => A x /\ in_val A v
  | OPop x _ d => A x /\ forall v, d = Some v -> in_val A v
  | OUpdate x a kw => A x /\ (forall kv, kv ∈ concat a ++ kw -> in_val A (snd kv))
  | OSwap x a b => A x /\ A a /\ A b
  | OInsertAt _ x n r => A x /\ A n /\ A r
  | OInsertEnd _ x n => A x /\ A n
  | OPlace x _ p => A x /\ forall q, p = Some q -> A q
  end.
(** a program: calls in turn, going on after exceptions *)
Fixpoint run_ops (l : list op) (s : st) : st :=
  match l with
  | [] => s
  | o :: r => run_ops r (snd (run_op o s))
  end.
(** what a program may use which starts with the node [w]: what can be reached
    from it and what is created meanwhile *)
Definition of (s : st) (ws : list nat) (i : nat) : Prop :=
  next_id s <= i \/ exists w, w ∈ ws /\ reaches s w i.
