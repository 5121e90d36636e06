(** Specification of which keys of a node a call can touch. *)
From Verif Require Import Py Heap Model SpecMapping Observe TreeOps NewEff SpecTree Reach SpecPlace.

(** Classes of the tree behaviors whose nodes can be created. *)
Definition simple (cls : classdef) : Prop := new_class (c_behs cls) = true.
(** All calls but ordered insertion; storages are not written to directly. *)
Definition plain (s : st) (o : op) : Prop :=
  match o with
  | OInsertAt _ _ _ _ | OInsertEnd _ _ _ => False
  | ODeepcopy _ => copyable s
  | OStore _ _ _ | OUnstore _ _ => False
  | _ => True
  end.
(** The keys of [x] (of class [cls]) that a call may assign, delete or move. *)
Definition touches (cls : classdef) (o : op) (x : nat) (k : key) : Prop :=
  match o with
  | OSet y k' _ | OSetdefault y k' _ | ODel y k' | OPop y k' _ | ODetach y k' => y = x /\ k' = k
  | OUpdate y a kw => y = x /\ k ∈ map fst (concat a ++ kw)
  | OPopitem y | OClear y | OSwap y _ _ => y = x /\ ~ to_spaces cls k
  | OInvalidate y k' => y = x /\ (k' = k \/ (k' = KNone /\ ~ to_spaces cls k))
  | OAttrs y => y = x /\ k = KStr "__attrs__"
  | _ => False
  end.
(** States reached from [s] by calls with [D]. *)
Inductive later (D : st -> op -> Prop) (s : st) : st -> Prop :=
| later_now : later D s s
| later_step s1 o r s2 : later D s s1 -> op_ok s1 o -> D s1 o -> run_op o s1 = (r, s2) -> later D s s2.
(** What a call that touches the keys [K] of [x] leaves alone. *)
Record spares (cls : classdef) (x : nat) (K : key -> Prop) (s s' : st) : Prop := Spares {
  sp_class : class_of s' x = class_of s x;
  sp_keys : forall k, ~ K k ->
     value_at k (entries_at s' x) = value_at k (entries_at s x) /\ value_at k (spaces_at s' x) = value_at k (spaces_at s x);
  sp_entries : (forall k, K k -> to_spaces cls k) -> entries_at s' x = entries_at s x;
  sp_spaces : (forall k, K k -> ~ to_spaces cls k) -> spaces_at s' x = spaces_at s x
}.
