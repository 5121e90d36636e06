(** Specification of node.base.Node and AttributedNode used as a mapping. *)
From Verif Require Import Py Heap Model SpecMapping MappingProofs Observe SpecReference.

(** Keys have to be strings, values nodes unless others are allowed; values are looked at first.
    An item can be asked for with any hashable key. *)
Definition node_policy (allow : bool) : policy :=
  let str k := match k with KStr _ => None | _ => Some AttributeError end in
  Policy (fun k v =>
            match v with
            | VNode _ => str k
            | VClass _ => if allow then str k else Some (ValueError "It isn't allowed to use classes as values.")
            | _ => if allow then str k else Some (ValueError "Non-node childs are not allowed.")
            end)
         (fun k => match k with KUnhashable _ => Some TypeError | _ => None end) str.

(** The calls a client makes with care: no reserved keys; what is assigned is a node that joins
    the tree, or another value that replaces no node. *)
Definition careful_call (s : st) (x : nat) (c : call) : Prop :=
  match c with
  | CSet k v => tidy_set s x k v
  | CSetdefault k v => item_key s x k /\ (value_at k (entries_at s x) = None -> tidy_set s x k v)
  | CGet k | CDel k | CGetDefault k _ | CIn k | CPop k _ => item_key s x k
  | CUpdate a kw => tidy_sets s x (concat a ++ kw)
  | _ => True
  end.
Fixpoint careful_calls (s : st) (x : nat) (l : list call) : Prop :=
  match l with
  | [] => True
  | c :: r => careful_call s x c /\ careful_calls (snd (run_call x c s)) x r
  end.
