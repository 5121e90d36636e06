(** Specification of a mapping whose keys are renamed: [out] renames an underlying
    key for the client, [into] renames the client's key back. *)
From Verif Require Import Py SpecMapping.

(** What of the underlying entries the client sees, in order. *)
Fixpoint visible (out : key -> res key) (d : list (key * val)) : list (key * val) :=
  match d with
  | [] => []
  | (k, v) :: r => match out k with Ret a => (a, v) :: visible out r | Exc _ => visible out r end
  end.
(** The others. *)
Definition hidden (out : key -> res key) (d : list (key * val)) : list (key * val) :=
  List.filter (fun e => match out (fst e) with Ret _ => false | Exc _ => true end) d.

Definition hashes (k : key) : bool := match k with KUnhashable _ => false | _ => true end.
Definition value_refused (allow : bool) (v : val) : option exc :=
  match v with
  | VNode _ => None
  | VClass _ => if allow then None else Some (ValueError "It isn't allowed to use classes as values.")
  | _ => if allow then None else Some (ValueError "Non-node childs are not allowed.")
  end.
Definition first_of (a b : option exc) : option exc := match a with Some e => Some e | None => b end.

(** Refusals: a key that cannot be renamed back (with the renaming's own exception), one
    whose renaming is not hashable, a value refused by child validation; the latter comes
    first if validation runs outside ([outside]), else after renaming ([inside]). *)
Definition renamed_policy (into : key -> res key) (outside inside allow : bool) : policy :=
  let name k := match into k with Exc e => Some e | Ret _ => None end in
  let hash k := match into k with Ret k' => if hashes k' then None else Some TypeError | Exc _ => None end in
  let u k := first_of (name k) (hash k) in
  Policy (fun k v => first_of (if outside then value_refused allow v else None)
                      (first_of (name k) (first_of (if inside then value_refused allow v else None) (hash k)))) u u.
