(** Specification for children made on demand and for fixed children. *)
From Verif Require Import Py Heap Model SpecMapping Observe.

(** What is offered by the factories: the class for a key. *)
Definition offered {A} (k : key) (l : list (key * A)) : option A :=
  snd <$> List.find (fun e => bool_decide (fst e = k)) l.

(** Nothing of what existed changes, and only creations are announced. *)
Record only_new (s s' : st) : Prop := OnlyNew {
  on_nodes : forall y, exists_node s y -> same_node s s' y;
  on_log : exists l, log s' = log s ++ l /\ Forall (fun e => exists c, e = EvCreated c /\ ~ exists_node s c) l
}.

(** The child [c] was made and stored as [x[k]]. *)
Record made_child (cls : classdef) (made : classdef) (s : st) (x : nat) (k : key) (c : nat) (s' : st) : Prop := MadeChild {
  mc_new : ~ exists_node s c;
  mc_class : class_of s' c = Some made;
  mc_entries : entries_at s' x = put k (VNode c) (entries_at s x);
  mc_place : Adopt ∈ c_behs cls -> name_at s' c = Some k /\ parent_at s' c = Some x;
  mc_self : class_of s' x = class_of s x /\ name_at s' x = name_at s x /\ parent_at s' x = parent_at s x /\
            spaces_at s' x = spaces_at s x /\ cache_at s' x = cache_at s x /\ uuid_at s' x = uuid_at s x /\ suppressed s' x = suppressed s x;
  mc_others : forall y, y <> x -> exists_node s y -> same_node s s' y;
  mc_log : exists l, log s' = log s ++ l /\ Forall (fun e => exists c, e = EvCreated c /\ ~ exists_node s c) l
}.

(** Calls that may replace or remove what is at [k]. *)
Definition may_change (k : key) (c : call) : bool :=
  match c with
  | CSet k' _ | CDel k' | CPop k' _ => bool_decide (k' = k)
  | CUpdate args kw => existsb (fun e => bool_decide (fst e = k)) (concat args ++ kw)
  | CPopitem | CClear => true
  | _ => false
  end.

(** The children [cs], made by the factories [fs], in their places below [x]. *)
Definition has_fixed (s : st) (x : nat) : Prop := is_Some (nodes s !! x ≫= o_children).
Record fixed_made (s : st) (x : nat) (fs : list (key * string)) (cs : list nat) : Prop := FixedMade {
  fm_has : has_fixed s x;
  fm_len : length cs = length fs;
  fm_dict : fixed_at s x = fold_left (fun d e => put (fst e) (VNode (snd e)) d) (zip (map fst fs) cs) [];
  fm_nodup : NoDup cs;
  fm_place : forall i k cn c, fs !! i = Some (k, cn) -> cs !! i = Some c ->
    name_at s c = Some k /\ parent_at s c = Some x /\ class_of s c = classes s !! cn /\ exists_node s c
}.

(** A dictionary that refuses every change; [open]: values that are not nodes get as far as that. *)
Definition readonly_policy (open : bool) : policy :=
  let u k := match k with KUnhashable _ => Some TypeError | _ => None end in
  Policy (fun k v =>
            match v with
            | VNode _ => Some NotImplementedError
            | VClass _ => if open then Some NotImplementedError
                          else Some (ValueError "It isn't allowed to use classes as values.")
            | _ => if open then Some NotImplementedError
                   else Some (ValueError "Non-node childs are not allowed.")
            end) u (fun _ => Some NotImplementedError).
(** whether [x] lets values that are not nodes pass *)
Definition open_to_all (cls : classdef) (s : st) (x : nat) : bool :=
  negb (bool_decide (NodeChildValidate ∈ c_behs cls)) || allows s x.

(** Only names and parents of nodes may differ. *)
Record renamed (s s' : st) : Prop := Renamed {
  rn_dicts : dicts s' = dicts s;
  rn_idxs : idxs s' = idxs s;
  rn_log : log s' = log s;
  rn_nodes : forall y, match nodes s !! y, nodes s' !! y with
    | None, None => True
    | Some o, Some o' => exists n p, o' = with_parent p (with_name n o)
    | _, _ => False
    end
}.
