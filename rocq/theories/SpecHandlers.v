(** What the property about subscribers is stated with. *)
From Verif Require Import Py Odict Aliaser Heap Model SpecMapping Observe TreeOps NewEff SpecTree Reach MappingProps Handlers.

(** The subscribers run in state [s]; after that the call returns [a], or raises what they raised. *)
Definition then_returns {A} (subscribers : M unit) (a : A) (s : st) : res A * st :=
  match subscribers s with
  | (Ret _, s') => (Ret a, s')
  | (Exc e, s') => (Exc e, s')
  end.
(** From [s] to [s'] node [c] got name [n] and parent [p]; nothing else a client can see changed. *)
Record renamed (c : nat) (n : option key) (p : option nat) (s s' : st) : Prop := Renamed {
  rn_name : name_at s' c = n;
  rn_parent : parent_at s' c = p;
  rn_class : class_of s' c = class_of s c;
  rn_entries : entries_at s' c = entries_at s c;
  rn_spaces : spaces_at s' c = spaces_at s c;
  rn_cache : cache_at s' c = cache_at s c;
  rn_fixed : fixed_at s' c = fixed_at s c;
  rn_uuid : uuid_at s' c = uuid_at s c;
  rn_index_id : index_id s' c = index_id s c;
  rn_suppressed : suppressed s' c = suppressed s c;
  rn_others : forall y, y <> c -> same_node s s' y;
  rn_index : idxs s' = idxs s;
  rn_log : log s' = log s
}.
(** The exceptions Adopt answers by undoing the adoption: AttributeError, KeyError and ValueError
    (of which UnicodeDecodeError is one). *)
Definition answered (e : exc) : Prop :=
  e = AttributeError \/ (exists k, e = KeyError k) \/ (exists m, e = ValueError m) \/ e = UnicodeDecodeError.

(** * Histories with subscribers *)
(** What an event mentions exists. *)
Definition mentions (s : st) (e : event) : Prop :=
  match e with
  | EvCreated x | EvModified x => exists_node s x
  | EvAdded v x _ | EvRemoved v x _ | EvDetached v x _ => known s v /\ exists_node s x
  end.
(** Subscribers that do nothing but calls of the API. *)
Definition api_only (h : event -> M unit) : Prop := forall e s, reach s -> mentions s e -> reach (snd (h e s)).
(** The calls that notify. *)
Inductive hcall :=
| HNew (cn : string) (n : key) (p : option nat)
| HSet (x : nat) (k : key) (v : val)
| HDel (x : nat) (k : key)
| HDetach (x : nat) (k : key).
Definition call_of (c : hcall) : op :=
  match c with HNew cn n p => ONew cn n p | HSet x k v => OSet x k v | HDel x k => ODel x k | HDetach x k => ODetach x k end.
Definition run_h (h : event -> M unit) (c : hcall) : M unit :=
  match c with
  | HNew cn n p => ignore (new_node_h h cn n p)
  | HSet x k v => setitem_h h x k v
  | HDel x k => delitem_h h x k
  | HDetach x k => ignore (detach_h h x k)
  end.
(** One Lifecycle, and an added node is not adopted outside of it. *)
Definition notifies (cls : classdef) (v : val) : Prop :=
  tree_class (c_behs cls) = true /\
  exists pre post, c_behs cls = pre ++ Lifecycle :: post /\ Lifecycle ∉ pre /\ Lifecycle ∉ post /\ (Adopt ∈ pre -> forall c, v <> VNode c).
Definition attended (s : st) (c : hcall) : Prop :=
  match c with
  | HNew cn _ _ => exists cls, classes s !! cn = Some cls /\ new_class (c_behs cls) = true /\ notifies cls VNone
  | HSet x k v => exists cls, class_of s x = Some cls /\ notifies cls v /\ ~ to_spaces cls k
  | HDel x k => exists cls, class_of s x = Some cls /\ notifies cls VNone /\ ~ to_spaces cls k /\ (Reference ∈ c_behs cls -> all_tree_classes s)
  | HDetach x k => exists cls, class_of s x = Some cls /\ notifies cls VNone /\ ~ to_spaces cls k /\ Reference ∉ c_behs cls
  end.
(** Histories of calls some of which run subscribers. *)
Inductive reach_h (h : event -> M unit) : st -> Prop :=
| rh_init cs : reach_h h (St ∅ ∅ ∅ 0 1 [] (-1) cs)
| rh_plain s o r s' : reach_h h s -> op_ok s o -> run_op o s = (r, s') -> reach_h h s'
| rh_call s c r s' : reach_h h s -> op_ok s (call_of c) -> attended s c -> run_h h c s = (r, s') -> reach_h h s'.
