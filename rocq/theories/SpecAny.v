(** Specification of nodes of any composition used as mappings. *)
From Verif Require Import Py Heap Model SpecMapping Observe SpecTree.

(** The one behavior that refuses values is NodeChildValidate. *)
Definition class_policy (cls : classdef) (allow : bool) : policy :=
  if decide (NodeChildValidate ∈ c_behs cls) then validating_policy allow else plain_policy.

(** Any key if the class has no Nodespaces; with Nodespaces the strings that do not belong to them. *)
Definition usable (cls : classdef) (k : key) : Prop :=
  Nodespaces ∈ c_behs cls -> (exists t, k = KStr t) /\ ~ dunder k.
(** the keys a call mentions *)
Definition call_keys (c : call) : list key :=
  match c with
  | CSet k _ | CGet k | CDel k | CGetDefault k _ | CIn k | CPop k _ | CSetdefault k _ => [k]
  | CUpdate a kw => map fst (concat a ++ kw)
  | _ => []
  end.
