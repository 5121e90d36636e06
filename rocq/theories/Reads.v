(** Questions to nodes, and histories of them (C71). *)
From Verif Require Import Py Odict Heap Model SpecMapping MappingProofs Observe Utils.

Inductive query :=
| QGet (k : key)                       (* x[k] *)
| QGetDefault (k : key) (d : val)      (* x.get(k, d) *)
| QIn (k : key)                        (* k in x *)
| QKeys                                (* x.keys(), list(x) *)
| QIterkeys                            (* list(x.iterkeys()) *)
| QValues
| QItems
| QFiltered (p : val -> bool)          (* x.filteredvalues(interface) *)
| QLen
| QPath
| QRoot
| QAcquire (p : classdef -> bool)      (* x.acquire(interface) *)
| QByPath (p : path_arg).              (* node_by_path(x, p) *)

Definition node_or_none (o : option nat) : answer := match o with Some r => AVal (VNode r) | None => ANone end.
Definition ask (x : nat) (q : query) : st -> answer * st :=
  match q with
  | QGet k => wrap AVal (getitem x k)
  | QGetDefault k d => wrap AVal (get x k d)
  | QIn k => wrap ABool (contains x k)
  | QKeys => wrap AKeys (keys x)
  | QIterkeys => wrap AKeys (iterkeys x)
  | QValues => wrap AVals (values x)
  | QItems => wrap AItems (items x)
  | QFiltered p => wrap AVals (filteredvalues p x)
  | QLen => wrap ALen (len x)
  | QPath => wrap AKeys (path_of x)
  | QRoot => wrap node_or_none (root_of x)
  | QAcquire p => wrap node_or_none (acquire (fun o => p (o_cls o)) x)
  | QByPath p => wrap AVal (node_by_path x p)
  end.
Fixpoint ask_all (l : list (nat * query)) (s : st) : list answer * st :=
  match l with
  | [] => ([], s)
  | (x, q) :: r => let '(a, s1) := ask x q s in let '(al, s2) := ask_all r s1 in (a :: al, s2)
  end.
(** No node keeps values it once found (Cache), and none makes children when asked for them (ChildFactory). *)
Definition unassuming (s : st) : Prop :=
  forall x cls, class_of s x = Some cls -> Cache ∉ c_behs cls /\ ChildFactory ∉ c_behs cls.
(** No node makes children when asked for them, and where a node keeps what it found, nothing below
    (right of Cache) searches other nodes for it. *)
Definition modest_class (cls : classdef) : Prop :=
  ChildFactory ∉ c_behs cls /\ forall l r, c_behs cls = l ++ Cache :: r -> Cache ∉ r /\ Fallback ∉ r.
Definition modest (s : st) : Prop := forall x cls, class_of s x = Some cls -> modest_class cls.
(** Nothing a client can see differs but what nodes keep in their caches. *)
Record same_but_caches (s s' : st) : Prop := SameButCaches {
  sc_class : forall x, class_of s' x = class_of s x;
  sc_name : forall x, name_at s' x = name_at s x;
  sc_parent : forall x, parent_at s' x = parent_at s x;
  sc_entries : forall x, entries_at s' x = entries_at s x;
  sc_spaces : forall x, spaces_at s' x = spaces_at s x;
  sc_fixed : forall x, fixed_at s' x = fixed_at s x;
  sc_uuid : forall x, uuid_at s' x = uuid_at s x;
  sc_index_id : forall x, index_id s' x = index_id s x;
  sc_suppressed : forall x, suppressed s' x = suppressed s x;
  sc_index : idxs s' = idxs s;
  sc_log : log s' = log s
}.
