(** The object heap and the monad in which node's code is modelled. *)
From Verif Require Import Py Odict Aliaser.

(** Plumbing behaviors (src/node/behaviors). *)
Inductive behavior :=
| Adopt | AsAttrAccess | ChildFactory | FixedChildren | GetattrChildren
| NodeChildValidate | UnicodeAware | UUIDAware
| DefaultInit | Nodify
| DictStorage | OdictStorage
| Nodespaces | Attributes | Reference | Order | Alias
| Cache | Invalidate | VolatileStorageInvalidate
| Lifecycle | AttributesLifecycle | Fallback.

Global Instance behavior_eq_dec : EqDecision behavior.
Proof. solve_decision. Defined.

(** A class made with [@plumbing(...)]: its behaviors, leftmost first, and the
    class attributes the behaviors read.
    - [c_factories]: ChildFactory.factories (common.py 67), key -> class name
    - [c_fixed]: FixedChildren.fixed_children_factories (common.py 96)
    - [c_aliaser]: Alias.aliaser (alias.py 124)
    - [c_allow]: NodeChildValidate.allow_non_node_childs (common.py 142)
    - [c_attrs_factory]: Attributes.attributes_factory (attributes.py 44)
    - [c_recursiv]: UUIDAware.overwrite_recursiv_on_copy (common.py 182)
    - [c_fallback]: Fallback.fallback_key (fallback.py 51); None is the default
      marker (an empty dict, which is false).
    Factories are classes called without arguments; other callables are not
    modelled.
    A class record stands for a plumbing that provides INode, i.e. one with Nodify (or a
    subclass of it), whether or not Nodify is listed: its own methods are those every
    tree class has, and INode.providedBy is asked of values only. *)
Record classdef := Class {
  c_name : string;
  c_behs : list behavior;
  c_factories : list (key * string);
  c_fixed : list (key * string);
  c_aliaser : option aliaser;
  c_allow : bool;
  c_attrs_factory : string;
  c_recursiv : bool;
  c_fallback : option key
}.

(** A node object: the instance attributes set by the behaviors.
    [None] in [o_storage], [o_cache], [o_children], [o_index] means that the
    instance attribute does not exist (yet).  Dict valued attributes are
    references, so that two nodes may share one dict. *)
Record obj := Obj {
  o_cls : classdef;
  o_name : key;                 (* __name__ *)
  o_parent : option nat;        (* __parent__ *)
  o_storage : option nat;       (* _storage, storage.py 40-52 *)
  o_cache : option nat;         (* _cache, cache.py 73-78 *)
  o_children : option nat;      (* _children, common.py 101 *)
  o_nodespaces : option nat;    (* _nodespaces, nodespace.py 14 *)
  o_index : option nat;         (* _index, reference.py 35 *)
  o_uuid : option N;            (* _uuid, reference.py 31; uuid, common.py 181 *)
  o_allow : bool;               (* allow_non_node_childs *)
  o_suppress : bool;            (* _notify_suppress, lifecycle.py 26 *)
  o_fallback : option key       (* fallback_key *)
}.

(** Lifecycle events passed to objectEventNotify (lifecycle.py). *)
Inductive event :=
| EvCreated (o : nat)
| EvAdded (v : val) (parent : nat) (name : key)
| EvRemoved (v : val) (parent : nat) (name : key)
| EvDetached (v : val) (parent : nat) (name : key)
| EvModified (o : nat).

(** Keys of the Reference index: ints, or None (reference.py 76). *)
Notation ikey := (option N) (only parsing).

Record st := St {
  nodes : gmap nat obj;
  dicts : gmap nat (list (key * val));
  idxs : gmap nat (gmap (option N) nat);
  next_id : nat;                (* allocation counter for all three heaps *)
  next_uuid : N;                (* uuid4: every call yields a uuid never seen before *)
  log : list event;             (* objectEventNotify calls, oldest first *)
  fbcount : Z;                  (* fallback_processing.data.processing, fallback.py 14-15 *)
  classes : gmap string classdef  (* importable classes by dotted name *)
}.

(** Field updates. *)
Definition set_nodes f s := St (f (nodes s)) (dicts s) (idxs s) (next_id s) (next_uuid s) (log s) (fbcount s) (classes s).
Definition set_dicts f s := St (nodes s) (f (dicts s)) (idxs s) (next_id s) (next_uuid s) (log s) (fbcount s) (classes s).
Definition set_idxs f s := St (nodes s) (dicts s) (f (idxs s)) (next_id s) (next_uuid s) (log s) (fbcount s) (classes s).
Definition set_next_id f s := St (nodes s) (dicts s) (idxs s) (f (next_id s)) (next_uuid s) (log s) (fbcount s) (classes s).
Definition set_next_uuid f s := St (nodes s) (dicts s) (idxs s) (next_id s) (f (next_uuid s)) (log s) (fbcount s) (classes s).
Definition set_log f s := St (nodes s) (dicts s) (idxs s) (next_id s) (next_uuid s) (f (log s)) (fbcount s) (classes s).
Definition set_fbcount f s := St (nodes s) (dicts s) (idxs s) (next_id s) (next_uuid s) (log s) (f (fbcount s)) (classes s).

Definition with_name k o := Obj (o_cls o) k (o_parent o) (o_storage o) (o_cache o) (o_children o) (o_nodespaces o) (o_index o) (o_uuid o) (o_allow o) (o_suppress o) (o_fallback o).
Definition with_parent p o := Obj (o_cls o) (o_name o) p (o_storage o) (o_cache o) (o_children o) (o_nodespaces o) (o_index o) (o_uuid o) (o_allow o) (o_suppress o) (o_fallback o).
Definition with_storage l o := Obj (o_cls o) (o_name o) (o_parent o) l (o_cache o) (o_children o) (o_nodespaces o) (o_index o) (o_uuid o) (o_allow o) (o_suppress o) (o_fallback o).
Definition with_cache l o := Obj (o_cls o) (o_name o) (o_parent o) (o_storage o) l (o_children o) (o_nodespaces o) (o_index o) (o_uuid o) (o_allow o) (o_suppress o) (o_fallback o).
Definition with_children l o := Obj (o_cls o) (o_name o) (o_parent o) (o_storage o) (o_cache o) l (o_nodespaces o) (o_index o) (o_uuid o) (o_allow o) (o_suppress o) (o_fallback o).
Definition with_nodespaces l o := Obj (o_cls o) (o_name o) (o_parent o) (o_storage o) (o_cache o) (o_children o) l (o_index o) (o_uuid o) (o_allow o) (o_suppress o) (o_fallback o).
Definition with_index l o := Obj (o_cls o) (o_name o) (o_parent o) (o_storage o) (o_cache o) (o_children o) (o_nodespaces o) l (o_uuid o) (o_allow o) (o_suppress o) (o_fallback o).
Definition with_uuid u o := Obj (o_cls o) (o_name o) (o_parent o) (o_storage o) (o_cache o) (o_children o) (o_nodespaces o) (o_index o) u (o_allow o) (o_suppress o) (o_fallback o).
Definition with_suppress b o := Obj (o_cls o) (o_name o) (o_parent o) (o_storage o) (o_cache o) (o_children o) (o_nodespaces o) (o_index o) (o_uuid o) (o_allow o) b (o_fallback o).
Definition with_allow b o := Obj (o_cls o) (o_name o) (o_parent o) (o_storage o) (o_cache o) (o_children o) (o_nodespaces o) (o_index o) (o_uuid o) b (o_suppress o) (o_fallback o).
Definition with_fallback f o := Obj (o_cls o) (o_name o) (o_parent o) (o_storage o) (o_cache o) (o_children o) (o_nodespaces o) (o_index o) (o_uuid o) (o_allow o) (o_suppress o) f.

(** The monad. *)
Definition M (A : Type) := st -> res A * st.

Definition ret {A} (a : A) : M A := fun s => (Ret a, s).
Definition raise {A} (e : exc) : M A := fun s => (Exc e, s).
Definition bind {A B} (m : M A) (f : A -> M B) : M B :=
  fun s => match m s with
           | (Ret a, s') => f a s'
           | (Exc e, s') => (Exc e, s')
           end.
Notation "'let!' x ':=' m 'in' k" := (bind m (fun x => k))
  (at level 200, x pattern, m at level 100, k at level 200, right associativity).
Notation "'do!' m 'in' k" := (bind m (fun _ => k))
  (at level 200, m at level 100, k at level 200, right associativity).

(** [try: m except <p>: h]; state changes of [m] are kept. *)
Definition try_catch {A} (m : M A) (p : exc -> bool) (h : exc -> M A) : M A :=
  fun s => match m s with
           | (Ret a, s') => (Ret a, s')
           | (Exc e, s') => if p e then h e s' else (Exc e, s')
           end.

(** [try: m finally: fin]. *)
Definition try_finally {A} (m : M A) (fin : M unit) : M A :=
  fun s => match m s with
           | (r, s') => match fin s' with
                        | (Ret _, s'') => (r, s'')
                        | (Exc e, s'') => (Exc e, s'')
                        end
           end.

Fixpoint iterM {A} (f : A -> M unit) (l : list A) : M unit :=
  match l with
  | [] => ret tt
  | a :: r => do! f a in iterM f r
  end.

Fixpoint mapM_ {A B} (f : A -> M B) (l : list A) : M (list B) :=
  match l with
  | [] => ret []
  | a :: r => let! b := f a in let! bs := mapM_ f r in ret (b :: bs)
  end.

Definition of_res {A} (r : res A) : M A := fun s => (r, s).

(** Heap access. *)
Definition load (o : nat) : M obj :=
  fun s => match nodes s !! o with
           | Some x => (Ret x, s)
           | None => (Exc Dangling, s)
           end.
Definition modify (o : nat) (f : obj -> obj) : M unit :=
  fun s => match nodes s !! o with
           | Some x => (Ret tt, set_nodes <[o := f x]> s)
           | None => (Exc Dangling, s)
           end.
Definition read_dict (l : nat) : M (list (key * val)) :=
  fun s => match dicts s !! l with
           | Some d => (Ret d, s)
           | None => (Exc Dangling, s)
           end.
Definition write_dict (l : nat) (d : list (key * val)) : M unit :=
  fun s => (Ret tt, set_dicts <[l := d]> s).
Definition read_idx (l : nat) : M (gmap (option N) nat) :=
  fun s => match idxs s !! l with
           | Some d => (Ret d, s)
           | None => (Exc Dangling, s)
           end.
Definition write_idx (l : nat) (d : gmap (option N) nat) : M unit :=
  fun s => (Ret tt, set_idxs <[l := d]> s).
Definition alloc_dict (d : list (key * val)) : M nat :=
  fun s => (Ret (next_id s), set_next_id S (set_dicts <[next_id s := d]> s)).
Definition alloc_idx (d : gmap (option N) nat) : M nat :=
  fun s => (Ret (next_id s), set_next_id S (set_idxs <[next_id s := d]> s)).
Definition alloc_node (o : obj) : M nat :=
  fun s => (Ret (next_id s), set_next_id S (set_nodes <[next_id s := o]> s)).
(** uuid.uuid4(): trusted to return a uuid that is not zero and was not seen. *)
Definition uuid4 : M N :=
  fun s => (Ret (next_uuid s), set_next_uuid N.succ s).
(** Bookkeeping for that trust, not code: a uuid the client assigned counts as
    seen, so that later uuid4 calls do not return it. *)
Definition saw_uuid (u : option N) : M unit :=
  fun s => (Ret tt, match u with
                    | Some n => set_next_uuid (N.max (N.succ n)) s
                    | None => s
                    end).
(** objectEventNotify: handlers are not modelled, the call is recorded. *)
Definition notify (e : event) : M unit :=
  fun s => (Ret tt, set_log (fun l => l ++ [e]) s).
Definition get_class (cn : string) : M classdef :=
  fun s => match classes s !! cn with
           | Some c => (Ret c, s)
           | None => (Exc AttributeError, s)
           end.
(** Fuel for loops along parents or down subtrees: more than any acyclic walk
    through the existing nodes needs. *)
Definition fuel_of (s : st) : nat := S (size (nodes s)).
Definition with_fuel {A} (f : nat -> M A) : M A := fun s => f (fuel_of s) s.

(** dict operations on a dict object: [d[k]], [d[k] = v], [del d[k]]. *)
Definition dict_get (l : nat) (k : key) : M val :=
  if hashable k then
    let! d := read_dict l in
    match dget k d with Some v => ret v | None => raise (KeyError k) end
  else raise TypeError.
Definition dict_set (l : nat) (k : key) (v : val) : M unit :=
  if hashable k then
    let! d := read_dict l in write_dict l (dset k v d)
  else raise TypeError.
Definition dict_del (l : nat) (k : key) : M unit :=
  if hashable k then
    let! d := read_dict l in
    match dget k d with
    | Some _ => write_dict l (ddel k d)
    | None => raise (KeyError k)
    end
  else raise TypeError.

Definition has (b : behavior) (o : obj) : bool :=
  bool_decide (b ∈ c_behs (o_cls o)).
Definition hasc (b : behavior) (bs : list behavior) : bool :=
  bool_decide (b ∈ bs).
