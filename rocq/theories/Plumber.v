(** How plumber makes a class from behaviors, and what the behaviors of /repo declare.

    The stacks and endpoints of Model.v are written by hand.  Here the rules of plumber are stated once,
    for any method, together with a table of every declaration in the behaviors; P_Plumbing.v proves
    that the functions of Model.v are what the rules make of the table.

    plumber's rules: [plumb] adds a hook, hooks run leftmost first; the endpoint is the attribute
    made with [finalize], else the leftmost [override], else the leftmost [default], else what the
    base class (object) has.  Two behaviors finalizing one name do not go together (PlumbingCollision), and a
    hook without endpoint is refused (AttributeError).  A behavior class inherits the declarations of
    its bases: DictStorage and OdictStorage those of Storage, Nodify those of FullMapping. *)
From Verif Require Import Py Odict Aliaser Heap Model.

Inductive directive := Default | Override | Finalize | Plumb.
Global Instance directive_eq_dec : EqDecision directive.
Proof. solve_decision. Defined.

(** storage.py 13-35: Storage without the property storage *)
Definition storage_declarations : list (string * directive) :=
  [("__getitem__", Override); ("__delitem__", Override); ("__setitem__", Override); ("__iter__", Override); ("storage", Default)].
(** mapping.py 22-241: FullMapping *)
Definition mapping_declarations : list (string * directive) :=
  map (fun n => (n, Default))
    ["__getitem__"; "get"; "__contains__"; "__delitem__"; "__setitem__"; "keys"; "__iter__"; "values"; "items"; "__len__";
     "iterkeys"; "itervalues"; "iteritems"; "copy"; "deepcopy"; "has_key"; "clear"; "update"; "setdefault"; "pop"; "popitem"].
Definition declarations (b : behavior) : list (string * directive) :=
  match b with
  | Adopt => [("__setitem__", Plumb); ("setdefault", Plumb)]                                            (* common.py 25-54 *)
  | AsAttrAccess => [("as_attribute_access", Default)]                                                  (* common.py 58-62 *)
  | ChildFactory => [("factories", Default); ("__iter__", Override); ("iterkeys", Override); ("__getitem__", Plumb)]  (* common.py 66-82 *)
  | FixedChildren => [("fixed_children_factories", Default); ("__init__", Plumb); ("__delitem__", Finalize); ("__getitem__", Finalize);
                      ("__iter__", Finalize); ("__setitem__", Finalize)]                                (* common.py 86-122 *)
  | GetattrChildren => [("__getattr__", Finalize)]                                                      (* common.py 126-137 *)
  | NodeChildValidate => [("allow_non_node_childs", Default); ("__setitem__", Plumb)]                   (* common.py 141-150 *)
  | UnicodeAware => [("__delitem__", Plumb); ("__getitem__", Plumb); ("__setitem__", Plumb)]            (* common.py 154-176 *)
  | UUIDAware => [("uuid", Default); ("overwrite_recursiv_on_copy", Default); ("__init__", Plumb); ("copy", Plumb); ("deepcopy", Plumb);
                  ("uuid_factory", Default); ("set_uuid_for", Default)]                                 (* common.py 180-211 *)
  | DefaultInit => [("__init__", Override)]                                                             (* nodify.py 20-25 *)
  | Nodify => [("__name__", Default); ("__parent__", Default); ("copy", Plumb); ("name", Override); ("parent", Override); ("path", Override);
               ("root", Override); ("detach", Override); ("acquire", Override); ("filtereditervalues", Override); ("filteredvalues", Override);
               ("filtereditems", Override); ("noderepr", Override); ("treerepr", Override); ("printtree", Override); ("__nonzero__", Default);
               ("__bool__", Default); ("__repr__", Override); ("__str__", Override)] ++ mapping_declarations  (* nodify.py 29-148 *)
  | DictStorage | OdictStorage => storage_declarations                                                  (* storage.py 38-52 *)
  | Nodespaces => [("_nodespaces", Default); ("nodespaces", Finalize); ("__getitem__", Plumb); ("__setitem__", Plumb); ("__delitem__", Plumb)]
                                                                                                        (* nodespace.py 13-62 *)
  | Attributes => [("attribute_access_for_attrs", Default); ("attributes_factory", Default); ("attrs", Finalize); ("attributes", Finalize)]
                                                                                                        (* attributes.py 42-59 *)
  | Reference => [("_uuid", Default); ("__init__", Plumb); ("__setitem__", Plumb); ("__delitem__", Plumb); ("detach", Plumb); ("uuid", Override);
                  ("index", Override); ("node", Override); ("_to_delete", Default); ("_index_nodes", Default)]  (* reference.py 30-117 *)
  | Order => [("swap", Override); ("insertfirst", Override); ("insertlast", Override); ("insertbefore", Override); ("insertafter", Override);
              ("_validateinsertion", Override)]                                                         (* order.py 9-59 *)
  | Alias => [("aliaser", Default); ("__getitem__", Plumb); ("__setitem__", Plumb); ("__delitem__", Plumb); ("__iter__", Plumb)]
                                                                                                        (* alias.py 124-172 *)
  | Cache => [("cache", Default); ("invalidate", Plumb); ("__getitem__", Plumb); ("__setitem__", Plumb); ("__delitem__", Plumb); ("__iter__", Plumb)]
                                                                                                        (* cache.py 71-121 *)
  | Invalidate => [("invalidate", Default)]                                                             (* cache.py 28-43 *)
  | VolatileStorageInvalidate => [("invalidate", Default)]                                              (* cache.py 47-67 *)
  | Lifecycle => [("events", Default); ("_notify_suppress", Default); ("__init__", Plumb); ("__setitem__", Plumb); ("__delitem__", Plumb); ("detach", Plumb)]
                                                                                                        (* lifecycle.py 17-58 *)
  | AttributesLifecycle => [("__setitem__", Plumb); ("__delitem__", Plumb)]                             (* lifecycle.py 62-76 *)
  | Fallback => [("fallback_key", Default); ("__getitem__", Plumb)]                                     (* fallback.py 50-68 *)
  end.
Definition declares (m : string) (d : directive) (b : behavior) : bool := bool_decide ((m, d) ∈ declarations b).

(** * The rules *)
(** The hooks of a method, outermost first. *)
Definition hooks (m : string) (bs : list behavior) : list behavior := filter (fun b => declares m Plumb b = true) bs.
(** The leftmost behavior with that declaration. *)
Definition leftmost (m : string) (d : directive) (bs : list behavior) : option behavior := head (filter (fun b => declares m d b = true) bs).
(** The behavior whose attribute is the endpoint; [None]: what object has, if anything. *)
Definition endpoint (m : string) (bs : list behavior) : option behavior :=
  match leftmost m Finalize bs with
  | Some b => Some b
  | None => match leftmost m Override bs with Some b => Some b | None => leftmost m Default bs end
  end.
(** The method of the class: each hook gets the rest as [_next]. *)
Definition pipeline {F} (hook : behavior -> F -> F) (body : option behavior -> F) (m : string) (bs : list behavior) : F :=
  foldr hook (body (endpoint m bs)) (hooks m bs).
(** Names object has. *)
Definition of_object (m : string) : bool := bool_decide (m ∈ ["__init__"; "__repr__"; "__str__"]).
(** The class statement raises PlumbingCollision. *)
Definition collision (bs : list behavior) : Prop :=
  exists m b1 b2, b1 ∈ bs /\ b2 ∈ bs /\ b1 <> b2 /\ declares m Finalize b1 = true /\ declares m Finalize b2 = true.
(** The class statement raises AttributeError. *)
Definition endless (bs : list behavior) : Prop :=
  exists m b, b ∈ bs /\ declares m Plumb b = true /\ endpoint m bs = None /\ of_object m = false.

(** * The bodies *)
(** storage.py 29-31; common.py 120-122; mapping.py 71-73 *)
Definition set_body (b : option behavior) (self : nat) (k : key) (v : val) : M unit :=
  match b with
  | Some (DictStorage | OdictStorage) => let! l := storage_of self in dict_set l k v
  | Some _ => raise NotImplementedError
  | None => raise TypeError
  end.
(** storage.py 21-23; common.py 112-114; mapping.py 26-28 *)
Definition get_body (b : option behavior) (self : nat) (k : key) : M val :=
  match b with
  | Some (DictStorage | OdictStorage) => let! l := storage_of self in dict_get l k
  | Some FixedChildren => let! l := fixed_of self in dict_get l k
  | Some _ => raise NotImplementedError
  | None => raise TypeError
  end.
(** storage.py 25-27; common.py 108-110; mapping.py 67-69 *)
Definition del_body (b : option behavior) (self : nat) (k : key) : M unit :=
  match b with
  | Some (DictStorage | OdictStorage) => let! l := storage_of self in dict_del l k
  | Some _ => raise NotImplementedError
  | None => raise TypeError
  end.
(** storage.py 33-35; common.py 116-118, 69-71; mapping.py 87-89 *)
Definition iter_body (b : option behavior) (self : nat) : M (list key) :=
  match b with
  | Some (DictStorage | OdictStorage) => let! l := storage_of self in let! d := read_dict l in ret (dkeys d)
  | Some FixedChildren => let! l := fixed_of self in let! d := read_dict l in ret (dkeys d)
  | Some ChildFactory => let! o := load self in ret (map fst (c_factories (o_cls o)))
  | Some _ => raise NotImplementedError
  | None => raise TypeError
  end.
(** common.py 73; mapping.py 123-127 *)
Definition iterkeys_body (b : option behavior) (self : nat) : M (list key) :=
  match b with
  | Some ChildFactory => let! o := load self in ret (map fst (c_factories (o_cls o)))
  | Some _ => iter self
  | None => raise AttributeError
  end.
(** nodify.py 22-25; object.__init__ *)
Definition init_body (name : key) (parent : option nat) (b : option behavior) (self : nat) : M unit :=
  match b with
  | Some _ => do! modify self (with_name name) in modify self (with_parent parent)
  | None => match name, parent with KNone, None => ret tt | _, _ => raise TypeError end
  end.
(** nodify.py 65-69 *)
Definition detach_body (b : option behavior) (self : nat) (k : key) : M val :=
  match b with
  | Some _ => let! v := getitem self k in do! delitem self k in ret v
  | None => raise AttributeError
  end.
(** mapping.py 151-153 *)
Definition copy_body (b : option behavior) (self : nat) : M nat :=
  match b with Some _ => shallow self | None => raise AttributeError end.
(** mapping.py 155-158 *)
Definition deepcopy_body (b : option behavior) (self : nat) : M nat :=
  match b with Some _ => deep self | None => raise AttributeError end.
(** cache.py 35-43, 52-67 *)
Definition invalidate_body (b : option behavior) (self : nat) (k : key) : M unit :=
  match b with
  | Some Invalidate =>
      if decide (k = KNone) then let! ks := keys self in iterM (delitem self) ks
      else delitem self k
  | Some _ =>
      let! l := storage_of self in
      if decide (k = KNone) then
        let! d := read_dict l in iterM (dict_del l) (dkeys d)
      else
        let! ks := keys self in
        if bool_decide (k ∈ ks) then try_catch (dict_del l k) is_key_error (fun _ => ret tt)
        else raise (KeyError k)
  | None => raise AttributeError
  end.
(** Adopt's hook does not call the rest (common.py 47-54); mapping.py 195-203 *)
Definition setdefault_stage (b : behavior) (next : nat -> key -> val -> M val) (self : nat) (k : key) (dflt : val) : M val :=
  match b with
  | Adopt => try_catch (getitem self k) is_key_error (fun _ => do! setitem self k dflt in ret dflt)
  | _ => next self k dflt
  end.
Definition setdefault_body (b : option behavior) (self : nat) (k : key) (dflt : val) : M val :=
  match b with
  | Some _ => try_catch (getitem self k) is_key_error (fun _ => do! setitem self k dflt in ret dflt)
  | None => raise AttributeError
  end.
