(** Nodes: the behaviors of src/node/behaviors as pipelines over the heap.

    plumber: the [plumb] hooks of a class form a pipeline, leftmost behavior
    outermost, ending in an endpoint (finalize > override > default, leftmost
    first).  Each [*_stage] below is one behavior's hook with the rest of the
    pipeline as [next] (Python's [_next]); each [*_stack] folds the stages of a
    behavior list over the endpoint.

    Only [Behavior] classes of /repo are modelled; hooks on zope.interface
    (INode.providedBy(x) holds exactly for [VNode]), [hasattr] on methods
    (= the class has the behavior) and GetattrChildren's interference with
    attribute lookups of other behaviors are simplified that way. Explicit
    attribute reads of children are [node_getattr] in Utils.v. *)
From Verif Require Import Py Odict Aliaser Heap.

(** * Lazily created dicts *)

(** storage, storage.py 40-52 with instance_property utils.py 208-224. Classes
    without DictStorage/OdictStorage have no storage: NotImplementedError
    (storage.py 15-19). *)
Definition storage_of (self : nat) : M nat :=
  let! o := load self in
  if has DictStorage o || has OdictStorage o then
    match o_storage o with
    | Some l => ret l
    | None =>
        let! l := alloc_dict [] in
        do! modify self (with_storage (Some l)) in ret l
    end
  else raise NotImplementedError.

(** Writing to the storage itself, past the behaviors: [node.storage[k] = v] and
    [del node.storage[k]]; storage is a public attribute (IStorage, storage.py 12-52).
    A class without a storage behavior has no such attribute. *)
Definition own_storage (self : nat) : M nat :=
  let! o := load self in
  if has DictStorage o || has OdictStorage o then storage_of self else raise AttributeError.
Definition store (self : nat) (k : key) (v : val) : M unit :=
  let! l := own_storage self in dict_set l k v.
Definition unstore (self : nat) (k : key) : M unit :=
  let! l := own_storage self in dict_del l k.

(** cache, cache.py 73-78. *)
Definition cache_of (self : nat) : M nat :=
  let! o := load self in
  match o_cache o with
  | Some l => ret l
  | None =>
      let! l := alloc_dict [] in
      do! modify self (with_cache (Some l)) in ret l
  end.

(** nodespaces, nodespace.py 16-26. *)
Definition nodespaces_of (self : nat) : M nat :=
  let! o := load self in
  match o_nodespaces o with
  | Some l => ret l
  | None =>
      let! l := alloc_dict [(KStr "__children__", VNode self)] in
      do! modify self (with_nodespaces (Some l)) in ret l
  end.

(** _children of FixedChildren; AttributeError before __init__ ran. *)
Definition fixed_of (self : nat) : M nat :=
  let! o := load self in
  match o_children o with
  | Some l => ret l
  | None => raise AttributeError
  end.

(** _index; AttributeError on nodes without Reference. *)
Definition index_of (self : nat) : M nat :=
  let! o := load self in
  match o_index o with
  | Some l => ret l
  | None => raise AttributeError
  end.

(** * Location: utils.py 40-47, nodify.py 40-63 *)

Fixpoint location_iterator (fuel : nat) (o : option nat) : M (list nat) :=
  match o with
  | None => ret []
  | Some x =>
      match fuel with
      | O => raise OutOfFuel
      | S f =>
          let! ob := load x in
          let! r := location_iterator f (o_parent ob) in
          ret (x :: r)
      end
  end.

(** path, nodify.py 50-55. *)
Definition path_of (self : nat) : M (list key) :=
  let! l := with_fuel (fun f => location_iterator f (Some self)) in
  let! names := mapM_ (fun o => let! x := load o in ret (o_name x)) l in
  ret (rev names).

(** root, nodify.py 57-63. *)
Definition root_of (self : nat) : M (option nat) :=
  let! l := with_fuel (fun f => location_iterator f (Some self)) in
  ret (last l).

(** * __iter__ *)

(** [self.aliaser.f(key) if self.aliaser else key] with f = alias, unalias:
    alias.py 128-131, 139-142, 149-152, 161-164. *)
Definition alias_with (f : aliaser -> key -> res key) (al : option aliaser) (k : key) : res key :=
  match al with
  | Some a => if aliaser_truthy al then f a k else Ret k
  | None => Ret k
  end.

(** The loop of Alias.__iter__, alias.py 160-172: keys without alias are skipped
    if the aliaser is enumerable. *)
Fixpoint alias_keys (al : option aliaser) (ks : list key) : res (list key) :=
  match ks with
  | [] => Ret []
  | k :: r =>
      match alias_with alias al k with
      | Ret k' => match alias_keys al r with Ret r' => Ret (k' :: r') | Exc e => Exc e end
      | Exc (KeyError k') =>
          if aliaser_enumerable al then alias_keys al r else Exc (KeyError k')
      | Exc e => Exc e
      end
  end.

Definition iter_stage (b : behavior) (next : nat -> M (list key)) (self : nat) : M (list key) :=
  match b with
  (* alias.py 157-172; the generator is run to completion *)
  | Alias =>
      let! ks := next self in
      let! o := load self in
      of_res (alias_keys (c_aliaser (o_cls o)) ks)
  (* cache.py 119-121 *)
  | Cache => next self
  | _ => next self
  end.

(** Endpoint: FixedChildren finalize (common.py 116-118), else the leftmost of
    ChildFactory (common.py 69-71) and Storage (storage.py 33-35), else
    NotImplementedError (mapping.py 87-89).  The iterator is materialised. *)
Fixpoint iter_override (bs : list behavior) (self : nat) : M (list key) :=
  match bs with
  | [] => raise NotImplementedError
  | ChildFactory :: _ => let! o := load self in ret (map fst (c_factories (o_cls o)))
  | DictStorage :: _ | OdictStorage :: _ =>
      let! l := storage_of self in let! d := read_dict l in ret (dkeys d)
  | _ :: r => iter_override r self
  end.
Definition iter_endpoint (bs : list behavior) (self : nat) : M (list key) :=
  if hasc FixedChildren bs then
    let! l := fixed_of self in let! d := read_dict l in ret (dkeys d)
  else iter_override bs self.

Fixpoint iter_stack (all bs : list behavior) (self : nat) : M (list key) :=
  match bs with
  | [] => iter_endpoint all self
  | b :: r => iter_stage b (iter_stack all r) self
  end.

Definition iter (self : nat) : M (list key) :=
  let! o := load self in iter_stack (c_behs (o_cls o)) (c_behs (o_cls o)) self.

(** iterkeys: ChildFactory's override (common.py 73), else mapping.py 123-127. *)
Definition iterkeys (self : nat) : M (list key) :=
  let! o := load self in
  if has ChildFactory o then ret (map fst (c_factories (o_cls o))) else iter self.

(** keys, mapping.py 81-85. *)
Definition keys (self : nat) : M (list key) := iter self.

(** * uuid *)

(** [uuid is not None and int(uuid) or None], reference.py 76, 80. *)
Definition iuuid (u : option N) : option N :=
  match u with
  | Some n => if decide (n = 0%N) then None else Some n
  | None => None
  end.

(** Reference.uuid setter, reference.py 73-84. *)
Definition set_uuid (self : nat) (u : option N) : M unit :=
  let! i := index_of self in
  let! m := read_idx i in
  if (match m !! iuuid u with
      | Some o => if decide (o = self) then false else true
      | None => false
      end)
  then raise (ValueError "Given uuid was already used for another Node")
  else
    let! o := load self in
    let m1 := delete (iuuid (o_uuid o)) m in
    do! write_idx i (<[iuuid u := self]> m1) in
    do! saw_uuid u in
    modify self (with_uuid u).

(** * __setitem__ *)

(** The call [f(self.__parent__...)] of AttributesLifecycle, lifecycle.py 66-68
    and 74-76: notify modified for the owner unless suppressed; AttributeError if
    the parent is missing or has no Lifecycle. *)
Definition notify_modified (self : nat) : M unit :=
  let! o := load self in
  match o_parent o with
  | None => raise AttributeError
  | Some p =>
      let! po := load p in
      if has Lifecycle po then
        if o_suppress po then ret tt else notify (EvModified p)
      else raise AttributeError
  end.

Definition is_node (v : val) : bool := match v with VNode _ => true | _ => false end.
Definition is_class (v : val) : bool := match v with VClass _ => true | _ => false end.

(** [except (AttributeError, KeyError, ValueError)], common.py 41.  In Python
    UnicodeDecodeError is a ValueError. *)
Definition adopt_catches (e : exc) : bool :=
  match e with
  | AttributeError | KeyError _ | ValueError _ | UnicodeDecodeError => true
  | _ => false
  end.

Definition set_stage (b : behavior) (next : nat -> key -> val -> M unit)
    (self : nat) (k : key) (v : val) : M unit :=
  match b with
  (* common.py 27-45 *)
  | Adopt =>
      match v with
      | VNode c =>
          let! old := load c in
          do! modify c (with_name k) in
          do! modify c (with_parent (Some self)) in
          try_catch (next self k v) adopt_catches
            (fun e =>
               do! modify c (with_name (o_name old)) in
               do! modify c (with_parent (o_parent old)) in
               raise e)
      | _ => next self k v
      end
  (* common.py 144-150 *)
  | NodeChildValidate =>
      let! o := load self in
      if negb (o_allow o) && is_class v then
        raise (ValueError "It isn't allowed to use classes as values.")
      else if negb (o_allow o) && negb (is_node v) then
        raise (ValueError "Non-node childs are not allowed.")
      else next self k v
  (* common.py 170-176: decode of a text str is the identity in Python 3 *)
  | UnicodeAware => next self k v
  (* nodespace.py 40-51; non-strings have no startswith.  Values other than
     nodes are taken to refuse assignment of __name__ (true for None, numbers,
     strings, lists, dicts; classes and plain objects would accept it). *)
  | Nodespaces =>
      match k with
      | KStr s =>
          if reserved s then
            match v with
            | VNode c =>
                do! modify c (with_name k) in
                do! modify c (with_parent (Some self)) in
                let! l := nodespaces_of self in
                dict_set l k v
            | _ => raise AttributeError
            end
          else next self k v
      | _ => raise AttributeError
      end
  (* cache.py 102-108 *)
  | Cache =>
      let! l := cache_of self in
      do! try_catch (dict_del l k) is_key_error (fun _ => ret tt) in
      next self k v
  (* alias.py 137-145 *)
  | Alias =>
      let! o := load self in
      let! k' := of_res (alias_with unalias (c_aliaser (o_cls o)) k) in
      try_catch (next self k' v) is_key_error (fun _ => raise (KeyError k))
  (* lifecycle.py 33-39 *)
  | Lifecycle =>
      do! next self k v in
      let! o := load self in
      if o_suppress o then ret tt else notify (EvAdded v self k)
  (* lifecycle.py 64-68 *)
  | AttributesLifecycle =>
      do! next self k v in notify_modified self
  (* reference.py 39-51 *)
  | Reference =>
      match v with
      | VNode c =>
          let! ks := iterkeys c in
          do! (match ks with
               | [] => ret tt
               | _ =>
                   let! i := index_of self in
                   let! mi := read_idx i in
                   let! j := index_of c in
                   let! mj := read_idx j in
                   if decide (dom mi ∩ dom mj = ∅) then ret tt
                   else raise (ValueError "Node with uuid already exists")
               end) in
          let! i := index_of self in
          let! mi := read_idx i in
          let! j := index_of c in
          let! mj := read_idx j in
          do! write_idx i (mj ∪ mi) in
          do! modify c (with_index (Some i)) in
          next self k v
      | _ => next self k v
      end
  | _ => next self k v
  end.

(** Endpoint: FixedChildren finalize (common.py 120-122), Storage override
    (storage.py 29-31), default (mapping.py 71-73). *)
Definition set_endpoint (bs : list behavior) (self : nat) (k : key) (v : val) : M unit :=
  if hasc FixedChildren bs then raise NotImplementedError
  else if hasc DictStorage bs || hasc OdictStorage bs then
    let! l := storage_of self in dict_set l k v
  else raise NotImplementedError.

Fixpoint set_stack (all bs : list behavior) (self : nat) (k : key) (v : val) : M unit :=
  match bs with
  | [] => set_endpoint all self k v
  | b :: r => set_stage b (set_stack all r) self k v
  end.

(** [self[k] = v] *)
Definition setitem (self : nat) (k : key) (v : val) : M unit :=
  let! o := load self in
  set_stack (c_behs (o_cls o)) (c_behs (o_cls o)) self k v.

(** * Object creation: __init__ pipelines *)

(** plain [self.uuid = u]: through Reference's property if the class has it. *)
Definition assign_uuid (self : nat) (u : option N) : M unit :=
  let! o := load self in
  if has Reference o then set_uuid self u
  else do! saw_uuid u in modify self (with_uuid u).

Definition init_stage (mk : string -> M nat) (b : behavior)
    (next : nat -> M unit) (self : nat) : M unit :=
  match b with
  (* reference.py 33-37 *)
  | Reference =>
      let! i := alloc_idx ∅ in
      do! modify self (with_index (Some i)) in
      let! u := uuid4 in
      do! set_uuid self (Some u) in
      next self
  (* common.py 184-187 *)
  | UUIDAware =>
      do! next self in
      let! u := uuid4 in
      assign_uuid self (Some u)
  (* lifecycle.py 28-31 *)
  | Lifecycle =>
      do! next self in notify (EvCreated self)
  (* common.py 98-106 *)
  | FixedChildren =>
      do! next self in
      let! l := alloc_dict [] in
      do! modify self (with_children (Some l)) in
      let! o := load self in
      iterM (fun kf : key * string =>
               let! c := mk (snd kf) in
               do! modify c (with_name (fst kf)) in
               do! modify c (with_parent (Some self)) in
               dict_set l (fst kf) (VNode c)) (c_fixed (o_cls o))
  | _ => next self
  end.

(** Endpoint: DefaultInit (nodify.py 22-25; NodeAttributes' own __init__,
    attributes.py 22-26, is the same and is modelled by listing DefaultInit), else
    object.__init__, which takes no arguments. *)
Definition init_endpoint (bs : list behavior) (name : key) (parent : option nat)
    (self : nat) : M unit :=
  if hasc DefaultInit bs then
    do! modify self (with_name name) in modify self (with_parent parent)
  else match name, parent with
       | KNone, None => ret tt
       | _, _ => raise TypeError
       end.

Fixpoint init_stack (mk : string -> M nat) (all bs : list behavior)
    (name : key) (parent : option nat) (self : nat) : M unit :=
  match bs with
  | [] => init_endpoint all name parent self
  | b :: r => init_stage mk b (init_stack mk all r name parent) self
  end.

(** Attributes of a new object before __init__: the class attributes. *)
Definition blank (c : classdef) : obj :=
  Obj c KNone None None None None None None None (c_allow c) false (c_fallback c).

(** [cls(name=name, parent=parent)].  FixedChildren instantiates other classes;
    fuel bounds the nesting, a cyclic definition would recurse for ever. *)
Fixpoint instantiate (fuel : nat) (cn : string) (name : key) (parent : option nat) : M nat :=
  match fuel with
  | O => raise OutOfFuel
  | S f =>
      let! c := get_class cn in
      let! self := alloc_node (blank c) in
      do! init_stack (fun cn => instantiate f cn KNone None)
            (c_behs c) (c_behs c) name parent self in
      ret self
  end.

Definition new_node (cn : string) (name : key) (parent : option nat) : M nat :=
  fun s => instantiate (S (size (classes s))) cn name parent s.

(** * __getitem__ *)

Definition fb_enter : M Z :=
  fun s => (Ret (fbcount s + 1)%Z, set_fbcount (fun z => z + 1)%Z s).
Definition fb_exit : M unit :=
  fun s => (Ret tt, set_fbcount (fun z => z - 1)%Z s).

(** [fb] is the search started by an outermost fallback lookup. *)
Definition get_stage (fb : nat -> key -> M (option val)) (b : behavior)
    (next : nat -> key -> M val) (self : nat) (k : key) : M val :=
  match b with
  (* common.py 75-82 *)
  | ChildFactory =>
      try_catch (next self k) is_key_error
        (fun _ =>
           let! o := load self in
           if hashable k then
             match dget k (c_factories (o_cls o)) with
             | None => raise (KeyError k)
             | Some cn =>
                 let! c := new_node cn KNone None in
                 do! setitem self k (VNode c) in
                 ret (VNode c)
             end
           else raise TypeError)
  (* common.py 164-168 *)
  | UnicodeAware => next self k
  (* nodespace.py 28-38 *)
  | Nodespaces =>
      match k with
      | KStr s =>
          if reserved s then let! l := nodespaces_of self in dict_get l k
          else next self k
      | _ => next self k
      end
  (* cache.py 93-100 *)
  | Cache =>
      let! l := cache_of self in
      try_catch (dict_get l k) is_key_error
        (fun _ =>
           let! v := next self k in
           do! dict_set l k v in
           dict_get l k)
  (* alias.py 126-135 *)
  | Alias =>
      let! o := load self in
      let! k' := of_res (alias_with unalias (c_aliaser (o_cls o)) k) in
      try_catch (next self k') is_key_error (fun _ => raise (KeyError k))
  (* fallback.py 53-68 *)
  | Fallback =>
      try_catch (next self k) is_key_error
        (fun e =>
           let! count := fb_enter in
           try_finally
             (if (0 <? count)%Z then raise e
              else let! r := fb self k in
                   match r with
                   | None => raise e
                   | Some v => ret v
                   end) fb_exit)
  | _ => next self k
  end.

(** Endpoint: FixedChildren finalize (common.py 112-114), Storage override
    (storage.py 21-23), default (mapping.py 26-28). *)
Definition get_endpoint (bs : list behavior) (self : nat) (k : key) : M val :=
  if hasc FixedChildren bs then
    let! l := fixed_of self in dict_get l k
  else if hasc DictStorage bs || hasc OdictStorage bs then
    let! l := storage_of self in dict_get l k
  else raise NotImplementedError.

Fixpoint get_stack (fb : nat -> key -> M (option val)) (all bs : list behavior)
    (self : nat) (k : key) : M val :=
  match bs with
  | [] => get_endpoint all self k
  | b :: r => get_stage fb b (get_stack fb all r) self k
  end.

(** Item access while a fallback search is running: a nested Fallback never
    starts a search (count > 0), so the search argument is not used; it is a
    visible error here, and Fallback_proofs shows it is not reached. *)
Definition getitem_nested (self : nat) (k : key) : M val :=
  let! o := load self in
  get_stack (fun _ _ => raise Unspecified)
    (c_behs (o_cls o)) (c_behs (o_cls o)) self k.

(** The loop of _to_leaf, fallback.py 41-46: [inl n] if a name is missing below
    node n ([current.get(name, _marker)] is mapping.py 36-43), [inr v] when the
    end is reached.  Values that are no nodes have no [get]: AttributeError
    (plain dict values, which have one, are not modelled here). *)
Fixpoint to_leaf_loop (current : val) (names : list key) : M (nat + val) :=
  match names with
  | [] => ret (inr current)
  | name :: r =>
      match current with
      | VNode c =>
          let! nx := try_catch (let! v := getitem_nested c name in ret (Some v))
                       is_key_error (fun _ => ret None) in
          match nx with
          | None => ret (inl c)
          | Some v => to_leaf_loop v r
          end
      | _ => raise AttributeError
      end
  end.

(** _to_root and _to_leaf, fallback.py 25-46; [None] is _marker.  visited is a
    mutable set in Python, handed down on every call. *)
Fixpoint to_root (fuel : nat) (node : nat) (path : list key) (visited : list nat)
    : M (option val) :=
  match fuel with
  | O => raise OutOfFuel
  | S f =>
      let! n := load node in
      match o_parent n with
      | None => ret None
      | Some p =>
          let! po := load p in
          match o_fallback po with
          | Some fk =>
              if key_truthy fk && bool_decide (node ∉ visited) then
                let! c := getitem_nested p fk in
                match c with
                | VNode c =>
                    let! cp := path_of c in
                    let! r := to_leaf_loop (VNode c) (drop (length cp) path) in
                    match r with
                    | inl cur => to_root f cur path (node :: visited)
                    | inr v => ret (Some v)
                    end
                | _ => raise AttributeError
                end
              else to_root f p path visited
          | None => to_root f p path visited
          end
      end
  end.

(** Enough steps for a search in a tree of n nodes: at most one fallback jump
    per node and at most n steps up between jumps. *)
Definition fb_fuel (s : st) : nat := S (fuel_of s) * S (fuel_of s).

Definition fb_search (self : nat) (k : key) : M (option val) :=
  let! p := path_of self in
  fun s => to_root (fb_fuel s) self (p ++ [k]) [] s.

(** [self[k]] *)
Definition getitem (self : nat) (k : key) : M val :=
  let! o := load self in
  get_stack fb_search (c_behs (o_cls o)) (c_behs (o_cls o)) self k.

(** * Reference helpers *)

(** _to_delete, reference.py 95-105. *)
Fixpoint to_delete (fuel : nat) (self : nat) : M (list N) :=
  match fuel with
  | O => raise OutOfFuel
  | S f =>
      let! o := load self in
      if has Reference o then
        match o_uuid o with
        | None => raise TypeError
        | Some u =>
            let! ks := iter self in
            let! ls := mapM_ (fun k =>
               try_catch
                 (let! c := getitem self k in
                  match c with
                  | VNode c => to_delete f c
                  | _ => raise AttributeError
                  end)
                 is_attribute_error (fun _ => ret [])) ks in
            ret (u :: concat ls)
        end
      else raise AttributeError
  end.

(** values, mapping.py 91-97. *)
Definition values (self : nat) : M (list val) :=
  let! ks := iter self in mapM_ (getitem self) ks.

(** items, mapping.py 99-105. *)
Definition items (self : nat) : M (list (key * val)) :=
  let! ks := iter self in
  mapM_ (fun k => let! v := getitem self k in ret (k, v)) ks.

(** _index_nodes, reference.py 107-117. *)
Fixpoint index_nodes (fuel : nat) (self : nat) : M unit :=
  match fuel with
  | O => raise OutOfFuel
  | S f =>
      let! o := load self in
      if has Reference o then
        let! vs := values self in
        iterM (fun v =>
          match v with
          | VNode c =>
              let! co := load c in
              if has Reference co || has UUIDAware co then
                match o_uuid co with
                | None => raise TypeError
                | Some u =>
                    let! i := index_of self in
                    let! m := read_idx i in
                    do! write_idx i (<[Some u := c]> m) in
                    do! modify c (with_index (Some i)) in
                    index_nodes f c
                end
              else ret tt
          | _ => ret tt
          end) vs
      else raise AttributeError
  end.

(** [del index[u]] *)
Definition idx_del (i : nat) (u : option N) : M unit :=
  let! m := read_idx i in
  match m !! u with
  | Some _ => write_idx i (delete u m)
  | None => raise (KeyError (match u with Some n => KInt (Z.of_N n) | None => KNone end))
  end.

(** * __delitem__ *)

Definition del_stage (b : behavior) (next : nat -> key -> M unit)
    (self : nat) (k : key) : M unit :=
  match b with
  (* common.py 158-162 *)
  | UnicodeAware => next self k
  (* nodespace.py 53-62 *)
  | Nodespaces =>
      match k with
      | KStr s =>
          if reserved s then let! l := nodespaces_of self in dict_del l k
          else next self k
      | _ => raise AttributeError
      end
  (* cache.py 110-116 *)
  | Cache =>
      let! l := cache_of self in
      do! try_catch (dict_del l k) is_key_error (fun _ => ret tt) in
      next self k
  (* alias.py 147-155 *)
  | Alias =>
      let! o := load self in
      let! k' := of_res (alias_with unalias (c_aliaser (o_cls o)) k) in
      try_catch (next self k') is_key_error (fun _ => raise (KeyError k))
  (* lifecycle.py 41-48 *)
  | Lifecycle =>
      let! v := getitem self k in
      do! next self k in
      let! o := load self in
      if o_suppress o then ret tt else notify (EvRemoved v self k)
  (* lifecycle.py 70-76 *)
  | AttributesLifecycle =>
      do! next self k in notify_modified self
  (* reference.py 53-60 *)
  | Reference =>
      let! v := getitem self k in
      do! (match v with
           | VNode c =>
               let! co := load c in
               if has Reference co then
                 let! us := with_fuel (fun f => to_delete f c) in
                 iterM (fun u => let! i := index_of self in idx_del i (Some u)) us
               else ret tt
           | _ => ret tt
           end) in
      next self k
  | _ => next self k
  end.

(** Endpoint: FixedChildren finalize (common.py 108-110), Storage override
    (storage.py 25-27), default (mapping.py 67-69). *)
Definition del_endpoint (bs : list behavior) (self : nat) (k : key) : M unit :=
  if hasc FixedChildren bs then raise NotImplementedError
  else if hasc DictStorage bs || hasc OdictStorage bs then
    let! l := storage_of self in dict_del l k
  else raise NotImplementedError.

Fixpoint del_stack (all bs : list behavior) (self : nat) (k : key) : M unit :=
  match bs with
  | [] => del_endpoint all self k
  | b :: r => del_stage b (del_stack all r) self k
  end.

(** [del self[k]] *)
Definition delitem (self : nat) (k : key) : M unit :=
  let! o := load self in
  del_stack (c_behs (o_cls o)) (c_behs (o_cls o)) self k.

(** * detach *)

Definition detach_stage (b : behavior) (next : nat -> key -> M val)
    (self : nat) (k : key) : M val :=
  match b with
  (* lifecycle.py 50-58 *)
  | Lifecycle =>
      do! modify self (with_suppress true) in
      let! v := next self k in
      do! modify self (with_suppress false) in
      do! notify (EvDetached v self k) in
      ret v
  (* reference.py 62-67.  Nodes without Reference are refused with
     AttributeError (a UUIDAware node would first get a stray _index). *)
  | Reference =>
      let! v := next self k in
      match v with
      | VNode c =>
          let! co := load c in
          if has Reference co then
            match o_uuid co with
            | None => raise TypeError
            | Some u =>
                let! i := alloc_idx {[ Some u := c ]} in
                do! modify c (with_index (Some i)) in
                do! with_fuel (fun f => index_nodes f c) in
                ret v
            end
          else raise AttributeError
      | _ => raise AttributeError
      end
  | _ => next self k
  end.

(** nodify.py 65-69 *)
Definition detach_endpoint (self : nat) (k : key) : M val :=
  let! v := getitem self k in
  do! delitem self k in
  ret v.

Fixpoint detach_stack (bs : list behavior) (self : nat) (k : key) : M val :=
  match bs with
  | [] => detach_endpoint self k
  | b :: r => detach_stage b (detach_stack r) self k
  end.

Definition detach (self : nat) (k : key) : M val :=
  let! o := load self in detach_stack (c_behs (o_cls o)) self k.

(** * Derived mapping methods, mapping.py *)

(** get, mapping.py 36-43. *)
Definition get (self : nat) (k : key) (dflt : val) : M val :=
  try_catch (getitem self k) is_key_error (fun _ => ret dflt).

(** __contains__, mapping.py 45-59; has_key, 164-168. *)
Definition contains (self : nat) (k : key) : M bool :=
  try_catch (do! getitem self k in ret true) is_key_error (fun _ => ret false).

(** __len__, mapping.py 107-111. *)
Definition len (self : nat) : M nat := let! ks := keys self in ret (length ks).

(** clear, mapping.py 174-179. *)
Definition clear (self : nat) : M unit :=
  let! ks := keys self in iterM (delitem self) ks.

(** update, mapping.py 181-193: [args] the positional arguments, each already
    turned into its list of pairs; [kw] the keyword arguments. *)
Definition update (self : nat) (args : list (list (key * val))) (kw : list (key * val)) : M unit :=
  match args with
  | _ :: _ :: _ => raise TypeError
  | _ =>
      do! iterM (fun kv : key * val => setitem self (fst kv) (snd kv)) (concat args) in
      iterM (fun kv : key * val => setitem self (fst kv) (snd kv)) kw
  end.

(** update with one positional argument that has the method items (mapping.py 186-190; in Python 3
    ITER_FUNC is 'items'): the items are read first, then assigned one by one. *)
Definition update_from (self other : nat) : M unit :=
  let! l := items other in update self [l] [].

(** setdefault: Adopt's (common.py 47-54) and the default (mapping.py 195-203)
    do the same. *)
Definition setdefault (self : nat) (k : key) (dflt : val) : M val :=
  try_catch (getitem self k) is_key_error
    (fun _ => do! setitem self k dflt in ret dflt).

(** pop, mapping.py 205-216: [None] default means the argument was not given. *)
Definition pop (self : nat) (k : key) (dflt : option val) : M val :=
  try_catch
    (let! v := getitem self k in do! delitem self k in ret v)
    is_key_error
    (fun e => match dflt with
              | None => raise e
              | Some VUnset => raise e
              | Some d => ret d
              end).

(** popitem, mapping.py 218-226. *)
Definition popitem (self : nat) : M (key * val) :=
  let! ks := keys self in
  match rev ks with
  | [] => raise (KeyError (KStr "popitem(): mapping is empty"))
  | k :: _ =>
      let! v := getitem self k in
      do! delitem self k in
      ret (k, v)
  end.

(** * attrs, attributes.py 46-56 (without the AttributeAccess wrapper) *)
(** Without Attributes there is no attribute [attrs], without Nodespaces the property finds no
    attribute [nodespaces]. *)
Definition with_attrs (bs : list behavior) : bool := hasc Attributes bs && hasc Nodespaces bs.
Definition attrs_of (self : nat) : M val :=
  let! o := load self in
  if with_attrs (c_behs (o_cls o)) then
    let! l := nodespaces_of self in
    try_catch (dict_get l (KStr "__attrs__")) is_key_error
      (fun _ =>
         let! a := new_node (c_attrs_factory (o_cls o)) (KStr "__attrs__") (Some self) in
         let! l := nodespaces_of self in
         do! dict_set l (KStr "__attrs__") (VNode a) in
         ret (VNode a))
  else raise AttributeError.

(** * invalidate *)

(** Endpoint: leftmost of Invalidate (cache.py 35-43) and
    VolatileStorageInvalidate (cache.py 52-67); [KNone] is the default key. *)
Fixpoint invalidate_endpoint (bs : list behavior) (self : nat) (k : key) : M unit :=
  match bs with
  | [] => raise AttributeError
  | Invalidate :: _ =>
      if decide (k = KNone) then
        let! ks := keys self in iterM (delitem self) ks
      else delitem self k
  | VolatileStorageInvalidate :: _ =>
      let! l := storage_of self in
      if decide (k = KNone) then
        let! d := read_dict l in iterM (dict_del l) (dkeys d)
      else
        let! ks := keys self in
        if bool_decide (k ∈ ks) then
          try_catch (dict_del l k) is_key_error (fun _ => ret tt)
        else raise (KeyError k)
  | _ :: r => invalidate_endpoint r self k
  end.

(** Cache.invalidate, cache.py 80-91.  Note that [for key in _keys(cache)]
    rebinds the parameter [key]: after the loop it is the last cached key. *)
Definition invalidate_stage (b : behavior) (next : nat -> key -> M unit)
    (self : nat) (k : key) : M unit :=
  match b with
  | Cache =>
      let! l := cache_of self in
      if decide (k = KNone) then
        let! d := read_dict l in
        do! iterM (dict_del l) (dkeys d) in
        next self (default k (last (dkeys d)))
      else
        do! try_catch (dict_del l k) is_key_error (fun _ => ret tt) in
        next self k
  | _ => next self k
  end.

Fixpoint invalidate_stack (all bs : list behavior) (self : nat) (k : key) : M unit :=
  match bs with
  | [] => invalidate_endpoint all self k
  | b :: r => invalidate_stage b (invalidate_stack all r) self k
  end.

Definition invalidate (self : nat) (k : key) : M unit :=
  let! o := load self in
  invalidate_stack (c_behs (o_cls o)) (c_behs (o_cls o)) self k.

(** * Order, order.py *)

Definition name_of (o : nat) : M key := let! x := load o in ret (o_name x).

(** odict.swap(a, b) *)
Definition odict_swap (l : nat) (a b : key) : M unit :=
  if decide (a = b) then raise (ValueError "Swap keys are equal")
  else
    let! d := read_dict l in
    match dget a d, dget b d with
    | None, _ => raise (KeyError a)
    | _, None => raise (KeyError b)
    | Some _, Some _ => write_dict l (dswap a b d)
    end.

(** odict.insertbefore / insertafter(ref, key, value): ValueError for equal
    keys, KeyError for a missing reference; inserting a key that is already
    present is outside of the contract. *)
Definition odict_insert (before : bool) (l : nat) (ref k : key) (v : val) : M unit :=
  if decide (ref = k) then raise (ValueError "Reference key and new key are equal")
  else
    let! d := read_dict l in
    match dget ref d with
    | None => raise (KeyError ref)
    | Some _ =>
        match dget k d with
        | Some _ => raise Unspecified
        | None =>
            if hashable k then
              write_dict l (if before then dinsert_before ref k v d
                            else dinsert_after ref k v d)
            else raise TypeError
        end
    end.

(** The leftmost storage behavior is OdictStorage: the storage is an odict. *)
Fixpoint keeps_order (bs : list behavior) : bool :=
  match bs with
  | [] => false
  | OdictStorage :: _ => true
  | DictStorage :: _ => false
  | _ :: r => keeps_order r
  end.
(** [self.storage.swap], [.insertbefore], [.insertafter]: methods of odict, a dict has none. *)
Definition odict_of (self : nat) : M nat :=
  let! o := load self in
  let! l := own_storage self in
  if keeps_order (c_behs (o_cls o)) then ret l else raise AttributeError.
(** A call of a method of Order; classes without the behavior have no such method. *)
Definition order_method {A} (self : nat) (m : M A) : M A :=
  let! o := load self in if has Order o then m else raise AttributeError.

(** swap, order.py 11-13. *)
Definition swap (self a b : nat) : M unit :=
  order_method self (
  let! l := odict_of self in
  let! ka := name_of a in
  let! kb := name_of b in
  odict_swap l ka kb).

(** _validateinsertion, order.py 49-59; [self.node(uuid)], reference.py 91-93. *)
Definition validateinsertion (self n : nat) : M unit :=
  let! no := load n in
  if decide (o_name no = KNone) then
    raise (ValueError "Given node has no __name__ set.")
  else
    let! o := load self in
    if has Reference o then
      if has Reference no || has UUIDAware no then
        match o_uuid no with
        | None => raise TypeError
        | Some u =>
            let! i := index_of self in
            let! m := read_idx i in
            match m !! Some u with
            | Some _ => raise (KeyError (KStr "Given node already contained in tree."))
            | None => ret tt
            end
        end
      else raise AttributeError
    else ret tt.

(** insertbefore 33-39, insertafter 41-47, order.py. *)
Definition insert_at (before : bool) (self n r : nat) : M unit :=
  order_method self (
  do! validateinsertion self n in
  let! l := odict_of self in
  let! rk := name_of r in
  let! k := name_of n in
  do! try_catch (odict_insert before l rk k (VNode n)) is_key_error
        (fun _ => raise (ValueError "Given reference node not child of self.")) in
  let! k := name_of n in
  setitem self k (VNode n)).
Definition insertbefore := insert_at true.
Definition insertafter := insert_at false.

(** insertfirst 15-22, insertlast 24-31, order.py; a held value that is not a
    node has no name: AttributeError. *)
Definition insert_end (first : bool) (self n : nat) : M unit :=
  order_method self (
  let! ks := keys self in
  match (if first then head ks else last ks) with
  | None => let! k := name_of n in setitem self k (VNode n)
  | Some rk =>
      let! r := getitem self rk in
      match r with
      | VNode r => insert_at first self n r
      | _ => raise AttributeError
      end
  end).
Definition insertfirst := insert_end true.
Definition insertlast := insert_end false.

(** * copy and deepcopy *)

(** copy.copy(node): a new object with the same attribute dictionary. *)
Definition shallow (self : nat) : M nat :=
  let! o := load self in alloc_node o.

Definition copy_stage (b : behavior) (next : nat -> M nat) (self : nat) : M nat :=
  match b with
  (* nodify.py 33-38 *)
  | Nodify =>
      let! new := next self in
      let! o := load self in
      do! modify new (with_name (o_name o)) in
      do! modify new (with_parent (o_parent o)) in
      ret new
  (* common.py 189-192 *)
  | UUIDAware => raise RuntimeError
  | _ => next self
  end.
Fixpoint copy_stack (bs : list behavior) (self : nat) : M nat :=
  match bs with
  | [] => shallow self
  | b :: r => copy_stage b (copy_stack r) self
  end.
Definition copy (self : nat) : M nat :=
  let! o := load self in copy_stack (c_behs (o_cls o)) self.

(** copy.deepcopy: every object reachable from the node is copied once and
    references are redirected to the copies (memo).  The model copies every
    object of the heap, reachable or not, to identity + offset; what is not
    reachable from the result is garbage.  Objects that are not nodes ([VObj], [VUnset]) are
    copied too; numbers of [VObj] are not drawn from [next_id], so two of them may come to
    have the same number if a client uses numbers that large. *)
Fixpoint shift_val (n : nat) (v : val) : val :=
  match v with
  | VNode o => VNode (n + o)
  | VList l => VList (map (shift_val n) l)
  | VDict l => VDict (map (fun kv => (fst kv, shift_val n (snd kv))) l)
  | VUnset => VUnsetCopy n
  | VUnsetCopy m => VUnsetCopy (n + m)
  | VObj m => VObj (n + m)
  | _ => v
  end.
Definition shift_obj (n : nat) (o : obj) : obj :=
  Obj (o_cls o) (o_name o) (Nat.add n <$> o_parent o) (Nat.add n <$> o_storage o)
      (Nat.add n <$> o_cache o) (Nat.add n <$> o_children o)
      (Nat.add n <$> o_nodespaces o) (Nat.add n <$> o_index o) (o_uuid o)
      (o_allow o) (o_suppress o) (o_fallback o).
Definition shift_dict (n : nat) (d : list (key * val)) : list (key * val) :=
  map (fun kv => (fst kv, shift_val n (snd kv))) d.
Definition deep (self : nat) : M nat :=
  fun s =>
    let n := next_id s in
    (Ret (n + self),
     St (nodes s ∪ kmap (M2 := gmap nat) (Nat.add n) (shift_obj n <$> nodes s))
        (dicts s ∪ kmap (M2 := gmap nat) (Nat.add n) (shift_dict n <$> dicts s))
        (idxs s ∪ kmap (M2 := gmap nat) (Nat.add n) ((fun m : gmap (option N) nat => Nat.add n <$> m) <$> idxs s))
        (n + n) (next_uuid s) (log s) (fbcount s) (classes s)).

(** set_uuid_for, common.py 204-211, with override=True. *)
Fixpoint set_uuid_for (fuel : nat) (recursiv : bool) (v : val) : M unit :=
  match fuel with
  | O => raise OutOfFuel
  | S f =>
      match v with
      | VNode c =>
          let! o := load c in
          do! (if has UUIDAware o then
                 let! u := uuid4 in assign_uuid c (Some u)
               else ret tt) in
          if recursiv then
            let! vs := values c in iterM (set_uuid_for f recursiv) vs
          else ret tt
      | _ => if recursiv then raise AttributeError else ret tt
      end
  end.

Definition deepcopy_stage (b : behavior) (next : nat -> M nat) (self : nat) : M nat :=
  match b with
  (* common.py 194-198 *)
  | UUIDAware =>
      let! c := next self in
      let! o := load self in
      do! with_fuel (fun f => set_uuid_for f (c_recursiv (o_cls o)) (VNode c)) in
      ret c
  | _ => next self
  end.
Fixpoint deepcopy_stack (bs : list behavior) (self : nat) : M nat :=
  match bs with
  | [] => deep self
  | b :: r => deepcopy_stage b (deepcopy_stack r) self
  end.
Definition deepcopy (self : nat) : M nat :=
  let! o := load self in deepcopy_stack (c_behs (o_cls o)) self.

(** * acquire, filteredvalues: nodify.py 71-89 *)

(** [p] tells whether a node provides the interface or is an instance of the
    class asked for. *)
Fixpoint acquire_loop (fuel : nat) (p : obj -> bool) (n : option nat) : M (option nat) :=
  match n with
  | None => ret None
  | Some x =>
      match fuel with
      | O => raise OutOfFuel
      | S f =>
          let! o := load x in
          if p o then ret (Some x) else acquire_loop f p (o_parent o)
      end
  end.
Definition acquire (p : obj -> bool) (self : nat) : M (option nat) :=
  let! o := load self in with_fuel (fun f => acquire_loop f p (o_parent o)).

(** filteredvalues: [p] is interface.providedBy. *)
Definition filteredvalues (p : val -> bool) (self : nat) : M (list val) :=
  let! vs := values self in ret (List.filter p vs).
