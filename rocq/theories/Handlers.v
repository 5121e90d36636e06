(** Subscribers of the lifecycle events.

    In Model.v objectEventNotify only writes to the log.  Here the subscribers it calls
    (zope.component.event, one after the other) are one function [h] from the event to any program: it
    may change nodes and may raise.  The stages of Lifecycle and AttributesLifecycle are those of
    Model.v with that call added, all other stages are the ones of Model.v.

    Simplification: events sent while an item is only read (ChildFactory creating a child) are not
    handed to [h]; the theorems are about classes without ChildFactory. *)
From Verif Require Import Py Odict Aliaser Heap Model.

Section handlers.
  Context (h : event -> M unit).
  (** objectEventNotify *)
  Definition send (e : event) : M unit := do! notify e in h e.

  (** lifecycle.py 66-68, 74-76 *)
  Definition send_modified (self : nat) : M unit :=
    let! o := load self in
    match o_parent o with
    | None => raise AttributeError
    | Some p =>
        let! po := load p in
        if has Lifecycle po then
          if o_suppress po then ret tt else send (EvModified p)
        else raise AttributeError
    end.

  Definition set_stage_h (b : behavior) (next : nat -> key -> val -> M unit) (self : nat) (k : key) (v : val) : M unit :=
    match b with
    (* lifecycle.py 33-39 *)
    | Lifecycle =>
        do! next self k v in
        let! o := load self in
        if o_suppress o then ret tt else send (EvAdded v self k)
    (* lifecycle.py 64-68 *)
    | AttributesLifecycle => do! next self k v in send_modified self
    | _ => set_stage b next self k v
    end.
  Fixpoint set_stack_h (all bs : list behavior) (self : nat) (k : key) (v : val) : M unit :=
    match bs with
    | [] => set_endpoint all self k v
    | b :: r => set_stage_h b (set_stack_h all r) self k v
    end.
  Definition setitem_h (self : nat) (k : key) (v : val) : M unit :=
    let! o := load self in
    set_stack_h (c_behs (o_cls o)) (c_behs (o_cls o)) self k v.

  Definition del_stage_h (b : behavior) (next : nat -> key -> M unit) (self : nat) (k : key) : M unit :=
    match b with
    (* lifecycle.py 41-48 *)
    | Lifecycle =>
        let! v := getitem self k in
        do! next self k in
        let! o := load self in
        if o_suppress o then ret tt else send (EvRemoved v self k)
    (* lifecycle.py 70-76 *)
    | AttributesLifecycle => do! next self k in send_modified self
    | _ => del_stage b next self k
    end.
  Fixpoint del_stack_h (all bs : list behavior) (self : nat) (k : key) : M unit :=
    match bs with
    | [] => del_endpoint all self k
    | b :: r => del_stage_h b (del_stack_h all r) self k
    end.
  Definition delitem_h (self : nat) (k : key) : M unit :=
    let! o := load self in
    del_stack_h (c_behs (o_cls o)) (c_behs (o_cls o)) self k.

  Definition detach_stage_h (b : behavior) (next : nat -> key -> M val) (self : nat) (k : key) : M val :=
    match b with
    (* lifecycle.py 50-58 *)
    | Lifecycle =>
        do! modify self (with_suppress true) in
        let! v := next self k in
        do! modify self (with_suppress false) in
        do! send (EvDetached v self k) in
        ret v
    | _ => detach_stage b next self k
    end.
  (** nodify.py 65-69 *)
  Fixpoint detach_stack_h (bs : list behavior) (self : nat) (k : key) : M val :=
    match bs with
    | [] => let! v := getitem self k in do! delitem_h self k in ret v
    | b :: r => detach_stage_h b (detach_stack_h r) self k
    end.
  Definition detach_h (self : nat) (k : key) : M val :=
    let! o := load self in detach_stack_h (c_behs (o_cls o)) self k.

  Definition init_stage_h (mk : string -> M nat) (b : behavior) (next : nat -> M unit) (self : nat) : M unit :=
    match b with
    (* lifecycle.py 28-31 *)
    | Lifecycle => do! next self in send (EvCreated self)
    | _ => init_stage mk b next self
    end.
  Fixpoint init_stack_h (mk : string -> M nat) (all bs : list behavior) (name : key) (parent : option nat) (self : nat) : M unit :=
    match bs with
    | [] => init_endpoint all name parent self
    | b :: r => init_stage_h mk b (init_stack_h mk all r name parent) self
    end.
  Fixpoint instantiate_h (fuel : nat) (cn : string) (name : key) (parent : option nat) : M nat :=
    match fuel with
    | O => raise OutOfFuel
    | S f =>
        let! c := get_class cn in
        let! self := alloc_node (blank c) in
        do! init_stack_h (fun cn => instantiate_h f cn KNone None) (c_behs c) (c_behs c) name parent self in
        ret self
    end.
  Definition new_node_h (cn : string) (name : key) (parent : option nat) : M nat :=
    fun s => instantiate_h (S (size (classes s))) cn name parent s.
End handlers.
