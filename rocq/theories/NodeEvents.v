(** behaviors/events.py: EventAttribute with storage='attrs' on nodes with Attributes.  What is
    dispatched is given back as a value; what a dispatch does is in Events.v. *)
From Verif Require Import Py Heap Model Utils.

(** EventAttribute, events.py 156-170: default and always_dispatch. *)
Record event_attribute := EventAttribute { ea_default : val; ea_always : bool }.

(** [getattr(obj, self.storage)] with storage 'attrs', attributes.py 46-53.  What is kept in the
    nodespace '__attrs__' is a node. *)
Definition ea_storage (self : nat) : M nat :=
  let! a := attrs_of self in
  match a with VNode c => ret c | _ => raise Unspecified end.

(** [storage.get(name, default)].  [access]: attribute_access_for_attrs, the storage is then an
    AttributeAccess (utils.py 99-128), which has no attribute get: the name is looked up among
    the node attributes; a value found there would be called. *)
Definition ea_lookup (access : bool) (c : nat) (n : string) (dflt : val) : M val :=
  if access then
    let! r := aa_getattr (fun _ => false) c "get" in
    match r with
    | FromContext (VNone | VUnset | VBool _ | VInt _ | VStr _ | VUuid _ | VList _ | VDict _) => raise TypeError
    | _ => raise Unspecified
    end
  else get c (KStr n) dflt.

Section attribute.
(** [veqb a b] is Python's [a == b]. *)
Context (veqb : val -> val -> bool) (access : bool).

(** __get__, events.py 172-177. *)
Definition ea_get (self : nat) (n : string) (ad : event_attribute) : M val :=
  let! c := ea_storage self in ea_lookup access c n (ea_default ad).

(** __set__, events.py 179-187: the value dispatched, if any. *)
Definition ea_set (self : nat) (n : string) (ad : event_attribute) (v : val) : M (option val) :=
  let! c := ea_storage self in
  let! old := ea_lookup access c n (ea_default ad) in
  do! setitem c (KStr n) v in
  ret (if ea_always ad || negb (veqb v old) then Some v else None).

(** __delete__, events.py 189-193. *)
Definition ea_del (self : nat) (n : string) : M (option val) :=
  let! c := ea_storage self in
  do! delitem c (KStr n) in
  ret (Some VUnset).
End attribute.
