(** Deserialization of any text: the [class] of a node is whatever can be
    imported under that name, called with the arguments in [kw]
    (serializer.py 142-197).  [Serializer.decode] covers the texts which name node
    classes and pass no arguments; [SerialCallProofs] shows that it agrees. *)
From Coq Require Import Ascii.
From stdpp Require Import pretty.
From Verif Require Import Py Odict Aliaser Heap Model Serializer.

(** Something callable: what it does when called with keyword arguments.  It may
    change the state of the process in any way. *)
Definition callable := list (string * val) -> M val.

(** Besides [env]: the things which can be called, by dotted name, apart from the
    node classes.  Importing a module runs its code once; that is not modelled. *)
Record callenv := Callenv {
  e_env : env;
  e_call : string -> option callable
}.

(** the value as name of a node *)
Definition val_name (v : val) : option key :=
  match v with
  | VNone => Some KNone
  | VInt z => Some (KInt z)
  | VStr s => Some (KStr s)
  | VList _ | VDict _ => Some (KUnhashable 0)
  | _ => None
  end.
(** [cls(...)] of a node class: [__init__(name=None, parent=None)], nodify.py 20-25.
    Other arguments and a parent given by a text are not modelled. *)
Definition construct (n : string) (kw : list (string * val)) : M val :=
  match kw with
  | [] => let! x := new_node n KNone None in ret (VNode x)
  | [("name", v)] =>
      match val_name v with
      | Some k => let! x := new_node n k None in ret (VNode x)
      | None => raise Unspecified
      end
  | _ => raise Unspecified
  end.
(** [factory(...)] *)
Definition call (ce : callenv) (n : string) (kw : list (string * val)) : M val :=
  let! cs := (fun s => (Ret (classes s), s)) in
  match cs !! n with
  | Some _ => construct n kw
  | None => match e_call ce n with
            | Some f => f kw
            | None => raise TypeError
            end
  end.

Fixpoint str_keys (l : list (key * val)) : option (list (string * val)) :=
  match l with
  | [] => Some []
  | (KStr k, v) :: r => match str_keys r with Some r => Some ((k, v) :: r) | None => None end
  | _ => None
  end.
(** [**kw]: dicts, and objects with [keys] and [__getitem__] like nodes, whose
    keys are strings *)
Definition unpack (v : val) : M (list (string * val)) :=
  match v with
  | VDict d => match str_keys d with Some kw => ret kw | None => raise TypeError end
  | VNode y =>
      let! its := items y in
      match str_keys its with Some kw => ret kw | None => raise TypeError end
  | VObj _ => raise Unspecified
  | _ => raise TypeError
  end.
(** [node.__name__ = name]: objects of built in types refuse it *)
Definition set_name (v : val) (k : key) : M unit :=
  match v with
  | VNode x => modify x (with_name k)
  | VNone | VBool _ | VInt _ | VStr _ | VList _ | VDict _ => raise AttributeError
  | VUuid _ => raise TypeError
  | VUnset | VClass _ | VObj _ | VUnsetCopy _ => raise Unspecified
  end.

(** [node_factory], serializer.py 153-165; [dec] is [self.decode] *)
Definition call_factory (ce : callenv) (dec : option nat -> json -> M val) (data : json) (parent : option nat) : M val :=
  match data with
  | JObj d =>
      match member "class" d with
      | None => raise (KeyError (KStr "class"))
      | Some c =>
          let! n := resolve (e_env ce) c in
          let! a := dec None (match member "kw" d with None => JObj [] | Some j => j end) in
          match member "name" d with
          | None => raise (KeyError (KStr "name"))
          | Some nm =>
              match name_key nm with
              | None => raise Unspecified
              | Some k =>
                  let! kw := unpack a in
                  let! v := call ce n kw in
                  match parent with
                  | Some p => do! setitem p k v in ret v
                  | None => do! set_name v k in ret v
                  end
              end
          end
      end
  | _ => raise TypeError
  end.

(** the loop over the registry, serializer.py 188-194; callbacks registered for
    classes of other objects are not modelled *)
Definition run_deser (ce : callenv) (dec : option nat -> json -> M val) (v : val) (data : json) : M unit :=
  match v with
  | VNode x =>
      let! o := load x in
      iterM (fun cb : desercb => cb dec x (match data with JObj d => d | _ => [] end))
        (matching (e_env ce) (o_cls o) (v_deser (e_env ce)))
  | _ => ret tt
  end.

(** [NodeDecoder.decode], serializer.py 167-197 *)
Fixpoint decode_calls (f : nat) (ce : callenv) (parent : option nat) (j : json) : M val :=
  match f with
  | O => raise OutOfFuel
  | S f =>
      match j with
      | JStr s =>
          if String.eqb s "<UNSET>" then ret VUnset
          else if startswith "<UUID>:" s then
            match uuid_parse (str_drop 7 s) with
            | Some u => ret (VUuid u)
            | None => raise (ValueError "badly formed hexadecimal UUID string")
            end
          else ret (VStr s)
      | JList l => let! vs := decode_list (decode_calls f ce parent) l in ret (VList vs)
      | JNull | JBool _ | JInt _ => ret (raw j)
      | JObj l =>
          match member "__ob__" l with
          | Some n => let! n := resolve (e_env ce) n in ret (VClass n)
          | None =>
              match member "__node__" l with
              | Some data =>
                  let! v := call_factory ce (decode_calls f ce) data parent in
                  do! run_deser ce (decode_calls f ce) v data in
                  ret v
              | None => ret (raw j)
              end
          end
      end
  end.
(** [deserialize], serializer.py 35-41 *)
Definition deserialize_calls (f : nat) (ce : callenv) (j : json) (root : option nat) : M val :=
  decode_calls f ce root (loads j).
