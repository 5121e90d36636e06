(** JSON serialization: src/node/serializer.py.

    The text produced by json.dumps and read back by json.loads is modelled as
    the tree it denotes ([json]); writing that tree as text and reading the same
    tree back is trusted (Python's json module).  What json itself does to
    Python values is modelled: the conversion of dict keys to strings
    ([dumps]), repeated members ([loads]) and the refusal of objects for
    which [default] has no replacement.  Floats, tuples and bytes are not
    modelled as values. *)
From Coq Require Import Ascii.
From stdpp Require Import pretty.
From Verif Require Import Py Odict Aliaser Heap Model.

(** A JSON document; the members of an object are in textual order. *)
Inductive json :=
| JNull
| JBool (b : bool)
| JInt (z : Z)
| JStr (s : string)
| JList (l : list json)
| JObj (l : list (string * json)).

(** * Python's uuid module *)
Definition hex_digit (d : N) : ascii :=
  ascii_of_N (if (d <? 10)%N then 48 + d else 87 + d)%N.
(** the last [n] hexadecimal digits of [u] *)
Fixpoint hex_digits (n : nat) (u : N) : list ascii :=
  match n with
  | O => []
  | S n => hex_digits n (u / 16)%N ++ [hex_digit (u mod 16)%N]
  end.
(** [str(uuid)], e.g. 12345678-1234-5678-1234-567812345678 *)
Definition uuid_str (u : N) : string :=
  let h := hex_digits 32 u in
  String.string_of_list_ascii
    (take 8 h ++ ["-"%char] ++ take 4 (drop 8 h) ++ ["-"%char] ++ take 4 (drop 12 h) ++
     ["-"%char] ++ take 4 (drop 16 h) ++ ["-"%char] ++ drop 20 h).
Definition hex_value (a : ascii) : option N :=
  let n := N_of_ascii a in
  if (48 <=? n)%N && (n <=? 57)%N then Some (n - 48)%N
  else if (97 <=? n)%N && (n <=? 102)%N then Some (n - 87)%N
  else if (65 <=? n)%N && (n <=? 70)%N then Some (n - 55)%N
  else None.
Fixpoint hex_parse (acc : N) (l : list ascii) : option N :=
  match l with
  | [] => Some acc
  | a :: r => match hex_value a with Some d => hex_parse (acc * 16 + d)%N r | None => None end
  end.
(** [uuid.UUID(s)]: 32 hexadecimal digits and any number of dashes.  The
    prefixes urn: and uuid:, surrounding braces, and what int(s, 16) accepts
    besides digits are not modelled: they are refused. *)
Definition uuid_parse (s : string) : option N :=
  let h := filter (fun a => a <> "-"%char) (String.list_ascii_of_string s) in
  if Nat.eqb (length h) 32 then hex_parse 0 h else None.

(** * Registries, serializer.py 48-71 *)
(** what a callback is registered for: an interface or a class *)
Inductive rkey := RIface (n : string) | RClass (n : string).
Global Instance rkey_eq_dec : EqDecision rkey.
Proof. solve_decision. Defined.

(** A serializer callback gets the encoder, of which it uses [encoder.default],
    the node and the data written so far; it returns the data after it has run
    (in Python it mutates the dict). *)
Definition sercb := (val -> M val) -> nat -> list (key * val) -> M (list (key * val)).
(** A deserializer callback gets the decoder, of which it uses
    [decoder.decode(data, parent)], the node and the data read. *)
Definition desercb := (option nat -> json -> M val) -> nat -> list (string * json) -> M unit.

(** The registry is an odict: [registry[ob] = callback], 57-59. *)
Fixpoint register {C} (k : rkey) (cb : C) (r : list (rkey * C)) : list (rkey * C) :=
  match r with
  | [] => [(k, cb)]
  | (k', cb') :: r' => if decide (k' = k) then (k', cb) :: r' else (k', cb') :: register k cb r'
  end.
Definition registered {C} (h : list (rkey * C)) : list (rkey * C) :=
  fold_left (fun r kc => register (fst kc) (snd kc) r) h [].

(** What the encoder and the decoder find in the process around them.
    - [v_provides]: [cls.providedBy(ob)] for interfaces, [isinstance(ob, cls)] for classes
    - [v_ser], [v_deser]: serializer.registry and deserializer.registry
    - [v_others]: dotted names of importable classes and functions that are not node classes *)
Record env := Env {
  v_provides : classdef -> rkey -> bool;
  v_ser : list (rkey * sercb);
  v_deser : list (rkey * desercb);
  v_others : string -> bool
}.
Definition INode := RIface "node.interfaces.INode".
Definition IAttributes := RIface "node.interfaces.IAttributes".

(** * Encoder, serializer.py 78-135 *)
(** The callbacks run for a node of class [c], 123-127 and 190-194. *)
Definition matching {C} (ev : env) (c : classdef) (r : list (rkey * C)) : list C :=
  flat_map (fun kc => if v_provides ev c (fst kc) then [snd kc] else []) r.
Fixpoint run_ser (enc : val -> M val) (x : nat) (cbs : list sercb) (data : list (key * val)) : M (list (key * val)) :=
  match cbs with
  | [] => ret data
  | cb :: r => let! data := cb enc x data in run_ser enc x r data
  end.
Definition key_val (k : key) : val :=
  match k with KStr s => VStr s | KNone => VNone | KInt z => VInt z | KUnhashable n => VObj n end.

(** [NodeEncoder.default], 106-135.  [simple] and [incl] are simple_mode and
    include_class.  The fuel bounds the depth of the tree; running out of it
    stands for RecursionError. *)
Fixpoint default_ob (f : nat) (ev : env) (simple incl : bool) (v : val) : M val :=
  match f with
  | O => raise OutOfFuel
  | S f =>
      match v with
      | VUnset => ret (VStr "<UNSET>")
      | VUuid u => ret (VStr ("<UUID>:" ++ uuid_str u))
      | VNode x =>
          let! o := load x in
          if v_provides ev (o_cls o) INode then
            let cls := if negb simple || incl then [(KStr "class", VStr (c_name (o_cls o)))] else [] in
            let! data := run_ser (default_ob f ev simple incl) x (matching ev (o_cls o) (v_ser ev))
                           (cls ++ [(KStr "name", key_val (o_name o))]) in
            ret (if simple then VDict data else VDict [(KStr "__node__", VDict data)])
          else ret v
      | VClass n => ret (if simple then VStr n else VDict [(KStr "__ob__", VStr n)])
      | VNone | VBool _ | VInt _ | VStr _ | VObj _ | VList _ | VDict _ | VUnsetCopy _ => ret v
      end
  end.

(** Dict keys in JSON: None, ints and strings become strings. *)
Definition json_key (k : key) : option string :=
  match k with KStr s => Some s | KNone => Some "null" | KInt z => Some (pretty z) | KUnhashable _ => None end.
Fixpoint dumps_list (d : val -> M json) (l : list val) : M (list json) :=
  match l with
  | [] => ret []
  | v :: r => let! j := d v in let! js := dumps_list d r in ret (j :: js)
  end.
Fixpoint dumps_dict (d : val -> M json) (l : list (key * val)) : M (list (string * json)) :=
  match l with
  | [] => ret []
  | (k, v) :: r =>
      match json_key k with
      | None => raise TypeError
      | Some n => let! j := d v in let! js := dumps_dict d r in ret ((n, j) :: js)
      end
  end.
(** [json.dumps(ob, cls=NodeEncoder)]: values json knows are written, for others
    [default] is asked; if it returns the object itself, json reports a
    circular reference. *)
Fixpoint dumps (f : nat) (ev : env) (simple incl : bool) (v : val) : M json :=
  match f with
  | O => raise OutOfFuel
  | S f =>
      match v with
      | VNone => ret JNull
      | VBool b => ret (JBool b)
      | VInt z => ret (JInt z)
      | VStr s => ret (JStr s)
      | VList l => let! js := dumps_list (dumps f ev simple incl) l in ret (JList js)
      | VDict l => let! js := dumps_dict (dumps f ev simple incl) l in ret (JObj js)
      | VUnset | VUuid _ | VClass _ | VNode _ | VObj _ | VUnsetCopy _ =>
          let! d := default_ob f ev simple incl v in
          match d with
          | VNode _ | VObj _ | VUnsetCopy _ => raise (ValueError "Circular reference detected")
          | _ => dumps f ev simple incl d
          end
      end
  end.
(** [serialize], 20-32; without simple_mode the class default include_class=True counts. *)
Definition serialize (f : nat) (ev : env) (simple incl : bool) (v : val) : M json :=
  dumps f ev simple (if simple then incl else true) v.

(** * Decoder, serializer.py 142-197 *)
Fixpoint set_member (k : string) (j : json) (l : list (string * json)) : list (string * json) :=
  match l with
  | [] => [(k, j)]
  | (k', j') :: r => if String.eqb k' k then (k', j) :: r else (k', j') :: set_member k j r
  end.
(** [json.loads]: objects become dicts, so of repeated members the last one counts. *)
Fixpoint loads (j : json) : json :=
  match j with
  | JList l => JList (map loads l)
  | JObj l => JObj (fold_left (fun d kj => set_member (fst kj) (snd kj) d)
                      (map (fun kj => (fst kj, loads (snd kj))) l) [])
  | _ => j
  end.
Fixpoint member (k : string) (l : list (string * json)) : option json :=
  match l with
  | [] => None
  | (k', j) :: r => if String.eqb k' k then Some j else member k r
  end.
(** the Python object json.loads returns *)
Fixpoint raw (j : json) : val :=
  match j with
  | JNull => VNone
  | JBool b => VBool b
  | JInt z => VInt z
  | JStr s => VStr s
  | JList l => VList (map raw l)
  | JObj l => VDict (map (fun kj => (KStr (fst kj), raw (snd kj))) l)
  end.
(** [bool(data)] *)
Definition truthy (j : json) : bool :=
  match j with
  | JNull => false
  | JBool b => b
  | JInt z => negb (Z.eqb z 0)
  | JStr s => negb (String.eqb s "")
  | JList l => match l with [] => false | _ => true end
  | JObj l => match l with [] => false | _ => true end
  end.
(** a JSON value used as key of a node; true and false are not modelled as keys *)
Definition name_key (j : json) : option key :=
  match j with
  | JNull => Some KNone
  | JInt z => Some (KInt z)
  | JStr s => Some (KStr s)
  | JList _ | JObj _ => Some (KUnhashable 0)
  | JBool _ => None
  end.

(** [resolve], 144-151, for a dotted name; a name that cannot be resolved raises
    ImportError or AttributeError, which are not distinguished. *)
Definition resolve (ev : env) (j : json) : M string :=
  match j with
  | JStr n => fun s => (if bool_decide (is_Some (classes s !! n)) || v_others ev n then Ret n else Exc AttributeError, s)
  | _ => raise AttributeError
  end.
(** [node_factory], 153-165.  Arguments for the factory ([kw]) are not modelled,
    the serializers of this library write none; nor is calling something else
    than a node class. *)
Definition node_factory (ev : env) (data : json) (parent : option nat) : M nat :=
  match data with
  | JObj d =>
      match member "class" d with
      | None => raise (KeyError (KStr "class"))
      | Some c =>
          let! n := resolve ev c in
          match member "kw" d with
          | None | Some (JObj []) =>
              match member "name" d with
              | None => raise (KeyError (KStr "name"))
              | Some nm =>
                  match name_key nm with
                  | None => raise Unspecified
                  | Some k =>
                      let! cs := (fun s => (Ret (classes s), s)) in
                      match cs !! n with
                      | None => raise Unspecified
                      | Some _ =>
                          let! x := new_node n KNone None in
                          match parent with
                          | Some p => do! setitem p k (VNode x) in ret x
                          | None => do! modify x (with_name k) in ret x
                          end
                      end
                  end
              end
          | Some _ => raise Unspecified
          end
      end
  | _ => raise TypeError
  end.
Fixpoint decode_list (d : json -> M val) (l : list json) : M (list val) :=
  match l with
  | [] => ret []
  | j :: r => let! v := d j in let! vs := decode_list d r in ret (v :: vs)
  end.
(** [NodeDecoder.decode], 167-197 *)
Fixpoint decode (f : nat) (ev : env) (parent : option nat) (j : json) : M val :=
  match f with
  | O => raise OutOfFuel
  | S f =>
      match j with
      | JStr s =>
          if String.eqb s "<UNSET>" then ret VUnset
          else if startswith "<UUID>:" s then
            match uuid_parse (str_drop 7 s) with
            | Some u => ret (VUuid u)
            | None => raise (ValueError "badly formed hexadecimal UUID string")
            end
          else ret (VStr s)
      | JList l => let! vs := decode_list (decode f ev parent) l in ret (VList vs)
      | JNull | JBool _ | JInt _ => ret (raw j)
      | JObj l =>
          match member "__ob__" l with
          | Some n => let! n := resolve ev n in ret (VClass n)
          | None =>
              match member "__node__" l with
              | Some data =>
                  let! x := node_factory ev data parent in
                  let! o := load x in
                  do! iterM (fun cb : desercb => cb (decode f ev) x (match data with JObj d => d | _ => [] end))
                        (matching ev (o_cls o) (v_deser ev)) in
                  ret (VNode x)
              | None => ret (raw j)
              end
          end
      end
  end.
(** [deserialize], 35-41 *)
Definition deserialize (f : nat) (ev : env) (j : json) (root : option nat) : M val :=
  decode f ev root (loads j).

(** * The callbacks of this library, serializer.py 204-239 *)
(** 204-210 *)
Definition serialize_node : sercb := fun enc x data =>
  let! vs := values x in
  let! children := mapM_ enc vs in
  ret (match children with [] => data | _ => dset (KStr "children") (VList children) data end).
(** 213-219; iterating over a dict or a string decodes its keys or characters *)
Definition deserialize_node : desercb := fun dec x data =>
  match member "children" data with
  | None => ret tt
  | Some j =>
      if truthy j then
        match j with
        | JList l => iterM (fun c => do! dec (Some x) c in ret tt) l
        | JObj l => iterM (fun kc : string * json => do! dec (Some x) (JStr (fst kc)) in ret tt) l
        | JStr _ => ret tt
        | _ => raise TypeError
        end
      else ret tt
  end.
(** 226-230 *)
Fixpoint write_attrs (enc : val -> M val) (l : list (key * val)) (d : list (key * val)) : M (list (key * val)) :=
  match l with
  | [] => ret d
  | (k, v) :: r => let! e := enc v in write_attrs enc r (dset k e d)
  end.
Definition serialize_node_attributes : sercb := fun enc x data =>
  match (match dget (KStr "attrs") data with None => Some [] | Some (VDict d) => Some d | Some _ => None end) with
  | None => raise Unspecified
  | Some d =>
      let! a := attrs_of x in
      match a with
      | VNode a =>
          let! its := items a in
          let! d := write_attrs enc its d in
          ret (dset (KStr "attrs") (VDict d) data)
      | _ => raise AttributeError
      end
  end.
(** 233-239; the value is decoded before [node.attrs] is evaluated *)
Definition deserialize_node_attributes : desercb := fun dec x data =>
  match member "attrs" data with
  | None => ret tt
  | Some j =>
      if truthy j then
        match j with
        | JObj l =>
            iterM (fun kc : string * json =>
                     let! v := dec None (snd kc) in
                     let! a := attrs_of x in
                     match a with
                     | VNode a => setitem a (KStr (fst kc)) v
                     | _ => raise TypeError
                     end) l
        | _ => raise AttributeError
        end
      else ret tt
  end.

(** The process after importing node.serializer: the two registrations at 204 and
    226, 213 and 233.  INode is provided by classes with Nodify (nodify.py 28),
    IAttributes by those with Attributes (attributes.py 41); subclassing is not modelled. *)
Definition std_provides (c : classdef) (k : rkey) : bool :=
  match k with
  | RIface n => if String.eqb n "node.interfaces.INode" then bool_decide (Nodify ∈ c_behs c)
                else if String.eqb n "node.interfaces.IAttributes" then bool_decide (Attributes ∈ c_behs c)
                else false
  | RClass n => String.eqb n (c_name c)
  end.
Definition std_env (others : string -> bool) : env :=
  Env std_provides
    (registered [(INode, serialize_node); (IAttributes, serialize_node_attributes)])
    (registered [(INode, deserialize_node); (IAttributes, deserialize_node_attributes)])
    others.
