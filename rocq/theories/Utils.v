(** node.utils: ReverseMapping, AttributeAccess, instance_property, node_by_path;
    and Nodify's noderepr and treerepr. *)
From Coq Require Import Ascii.
From Verif Require Import Py Odict Aliaser Heap Model.

(** * ReverseMapping, utils.py 50-95 *)
Section reverse_mapping.
(** The context: any object with __iter__, __getitem__, items and __len__.  [eqv a b] is
    Python's [a == b] on its values. *)
Context {K V : Type} (ctx_iter : M (list K)) (ctx_get : K -> M V)
  (ctx_items : M (list (K * V))) (ctx_len : M nat) (eqv : V -> V -> bool).

(** The loop of __getitem__ and __contains__, utils.py 62-64 and 75-78. *)
Fixpoint rm_find (ks : list K) (value : V) : M (option K) :=
  match ks with
  | [] => ret None
  | k :: r =>
      let! v := ctx_get k in
      if eqv v value then ret (Some k) else rm_find r value
  end.
(** __getitem__, utils.py 61-65; [None] stands for raise KeyError(value). *)
Definition rm_getitem (value : V) : M (option K) :=
  let! ks := ctx_iter in rm_find ks value.
(** get, utils.py 67-71. *)
Definition rm_get (value : V) (default : K) : M K :=
  let! r := rm_getitem value in
  ret match r with Some k => k | None => default end.
(** __contains__, utils.py 73-78. *)
Definition rm_contains (value : V) : M bool :=
  let! ks := ctx_iter in
  let! r := rm_find ks value in
  ret match r with Some _ => true | None => false end.
(** __iter__ and keys, utils.py 80-85. *)
Definition rm_keys : M (list V) := let! ks := ctx_iter in mapM_ ctx_get ks.
(** values, utils.py 87-88. *)
Definition rm_values : M (list K) := ctx_iter.
(** items, utils.py 90-91. *)
Definition rm_items : M (list (V * K)) :=
  let! l := ctx_items in ret (map (fun kv => (snd kv, fst kv)) l).
(** __len__, utils.py 93-94. *)
Definition rm_len : M nat := ctx_len.
End reverse_mapping.

(** * AttributeAccess, utils.py 98-128 *)
(** What an attribute read gives: an attribute of the wrapper itself (found by the normal
    lookup, __getattr__ is not called), or a value of the context. *)
Inductive attr_read := OwnAttribute (n : string) | FromContext (v : val).
(** [own] tells the names the normal attribute lookup finds: 'context' (set by __init__,
    utils.py 103-104), the methods and what every object has. *)
Definition aa_getattr (own : string -> bool) (context : nat) (n : string) : M attr_read :=
  if own n then ret (OwnAttribute n)
  else try_catch (let! v := getitem context (KStr n) in ret (FromContext v))
         is_key_error (fun _ => raise AttributeError).
(** __setattr__, utils.py 113-115: called for every name. *)
Definition aa_setattr (context : nat) (n : string) (v : val) : M unit := setitem context (KStr n) v.
(** __getitem__, __setitem__, __delitem__, utils.py 117-128. *)
Definition aa_getitem (context : nat) (k : key) : M val := getitem context k.
Definition aa_setitem (context : nat) (k : key) (v : val) : M unit := setitem context k v.
Definition aa_delitem (context : nat) (k : key) : M unit := delitem context k.

(** * Attributes of nodes *)
(** Reading an attribute of a node. [own] tells the names the normal lookup finds (instance and class
    attributes); for the others GetattrChildren.__getattr__ (common.py 131-136) is called, if there is one. *)
Definition node_getattr (own : string -> bool) (self : nat) (n : string) : M attr_read :=
  let! o := load self in
  if own n then ret (OwnAttribute n)
  else if has GetattrChildren o then let! v := getitem self (KStr n) in ret (FromContext v)
  else raise AttributeError.
(** Python's hasattr and getattr with a default: only AttributeError counts as missing. *)
Definition is_attribute_error (e : exc) : bool := match e with AttributeError => true | _ => false end.
Definition py_hasattr {A} (m : M A) : M bool := try_catch (let! _ := m in ret true) is_attribute_error (fun _ => ret false).
Definition py_getattr {A} (m : M A) (d : A) : M A := try_catch m is_attribute_error (fun _ => ret d).
(** [node.attrs] of a class with [attribute_access_for_attrs]: a new AttributeAccess of the attributes at
    each access (attributes.py 52-53), so [node.attrs.n] and [node.attrs.n = v] are these. What is kept in
    the nodespace '__attrs__' is a node. *)
Definition attrs_getattr (own : string -> bool) (self : nat) (n : string) : M attr_read :=
  let! a := attrs_of self in
  match a with VNode c => aa_getattr own c n | _ => raise Unspecified end.
Definition attrs_setattr (self : nat) (n : string) (v : val) : M unit :=
  let! a := attrs_of self in
  match a with VNode c => aa_setattr c n v | _ => raise Unspecified end.

(** * instance_property, utils.py 208-224 *)
Section instance_property.
Context {V : Type}.
(** Instance attributes per object, and how often each property function has been called on
    each object. *)
Record ip_state := Ip { ip_attrs : gmap (nat * string) V; ip_calls : gmap (nat * string) nat }.
(** [f o name i]: what the i-th call of the function [name] on object [o] returns or raises. *)
Context (f : nat -> string -> nat -> res V).
Definition ip_called (s : ip_state) (o : nat) (name : string) : nat := default 0 (ip_calls s !! (o, name)).
(** wrapper, utils.py 214-222. *)
Definition ip_read (o : nat) (name : string) (s : ip_state) : res V * ip_state :=
  match ip_attrs s !! (o, "_" +:+ name) with
  | Some v => (Ret v, s)
  | None =>
      let i := ip_called s o name in
      let calls := <[(o, name) := S i]> (ip_calls s) in
      match f o name i with
      | Ret v => (Ret v, Ip (<[(o, "_" +:+ name) := v]> (ip_attrs s)) calls)
      | Exc e => (Exc e, Ip (ip_attrs s) calls)
      end
  end.
(** A sequence of reads of properties of objects. *)
Fixpoint ip_reads (l : list (nat * string)) (s : ip_state) : list (res V) * ip_state :=
  match l with
  | [] => ([], s)
  | (o, name) :: r =>
      let '(a, s1) := ip_read o name s in
      let '(as_, s2) := ip_reads r s1 in (a :: as_, s2)
  end.
End instance_property.
Arguments ip_state : clear implicits.

(** * node_by_path, utils.py 227-238 *)
(** str.strip and str.split for a single character. *)
Fixpoint lstrip (c : Ascii.ascii) (l : list Ascii.ascii) : list Ascii.ascii :=
  match l with
  | [] => []
  | a :: r => if decide (a = c) then lstrip c r else l
  end.
Definition strip (c : Ascii.ascii) (l : list Ascii.ascii) : list Ascii.ascii :=
  rev (lstrip c (rev (lstrip c l))).
Fixpoint split_on (c : Ascii.ascii) (l : list Ascii.ascii) : list (list Ascii.ascii) :=
  match l with
  | [] => [[]]
  | a :: r =>
      if decide (a = c) then [] :: split_on c r
      else match split_on c r with
           | w :: ws => (a :: w) :: ws
           | [] => [[a]]
           end
  end.
Definition slash : Ascii.ascii := "/"%char.
Inductive path_arg := PStr (s : string) | PList (ks : list key).
Definition path_keys (p : path_arg) : list key :=
  match p with
  | PStr s =>
      match strip slash (String.list_ascii_of_string s) with
      | [] => []
      | l => map (fun w => KStr (String.string_of_list_ascii w)) (split_on slash l)
      end
  | PList ks => ks
  end.
(** [node[name]] on a value that is not a node: None, numbers, Unset and uuids are not
    subscriptable; what containers, classes and other objects do is left open. *)
Definition subscript (v : val) (k : key) : M val :=
  match v with
  | VNode c => getitem c k
  | VNone | VUnset | VUnsetCopy _ | VBool _ | VInt _ | VUuid _ => raise TypeError
  | _ => raise Unspecified
  end.
Fixpoint subscripts (v : val) (ks : list key) : M val :=
  match ks with
  | [] => ret v
  | k :: r => let! w := subscript v k in subscripts w r
  end.
Definition node_by_path (root : nat) (p : path_arg) : M val := subscripts (VNode root) (path_keys p).

(** * noderepr and treerepr, nodify.py 96-124 *)
Section treerepr.
(** str(key) and repr(value) of values that are not nodes. *)
Context (kstr : key -> string) (vrepr : val -> string).
(** str(name)[name.find(':') + 1:] *)
Fixpoint after_colon (s : string) : option string :=
  match s with
  | EmptyString => None
  | String a r => if decide (a = ":"%char) then Some r else after_colon r
  end.
(** nodify.py 94-107, Python 3. *)
Definition noderepr (o : obj) : string :=
  "<class '" +:+ c_name (o_cls o) +:+ "'>: " +:+
  default (kstr (o_name o)) (after_colon (kstr (o_name o))).

(** sorted(..., key=lambda x: str(x[0])): stable, by the code points of the key's text. *)
Fixpoint str_leb (a b : string) : bool :=
  match a, b with
  | EmptyString, _ => true
  | String _ _, EmptyString => false
  | String x a', String y b' =>
      let m := Ascii.nat_of_ascii x in let n := Ascii.nat_of_ascii y in
      if Nat.ltb m n then true else if Nat.ltb n m then false else str_leb a' b'
  end.
Fixpoint insert_sorted {A} (e : string * A) (l : list (string * A)) : list (string * A) :=
  match l with
  | [] => [e]
  | x :: r => if str_leb (fst e) (fst x) then e :: l else x :: insert_sorted e r
  end.
Definition sort_by_text {A} (l : list (string * A)) : list (string * A) := foldr insert_sorted [] l.

(** indent * prefix *)
Fixpoint times (n : nat) (p : string) : string :=
  match n with O => "" | S m => p +:+ times m p end.
Definition newline : string := String (Ascii.ascii_of_nat 10) "".

(** nodify.py 109-124.  OdictStorage is the only behavior implementing IOrdered.  The
    entries are sorted by the text of their keys, which is what the sort key computes. *)
Fixpoint treerepr (fuel : nat) (self : nat) (indent : nat) (prefix : string) : M string :=
  match fuel with
  | O => raise OutOfFuel
  | S n =>
      let! o := load self in
      let! its := items self in
      let l := map (fun kv => (kstr (fst kv), snd kv)) its in
      let l := if has OdictStorage o then l else sort_by_text l in
      let! parts := mapM_ (fun kv : string * val =>
        match snd kv with
        | VNode c => treerepr n c (indent + 2) prefix
        | v => ret (times (indent + 2) prefix +:+ fst kv +:+ ": " +:+ vrepr v +:+ newline)
        end) l in
      ret (times indent prefix +:+ noderepr o +:+ newline +:+ String.concat "" parts)
  end.
End treerepr.
