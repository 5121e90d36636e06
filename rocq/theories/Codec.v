(** StrCodec, src/node/utils.py lines 131-205, over nested structures of text,
    bytes, lists, tuples, dicts, nodes and other objects. *)
From Verif Require Import Py.

(** The exceptions the codec lets out: bytes.decode and str.encode of the
    character encoding, and dict() given an unhashable key (TypeError). *)
Inductive cexc := BadBytes | BadText | Unhashable.
Inductive cres (A : Type) := Ok (a : A) | Err (e : cexc).
Arguments Ok {A}. Arguments Err {A}.

Section codec.
(** Text (Python str) and bytes, and the character encoding [self._encoding]:
    [arg.encode(enc)] and [arg.decode(enc)], failing with UnicodeEncodeError and
    UnicodeDecodeError. *)
Context (text bytes : Type) `{EqDecision text, EqDecision bytes}.
Context (enc : text -> option bytes) (dec : bytes -> option text).

(** Nested structures.  [DOther n h]: the n-th object of some other type,
    hashable if h.  [DNode n l]: the node object n with items l (nodes are hashable
    by identity).  Lists, tuples and dicts are of exactly these types:
    subclasses, whose constructor is called by [arg.__class__(...)], are not modelled. *)
Inductive data :=
| DText (t : text)
| DBytes (b : bytes)
| DOther (n : nat) (h : bool)
| DList (l : list data)
| DTuple (l : list data)
| DDict (l : list (data * data))
| DNode (n : nat) (l : list (data * data)).

(** Python's hash(x): fails for lists, dicts, and tuples containing such. *)
Fixpoint hashes (x : data) : bool :=
  match x with
  | DText _ | DBytes _ | DNode _ _ => true
  | DOther _ h => h
  | DList _ | DDict _ => false
  | DTuple l => forallb hashes l
  end.

(** [k1 == k2] for hashable keys: nodes compare by identity. *)
Fixpoint key_eqb (x y : data) : bool :=
  match x, y with
  | DText a, DText b => bool_decide (a = b)
  | DBytes a, DBytes b => bool_decide (a = b)
  | DOther n _, DOther m _ => bool_decide (n = m)
  | DNode n _, DNode m _ => bool_decide (n = m)
  | DTuple l, DTuple r =>
      (fix go l r := match l, r with
                     | [], [] => true
                     | a :: l, b :: r => key_eqb a b && go l r
                     | _, _ => false
                     end) l r
  | _, _ => false
  end.

(** [d[k] = v] and dict(pairs): a repeated key keeps its place and gets the new value. *)
Fixpoint item_set (k v : data) (l : list (data * data)) : list (data * data) :=
  match l with
  | [] => [(k, v)]
  | (k', v') :: r => if key_eqb k' k then (k', v) :: r else (k', v') :: item_set k v r
  end.
Fixpoint dict_from (l acc : list (data * data)) : cres (list (data * data)) :=
  match l with
  | [] => Ok acc
  | (k, v) :: r => if hashes k then dict_from r (item_set k v acc) else Err Unhashable
  end.

Definition cbind {A B} (m : cres A) (f : A -> cres B) : cres B :=
  match m with Ok a => f a | Err e => Err e end.

(** [map(f, l)], and the comprehension [f(t) for t in iteritems(arg)] on the tuples (k, v). *)
Definition map_with (f : data -> cres data) : list data -> cres (list data) :=
  fix go l := match l with
              | [] => Ok []
              | x :: r => cbind (f x) (fun y => cbind (go r) (fun ys => Ok (y :: ys)))
              end.
Definition items_with (f : data -> cres data) : list (data * data) -> cres (list (data * data)) :=
  fix go l := match l with
              | [] => Ok []
              | (k, v) :: r => cbind (f k) (fun k' => cbind (f v) (fun v' => cbind (go r) (fun ys => Ok ((k', v') :: ys))))
              end.

(** decode, utils.py 185-200. *)
Fixpoint decode (soft : bool) (x : data) : cres data :=
  match x with
  | DList l => cbind (map_with (decode soft) l) (fun l' => Ok (DList l'))
  | DTuple l => cbind (map_with (decode soft) l) (fun l' => Ok (DTuple l'))
  | DDict l | DNode _ l => cbind (items_with (decode soft) l) (fun l' => cbind (dict_from l' []) (fun d => Ok (DDict d)))
  | DBytes b => match dec b with
                | Some t => Ok (DText t)
                | None => if soft then Ok (DBytes b) else Err BadBytes
                end
  | DText _ | DOther _ _ => Ok x
  end.

(** encode, utils.py 150-183: bytes are decoded and, if that gave text, encoded again. *)
Definition enc_text (t : text) : cres data :=
  match enc t with Some b => Ok (DBytes b) | None => Err BadText end.
Fixpoint encode (soft : bool) (x : data) : cres data :=
  match x with
  | DList l => cbind (map_with (encode soft) l) (fun l' => Ok (DList l'))
  | DTuple l => cbind (map_with (encode soft) l) (fun l' => Ok (DTuple l'))
  | DDict l | DNode _ l => cbind (items_with (encode soft) l) (fun l' => cbind (dict_from l' []) (fun d => Ok (DDict d)))
  | DBytes b => match dec b with
                | Some t => enc_text t
                | None => if soft then Ok (DBytes b) else Err BadBytes
                end
  | DText t => enc_text t
  | DOther _ _ => Ok x
  end.
End codec.
