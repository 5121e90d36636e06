(** Python values, exceptions and the state/exception monad.

    The model mirrors Python code running in one thread.  A call either returns
    a value or raises; in both cases the effects made so far are kept. *)
From Coq Require Export ZArith String.
From stdpp Require Export base numbers gmap strings option.
From stdpp Require Export list.
Global Open Scope string_scope.
Global Open Scope list_scope.
Global Open Scope nat_scope.

(** Object identities (nodes) and dict identities are natural numbers. *)
Notation oid := nat (only parsing).
Notation loc := nat (only parsing).

(** Things used as mapping keys.  [KNone] is Python's None, which is also the
    name of an unnamed node.  [KUnhashable] stands for keys a dict refuses with
    TypeError (lists, dicts, ...).  Other hashable objects (tuples, bytes,
    objects) are not modelled as keys. *)
Inductive key :=
| KStr (s : string)
| KNone
| KInt (z : Z)
| KUnhashable (n : nat).

Global Instance key_eq_dec : EqDecision key.
Proof. solve_decision. Defined.

Definition hashable (k : key) : bool :=
  match k with KUnhashable _ => false | _ => true end.

(** Truth value of a key object (Python's [bool(key)]). *)
Definition key_truthy (k : key) : bool :=
  match k with
  | KStr s => negb (String.eqb s "")
  | KNone => false
  | KInt z => negb (Z.eqb z 0)
  | KUnhashable _ => true
  end.

(** Values held by nodes.  [VNode] is a node object (provides INode), [VClass]
    a class or function known by its dotted name, [VObj] an instance of any other class
    that copy.deepcopy copies in the ordinary way, its number being its identity.
    [VList] and [VDict] are plain containers, modelled as immutable values.
    [VUnset] is the object UNSET (utils.py 35), [VUnsetCopy] another instance of its
    class, which is what copy.deepcopy makes of it: it has no [__deepcopy__]. *)
Inductive val :=
| VNone
| VUnset
| VBool (b : bool)
| VInt (z : Z)
| VStr (s : string)
| VUuid (u : N)
| VClass (dotted : string)
| VNode (o : nat)
| VObj (n : nat)
| VList (l : list val)
| VDict (l : list (key * val))
| VUnsetCopy (n : nat).

(** Exceptions.  [Dangling], [OutOfFuel] and [Unspecified] are not Python
    exceptions: a reference to an object that does not exist in the model's
    heap; a loop that used up its fuel, i.e. did not return; a call into a third
    party library outside of its documented contract. *)
Inductive exc :=
| KeyError (k : key)
| ValueError (msg : string)
| TypeError
| AttributeError
| NotImplementedError
| RuntimeError
| UnicodeDecodeError
| Dangling
| OutOfFuel
| Unspecified.

Inductive res (A : Type) :=
| Ret (a : A)
| Exc (e : exc).
Arguments Ret {A}.
Arguments Exc {A}.

Definition is_key_error (e : exc) : bool :=
  match e with KeyError _ => true | _ => false end.

Definition is_attribute_error (e : exc) : bool :=
  match e with AttributeError => true | _ => false end.

(** Python str helpers. *)
Definition startswith (p s : string) : bool := String.prefix p s.

Definition endswith (p s : string) : bool :=
  if (String.length p <=? String.length s)%nat
  then String.eqb (String.substring (String.length s - String.length p) (String.length p) s) p
  else false.

(** [s[n:]] and [s[:n]] for non-negative n. *)
Definition str_drop (n : nat) (s : string) : string :=
  String.substring n (String.length s - n) s.
Definition str_take (n : nat) (s : string) : string :=
  String.substring 0 n s.

(** Is it a reserved nodespace key: nodespace.py lines 31-33, 43, 56. *)
Definition reserved (s : string) : bool :=
  startswith "__" s && endswith "__" s.
