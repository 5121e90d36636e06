(** Copies of nodes with GetattrChildren.  The copy module asks objects for special methods with getattr and
    hasattr, which count only an AttributeError as missing; GetattrChildren.__getattr__ (common.py 131-136)
    answers with a child, or KeyError.  Model.copy and Model.deepcopy leave these questions out. *)
From Verif Require Import Py Heap Model Utils.

(** no class of this library, and not object, has the special methods asked for *)
Definition no_attribute (_ : string) : bool := false.
(** Calling what was found in place of a method: nodes and plain values cannot be called. *)
Definition call_value (v : val) : M unit :=
  match v with VClass _ | VObj _ => raise Unspecified | _ => raise TypeError end.

(** [copier = getattr(g, "__deepcopy__", None)] of copy.deepcopy; what was found is called.  (None is taken
    for missing, and copying goes on to the next question.) *)
Definition ask_deepcopy (g : nat) : M unit :=
  let! a := py_getattr (let! a := node_getattr no_attribute g "__deepcopy__" in ret (Some a)) None in
  match a with
  | None => ret tt
  | Some (FromContext VNone) | Some (OwnAttribute _) => raise Unspecified
  | Some (FromContext v) => call_value v
  end.
(** [deepcopy()], mapping.py 155-158 with the hook of UUIDAware (common.py 194-198), which comes after copying.
    [order]: the nodes copy.deepcopy comes across, one after the other.  Up to the first question that raises it
    has made new objects only, which are lost. *)
Definition deepcopy_g (order : list nat) (x : nat) : M nat :=
  do! mapM_ ask_deepcopy order in deepcopy x.

(** [obj.__getstate__] while the state of [x] is taken, in Python before 3.11 ([old]); later object has it. *)
Definition ask_getstate (old : bool) (x : nat) : M unit :=
  if old then
    let! a := py_getattr (let! a := node_getattr no_attribute x "__getstate__" in ret (Some a)) None in
    match a with
    | Some (FromContext v) => call_value v
    | _ => ret tt
    end
  else ret tt.
(** [hasattr(y, "__setstate__")] of copy._reconstruct, on the new and still blank object; then called *)
Definition ask_setstate (y : nat) : M unit :=
  let! a := py_getattr (let! a := node_getattr no_attribute y "__setstate__" in ret (Some a)) None in
  match a with
  | Some (FromContext v) => call_value v
  | _ => ret tt
  end.
(** copy.copy: a new object of the class, then its [__dict__] is filled.  (An object whose [__dict__] is empty
    has no state, and the second question is not asked: DefaultInit puts name and parent there.) *)
Definition shallow_g (old : bool) (self : nat) : M nat :=
  do! ask_getstate old self in
  let! o := load self in
  let! y := alloc_node (blank (o_cls o)) in
  do! ask_setstate y in
  do! modify y (fun _ => o) in
  ret y.
(** [copy()], mapping.py 151-153 with the hooks of Nodify and UUIDAware *)
Fixpoint copy_stack_g (old : bool) (bs : list behavior) (self : nat) : M nat :=
  match bs with
  | [] => shallow_g old self
  | b :: r => copy_stage b (copy_stack_g old r) self
  end.
Definition copy_g (old : bool) (self : nat) : M nat :=
  let! o := load self in copy_stack_g old (c_behs (o_cls o)) self.
