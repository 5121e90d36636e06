(** Specification of JSON serialization. *)
From Verif Require Import Py Heap Model SpecMapping MappingProofs Observe TreeOps NewEff Reach SpecTree Serializer.

(** * Values *)
(** a dotted name the decoder can import in a state *)
Definition importable (ev : env) (s : st) (n : string) : Prop := is_Some (classes s !! n) \/ v_others ev n = true.

(** What JSON itself can express; dictionaries have distinct string keys. *)
Inductive native : val -> Prop :=
| nat_none : native VNone
| nat_bool b : native (VBool b)
| nat_int z : native (VInt z)
| nat_str t : native (VStr t)
| nat_list l : Forall native l -> native (VList l)
| nat_dict d : NoDup (map fst d) -> Forall (fun e => (exists t, fst e = KStr t) /\ native (snd e)) d -> native (VDict d).

(** What survives serialization: values of JSON that cannot be mistaken for something else, UNSET,
    uuids, importable classes and functions, and lists of these; only JSON values in dictionaries. *)
Inductive plain (imp : string -> Prop) : val -> Prop :=
| pl_none : plain imp VNone
| pl_bool b : plain imp (VBool b)
| pl_int z : plain imp (VInt z)
| pl_str t : t <> "<UNSET>" -> (forall r, t <> ("<UUID>:" ++ r)%string) -> plain imp (VStr t)
| pl_unset : plain imp VUnset
| pl_uuid u : (u < 2 ^ 128)%N -> plain imp (VUuid u)
| pl_class n : imp n -> plain imp (VClass n)
| pl_list l : Forall (plain imp) l -> plain imp (VList l)
| pl_dict d : native (VDict d) -> Forall (fun e => fst e <> KStr "__ob__" /\ fst e <> KStr "__node__") d -> plain imp (VDict d).

(** no node and no foreign object inside *)
Inductive closed : val -> Prop :=
| cl_none : closed VNone
| cl_bool b : closed (VBool b)
| cl_int z : closed (VInt z)
| cl_str t : closed (VStr t)
| cl_unset : closed VUnset
| cl_uuid u : closed (VUuid u)
| cl_class n : closed (VClass n)
| cl_list l : Forall closed l -> closed (VList l)
| cl_dict d : Forall (fun e => closed (snd e)) d -> closed (VDict d).

(** How values are written. *)
Fixpoint json_of (simple : bool) (v : val) : json :=
  match v with
  | VNone => JNull
  | VBool b => JBool b
  | VInt z => JInt z
  | VStr t => JStr t
  | VUnset => JStr "<UNSET>"
  | VUuid u => JStr ("<UUID>:" ++ uuid_str u)
  | VClass n => if simple then JStr n else JObj [("__ob__", JStr n)]
  | VList l => JList (map (json_of simple) l)
  | VDict d => JObj (map (fun e => (match fst e with KStr t => t | _ => "" end, json_of simple (snd e))) d)
  | VNode _ | VObj _ | VUnsetCopy _ => JNull
  end.

(** * Trees *)
(** The shape of a tree: class, name, attributes (if the class has any) and children in order; attributes
    may be trees again. *)
Inductive shape :=
| Shape (cn : string) (name : key) (attrs : option (list shape)) (kids : list shape)
| Leaf (k : key) (v : val).

Notation attrs_name := (KStr "__attrs__") (only parsing).

(** [tree_in P s h x sh]: the node [x] of [s], held by [h], is the root of a tree of shape [sh]; [P] relates
    every node, attribute nodes included, to its holder.  Children are stored under their names. *)
Inductive tree_in (P : option nat -> nat -> Prop) (s : st) : option nat -> nat -> shape -> Prop :=
| tree_node h x cls name attrs kids :
    P h x -> class_of s x = Some cls -> classes s !! c_name cls = Some cls -> name_at s x = Some name ->
    attrs_in P s x cls attrs -> Forall2 (entry_in P s x) (entries_at s x) kids ->
    tree_in P s h x (Shape (c_name cls) name attrs kids)
with entry_in (P : option nat -> nat -> Prop) (s : st) : nat -> key * val -> shape -> Prop :=
| entry_leaf x k v : not_a_node v -> entry_in P s x (k, v) (Leaf k v)
| entry_node x k c cn attrs kids : tree_in P s (Some x) c (Shape cn k attrs kids) ->
    entry_in P s x (k, VNode c) (Shape cn k attrs kids)
(** the attributes: empty as long as they have not been asked for *)
with attrs_in (P : option nat -> nat -> Prop) (s : st) : nat -> classdef -> option (list shape) -> Prop :=
| attrs_without x cls : Attributes ∉ c_behs cls -> attrs_in P s x cls None
| attrs_unasked x cls : Attributes ∈ c_behs cls -> value_at attrs_name (spaces_at s x) = None -> attrs_in P s x cls (Some [])
| attrs_there x cls a ca al : Attributes ∈ c_behs cls -> value_at attrs_name (spaces_at s x) = Some (VNode a) -> P (Some x) a ->
    class_of s a = Some ca -> classes s !! c_attrs_factory cls = Some ca -> Forall2 (entry_in P s a) (entries_at s a) al ->
    attrs_in P s x cls (Some al).
Definition tree_at (s : st) (x : nat) (sh : shape) : Prop := tree_in (fun _ _ => True) s None x sh.

(** the key a child is stored under *)
Definition shape_key (sh : shape) : key := match sh with Shape _ n _ _ => n | Leaf k _ => k end.
Definition is_leaf (sh : shape) : bool := match sh with Leaf _ _ => true | _ => false end.
(** the tree without the children that are not nodes (attributes that are not nodes stay) *)
Fixpoint pruned (sh : shape) : shape :=
  match sh with
  | Shape cn n attrs kids => Shape cn n (match attrs with Some al => Some (map pruned al) | None => None end) (flat_map (fun k => if is_leaf k then [] else [pruned k]) kids)
  | Leaf _ _ => sh
  end.
(** no such children anywhere *)
Fixpoint only_nodes (sh : shape) : Prop :=
  match sh with
  | Shape _ _ attrs kids => (fix all l := match l with [] => True | k :: r => only_nodes k /\ all r end) kids /\
      match attrs with
      | Some al => (fix all l := match l with [] => True | e :: r => (is_leaf e = true \/ only_nodes e) /\ all r end) al
      | None => True
      end
  | Leaf _ _ => False
  end.

(** A node of class [cls] can be given a node [kid]: it names its children, the key is not one of
    its nodespaces, and it does not keep an index its child does not know of. *)
Definition holds (cs : gmap string classdef) (cls : classdef) (kid : shape) : Prop :=
  match kid with
  | Leaf _ _ => True
  | Shape cn k _ _ => Adopt ∈ c_behs cls /\ (Nodespaces ∈ c_behs cls -> exists t, k = KStr t) /\
      (Reference ∈ c_behs cls -> exists c, cs !! cn = Some c /\ Reference ∈ c_behs c)
  end.
(** Attributes have names and may be of any kind; a class of attributes that holds nodes names them, and keeps no index. *)
Definition attrs_storable (cs : gmap string classdef) (cls : classdef) (attrs : option (list shape)) : Prop :=
  match attrs with
  | None => Attributes ∉ c_behs cls
  | Some al => Attributes ∈ c_behs cls /\ Nodespaces ∈ c_behs cls /\
      exists ca, cs !! c_attrs_factory cls = Some ca /\ new_class (c_behs ca) = true /\
        (NodeChildValidate ∈ c_behs ca -> c_allow ca = true) /\ NoDup (map shape_key al) /\
        Forall (fun e => (exists n, shape_key e = KStr n) /\ ~ to_spaces ca (shape_key e) /\
                         (is_leaf e = false -> Adopt ∈ c_behs ca /\ Reference ∉ c_behs ca)) al
  end.
(** The trees covered: the classes can be imported by their names and created without arguments, they
    are INodes, and all values are [plain]. *)
Inductive storable (cs : gmap string classdef) (imp : string -> Prop) : shape -> Prop :=
| st_leaf k v : plain imp v -> storable cs imp (Leaf k v)
| st_node cls name attrs kids :
    cs !! c_name cls = Some cls -> new_class (c_behs cls) = true -> Nodify ∈ c_behs cls ->
    hashable name = true -> attrs_storable cs cls attrs -> Forall (storable cs imp) (default [] attrs) ->
    Forall (fun kid => holds cs cls kid /\ ~ to_spaces cls (shape_key kid) /\ hashable (shape_key kid) = true) kids ->
    NoDup (map shape_key kids) -> Forall (storable cs imp) kids ->
    storable cs imp (Shape (c_name cls) name attrs kids).

(** How trees are written. *)
Definition json_name (k : key) : json :=
  match k with KStr t => JStr t | KNone => JNull | KInt z => JInt z | KUnhashable _ => JNull end.
Definition attr_name (sh : shape) : string := match shape_key sh with KStr t => t | _ => "" end.
Fixpoint json_tree (simple incl : bool) (sh : shape) : json :=
  match sh with
  | Leaf _ v => json_of simple v
  | Shape cn name attrs kids =>
      let data := JObj ((if negb simple || incl then [("class", JStr cn)] else []) ++
                        [("name", json_name name)] ++
                        match kids with [] => [] | _ => [("children", JList (map (json_tree simple incl) kids))] end ++
                        match attrs with None => [] | Some al => [("attrs", JObj (map (fun e => (attr_name e, json_tree simple incl e)) al))] end) in
      if simple then data else JObj [("__node__", data)]
  end.

(** ** What serialization changes *)
(** Nothing but attributes that did not exist yet: they are created, empty. *)
Record only_attrs_created (s s' : st) : Prop := OnlyAttrs {
  oa_class : forall y, exists_node s y -> class_of s' y = class_of s y;
  oa_name : forall y, exists_node s y -> name_at s' y = name_at s y;
  oa_parent : forall y, exists_node s y -> parent_at s' y = parent_at s y;
  oa_entries : forall y, exists_node s y -> entries_at s' y = entries_at s y;
  oa_uuid : forall y, exists_node s y -> uuid_at s' y = uuid_at s y;
  oa_index : forall y, exists_node s y -> index_id s' y = index_id s y;
  oa_spaces : forall y cls, class_of s y = Some cls -> spaces_at s' y = spaces_at s y \/
    Attributes ∈ c_behs cls /\ value_at attrs_name (spaces_at s y) = None /\
    exists a ca, ~ exists_node s a /\ spaces_at s' y = put attrs_name (VNode a) (spaces_at s y) /\
      class_of s' a = Some ca /\ classes s !! c_attrs_factory cls = Some ca /\
      name_at s' a = Some attrs_name /\ parent_at s' a = Some y /\ entries_at s' a = [];
  oa_classes : classes s' = classes s
}.

(** ** What deserialization changes *)
(** Whether [q] takes the tree as a child. *)
Definition takes (s : st) (q : nat) (sh : shape) : Prop :=
  exists cls, class_of s q = Some cls /\ tree_class (c_behs cls) = true /\ holds (classes s) cls sh /\
    ~ to_spaces cls (shape_key sh) /\ hashable (shape_key sh) = true /\
    (Reference ∈ c_behs cls -> exists i, index_id s q = Some i).
(** [t'] is [t] with a new tree of shape [sh] under [x], all its nodes new; [root] has it as an entry. *)
Record rebuilt (t t' : st) (root : option nat) (x : nat) (sh : shape) : Prop := Rebuilt {
  rb_tree : tree_in (fun h y => ~ exists_node t y /\ parent_at t' y = h) t' root x sh;
  rb_old : forall y, exists_node t y -> root <> Some y -> same_node t t' y;
  rb_entry : forall q, root = Some q -> entries_at t' q = put (shape_key sh) (VNode x) (entries_at t q);
  rb_root : forall q, root = Some q -> class_of t' q = class_of t q /\ name_at t' q = name_at t q /\ parent_at t' q = parent_at t q /\
     spaces_at t' q = spaces_at t q /\ uuid_at t' q = uuid_at t q /\ index_id t' q = index_id t q;
  rb_uuid : forall y u, ~ exists_node t y -> uuid_at t' y = Some u -> forall z, exists_node t z -> uuid_at t z <> Some u;
  rb_uuids : forall y z u, ~ exists_node t y -> ~ exists_node t z -> uuid_at t' y = Some u -> uuid_at t' z = Some u -> y = z
}.

(** * Registries *)
(** The callback registered for [k] last. *)
Fixpoint last_for {C} (k : rkey) (h : list (rkey * C)) : option C :=
  match h with
  | [] => None
  | (k', c) :: r => match last_for k r with Some d => Some d | None => if decide (k' = k) then Some c else None end
  end.
(** The keys in the order in which they were registered first. *)
Fixpoint first_order {C} (h : list (rkey * C)) : list rkey :=
  match h with
  | [] => []
  | (k, _) :: r => k :: filter (fun k' => k' <> k) (first_order r)
  end.
(** The callbacks that have to run: for every such key that matches, in that order, the last one registered. *)
Definition due {C} (matches : rkey -> bool) (h : list (rkey * C)) : list C :=
  flat_map (fun k => if matches k then match last_for k h with Some c => [c] | None => [] end else []) (first_order h).

(** * Histories with serialization *)
(** States a program reaches by the calls of [reach] and by serializing existing nodes and
    deserializing anything, also when that raises. *)
Inductive reach_json : st -> Prop :=
| rj_init cs : reach_json (St ∅ ∅ ∅ 0 1 [] (-1) cs)
| rj_step s o r s' : reach_json s -> op_ok s o -> run_op o s = (r, s') -> reach_json s'
| rj_serialize s f others simple incl x r s' : reach_json s -> exists_node s x ->
    serialize f (std_env others) simple incl (VNode x) s = (r, s') -> reach_json s'
| rj_deserialize s f others j root r s' : reach_json s -> (forall q, root = Some q -> exists_node s q) ->
    deserialize f (std_env others) j root s = (r, s') -> reach_json s'.
