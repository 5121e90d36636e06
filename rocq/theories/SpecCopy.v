(** Specification of copy and deepcopy. *)
From Verif Require Import Py Heap Model SpecMapping MappingProofs Observe TreeOps SpecTree SpecPlace SpecReference Reach.

(** * Calls on two nodes in any order *)
(** [true] goes to [x], [false] to [c]. *)
Fixpoint run_both (x c : nat) (l : list (bool * call)) (s : st) : list answer * st :=
  match l with
  | [] => ([], s)
  | (b, a) :: r =>
      let '(an, s1) := run_call (if b then x else c) a s in
      let '(ans, s2) := run_both x c r s1 in (an :: ans, s2)
  end.
(** Two dictionaries that have nothing to do with each other. *)
Fixpoint two_dicts (p q : policy) (l : list (bool * call)) (d e : entries) : list answer * (entries * entries) :=
  match l with
  | [] => ([], (d, e))
  | (true, a) :: r =>
      let '(an, d1) := call_spec p a d in
      let '(ans, de) := two_dicts p q r d1 e in (an :: ans, de)
  | (false, a) :: r =>
      let '(an, e1) := call_spec q a e in
      let '(ans, de) := two_dicts p q r d e1 in (an :: ans, de)
  end.
(** the state after a history of operations, those that raise included *)
Definition after_ops (l : list op) (s : st) : st := fold_left (fun s o => snd (run_op o s)) l s.

(** * Shallow copies *)
(** The node has created its storage; it has created none of its dictionaries. *)
Definition touched (s : st) (x : nat) : Prop := exists o l, nodes s !! x = Some o /\ o_storage o = Some l.
Definition untouched (s : st) (x : nat) : Prop :=
  exists o, nodes s !! x = Some o /\ o_storage o = None /\ o_cache o = None /\ o_children o = None /\ o_nodespaces o = None.
(** whether values that are not nodes are accepted *)
Definition accepts_all (s : st) (x : nat) : bool :=
  match nodes s !! x with
  | Some o => negb (bool_decide (NodeChildValidate ∈ c_behs (o_cls o))) || o_allow o
  | None => false
  end.
(** [c] in [s'] looks like [x] in [s]. *)
Record looks_like (s : st) (x : nat) (s' : st) (c : nat) : Prop := LooksLike {
  ll_class : class_of s' c = class_of s x;
  ll_name : name_at s' c = name_at s x;
  ll_parent : parent_at s' c = parent_at s x;
  ll_entries : entries_at s' c = entries_at s x;
  ll_cache : cache_at s' c = cache_at s x;
  ll_fixed : fixed_at s' c = fixed_at s x;
  ll_uuid : uuid_at s' c = uuid_at s x;
  ll_index_id : index_id s' c = index_id s x;
  ll_allows : allows s' c = allows s x;
  ll_suppressed : suppressed s' c = suppressed s x
}.

(** * Deep copies *)
(** References to nodes renamed by [f], inside lists and dictionaries too.  UNSET is not
    itself in a deep copy: there is another instance of its class in its place.  Opaque objects
    are copied as well, each once. *)
Fixpoint renamed (f : nat -> nat) (v : val) : val :=
  match v with
  | VNode o => VNode (f o)
  | VList l => VList (map (renamed f) l)
  | VDict l => VDict (map (fun kv => (fst kv, renamed f (snd kv))) l)
  | VUnset => VUnsetCopy (f 0)
  | VUnsetCopy m => VUnsetCopy (f m)
  | VObj m => VObj (f m)
  | VNone | VBool _ | VInt _ | VStr _ | VUuid _ | VClass _ => v
  end.
Definition renamed_entries (f : nat -> nat) (d : entries) : entries := map (fun kv => (fst kv, renamed f (snd kv))) d.
(** [f x] in [s'] is [x] in [s] with all references renamed; uuids are left out. *)
Record mirrored (f : nat -> nat) (s s' : st) (x : nat) : Prop := Mirrored {
  mi_class : class_of s' (f x) = class_of s x;
  mi_name : name_at s' (f x) = name_at s x;
  mi_parent : parent_at s' (f x) = f <$> parent_at s x;
  mi_entries : entries_at s' (f x) = renamed_entries f (entries_at s x);
  mi_spaces : spaces_at s' (f x) = renamed_entries f (spaces_at s x);
  mi_cache : cache_at s' (f x) = renamed_entries f (cache_at s x);
  mi_fixed : fixed_at s' (f x) = renamed_entries f (fixed_at s x);
  mi_indexed : is_Some (index_id s' (f x)) <-> is_Some (index_id s x);
  mi_index : index_at s' (f x) = f <$> index_at s x;
  mi_allows : allows s' (f x) = allows s x;
  mi_suppressed : suppressed s' (f x) = suppressed s x
}.
(** the dictionaries [x] refers to *)
Definition dictionaries (s : st) (x : nat) : list nat :=
  match nodes s !! x with
  | None => []
  | Some o => flat_map (fun a : option nat => match a with Some l => [l] | None => [] end)
                [o_storage o; o_cache o; o_children o; o_nodespaces o]
  end.

(** What a deep copy of the whole graph around [x] leaves behind: [f] takes every object to its copy. *)
Record deep_copied (f : nat -> nat) (s s' : st) : Prop := DeepCopied {
  dc_inj : forall y z, f y = f z -> y = z;
  dc_new : forall y, exists_node s y -> ~ exists_node s (f y);
  dc_moved : forall y m, exists_node s y -> f m <> m;
  dc_mirror : forall y, exists_node s y -> mirrored f s s' y;
  dc_shared_index : forall y z, exists_node s y -> exists_node s z -> index_id s' (f y) = index_id s' (f z) <-> index_id s y = index_id s z;
  dc_dicts : forall y z, exists_node s y -> exists_node s z -> forall l, l ∈ dictionaries s' (f y) -> l ∉ dictionaries s' z;
  dc_index : forall y z, exists_node s y -> exists_node s z -> forall i, index_id s' (f y) = Some i -> index_id s' z <> Some i;
  dc_original : forall y, exists_node s y -> same_node s s' y /\ index_at s' y = index_at s y;
  dc_log : log s' = log s
}.

(** * Copies of trees with uuids *)
Definition aware (s : st) (x : nat) : Prop := exists cls, class_of s x = Some cls /\ UUIDAware ∈ c_behs cls.
(** Below [x] there are only nodes, each of a class of this library and without index, and none above itself. *)
Record node_tree (s : st) (x : nat) : Prop := NodeTree {
  nt_class : forall y, below s x y -> exists cls, class_of s y = Some cls /\ tree_class (c_behs cls) = true /\ Reference ∉ c_behs cls;
  nt_nodes : forall y k v, below s x y -> value_at k (entries_at s y) = Some v -> exists c, v = VNode c;
  nt_keys : forall y k v cls, below s x y -> value_at k (entries_at s y) = Some v -> class_of s y = Some cls -> ~ to_spaces cls k;
  nt_acyclic : forall y k c, below s x y -> child s y k c -> ~ below s c y
}.
(** The copies of the nodes [P] holds for have uuids no node had, all different; the others keep those of the originals. *)
Record new_uuids (f : nat -> nat) (P : nat -> Prop) (s s' : st) : Prop := NewUuids {
  nu_new : forall y, exists_node s y -> P y -> exists u, uuid_at s' (f y) = Some u /\ forall z, uuid_at s z <> Some u;
  nu_distinct : forall y z, exists_node s y -> exists_node s z -> P y -> P z -> uuid_at s' (f y) = uuid_at s' (f z) -> y = z;
  nu_others : forall y, exists_node s y -> ~ P y -> uuid_at s' (f y) = uuid_at s y
}.
