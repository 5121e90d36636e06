(** Specifications for caching and invalidation. *)
From Verif Require Import Py Heap SpecMapping Observe.

(** Every cached value is the one stored. *)
Definition up_to_date (cache d : list (key * val)) : Prop :=
  forall k v, value_at k cache = Some v -> value_at k d = Some v.

(** Item assignment looks into the cache first: if that comes before the validation of the
    value ([early]), a key no dictionary takes is refused before the value is. *)
Definition caching_policy (early allow : bool) : policy :=
  Policy (fun k v => match k with
                     | KUnhashable _ => if early then Some TypeError else p_set (validating_policy allow) k v
                     | _ => p_set (validating_policy allow) k v
                     end)
         (p_get (validating_policy allow)) (p_del (validating_policy allow)).

(** Histories with invalidation in between. *)
Inductive icall := Call (c : call) | Invalidates (k : key).
(** The two implementations of invalidate: deleting through the node ([Through]), deleting
    from the storage ([Below]). *)
Inductive invalidation := Through | Below.
Definition invalidate_spec (i : invalidation) (p : policy) (k : key) (d : entries) : answer * entries :=
  match i with
  | Through => let '(r, d') := do_del p k d in (answer_of r, d')
  | Below => if held k d then (ANone, remove k d) else (AExc (KeyError k), d)
  end.
Fixpoint icalls_spec (i : invalidation) (p : policy) (l : list icall) (d : entries) : list answer * entries :=
  match l with
  | [] => ([], d)
  | c :: r =>
      let '(a, d1) := match c with
                      | Call c => call_spec p c d
                      | Invalidates k => invalidate_spec i p k d
                      end in
      let '(as_, d2) := icalls_spec i p r d1 in (a :: as_, d2)
  end.
(** Keys assigned or invalidated. *)
Definition icall_keys (c : icall) : list key :=
  match c with
  | Call (CSet k _) | Call (CSetdefault k _) | Invalidates k => [k]
  | Call (CUpdate args kw) => map fst (concat args ++ kw)
  | _ => []
  end.
Definition icall_values (c : icall) : list val := match c with Call c => call_values c | _ => [] end.

(** Nothing a client can see differs, but for the entries of [x], which are [d]. *)
Record only_entries (s : st) (x : nat) (d : entries) (s' : st) : Prop := OnlyEntries {
  oe_others : forall y, y <> x -> same_node s s' y;
  oe_entries : entries_at s' x = d;
  oe_class : class_of s' x = class_of s x;
  oe_name : name_at s' x = name_at s x;
  oe_parent : parent_at s' x = parent_at s x;
  oe_spaces : spaces_at s' x = spaces_at s x;
  oe_cache : cache_at s' x = cache_at s x;
  oe_fixed : fixed_at s' x = fixed_at s x;
  oe_uuid : uuid_at s' x = uuid_at s x;
  oe_index_id : index_id s' x = index_id s x;
  oe_suppressed : suppressed s' x = suppressed s x;
  oe_index : idxs s' = idxs s;
  oe_log : log s' = log s
}.

(** * Several nodes *)
(** What was asked of [x], or what [x] answered, among a list for several nodes. *)
Definition at_node {A} (x : nat) (l : list (nat * A)) : list A := map snd (List.filter (fun p => fst p =? x) l).
(** [y] holds what it held. *)
Record same_contents (s s' : st) (y : nat) : Prop := SameContents {
  sc_class : class_of s' y = class_of s y;
  sc_entries : entries_at s' y = entries_at s y;
  sc_cache : cache_at s' y = cache_at s y;
  sc_fixed : fixed_at s' y = fixed_at s y;
  sc_spaces : spaces_at s' y = spaces_at s y
}.
