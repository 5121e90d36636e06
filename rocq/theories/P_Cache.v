(** C21, C22, C23: caching and invalidation. *)
From Verif Require Import Py Odict Aliaser Heap Model Classes WF Views SpecMapping MappingProofs StorageProofs TreeOps Observe SpecTree
  Reach MappingProps Play SpecCache CacheProofs CacheProofs2 CacheServe.

(** * C21 *)
(** A caching node (Cache anywhere in a class of mapping behaviors with an invalidator) whose
    cache agrees with its storage answers every history of calls like a dictionary with the
    entries of its storage, and its cache agrees with its storage ever after. *)
Theorem C21_caching_history : forall s x cls i l,
  reach s -> class_of s x = Some cls -> cache_class (c_behs cls) = true -> Cache ∈ c_behs cls ->
  invalidator (c_behs cls) = Some i -> up_to_date (cache_at s x) (entries_at s x) ->
  Forall (fun c => Forall (known s) (icall_values c)) l -> inval_keys_ok l ->
  exists s', run_icalls x l s = (fst (icalls_spec i (pol cls (allows s x)) l (entries_at s x)), s') /\
    entries_at s' x = snd (icalls_spec i (pol cls (allows s x)) l (entries_at s x)) /\
    up_to_date (cache_at s' x) (entries_at s' x).
Proof. intros s x cls i l R. exact (caching_history s x cls i l (reach_wf s R)). Qed.
(** The same node without Cache ([y] in [t] is of the class without it and has the same
    entries) gives the same answers to the same calls. *)
Theorem C21_cache_is_transparent : forall s x cls t y cls' i l,
  reach s -> reach t -> class_of s x = Some cls -> class_of t y = Some cls' ->
  cache_class (c_behs cls) = true -> Cache ∈ c_behs cls -> invalidator (c_behs cls) = Some i ->
  c_behs cls' = filter (fun b => b <> Cache) (c_behs cls) ->
  up_to_date (cache_at s x) (entries_at s x) -> cache_at t y = [] ->
  entries_at t y = entries_at s x -> allows t y = allows s x ->
  Forall (fun c => Forall (fun v => known s v /\ known t v) (icall_values c)) l -> inval_keys_ok l ->
  Forall (fun c => Forall (fun k => hashable k = true) (icall_keys c)) l ->
  exists as_ s' t', run_icalls x l s = (as_, s') /\ run_icalls y l t = (as_, t') /\ entries_at s' x = entries_at t' y.
Proof. intros s x cls t y cls' i l R Rt. exact (caching_invisible s x cls t y cls' i l (reach_wf s R) (reach_wf t Rt)). Qed.

Definition CVal := mkclass "CVal" [Cache; NodeChildValidate; Adopt; VolatileStorageInvalidate; DefaultInit; Nodify; OdictStorage].
Definition VVal := mkclass "VVal" [NodeChildValidate; Adopt; VolatileStorageInvalidate; DefaultInit; Nodify; OdictStorage].
Definition C21_ops cn := [ONew cn KNone None; ONew cn KNone None; OSet 0 (KStr "a") (VNode 1); OSet 0 (KStr "b") (VNode 1)].
Definition C21_s := after_in [CVal; VVal] (C21_ops "CVal" ++ [OGet 0 (KStr "a")]).
Definition C21_t := after_in [CVal; VVal] (C21_ops "VVal").
(** For keys no dictionary takes, the exception may differ: the cache is asked before the
    value is validated, and before the key is looked for. *)
Theorem C21_unhashable_keys_refuted : exists s x cls t y cls' v k,
  reach s /\ reach t /\ class_of s x = Some cls /\ class_of t y = Some cls' /\
  cache_class (c_behs cls) = true /\ Cache ∈ c_behs cls /\ invalidator (c_behs cls) = Some Below /\
  c_behs cls' = filter (fun b => b <> Cache) (c_behs cls) /\
  up_to_date (cache_at s x) (entries_at s x) /\ cache_at t y = [] /\ entries_at t y = entries_at s x /\ allows t y = allows s x /\
  hashable k = false /\
  fst (run_icall x (Call (CSet k v)) s) = AExc TypeError /\
  fst (run_icall y (Call (CSet k v)) t) = AExc (ValueError "Non-node childs are not allowed.") /\
  fst (run_icall x (Invalidates k) s) = AExc TypeError /\
  fst (run_icall y (Invalidates k) t) = AExc (KeyError k).
Proof.
  exists C21_s, 0, CVal, C21_t, 0, VVal, (VInt 1), (KUnhashable 0).
  split; [apply after_in_reach|]. split; [apply after_in_reach|]. split; [done|]. split; [done|]. split; [done|].
  split; [by apply (bool_decide_unpack _)|]. split; [done|]. split; [vm_compute; done|]. split.
  { intros k v. replace (cache_at C21_s 0) with [(KStr "a", VNode 1)] by (vm_compute; done).
    replace (entries_at C21_s 0) with [(KStr "a", VNode 1); (KStr "b", VNode 1)] by (vm_compute; done). unfold value_at. simpl. case_bool_decide as E; simpl; [|done].
    intros [= <-]. subst k. done. }
  vm_compute. done.
Qed.
Example C21_example : reach C21_s /\ class_of C21_s 0 = Some CVal /\ cache_at C21_s 0 = [(KStr "a", VNode 1)] /\
  entries_at C21_s 0 = [(KStr "a", VNode 1); (KStr "b", VNode 1)] /\
  (let l := [Call (CGet (KStr "b")); Call (CSet (KStr "a") (VNode 0)); Call (CGet (KStr "a")); Invalidates (KStr "b"); Call (CIn (KStr "b"));
             Invalidates (KStr "b"); Call CKeys; Call (CGet (KUnhashable 1))] in
   fst (run_icalls 0 l C21_s) = [AVal (VNode 1); ANone; AVal (VNode 0); ANone; ABool false; AExc (KeyError (KStr "b")); AKeys [KStr "a"]; AExc TypeError] /\
   fst (run_icalls 0 l C21_t) = fst (run_icalls 0 l C21_s) /\
   cache_at (snd (run_icalls 0 l C21_s)) 0 = [(KStr "a", VNode 0)]).
Proof. split; [apply after_in_reach|]. vm_compute. done. Qed.

(** * C22 *)
(** invalidate() on a caching node, whatever its cache and storage hold (they need not agree):
    the cache is emptied.  Underneath, all entries are removed if nothing was cached; else only
    the last cached key is, and KeyError raised if it is not there. *)
Theorem C22_invalidate_all : forall s x cls i,
  reach s -> class_of s x = Some cls -> cache_class (c_behs cls) = true -> Cache ∈ c_behs cls -> invalidator (c_behs cls) = Some i ->
  exists r s', invalidate x KNone s = (r, s') /\ cache_at s' x = [] /\
    match last (cache_at s x) with
    | None | Some (KNone, _) => r = Ret tt /\ entries_at s' x = []
    | Some (k, _) => if held k (entries_at s x) then r = Ret tt /\ entries_at s' x = remove k (entries_at s x)
                     else r = Exc (KeyError k) /\ entries_at s' x = entries_at s x
    end.
Proof. intros s x cls i R. exact (invalidate_none s x cls i (reach_wf s R)). Qed.
(** So children stay behind as soon as something is cached and there is another child: for
    both invalidators. *)
Theorem C22_children_survive_refuted : forall s x cls i k v k',
  reach s -> class_of s x = Some cls -> cache_class (c_behs cls) = true -> Cache ∈ c_behs cls -> invalidator (c_behs cls) = Some i ->
  last (cache_at s x) = Some (k, v) -> k <> KNone -> k' <> k -> held k' (entries_at s x) = true ->
  held k' (entries_at (snd (invalidate x KNone s)) x) = true.
Proof.
  intros s x cls i k v k' R Hc Hcls Hin Hi Hl Hk Hne Hh.
  destruct (invalidate_none s x cls i (reach_wf s R) Hc Hcls Hin Hi) as (r & s' & E & _ & H). rewrite E. simpl. rewrite Hl in H.
  assert (Hrm : held k' (remove k (entries_at s x)) = true).
  { unfold held, remove in *. rewrite existsb_exists in *. destruct Hh as (e & He & Hk'). apply bool_decide_eq_true in Hk'. exists e. split; [|by apply bool_decide_eq_true].
    apply List.filter_In. split; [done|]. rewrite bool_decide_eq_false_2; [done|]. congruence. }
  assert (H' : if held k (entries_at s x) then r = Ret tt /\ entries_at s' x = remove k (entries_at s x)
               else r = Exc (KeyError k) /\ entries_at s' x = entries_at s x) by (by destruct k).
  clear H. destruct (held k (entries_at s x)); destruct H' as [_ ->]; done.
Qed.
Definition C22_s cn := after [ONew cn KNone None; ONew BN KNone None; ONew BN KNone None; OSet 0 (KStr "a") (VNode 1); OSet 0 (KStr "b") (VNode 2)].
Definition C22_c cn := after [ONew cn KNone None; ONew BN KNone None; ONew BN KNone None; OSet 0 (KStr "a") (VNode 1); OSet 0 (KStr "b") (VNode 2); OGet 0 (KStr "a")].
Example C22_example :
  reach (C22_c "CacheNode") /\ class_of (C22_c "CacheNode") 0 = Some CacheNode /\ cache_class (c_behs CacheNode) = true /\
  invalidator (c_behs CacheNode) = Some Through /\ invalidator (c_behs CacheVolatileNode) = Some Below /\
  last (cache_at (C22_c "CacheNode") 0) = Some (KStr "a", VNode 1) /\
  entries_at (snd (invalidate 0 KNone (C22_c "CacheNode"))) 0 = [(KStr "b", VNode 2)] /\
  entries_at (snd (invalidate 0 KNone (C22_c "CacheVolatileNode"))) 0 = [(KStr "b", VNode 2)] /\
  cache_at (snd (invalidate 0 KNone (C22_c "CacheNode"))) 0 = [] /\
  entries_at (snd (invalidate 0 KNone (C22_s "CacheNode"))) 0 = [].
Proof. split; [apply after_reach|]. vm_compute. done. Qed.

(** * C23 *)
(** VolatileStorageInvalidate, any class with a storage and without Cache. *)
Theorem C23_volatile_key : forall s x cls k ks s1,
  reach s -> class_of s x = Some cls -> storage_class (c_behs cls) = true -> invalidator (c_behs cls) = Some Below ->
  Cache ∉ c_behs cls -> k <> KNone -> hashable k = true -> keys x s = (Ret ks, s1) ->
  exists s', invalidate x k s = (if bool_decide (k ∈ ks) then Ret tt else Exc (KeyError k), s') /\
    only_entries s x (if bool_decide (k ∈ ks) then remove k (entries_at s x) else entries_at s x) s'.
Proof. intros s x cls k ks s1 R. exact (volatile_key s x cls k ks s1 (reach_wf s R)). Qed.
Theorem C23_volatile_all : forall s x cls,
  reach s -> class_of s x = Some cls -> storage_class (c_behs cls) = true -> invalidator (c_behs cls) = Some Below ->
  Cache ∉ c_behs cls -> exists s', invalidate x KNone s = (Ret tt, s') /\ only_entries s x [] s'.
Proof. intros s x cls R. exact (volatile_all s x cls (reach_wf s R)). Qed.
(** Invalidate, classes of the tree behaviors. *)
Theorem C23_invalidate_key : forall s x cls k r s',
  reach s -> class_of s x = Some cls -> tree_class (c_behs cls) = true -> invalidator (c_behs cls) = Some Through ->
  (Reference ∈ c_behs cls -> all_tree_classes s) -> k <> KNone -> invalidate x k s = (r, s') ->
  match r with Ret _ => removed cls s x k s' | Exc _ => entries_everywhere s s' /\ forall y, keeps_place s s' y end.
Proof.
  intros s x cls k r s' R Hc Ht Hi Ha Hk E. rewrite (through_is_delitem s x cls k Hc Hi) in E by (done || exact (tree_no_cache _ Ht)).
  destruct r as [[]|e]; [exact (delitem_removed s x cls k s' (reach_wf s R) Hc Ht Ha E)|exact (delitem_failed s x cls k e s' (reach_wf s R) Hc Ht Ha E)].
Qed.
Theorem C23_invalidate_missing : forall s x cls k,
  reach s -> class_of s x = Some cls -> tree_class (c_behs cls) = true -> invalidator (c_behs cls) = Some Through ->
  (Reference ∈ c_behs cls -> all_tree_classes s) -> k <> KNone -> hashable k = true -> (Nodespaces ∈ c_behs cls -> exists t, k = KStr t) ->
  (to_spaces cls k -> held k (spaces_at s x) = false) -> (~ to_spaces cls k -> held k (entries_at s x) = false) ->
  exists s', invalidate x k s = (Exc (KeyError k), s').
Proof.
  intros s x cls k R Hc Ht Hi Ha Hk Hh Hs H1 H2. rewrite (through_is_delitem s x cls k Hc Hi) by (done || exact (tree_no_cache _ Ht)).
  exact (delitem_absent s x cls k (reach_wf s R) Hc Ht Ha Hh Hs H1 H2).
Qed.
Theorem C23_invalidate_present : forall s x cls k v,
  reach s -> class_of s x = Some cls -> tree_class (c_behs cls) = true -> invalidator (c_behs cls) = Some Through ->
  Reference ∉ c_behs cls -> k <> KNone -> hashable k = true -> (Nodespaces ∈ c_behs cls -> exists t, k = KStr t) -> ~ to_spaces cls k ->
  value_at k (entries_at s x) = Some v -> exists s', invalidate x k s = (Ret tt, s').
Proof.
  intros s x cls k v R Hc Ht Hi Hr Hk Hh Hs Hn Hv. rewrite (through_is_delitem s x cls k Hc Hi) by (done || exact (tree_no_cache _ Ht)).
  exact (delitem_present s x cls k v (reach_wf s R) Hc Ht Hr Hh Hs Hn Hv).
Qed.
(** invalidate() deletes from the front; it deletes everything, unless one child cannot be
    deleted (which cannot happen without Reference). *)
Theorem C23_invalidate_all : forall s x cls,
  reach s -> class_of s x = Some cls -> tree_class (c_behs cls) = true -> invalidator (c_behs cls) = Some Through ->
  (Reference ∈ c_behs cls -> all_tree_classes s) -> (forall k, held k (entries_at s x) = true -> ~ to_spaces cls k) ->
  exists r s', invalidate x KNone s = (r, s') /\ entries_elsewhere s x s' /\ spaces_at s' x = spaces_at s x /\ (forall y, keeps_place s s' y) /\
    (exists n, entries_at s' x = drop n (entries_at s x)) /\ (r = Ret tt -> entries_at s' x = []) /\
    (Reference ∉ c_behs cls -> (Nodespaces ∈ c_behs cls -> forall k, held k (entries_at s x) = true -> exists t, k = KStr t) -> r = Ret tt).
Proof. intros s x cls R. exact (through_all s x cls (reach_wf s R)). Qed.
(** a node with a child factory: its keys are those of the factories, the storage holds what was asked for *)
Definition CFV := Class "CFV" [VolatileStorageInvalidate; ChildFactory; Adopt; DefaultInit; Nodify; OdictStorage] [(KStr "f", "CFV"); (KStr "g", "CFV")] [] None false "CFV" true None.
Definition C23_ex := after_in [CFV] [ONew "CFV" KNone None; OGet 0 (KStr "f")].
(** Lifecycle and invalidation together: hooks are run by one and bypassed by the other *)
Definition LT := mkclass "LT" [Lifecycle; Invalidate; Adopt; DefaultInit; Nodify; OdictStorage].
Definition LV := mkclass "LV" [Lifecycle; VolatileStorageInvalidate; Adopt; DefaultInit; Nodify; OdictStorage].
Definition C23_l cn := after_in [LT; LV] [ONew cn KNone None; ONew cn KNone None; ONew cn KNone None; OSet 0 (KStr "a") (VNode 1); OSet 0 (KStr "b") (VNode 2)].
Example C23_example :
  reach C23_ex /\ storage_class (c_behs CFV) = true /\ invalidator (c_behs CFV) = Some Below /\
  fst (keys 0 C23_ex) = Ret [KStr "f"; KStr "g"] /\ entries_at C23_ex 0 = [(KStr "f", VNode 2)] /\
  fst (invalidate 0 (KStr "f") C23_ex) = Ret tt /\ entries_at (snd (invalidate 0 (KStr "f") C23_ex)) 0 = [] /\
  fst (invalidate 0 (KStr "g") C23_ex) = Ret tt /\ fst (invalidate 0 (KStr "h") C23_ex) = Exc (KeyError (KStr "h")) /\
  class_of (C23_l "LT") 0 = Some LT /\ tree_class (c_behs LT) = true /\ tree_class (c_behs LV) = true /\
  entries_at (C23_l "LT") 0 = [(KStr "a", VNode 1); (KStr "b", VNode 2)] /\
  length (log (snd (invalidate 0 KNone (C23_l "LT")))) = length (log (C23_l "LT")) + 2 /\
  entries_at (snd (invalidate 0 KNone (C23_l "LT"))) 0 = [] /\
  log (snd (invalidate 0 KNone (C23_l "LV"))) = log (C23_l "LV") /\
  fst (invalidate 0 (KStr "c") (C23_l "LT")) = Exc (KeyError (KStr "c")).
Proof. split; [apply after_in_reach|]. vm_compute. done. Qed.

(** * C55 *)
(** Where a caching node reads from, whatever its cache and its storage hold (they need not
    agree): a cached value is returned, whether or not the storage still has it; else the value
    in the storage, which is cached; else KeyError, and nothing is cached. *)
Theorem C55_read : forall s x cls k,
  reach s -> class_of s x = Some cls -> cache_class (c_behs cls) = true -> Cache ∈ c_behs cls -> hashable k = true ->
  exists s', entries_at s' x = entries_at s x /\
    match value_at k (cache_at s x), value_at k (entries_at s x) with
    | Some v, _ => getitem x k s = (Ret v, s') /\ cache_at s' x = cache_at s x
    | None, Some v => getitem x k s = (Ret v, s') /\ cache_at s' x = put k v (cache_at s x)
    | None, None => getitem x k s = (Exc (KeyError k), s') /\ cache_at s' x = cache_at s x
    end.
Proof. intros s x cls k R. exact (cached_read s x cls k (reach_wf s R)). Qed.
(** So a write to the storage itself is not seen by readers of a cached key. *)
Theorem C55_stale_read : forall s x cls k v v' r s1,
  reach s -> class_of s x = Some cls -> cache_class (c_behs cls) = true -> Cache ∈ c_behs cls -> hashable k = true ->
  value_at k (cache_at s x) = Some v -> known s v' -> store x k v' s = (r, s1) ->
  r = Ret tt /\ value_at k (entries_at s1 x) = Some v' /\ fst (getitem x k s1) = Ret v.
Proof.
  intros s x cls k v v' r s1 R Hc Hcls Hin Hk Hv Hkn E.
  destruct (stored_behind s x cls k v' (reach_wf s R) Hc Hcls Hk) as (s2 & E2 & H1 & H2 & H3). rewrite E in E2. injection E2 as -> ->.
  split; [done|]. split; [rewrite H2; by apply value_at_put, reach_wf|].
  assert (R2 : reach s2). { eapply (reach_step s (OStore x k v')); [exact R|split; [exact (class_of_node _ _ _ Hc)|exact Hkn]|exact E]. }
  destruct (C55_read s2 x cls k R2 H3 Hcls Hin Hk) as (s3 & _ & H). rewrite H1, Hv in H. destruct H as [-> _]. done.
Qed.
(** del x[k] drops the key from the cache, also when it raises KeyError because the storage
    has no such key. *)
Theorem C55_delete : forall s x cls k,
  reach s -> class_of s x = Some cls -> cache_class (c_behs cls) = true -> Cache ∈ c_behs cls -> hashable k = true ->
  exists s', cache_at s' x = remove k (cache_at s x) /\
    if held k (entries_at s x) then delitem x k s = (Ret tt, s') /\ entries_at s' x = remove k (entries_at s x)
    else delitem x k s = (Exc (KeyError k), s') /\ entries_at s' x = entries_at s x.
Proof. intros s x cls k R. exact (cached_delete s x cls k (reach_wf s R)). Qed.
(** x[k] = v drops the key from the cache; if it raises, the entries stay, and the cache loses
    at most that key. *)
Theorem C55_write : forall s x cls k v r s',
  reach s -> class_of s x = Some cls -> cache_class (c_behs cls) = true -> Cache ∈ c_behs cls -> hashable k = true -> known s v ->
  setitem x k v s = (r, s') ->
  match r with
  | Ret _ => entries_at s' x = put k v (entries_at s x) /\ cache_at s' x = remove k (cache_at s x)
  | Exc _ => entries_at s' x = entries_at s x /\ (cache_at s' x = cache_at s x \/ cache_at s' x = remove k (cache_at s x))
  end.
Proof. intros s x cls k v r s' R. exact (cached_set s x cls k v r s' (reach_wf s R)). Qed.
(** After a write through the node the value written is read, even if the cache was stale. *)
Theorem C55_write_then_read : forall s x cls k v s1,
  reach s -> class_of s x = Some cls -> cache_class (c_behs cls) = true -> Cache ∈ c_behs cls -> hashable k = true -> known s v ->
  setitem x k v s = (Ret tt, s1) -> fst (getitem x k s1) = Ret v.
Proof.
  intros s x cls k v s1 R Hc Hcls Hin Hk Hv E. destruct (C55_write s x cls k v (Ret tt) s1 R Hc Hcls Hin Hk Hv E) as [H1 H2].
  assert (Hok : op_ok s (OSet x k v)) by (split; [exact (class_of_node _ _ _ Hc)|exact Hv]).
  assert (R1 : reach s1) by (eapply (reach_step s (OSet x k v)); [exact R|exact Hok|exact E]).
  assert (Hc1 : class_of s1 x = Some cls) by (exact (reach_class_of s (OSet x k v) _ _ _ _ R Hok E Hc)).
  destruct (C55_read s1 x cls k R1 Hc1 Hcls Hin Hk) as (s3 & _ & H). rewrite H2, H1, value_at_remove, value_at_put in H by (by apply reach_wf). destruct H as [-> _]. done.
Qed.
(** "a" was read, then changed below the node: the cache is stale *)
Definition C55_s := after [ONew "CacheNode" KNone None; ONew BN KNone None; ONew BN KNone None; OSet 0 (KStr "a") (VNode 1); OGet 0 (KStr "a");
  OStore 0 (KStr "a") (VNode 2); OStore 0 (KStr "b") (VNode 2)].
Definition C55_d := after [ONew "CacheNode" KNone None; ONew BN KNone None; OSet 0 (KStr "a") (VNode 1); OGet 0 (KStr "a"); OUnstore 0 (KStr "a")].
Example C55_example :
  reach C55_s /\ class_of C55_s 0 = Some CacheNode /\ cache_class (c_behs CacheNode) = true /\ Cache ∈ c_behs CacheNode /\
  cache_at C55_s 0 = [(KStr "a", VNode 1)] /\ entries_at C55_s 0 = [(KStr "a", VNode 2); (KStr "b", VNode 2)] /\
  ~ up_to_date (cache_at C55_s 0) (entries_at C55_s 0) /\
  fst (getitem 0 (KStr "a") C55_s) = Ret (VNode 1) /\ fst (getitem 0 (KStr "b") C55_s) = Ret (VNode 2) /\
  cache_at (snd (getitem 0 (KStr "b") C55_s)) 0 = [(KStr "a", VNode 1); (KStr "b", VNode 2)] /\
  fst (getitem 0 (KStr "c") C55_s) = Exc (KeyError (KStr "c")) /\ cache_at (snd (getitem 0 (KStr "c") C55_s)) 0 = [(KStr "a", VNode 1)] /\
  cache_at (snd (setitem 0 (KStr "a") (VNode 2) C55_s)) 0 = [] /\
  fst (getitem 0 (KStr "a") (snd (setitem 0 (KStr "a") (VNode 2) C55_s))) = Ret (VNode 2) /\
  reach C55_d /\ fst (getitem 0 (KStr "a") C55_d) = Ret (VNode 1) /\ entries_at C55_d 0 = [] /\
  fst (delitem 0 (KStr "a") C55_d) = Exc (KeyError (KStr "a")) /\ cache_at (snd (delitem 0 (KStr "a") C55_d)) 0 = [] /\
  fst (invalidate 0 KNone C55_d) = Exc (KeyError (KStr "a")) /\ cache_at (snd (invalidate 0 KNone C55_d)) 0 = [].
Proof.
  split; [apply after_reach|]. split; [vm_compute; reflexivity|]. split; [vm_compute; reflexivity|]. split; [by apply (bool_decide_unpack _)|].
  assert (E1 : cache_at C55_s 0 = [(KStr "a", VNode 1)]) by (vm_compute; reflexivity).
  assert (E2 : entries_at C55_s 0 = [(KStr "a", VNode 2); (KStr "b", VNode 2)]) by (vm_compute; reflexivity).
  split; [exact E1|]. split; [exact E2|]. split.
  { rewrite E1, E2. intros H. specialize (H (KStr "a") (VNode 1) eq_refl). vm_compute in H. discriminate H. }
  do 7 (split; [vm_compute; reflexivity|]). split; [apply after_reach|]. vm_compute. repeat split.
Qed.
Print Assumptions C21_caching_history.
Print Assumptions C21_cache_is_transparent.
Print Assumptions C21_unhashable_keys_refuted.
Print Assumptions C22_invalidate_all.
Print Assumptions C22_children_survive_refuted.
Print Assumptions C23_volatile_key.
Print Assumptions C23_volatile_all.
Print Assumptions C23_invalidate_key.
Print Assumptions C23_invalidate_missing.
Print Assumptions C23_invalidate_present.
Print Assumptions C23_invalidate_all.
Print Assumptions C55_read.
Print Assumptions C55_stale_read.
Print Assumptions C55_delete.
Print Assumptions C55_write.
Print Assumptions C55_write_then_read.
