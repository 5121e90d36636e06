(** Histories: every client call on existing nodes, and the states they lead to. *)
From Verif Require Import Py Odict OdictFacts Aliaser Heap Model MonadFacts WF WFOps Observe.

Inductive op :=
| ONew (cn : string) (name : key) (parent : option nat)   (* cls(name, parent) *)
| OGet (x : nat) (k : key)                                (* x[k] *)
| OSet (x : nat) (k : key) (v : val)                      (* x[k] = v *)
| ODel (x : nat) (k : key)                                (* del x[k] *)
| ODetach (x : nat) (k : key)
| OUpdate (x : nat) (args : list (list (key * val))) (kw : list (key * val))
| OSetdefault (x : nat) (k : key) (v : val)
| OPop (x : nat) (k : key) (d : option val)
| OPopitem (x : nat)
| OClear (x : nat)
| OIter (x : nat)
| OValues (x : nat)
| OItems (x : nat)
| OAttrs (x : nat)
| OInvalidate (x : nat) (k : key)
| OSwap (x a b : nat)
| OInsertAt (before : bool) (x n r : nat)
| OInsertEnd (first : bool) (x n : nat)
| OSetUuid (x : nat) (u : option N)
| OSetAllow (x : nat) (b : bool)                          (* x.allow_non_node_childs = b *)
| OSetFallback (x : nat) (k : option key)                 (* x.fallback_key = k *)
| OPath (x : nat)
| ORoot (x : nat)
| ODeepcopy (x : nat)
| OStore (x : nat) (k : key) (v : val)                    (* x.storage[k] = v *)
| OUnstore (x : nat) (k : key)                            (* del x.storage[k] *)
| OPlace (x : nat) (k : key) (p : option nat).            (* x.__name__ = k; x.__parent__ = p *)

Definition ignore {A} (m : M A) : M unit := do! m in ret tt.
Definition run_op (o : op) : M unit :=
  match o with
  | ONew cn n p => ignore (new_node cn n p)
  | OGet x k => ignore (getitem x k)
  | OSet x k v => setitem x k v
  | ODel x k => delitem x k
  | ODetach x k => ignore (detach x k)
  | OUpdate x a kw => update x a kw
  | OSetdefault x k v => ignore (setdefault x k v)
  | OPop x k d => ignore (pop x k d)
  | OPopitem x => ignore (popitem x)
  | OClear x => clear x
  | OIter x => ignore (iter x)
  | OValues x => ignore (values x)
  | OItems x => ignore (items x)
  | OAttrs x => ignore (attrs_of x)
  | OInvalidate x k => invalidate x k
  | OSwap x a b => swap x a b
  | OInsertAt b x n r => insert_at b x n r
  | OInsertEnd b x n => insert_end b x n
  | OSetUuid x u => assign_uuid x u
  | OSetAllow x b => modify x (with_allow b)
  | OSetFallback x k => modify x (with_fallback k)
  | OPath x => ignore (path_of x)
  | ORoot x => ignore (root_of x)
  | ODeepcopy x => ignore (deepcopy x)
  | OStore x k v => store x k v
  | OUnstore x k => unstore x k
  | OPlace x k p => do! modify x (with_name k) in modify x (with_parent p)
  end.

(** A call can only mention objects that exist. *)
Definition op_ok (s : st) (o : op) : Prop :=
  match o with
  | ONew _ _ p => forall q, p = Some q -> exists_node s q
  | OGet x _ | ODel x _ | ODetach x _ | OPopitem x | OClear x | OIter x | OValues x | OItems x | OAttrs x
  | OInvalidate x _ | OSetUuid x _ | OSetAllow x _ | OSetFallback x _ | OPath x | ORoot x | ODeepcopy x | OUnstore x _ => exists_node s x
  | OSet x _ v | OSetdefault x _ v | OStore x _ v => exists_node s x /\ known s v
  | OPop x _ d => exists_node s x /\ forall v, d = Some v -> known s v
  | OUpdate x a kw => exists_node s x /\ Forall (known s) (map snd (concat a)) /\ Forall (known s) (map snd kw)
  | OSwap x a b => exists_node s x /\ exists_node s a /\ exists_node s b
  | OInsertAt _ x n r => exists_node s x /\ exists_node s n /\ exists_node s r
  | OInsertEnd _ x n => exists_node s x /\ exists_node s n
  | OPlace x _ p => exists_node s x /\ forall q, p = Some q -> exists_node s q
  end.

(** States a program can reach (with any set of node classes), calls that raise
    included. *)
Inductive reach : st -> Prop :=
| reach_init cs : reach (St ∅ ∅ ∅ 0 1 [] (-1) cs)
| reach_step s o r s' : reach s -> op_ok s o -> run_op o s = (r, s') -> reach s'.

(** * deepcopy keeps states well-formed *)
Global Instance add_inj n : Inj eq eq (Nat.add n).
Proof. intros ? ? ?. lia. Qed.

Lemma lookup_shift {A B} (m : gmap nat A) (f : A -> B) n i :
  (kmap (M2 := gmap nat) (Nat.add n) (f <$> m)) !! i = if decide (n <= i) then f <$> m !! (i - n) else None.
Proof.
  destruct (decide (n <= i)) as [H|H].
  - assert (exists j, i = n + j /\ i - n = j) as (j & -> & ->) by (exists (i - n); split; lia).
    rewrite <- lookup_fmap. apply (lookup_kmap (M1 := gmap nat) (M2 := gmap nat) (Nat.add n)).
  - apply (lookup_kmap_None (M1 := gmap nat) (M2 := gmap nat) (Nat.add n)). intros j Hj. lia.
Qed.
Lemma lookup_dup {A} (m : gmap nat A) (f : A -> A) n i : (forall j a, m !! j = Some a -> j < n) ->
  (m ∪ kmap (M2 := gmap nat) (Nat.add n) (f <$> m)) !! i = if decide (n <= i) then f <$> m !! (i - n) else m !! i.
Proof.
  intros H. rewrite lookup_union, lookup_shift. destruct (decide (n <= i)).
  - destruct (m !! i) eqn:E; [apply H in E; lia|]. by destruct (f <$> m !! (i - n)).
  - by destruct (m !! i).
Qed.
Lemma vok_shift s n v s' : (forall x, live s x -> live s' (n + x)) -> vok s v -> vok s' (shift_val n v).
Proof. destruct v; simpl; try done. auto. Qed.
Lemma dkeys_shift n (d : list (key * val)) : dkeys (shift_dict n d) = dkeys d.
Proof. unfold dkeys, shift_dict. rewrite map_map. done. Qed.
Lemma get_slot_shift n o a : get_slot a (shift_obj n o) = Nat.add n <$> get_slot a o.
Proof. by destruct a. Qed.

Lemma safe_deep s self : live s self -> safe s (deep self) (fun c s' => live s' c).
Proof.
  intros Hl W. unfold deep. simpl. pose proof W as [W1 W2 W3 W4].
  assert (N1 : forall j a, nodes s !! j = Some a -> j < next_id s) by (intros j a H; by apply W1 in H as [? _]).
  assert (N2 : forall j a, dicts s !! j = Some a -> j < next_id s) by (intros j a H; by apply W2 in H as [? _]).
  assert (N3 : forall j a, idxs s !! j = Some a -> j < next_id s) by (intros j a H; by apply W3 in H as [? _]).
  set (s' := St _ _ _ _ _ _ _ _).
  assert (Hn : forall i, nodes s' !! i = if decide (next_id s <= i) then shift_obj (next_id s) <$> nodes s !! (i - next_id s) else nodes s !! i)
    by (intros i; by apply lookup_dup).
  assert (Hd : forall i, dicts s' !! i = if decide (next_id s <= i) then shift_dict (next_id s) <$> dicts s !! (i - next_id s) else dicts s !! i)
    by (intros i; by apply lookup_dup).
  assert (Hi : forall i, idxs s' !! i = if decide (next_id s <= i) then (fun m : gmap (option N) nat => Nat.add (next_id s) <$> m) <$> idxs s !! (i - next_id s) else idxs s !! i)
    by (intros i; by apply lookup_dup).
  assert (X1 : next_id s' = next_id s + next_id s) by done.
  assert (X2 : classes s' = classes s) by done.
  assert (X3 : next_uuid s' = next_uuid s) by done.
  clearbody s'.
  assert (L1 : forall x, live s x -> live s' x).
  { intros x [o Ho]. unfold live. rewrite Hn. rewrite decide_False by (apply N1 in Ho; lia). eauto. }
  assert (L2 : forall x, live s x -> live s' (next_id s + x)).
  { intros x [o Ho]. unfold live. rewrite Hn. rewrite decide_True by lia. replace (next_id s + x - next_id s) with x by lia. rewrite Ho. eauto. }
  assert (D1 : forall x, is_Some (dicts s !! x) -> is_Some (dicts s' !! x)).
  { intros x [o Ho]. rewrite Hd. rewrite decide_False by (apply N2 in Ho; lia). eauto. }
  assert (D2 : forall x, is_Some (dicts s !! x) -> is_Some (dicts s' !! (next_id s + x))).
  { intros x [o Ho]. rewrite Hd. rewrite decide_True by lia. replace (next_id s + x - next_id s) with x by lia. rewrite Ho. eauto. }
  assert (I1 : forall x, is_Some (idxs s !! x) -> is_Some (idxs s' !! x)).
  { intros x [o Ho]. rewrite Hi. rewrite decide_False by (apply N3 in Ho; lia). eauto. }
  assert (I2 : forall x, is_Some (idxs s !! x) -> is_Some (idxs s' !! (next_id s + x))).
  { intros x [o Ho]. rewrite Hi. rewrite decide_True by lia. replace (next_id s + x - next_id s) with x by lia. rewrite Ho. eauto. }
  assert (E : ext s s').
  { constructor; [lia|done| |done|done|rewrite X3; lia]. intros x o Ho. exists o. rewrite Hn, decide_False by (apply N1 in Ho; lia). done. }
  split; [|split; [done|by apply L2]]. constructor.
  - intros x o. rewrite Hn. destruct (decide _) as [Hx|Hx].
    + intros (o0 & Ho0 & ->)%fmap_Some_1. destruct (W1 _ _ Ho0) as [Hlt [K1 K2 K3 K4]]. split; [lia|]. constructor.
      * intros p (q & Hq & ->)%fmap_Some_1. by apply L2, K1.
      * intros a l. rewrite get_slot_shift. intros (q & Hq & ->)%fmap_Some_1. by eapply D2, K2.
      * intros p (q & Hq & ->)%fmap_Some_1. by apply I2, K3.
      * intros u Hu. rewrite X3. by apply K4.
    + intros Ho. destruct (W1 _ _ Ho). split; [lia|by eapply ext_obj_ok].
  - intros l d. rewrite Hd. destruct (decide _) as [Hx|Hx].
    + intros (d0 & Hd0 & ->)%fmap_Some_1. destruct (W2 _ _ Hd0) as (? & ND & F). split; [lia|]. rewrite dkeys_shift. split; [done|].
      unfold shift_dict. rewrite Forall_fmap. eapply Forall_impl; [exact F|]. intros [k v] [? ?]. split; [done|]. simpl. by eapply vok_shift.
    + intros Ho. destruct (W2 _ _ Ho) as (? & ND & F). split; [lia|]. split; [done|]. eapply Forall_impl; [exact F|]. intros e. by apply ext_eok.
  - intros l m. rewrite Hi. destruct (decide _) as [Hx|Hx].
    + intros (m0 & Hm0 & ->)%fmap_Some_1. destruct (W3 _ _ Hm0) as (? & F). split; [lia|]. intros u y. rewrite lookup_fmap.
      intros (z & Hz & ->)%fmap_Some_1. by eapply L2, F.
    + intros Ho. destruct (W3 _ _ Ho) as (? & F). split; [lia|]. eauto.
  - intros x y o o' a b l. rewrite !Hn. destruct (decide (_ <= x)) as [Hx|Hx], (decide (_ <= y)) as [Hy|Hy].
    + intros (o0 & Ho0 & ->)%fmap_Some_1 (o1 & Ho1 & ->)%fmap_Some_1. rewrite !get_slot_shift.
      intros (p & Hp & ->)%fmap_Some_1 (q & Hq & Hpq)%fmap_Some_1. assert (p = q) as <- by lia.
      destruct (W4 _ _ _ _ _ _ _ Ho0 Ho1 Hp Hq). split; [lia|done].
    + intros (o0 & Ho0 & ->)%fmap_Some_1 Ho1. rewrite !get_slot_shift.
      intros (p & Hp & ->)%fmap_Some_1 Hq. exfalso.
      destruct (W1 _ _ Ho1) as [_ [_ K _ _]]. destruct (K _ _ Hq) as [? K']. apply N2 in K'. lia.
    + intros Ho1 (o0 & Ho0 & ->)%fmap_Some_1. rewrite !get_slot_shift.
      intros Hq (p & Hp & ->)%fmap_Some_1. exfalso.
      destruct (W1 _ _ Ho1) as [_ [_ K _ _]]. destruct (K _ _ Hq) as [? K']. apply N2 in K'. lia.
    + apply W4.
Qed.

Lemma safe_set_uuid_for f : forall r s v, vok s v -> safe s (set_uuid_for f r v) any.
Proof.
  induction f as [|f IH]; intros r s v Hv; simpl; [by apply safe_raise|].
  assert (H0 : forall r : bool, safe s (if r then raise AttributeError else ret tt) any).
  { intros []; [by apply safe_raise|by apply safe_ret]. }
  destruct v as [| | | | | | |c| | | |]; try apply H0. simpl in Hv.
  eapply safe_bind; [by apply safe_load|]. intros o ? W1 E1 [-> Ho].
  eapply safe_bind with (Q := any).
  { destruct (has _ _); [|by apply safe_ret]. eapply safe_bind; [apply safe_uuid4|]. intros u s2 W2 E2 _.
    apply safe_assign_uuid. eapply ext_live; [done|]. by eexists. }
  intros _ s2 W2 E2 _. destruct r; [|by apply safe_ret].
  eapply safe_bind; [apply safe_values; eapply ext_live; [done|by eexists]|]. intros vs s3 W3 E3 Hvs.
  apply safe_iterM with (P := vok); [intros; by eapply ext_vok|intros; by apply IH|done].
Qed.

Lemma safe_deepcopy s self : live s self -> safe s (deepcopy self) (fun c s' => live s' c).
Proof.
  intros Hl. unfold deepcopy. eapply safe_bind; [by apply safe_load|]. intros o ? W1 E1 [-> Ho].
  assert (G : forall bs, safe s (deepcopy_stack bs self) (fun c s' => live s' c)).
  { intros bs. induction bs as [|b bs IH]; simpl; [by apply safe_deep|]. destruct b; try exact IH. simpl.
    eapply safe_bind; [exact IH|]. intros c s2 W2 E2 Hc.
    assert (live s2 self) by (by eapply ext_live).
    eapply safe_bind; [by apply safe_load|]. intros o3 ? W3 E3 [-> _].
    eapply safe_bind with (Q := any). { intros W4. unfold with_fuel. by apply safe_set_uuid_for. }
    intros _ s4 W4 E4 _. apply safe_ret. by eapply ext_live. }
  apply G.
Qed.

Lemma safe_ignore {A} s (m : M A) Q : safe s m Q -> safe s (ignore m) any.
Proof. intros H. eapply safe_bind; [exact H|]. intros. by apply safe_ret. Qed.

Lemma safe_store s x k v : live s x -> vok s v -> safe s (store x k v) any.
Proof.
  intros H1 H2. eapply safe_bind; [by apply safe_own_storage|]. intros l s1 W1 E1 Hd. apply safe_dict_set; [done|]. by eapply ext_vok.
Qed.
Lemma safe_unstore s x k : live s x -> safe s (unstore x k) any.
Proof. intros H1. eapply safe_bind; [by apply safe_own_storage|]. intros l s1 W1 E1 Hd. by apply safe_dict_del. Qed.
Lemma safe_run_op s o : op_ok s o -> safe s (run_op o) any.
Proof.
  destruct o; simpl; intros H; try (eapply safe_ignore); try (match type of H with _ /\ _ => destruct H as [H1 H2] end).
  - by apply safe_new_node.
  - by apply safe_getitem.
  - by apply safe_setitem.
  - by apply safe_delitem.
  - by apply safe_detach.
  - destruct H2. by apply safe_update.
  - by apply safe_setdefault.
  - by apply safe_pop.
  - by apply safe_popitem.
  - by apply safe_clear.
  - by apply safe_iter.
  - by apply safe_values.
  - by apply safe_items.
  - by apply safe_attrs_of.
  - by apply safe_invalidate.
  - destruct H2. by apply safe_swap.
  - destruct H2. by apply safe_insert_at.
  - by apply safe_insert_end.
  - by apply safe_assign_uuid.
  - by apply safe_modify_allow.
  - by apply safe_modify_fallback.
  - by apply safe_path_of.
  - by apply safe_root_of.
  - by apply safe_deepcopy.
  - by apply safe_store.
  - by apply safe_unstore.
  - eapply safe_bind; [by apply safe_modify_name|]. intros [] s1 W1 X1 _. apply safe_modify_parent; [by apply (ext_live s)|]. intros q Hq. apply (ext_live s); [done|]. by apply H2.
Qed.

Theorem reach_wf s : reach s -> wf s.
Proof.
  induction 1 as [|s o r s' HR IH Hok E]; [apply wf_empty|].
  destruct (safe_run_op s o Hok IH) as (W & _ & _). by rewrite E in W.
Qed.

(** calls never follow a dangling reference *)
Theorem reach_no_dangling s o r s' : reach s -> op_ok s o -> run_op o s = (r, s') -> r <> Exc Dangling.
Proof.
  intros HR Hok E. destruct (safe_run_op s o Hok (reach_wf _ HR)) as (_ & _ & P). rewrite E in P. simpl in P.
  intros ->. done.
Qed.

Lemma reach_uuid s : reach s -> (0 < next_uuid s)%N.
Proof.
  induction 1 as [|s o r s' HR IH Hok E]; [simpl; lia|].
  destruct (safe_run_op s o Hok (reach_wf _ HR)) as (_ & X & _). rewrite E in X. simpl in X.
  pose proof (ext_uuid _ _ X). lia.
Qed.
Lemma reach_classes s : reach s -> forall s' o r, op_ok s o -> run_op o s = (r, s') -> classes s' = classes s.
Proof.
  intros HR s' o r Hok E. destruct (safe_run_op s o Hok (reach_wf _ HR)) as (_ & X & _). rewrite E in X. simpl in X.
  apply (ext_classes _ _ X).
Qed.
