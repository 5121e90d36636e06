(** Effects of item access on nodes built from storage, validation, adoption,
    nodespaces, references, ordering and lifecycle, for every list of these
    behaviors in every order. *)
From Verif Require Import Py Odict OdictFacts Aliaser Heap Model MonadFacts WF WFOps Views
  SpecMapping MappingProofs StorageProofs.

Definition tree_beh (b : behavior) : bool :=
  plain_beh b || match b with Nodespaces | Reference | Lifecycle => true | _ => false end.
Definition tree_class (bs : list behavior) : bool := forallb tree_beh bs && storage_class bs.

Definition res_key (k : key) : bool := match k with KStr s => reserved s | _ => false end.
Definition nskey (bs : list behavior) (k : key) : bool := hasc Nodespaces bs && res_key k.

(** [d[k]] *)
Definition look (k : key) (d : list (key * val)) : res val :=
  if hashable k then match dget k d with Some v => Ret v | None => Exc (KeyError k) end
  else Exc TypeError.

(** One observable field of a node. *)
Definition fld {B} (F : view -> B) (s : st) (x : nat) : option B := F <$> views s !! x.
Notation w_np := (fun w => (w_name w, w_parent w)).
Notation w_core := (fun w => (w_cls w, w_cache w, w_fixed w, w_uuid w, w_allow w, w_suppress w, w_fallback w)).

Lemma fld_eqv {B} (F : view -> B) s s' x : eqv s s' -> fld F s' x = fld F s x.
Proof. intros E. unfold fld. by rewrite (e_views _ _ E). Qed.
Lemma fld_touched {B} (F : view -> B) x g s s' y :
  touched x g s s' -> (forall w, F (g w) = F w) -> fld F s' y = fld F s y.
Proof.
  intros T HF. destruct (t_views _ _ _ _ T) as (w & Hw & Hv). unfold fld. rewrite Hv.
  destruct (decide (x = y)) as [<-|].
  - rewrite lookup_insert, Hw. simpl. by rewrite HF.
  - by rewrite lookup_insert_ne.
Qed.
Lemma fld_touched_ne {B} (F : view -> B) x g s s' y :
  touched x g s s' -> x <> y -> fld F s' y = fld F s y.
Proof.
  intros T Hne. destruct (t_views _ _ _ _ T) as (w & Hw & Hv). unfold fld. rewrite Hv.
  by rewrite lookup_insert_ne.
Qed.
Lemma fld_touched_eq {B} (F : view -> B) x g s s' :
  touched x g s s' -> fld F s' x = (fun w => F (g w)) <$> views s !! x.
Proof.
  intros T. destruct (t_views _ _ _ _ T) as (w & Hw & Hv). unfold fld. rewrite Hv.
  by rewrite lookup_insert, Hw.
Qed.
Lemma wrote_touched a x d s s' : wrote a x d s s' -> touched x (vw_slot a d) s s'.
Proof. intros []. constructor; done. Qed.
Lemma touched_live x g s s' y : touched x g s s' -> live s' y <-> live s y.
Proof.
  intros T. rewrite !views_live. destruct (t_views _ _ _ _ T) as (w & Hw & Hv). rewrite Hv.
  destruct (decide (x = y)) as [<-|]; [rewrite lookup_insert, Hw|by rewrite lookup_insert_ne].
  split; eauto.
Qed.
Lemma fld_live {B} (F : view -> B) s x : is_Some (fld F s x) <-> live s x.
Proof. unfold fld. by rewrite fmap_is_Some, views_live. Qed.
Lemma fld_Some {B} (F : view -> B) s x w : views s !! x = Some w -> fld F s x = Some (F w).
Proof. unfold fld. by intros ->. Qed.

Lemma nodes_cls s x o w : nodes s !! x = Some o -> views s !! x = Some w -> o_cls o = w_cls w.
Proof. intros Ho (o' & Ho' & ->)%views_Some. by rewrite Ho in Ho'; injection Ho' as <-. Qed.

Lemma view_obj s x w : views s !! x = Some w -> exists o, nodes s !! x = Some o /\ w = view_of s x o.
Proof. apply views_Some. Qed.

Lemma tree_class_inv bs : tree_class bs = true -> forallb tree_beh bs = true /\ storage_class bs = true.
Proof. apply andb_prop. Qed.
Lemma tree_no_fixed bs : forallb tree_beh bs = true -> hasc FixedChildren bs = false.
Proof.
  intros H. unfold hasc. apply bool_decide_eq_false. intros Hin.
  rewrite forallb_forall in H. apply elem_of_list_In in Hin. by apply H in Hin.
Qed.
Lemma hasc_cons b b' bs : hasc b (b' :: bs) = bool_decide (b = b') || hasc b bs.
Proof.
  unfold hasc. apply eq_true_iff_eq. rewrite orb_true_iff, !bool_decide_eq_true. set_solver.
Qed.
Lemma tree_no_factory bs : forallb tree_beh bs = true -> hasc ChildFactory bs = false.
Proof.
  intros H. unfold hasc. apply bool_decide_eq_false. intros Hin.
  rewrite forallb_forall in H. apply elem_of_list_In in Hin. by apply H in Hin.
Qed.

(** * Reading *)
Lemma slot_get s x w a k (m : M nat) :
  wf s -> views s !! x = Some w ->
  (exists l s', m s = (Ret l, s') /\ eqv s s' /\ wf s'
    /\ exists o', nodes s' !! x = Some o' /\ get_slot a o' = Some l /\ o_cls o' = w_cls w) ->
  exists s', (let! l := m in dict_get l k) s = (look k (slot_ent a w), s') /\ eqv s s' /\ wf s'.
Proof.
  intros W Hw (l & s' & E & Q & W' & o' & Ho' & Hs & _).
  exists s'. rewrite (bind_Ret _ _ _ _ _ E).
  rewrite (dict_get_eff _ _ _ _ _ _ W' Ho' Hs).
  assert (view_of s' x o' = w) as ->; [|done].
  apply nodes_views in Ho'. rewrite (e_views _ _ Q), Hw in Ho'. by injection Ho'.
Qed.

Lemma storage_slot s x w : wf s -> views s !! x = Some w -> storage_class (c_behs (w_cls w)) = true ->
  exists l s', storage_of x s = (Ret l, s') /\ eqv s s' /\ wf s'
    /\ exists o', nodes s' !! x = Some o' /\ get_slot SStorage o' = Some l /\ o_cls o' = w_cls w.
Proof.
  intros W Hw Hc. destruct (view_obj _ _ _ Hw) as (o & Ho & ->). by apply storage_of_eff.
Qed.
Lemma ns_slot s x w : wf s -> views s !! x = Some w ->
  exists l s', nodespaces_of x s = (Ret l, s') /\ eqv s s' /\ wf s'
    /\ exists o', nodes s' !! x = Some o' /\ get_slot SNodespaces o' = Some l /\ o_cls o' = w_cls w.
Proof.
  intros W Hw. destruct (view_obj _ _ _ Hw) as (o & Ho & ->). by apply nodespaces_of_eff.
Qed.
Lemma eqv_view s s' x w : eqv s s' -> views s !! x = Some w -> views s' !! x = Some w.
Proof. intros E. by rewrite (e_views _ _ E). Qed.

Lemma get_stack_eff fb bs s x w k :
  wf s -> views s !! x = Some w -> forallb tree_beh bs = true ->
  tree_class (c_behs (w_cls w)) = true ->
  exists s', get_stack fb (c_behs (w_cls w)) bs x k s =
      (if nskey bs k then look k (w_ns w) else look k (w_ent w), s') /\ eqv s s' /\ wf s'.
Proof.
  intros W Hw Hb (Hall & Hst)%tree_class_inv. induction bs as [|b bs IH]; simpl in *.
  - unfold get_endpoint. rewrite tree_no_fixed by done. unfold storage_class in Hst. rewrite Hst.
    apply (slot_get s x w SStorage); [done..|]. by apply storage_slot.
  - apply andb_prop in Hb as [Hb1 Hb2]. specialize (IH Hb2).
    assert (Hpass : b <> Nodespaces -> nskey (b :: bs) k = nskey bs k).
    { intros Hne. unfold nskey. rewrite hasc_cons. rewrite bool_decide_eq_false_2 by done. done. }
    destruct b; try discriminate Hb1; simpl; try (rewrite Hpass by done; exact IH); clear Hpass.
    assert (Hn : forall k, nskey (Nodespaces :: bs) k = res_key k).
    { intros k'. unfold nskey. rewrite hasc_cons. done. }
    rewrite Hn. destruct k; simpl; try (unfold nskey in IH; simpl in IH; rewrite andb_false_r in IH; exact IH).
    destruct (reserved s0) eqn:Er.
    + apply (slot_get s x w SNodespaces); [done..|]. by apply ns_slot.
    + unfold nskey in IH. simpl in IH. rewrite Er, andb_false_r in IH. exact IH.
Qed.

Definition get_res (w : view) (k : key) : res val :=
  if nskey (c_behs (w_cls w)) k then look k (w_ns w) else look k (w_ent w).

Lemma getitem_eff s x w k :
  wf s -> views s !! x = Some w -> tree_class (c_behs (w_cls w)) = true ->
  exists s', getitem x k s = (get_res w k, s') /\ eqv s s' /\ wf s'.
Proof.
  intros W Hw Hc. destruct (view_obj _ _ _ Hw) as (o & Ho & Ew). unfold getitem.
  rewrite (bind_load _ _ _ _ Ho). replace (o_cls o) with (w_cls w) by (by subst).
  apply get_stack_eff; try done. by apply tree_class_inv in Hc as [? _].
Qed.

Lemma iter_stack_tree all bs self s :
  forallb tree_beh bs = true -> iter_stack all bs self s = iter_endpoint all self s.
Proof.
  induction bs as [|b bs IH]; simpl; intros H; [done|].
  apply andb_prop in H as [H1 H2].
  destruct b; try discriminate H1; simpl; by apply IH.
Qed.
Lemma iter_override_tree bs self s :
  forallb tree_beh bs = true -> storage_class bs = true ->
  iter_override bs self s = (let! l := storage_of self in let! d := read_dict l in ret (dkeys d)) s.
Proof.
  induction bs as [|b bs IH]; simpl; intros H Hs; [done|].
  apply andb_prop in H as [H1 H2]. unfold storage_class in *. rewrite !hasc_cons in Hs.
  destruct b; try discriminate H1; try done; apply IH; done.
Qed.

Lemma iter_eff s x w :
  wf s -> views s !! x = Some w -> tree_class (c_behs (w_cls w)) = true ->
  exists s', iter x s = (Ret (dkeys (w_ent w)), s') /\ eqv s s' /\ wf s'.
Proof.
  intros W Hw Hc. destruct (view_obj _ _ _ Hw) as (o & Ho & Ew). unfold iter.
  rewrite (bind_load _ _ _ _ Ho). replace (o_cls o) with (w_cls w) by (by subst).
  apply tree_class_inv in Hc as [Hb Hst].
  rewrite iter_stack_tree by done. unfold iter_endpoint. rewrite tree_no_fixed by done.
  rewrite iter_override_tree by done.
  destruct (storage_slot s x w W Hw Hst) as (l & s' & E & Q & W' & o' & Ho' & Hs & _).
  rewrite (bind_Ret _ _ _ _ _ E).
  rewrite (bind_read_dict _ _ _ _ (slot_dict _ _ _ _ _ W' Ho' Hs)).
  exists s'. split; [|done]. simpl.
  apply nodes_views in Ho'. rewrite (e_views _ _ Q), Hw in Ho'. injection Ho' as Ho'.
  rewrite Ho'. simpl. done.
Qed.
Lemma iterkeys_eff s x w :
  wf s -> views s !! x = Some w -> tree_class (c_behs (w_cls w)) = true ->
  exists s', iterkeys x s = (Ret (dkeys (w_ent w)), s') /\ eqv s s' /\ wf s'.
Proof.
  intros W Hw Hc. destruct (view_obj _ _ _ Hw) as (o & Ho & Ew). unfold iterkeys.
  rewrite (bind_load _ _ _ _ Ho). unfold has. fold (hasc ChildFactory (c_behs (o_cls o))).
  replace (o_cls o) with (w_cls w) by (by subst).
  rewrite tree_no_factory by (by apply tree_class_inv in Hc as [? _]). by apply iter_eff.
Qed.

(** * Iteration never changes anything observable, whatever the class *)
Definition quiet {A} (s : st) (m : M A) : Prop := wf s -> eqv s (snd (m s)).
Lemma quiet_ret {A} s (a : A) : quiet s (ret a).
Proof. intros _. apply eqv_refl. Qed.
Lemma quiet_raise {A} s e : quiet s (@raise A e).
Proof. intros _. apply eqv_refl. Qed.
Lemma quiet_bind {A B} s (m : M A) (f : A -> M B) Q :
  safe s m Q -> quiet s m ->
  (forall a s', m s = (Ret a, s') -> wf s' -> eqv s s' -> Q a s' -> quiet s' (f a)) -> quiet s (bind m f).
Proof.
  intros Hs Hq Hf W. destruct (Hs W) as (W' & _ & HQ). specialize (Hq W). unfold bind.
  destruct (m s) as [[a|e] s'] eqn:E; simpl in *; [|done].
  specialize (Hf a s' eq_refl W' Hq HQ W'). by eapply eqv_trans.
Qed.
Lemma quiet_load s x : quiet s (load x).
Proof. intros _. unfold load. destruct (nodes s !! x); apply eqv_refl. Qed.
Lemma quiet_read_dict s x : quiet s (read_dict x).
Proof. intros _. unfold read_dict. destruct (dicts s !! x); apply eqv_refl. Qed.
Lemma quiet_storage_of s x : live s x -> quiet s (storage_of x).
Proof.
  intros [o Ho] W. destruct (storage_class (c_behs (o_cls o))) eqn:Hc.
  - destruct (storage_of_eff s x o W Ho Hc) as (l & s' & E & Q & _). by rewrite E.
  - unfold storage_of. rewrite (bind_load _ _ _ _ Ho). unfold has. 
    unfold storage_class, hasc in Hc. rewrite Hc. apply eqv_refl.
Qed.
Lemma quiet_fixed_of s x : quiet s (fixed_of x).
Proof.
  intros W. unfold fixed_of, bind, load. destruct (nodes s !! x) as [o|]; [|apply eqv_refl].
  destruct (o_children o); apply eqv_refl.
Qed.
Lemma quiet_read_keys s l : is_Some (dicts s !! l) -> quiet s (let! d := read_dict l in ret (dkeys d)).
Proof.
  intros H. eapply quiet_bind; [by apply safe_read_dict|by apply quiet_read_dict|].
  intros. apply quiet_ret.
Qed.

Lemma quiet_iter_stage b next s self :
  live s self -> safe s (next self) any -> quiet s (next self) ->
  quiet s (iter_stage b next self).
Proof.
  intros Hl Hn Hq.
  destruct b; simpl; try done.
  eapply quiet_bind; [exact Hn|done|]. intros ks s1 _ W1 E1 _.
  assert (Hl1 : live s1 self) by (by eapply eqv_live).
  eapply quiet_bind; [by apply safe_load|by apply quiet_load|]. intros o s2 _ W2 E2 [-> Ho].
  intros _. apply eqv_refl.
Qed.
Lemma quiet_iter_override bs s self : live s self -> quiet s (iter_override bs self).
Proof.
  intros Hl. induction bs as [|b bs IH]; simpl; [apply quiet_raise|].
  destruct b; try done.
  - eapply quiet_bind; [by apply safe_load|apply quiet_load|]. intros. apply quiet_ret.
  - eapply quiet_bind; [by apply safe_storage_of|by apply quiet_storage_of|].
    intros l s1 _ W1 E1 Hd. by apply quiet_read_keys.
  - eapply quiet_bind; [by apply safe_storage_of|by apply quiet_storage_of|].
    intros l s1 _ W1 E1 Hd. by apply quiet_read_keys.
Qed.
Lemma quiet_iter_stack all bs s self : live s self -> quiet s (iter_stack all bs self).
Proof.
  revert s. induction bs as [|b bs IH]; intros s Hl; simpl.
  - unfold iter_endpoint. destruct (hasc FixedChildren all).
    + eapply quiet_bind; [by apply safe_fixed_of|by apply quiet_fixed_of|].
      intros l s1 _ W1 E1 Hd. apply quiet_read_keys. apply Hd.
    + by apply quiet_iter_override.
  - apply quiet_iter_stage; [done|by apply safe_iter_stack|by apply IH].
Qed.
Lemma quiet_iter s self : live s self -> quiet s (iter self).
Proof.
  intros Hl. eapply quiet_bind; [by apply safe_load|apply quiet_load|].
  intros o s1 _ _ _ [-> Ho]. by apply quiet_iter_stack.
Qed.
Lemma quiet_iterkeys s self : live s self -> quiet s (iterkeys self).
Proof.
  intros Hl. eapply quiet_bind; [by apply safe_load|apply quiet_load|].
  intros o s1 _ _ _ [-> Ho]. destruct (has _ _); [apply quiet_ret|by apply quiet_iter].
Qed.

(** * Setting *)
Definition is_ret {A} (r : res A) : bool := match r with Ret _ => true | Exc _ => false end.
Definition occ (b : behavior) (bs : list behavior) : nat := length (filter (eq b) bs).

(** Reference.__setitem__: the child's index is merged into the node's. *)
Definition ref_step (s : st) (self c : nat) (s' : st) : Prop :=
  exists i j mi mj,
    fld w_index s self = Some (Some i) /\ fld w_index s c = Some (Some j) /\
    idxs s !! i = Some mi /\ idxs s !! j = Some mj /\
    idxs s' = <[i := mj ∪ mi]> (idxs s) /\ fld w_index s' c = Some (Some i) /\
    ((forall cls, fld w_cls s c = Some cls -> tree_class (c_behs cls) = true -> fld w_ent s c = Some [])
     \/ dom mi ∩ dom mj = ∅).

(** Outcome of [self[k] = v].  [ns]: the key is handled by Nodespaces; [ad], [rf]:
    Adopt, Reference in the pipeline; [lc]: number of Lifecycle hooks. *)
Record set_eff (ns ad rf : bool) (lc : nat) (self : nat) (k : key) (v : val) (s : st) (r : res unit) (s' : st) : Prop := SetEff {
  se_wf : wf s';
  se_core : forall x, fld w_core s' x = fld w_core s x;
  se_ent : forall x, fld w_ent s' x =
     if decide (x = self) then if is_ret r && negb ns then dset k v <$> fld w_ent s x else fld w_ent s x
     else fld w_ent s x;
  se_ns : forall x, fld w_ns s' x =
     if decide (x = self) then if is_ret r && ns then dset k v <$> fld w_ns s x else fld w_ns s x
     else fld w_ns s x;
  se_np_other : forall x, v <> VNode x -> fld w_np s' x = fld w_np s x;
  se_np_ret : forall c, v = VNode c -> is_ret r = true ->
     fld w_np s' c = if ad || ns then Some (k, Some self) else fld w_np s c;
  se_np_exc : forall c e, v = VNode c -> r = Exc e ->
     fld w_np s' c = fld w_np s c \/
     (adopt_catches e = false /\ fld w_np s' c = Some (k, Some self));
  se_ix_other : forall x, v <> VNode x -> fld w_index s' x = fld w_index s x;
  se_ix : rf = false ->
     (forall x, fld w_index s' x = fld w_index s x) /\ idxs s' = idxs s;
  se_ix_nonnode : is_node v = false -> idxs s' = idxs s;
  se_ref : forall c, v = VNode c -> rf = true -> ns = false -> is_ret r = true -> ref_step s self c s';
  se_log0 : lc = 0 -> log s' = log s;
  se_log_exc : is_ret r = false -> log s' = log s;
  se_log : forall b, ns = false -> is_ret r = true -> fld w_suppress s self = Some b ->
     log s' = log s ++ (if b then [] else replicate lc (EvAdded v self k));
  se_hash : is_ret r = true -> hashable k = true;
  se_catch : forall e, r = Exc e -> adopt_catches e = true \/ hashable k = false \/ rf = true;
  se_uuid : next_uuid s' = next_uuid s;
  se_fb : fbcount s' = fbcount s;
  se_classes : classes s' = classes s
}.

Definition stack_eff bs self k :=
  set_eff (nskey bs k) (hasc Adopt bs) (hasc Reference bs) (occ Lifecycle bs) self k.

Lemma fld_core_view s s' x w : views s !! x = Some w -> fld w_core s' x = fld w_core s x ->
  exists w', views s' !! x = Some w' /\ w_cls w' = w_cls w /\ w_allow w' = w_allow w
    /\ w_suppress w' = w_suppress w /\ w_uuid w' = w_uuid w.
Proof.
  intros Hw H. unfold fld in H. rewrite Hw in H. simpl in H.
  destruct (views s' !! x) as [w'|]; simpl in H; [|done]. injection H as E1 _ _ E2 E3 E4 _. exists w'. done.
Qed.
Lemma fld_core_suppress s s' x : fld w_core s' x = fld w_core s x -> fld w_suppress s' x = fld w_suppress s x.
Proof.
  unfold fld. destruct (views s' !! x), (views s !! x); simpl; intros H; try done. by injection H as _ _ _ _ _ -> _.
Qed.

(** nothing happened *)
Lemma set_eff_fail ns ad rf lc self k v s s' e :
  wf s' -> eqv s s' -> (adopt_catches e = true \/ hashable k = false \/ rf = true) ->
  set_eff ns ad rf lc self k v s (Exc e) s'.
Proof.
  intros W' Q He. constructor; try done; intros; simpl; rewrite ?(fld_eqv _ _ _ _ Q); try done.
  - by case_decide.
  - by case_decide.
  - by left.
  - split; [|by apply e_idxs]. intros. by apply fld_eqv.
  - by apply e_idxs.
  - by apply e_log.
  - by apply e_log.
  - naive_solver.
  - by apply e_uuid.
  - by apply e_fb.
  - by apply e_classes.
Qed.

(** writing to the storage or the nodespaces of [self] *)
Lemma set_eff_write (ns : bool) s self w k v s1 s2 :
  views s !! self = Some w -> wf s2 -> eqv s s1 -> hashable k = true ->
  wrote (if ns then SNodespaces else SStorage) self
     (dset k v (if ns then w_ns w else w_ent w)) s1 s2 ->
  (forall c, v = VNode c -> ns = true -> fld w_np s c = Some (k, Some self)) ->
  forall lc, (ns = false -> lc = 0) -> set_eff ns false false lc self k v s (Ret tt) s2.
Proof.
  intros Hw W2 Q Hk Wr Hns lc Hlc. pose proof (wrote_touched _ _ _ _ _ Wr) as T.
  assert (Hlog : log s2 = log s).
  { rewrite (t_log _ _ _ _ T). by apply e_log. }
  assert (Hidx : idxs s2 = idxs s).
  { rewrite (t_idxs _ _ _ _ T). by apply e_idxs. }
  constructor; try done.
  + intros x. rewrite (fld_touched _ _ _ _ _ _ T) by (by destruct ns). by apply fld_eqv.
  + intros x. simpl. case_decide as Ex.
    * subst x. rewrite (fld_touched_eq _ _ _ _ _ T). rewrite (e_views _ _ Q), Hw. simpl.
      unfold fld. rewrite Hw. by destruct ns.
    * rewrite (fld_touched_ne _ _ _ _ _ _ T) by done. by apply fld_eqv.
  + intros x. simpl. case_decide as Ex.
    * subst x. rewrite (fld_touched_eq _ _ _ _ _ T). rewrite (e_views _ _ Q), Hw. simpl.
      unfold fld. rewrite Hw. by destruct ns.
    * rewrite (fld_touched_ne _ _ _ _ _ _ T) by done. by apply fld_eqv.
  + intros x _. rewrite (fld_touched _ _ _ _ _ _ T) by (by destruct ns). by apply fld_eqv.
  + intros c Hc _. simpl. rewrite (fld_touched _ _ _ _ _ _ T) by (by destruct ns).
    rewrite (fld_eqv _ _ _ _ Q). destruct ns; [|done]. by apply Hns.
  + intros x _. rewrite (fld_touched _ _ _ _ _ _ T) by (by destruct ns). by apply fld_eqv.
  + intros _. split; [|done].
    intros x. rewrite (fld_touched _ _ _ _ _ _ T) by (by destruct ns). by apply fld_eqv.
  + intros b -> _ _. rewrite (Hlc eq_refl). simpl. destruct b; by rewrite app_nil_r.
  + rewrite (t_uuid _ _ _ _ T). by apply e_uuid.
  + rewrite (t_fb _ _ _ _ T). by apply e_fb.
  + rewrite (t_classes _ _ _ _ T). by apply e_classes.
Qed.

Lemma eqv_vok s s' v : eqv s s' -> vok s v -> vok s' v.
Proof. destruct v; try done. simpl. apply eqv_live. Qed.

Lemma set_endpoint_eff s self w k v :
  wf s -> views s !! self = Some w -> storage_class (c_behs (w_cls w)) = true ->
  hasc FixedChildren (c_behs (w_cls w)) = false -> vok s v ->
  exists r s', set_endpoint (c_behs (w_cls w)) self k v s = (r, s')
    /\ set_eff false false false 0 self k v s r s'
    /\ r = (if hashable k then Ret tt else Exc TypeError).
Proof.
  intros W Hw Hst Hnf Hv. unfold set_endpoint.
  rewrite Hnf. pose proof Hst as Hst'. unfold storage_class in Hst'. rewrite Hst'.
  destruct (storage_slot s self w W Hw Hst) as (l & s1 & E & Q & W1 & o1 & Ho1 & Hs & _).
  rewrite (bind_Ret _ _ _ _ _ E).
  destruct (hashable k) eqn:Hk.
  - destruct (dict_set_eff s1 self o1 SStorage l k v W1 Ho1 Hs) as (s2 & E2 & W2 & Wr); [|done|].
    { by eapply eqv_vok. }
    eexists _, s2. split; [exact E2|]. split; [|done].
    assert (view_of s1 self o1 = w) as Hvw.
    { apply nodes_views in Ho1. rewrite (e_views _ _ Q), Hw in Ho1. by injection Ho1. }
    rewrite Hvw in Wr. simpl in Wr.
    by eapply (set_eff_write false).
  - rewrite dict_set_fail by done. eexists _, s1. split; [done|]. split; [|done].
    apply set_eff_fail; [done..|]. rewrite Hk. naive_solver.
Qed.

Lemma touched_fld_np c k s s1 : touched c (vw_name k) s s1 ->
  forall p s2, touched c (vw_parent p) s1 s2 -> fld w_np s2 c = Some (k, p).
Proof.
  intros T1 p s2 T2. rewrite (fld_touched_eq _ _ _ _ _ T2).
  destruct (t_views _ _ _ _ T1) as (w & Hw & ->). by rewrite lookup_insert.
Qed.

(** adopting: name and parent of [c] are assigned *)
Record adopted (c : nat) (k : key) (p : option nat) (s s' : st) : Prop := Adopted {
  ad_wf : wf s';
  ad_np : fld w_np s' c = Some (k, p);
  ad_np_ne : forall x, x <> c -> fld w_np s' x = fld w_np s x;
  ad_fld : forall B (F : view -> B) x, (forall w k p, F (vw_parent p (vw_name k w)) = F w) -> fld F s' x = fld F s x;
  ad_idxs : idxs s' = idxs s;
  ad_log : log s' = log s;
  ad_uuid : next_uuid s' = next_uuid s;
  ad_fb : fbcount s' = fbcount s;
  ad_classes : classes s' = classes s;
  ad_live : forall x, live s' x <-> live s x
}.
Lemma adopt_eff s c k p :
  wf s -> live s c -> (forall q, p = Some q -> live s q) ->
  exists s', adopted c k p s s' /\
    forall A (m : M A), (do! modify c (with_name k) in do! modify c (with_parent p) in m) s = m s'.
Proof.
  intros W Hc Hp.
  destruct (modify_name_eff s c k Hc W) as (s1 & E1 & W1 & T1).
  assert (Hl : forall x, live s1 x <-> live s x) by (intros; by eapply touched_live).
  destruct (modify_parent_eff s1 c p) as (s2 & E2 & W2 & T2).
  { by apply Hl. } { done. } { intros q Hq. apply Hl. by apply Hp. }
  exists s2. split; [|intros A m; by rewrite (bind_Ret _ _ _ _ _ E1), (bind_Ret _ _ _ _ _ E2)].
  constructor; [done|by eapply touched_fld_np|..].
  { intros x Hx. rewrite (fld_touched_ne _ _ _ _ _ _ T2) by done. by apply (fld_touched_ne _ _ _ _ _ _ T1). }
  { intros B F x HF. unfold fld.
    destruct (t_views _ _ _ _ T2) as (w2 & Hw2 & ->).
    destruct (t_views _ _ _ _ T1) as (w1 & Hw1 & Hv1). rewrite Hv1 in *.
    rewrite lookup_insert in Hw2. injection Hw2 as <-. rewrite insert_insert.
    destruct (decide (c = x)) as [<-|]; [rewrite lookup_insert, Hw1|by rewrite lookup_insert_ne].
    simpl. by rewrite HF. }
  - by rewrite (t_idxs _ _ _ _ T2), (t_idxs _ _ _ _ T1).
  - by rewrite (t_log _ _ _ _ T2), (t_log _ _ _ _ T1).
  - by rewrite (t_uuid _ _ _ _ T2), (t_uuid _ _ _ _ T1).
  - by rewrite (t_fb _ _ _ _ T2), (t_fb _ _ _ _ T1).
  - by rewrite (t_classes _ _ _ _ T2), (t_classes _ _ _ _ T1).
  - intros x. rewrite <- Hl. by eapply touched_live.
Qed.
