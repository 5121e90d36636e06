(** Invalidation on its own, and without a cache. *)
From Verif Require Import Py Odict OdictFacts Aliaser Heap Model Classes MonadFacts WF WFOps Views TreeOps SetEff DelEff
  SpecMapping MappingProofs StorageProofs Observe ObserveFacts SpecTree MappingProps SpecCache CacheProofs.

Lemma inval_stack_nocache all bs x k s : Cache ∉ bs -> invalidate_stack all bs x k s = invalidate_endpoint all x k s.
Proof.
  induction bs as [|b bs IH]; intros H; [done|]. apply not_elem_of_cons in H as [H1 H2]. destruct b; try (by apply IH). done.
Qed.

(** ** What a node lists depends on its view only *)
Fixpoint iter_ov (bs : list behavior) (w : view) : res (list key) :=
  match bs with
  | [] => Exc NotImplementedError
  | ChildFactory :: _ => Ret (map fst (c_factories (w_cls w)))
  | DictStorage :: _ | OdictStorage :: _ => if storage_class (c_behs (w_cls w)) then Ret (dkeys (w_ent w)) else Exc NotImplementedError
  | _ :: r => iter_ov r w
  end.
Definition iter_end (all : list behavior) (w : view) : res (list key) :=
  if hasc FixedChildren all then match w_fixed w with Some d => Ret (dkeys d) | None => Exc AttributeError end else iter_ov all w.
Fixpoint iter_view (all bs : list behavior) (w : view) : res (list key) :=
  match bs with
  | [] => iter_end all w
  | Alias :: r => match iter_view all r w with Ret ks => alias_keys (c_aliaser (w_cls w)) ks | Exc e => Exc e end
  | _ :: r => iter_view all r w
  end.
Lemma iter_ov_eff bs x w : forall s, wf s -> views s !! x = Some w -> exists s', iter_override bs x s = (iter_ov bs w, s') /\ eqv s s' /\ wf s'.
Proof.
  induction bs as [|b bs IH]; intros s W Hw; [exists s; split; [done|]; split; [apply eqv_refl|done]|].
  assert (Hst : exists s', (let! l := storage_of x in let! d := read_dict l in ret (dkeys d)) s =
    (if storage_class (c_behs (w_cls w)) then Ret (dkeys (w_ent w)) else Exc NotImplementedError, s') /\ eqv s s' /\ wf s').
  { destruct (storage_class (c_behs (w_cls w))) eqn:Hc.
    - destruct (storage_slot s x w W Hw Hc) as (l & s' & E & Q & W' & o' & Ho' & Hs & _). rewrite (bind_Ret _ _ _ _ _ E).
      rewrite (bind_read_dict _ _ _ _ (slot_dict _ _ _ _ _ W' Ho' Hs)). exists s'. split; [|done].
      apply nodes_views in Ho'. rewrite (e_views _ _ Q), Hw in Ho'. injection Ho' as <-. done.
    - destruct (view_obj _ _ _ Hw) as (o & Ho & ->). exists s. unfold storage_of. rewrite bind_assoc, (bind_load _ _ _ _ Ho). unfold has. simpl in Hc.
      unfold storage_class, hasc in Hc. rewrite Hc. split; [done|]. split; [apply eqv_refl|done]. }
  destruct b; try (by apply IH); try done.
  destruct (view_obj _ _ _ Hw) as (o & Ho & ->). exists s. simpl. rewrite (bind_load _ _ _ _ Ho). split; [done|]. split; [apply eqv_refl|done].
Qed.
Lemma iter_end_eff all x w s : wf s -> views s !! x = Some w -> exists s', iter_endpoint all x s = (iter_end all w, s') /\ eqv s s' /\ wf s'.
Proof.
  intros W Hw. unfold iter_endpoint, iter_end. destruct (hasc FixedChildren all); [|by apply iter_ov_eff].
  destruct (view_obj _ _ _ Hw) as (o & Ho & ->). exists s. split; [|split; [apply eqv_refl|done]]. unfold fixed_of. rewrite bind_assoc, (bind_load _ _ _ _ Ho). simpl.
  destruct (o_children o) as [l|] eqn:El; [|done]. simpl. erewrite bind_Ret by reflexivity.
  destruct (dicts_of_slot _ _ _ SChildren _ W Ho El) as [d Hd]. rewrite (bind_read_dict _ _ _ _ Hd). by rewrite Hd.
Qed.
Lemma iter_view_eff all bs x w : forall s, wf s -> views s !! x = Some w -> exists s', iter_stack all bs x s = (iter_view all bs w, s') /\ eqv s s' /\ wf s'.
Proof.
  induction bs as [|b bs IH]; intros s W Hw; [by apply iter_end_eff|].
  destruct b; try (by apply IH). simpl. destruct (IH s W Hw) as (s1 & E & Q & W1). destruct (iter_view all bs w) as [ks|e].
  - rewrite (bind_Ret _ _ _ _ _ E). assert (Hw1 : views s1 !! x = Some w) by (by rewrite (e_views _ _ Q)).
    destruct (view_obj _ _ _ Hw1) as (o & Ho & ->). rewrite (bind_load _ _ _ _ Ho). exists s1. done.
  - rewrite (bind_Exc _ _ _ _ _ E). exists s1. done.
Qed.
Lemma iter_any s x w : wf s -> views s !! x = Some w -> exists s', iter x s = (iter_view (c_behs (w_cls w)) (c_behs (w_cls w)) w, s') /\ eqv s s' /\ wf s'.
Proof.
  intros W Hw. destruct (view_obj _ _ _ Hw) as (o & Ho & Ew). unfold iter. rewrite (bind_load _ _ _ _ Ho).
  replace (o_cls o) with (w_cls w) by (by subst). by apply iter_view_eff.
Qed.

(** once the storage is there, listing changes nothing at all *)
Lemma iter_ov_same bs x s : snd (storage_of x s) = s -> snd (iter_override bs x s) = s.
Proof.
  intros H. induction bs as [|b bs IH]; [done|]. unfold bind in *. destruct b; try done; simpl; unfold bind.
  - unfold load. by destruct (nodes s !! x).
  - destruct (storage_of x s) as [[l|] s1]; simpl in *; subst; [|done]. unfold read_dict. by destruct (dicts s !! l).
  - destruct (storage_of x s) as [[l|] s1]; simpl in *; subst; [|done]. unfold read_dict. by destruct (dicts s !! l).
Qed.
Lemma iter_stack_same all bs x s : snd (storage_of x s) = s -> snd (iter_stack all bs x s) = s.
Proof.
  intros H. induction bs as [|b bs IH].
  - simpl. unfold iter_endpoint. destruct (hasc FixedChildren all); [|by apply iter_ov_same]. unfold bind, fixed_of, bind, load.
    destruct (nodes s !! x) as [o|]; [|done]. destruct (o_children o) as [l|]; [|done]. simpl. unfold read_dict. by destruct (dicts s !! l).
  - destruct b; try done. simpl. unfold bind. destruct (iter_stack all bs x s) as [[ks|] s1]; simpl in *; subst; [|done].
    unfold load. destruct (nodes s !! x); [|done]. unfold of_res. by destruct (alias_keys _ _).
Qed.
Lemma iter_same x s : snd (storage_of x s) = s -> snd (iter x s) = s.
Proof. intros H. unfold iter, bind, load. destruct (nodes s !! x) as [o|] eqn:Ho; [|done]. by apply iter_stack_same. Qed.

(** ** Deleting below the node *)
Lemma only_entries_wrote s x d s' : wrote SStorage x d s s' -> only_entries s x d s'.
Proof.
  intros [(w & Hw & Hv) Hi _ Hl _ _]. constructor; try done.
  - intros y Hy. apply same_node_views. rewrite Hv. by rewrite lookup_insert_ne.
  - rewrite ob_entries. unfold fld. by rewrite Hv, lookup_insert.
  - rewrite !ob_class. unfold fld. by rewrite Hv, lookup_insert, Hw.
  - rewrite !ob_name. unfold fld. by rewrite Hv, lookup_insert, Hw.
  - rewrite !ob_parent. unfold fld. by rewrite Hv, lookup_insert, Hw.
  - rewrite !ob_spaces. unfold fld. by rewrite Hv, lookup_insert, Hw.
  - rewrite !ob_cache. unfold fld. by rewrite Hv, lookup_insert, Hw.
  - rewrite !ob_fixed. unfold fld. by rewrite Hv, lookup_insert, Hw.
  - rewrite !ob_uuid. unfold fld. by rewrite Hv, lookup_insert, Hw.
  - rewrite !ob_index_id. unfold fld. by rewrite Hv, lookup_insert, Hw.
  - rewrite !ob_suppressed. unfold fld. by rewrite Hv, lookup_insert, Hw.
Qed.
Lemma only_entries_same s x s' : same_world s s' -> only_entries s x (entries_at s x) s'.
Proof. intros [H ? ?]. destruct (H x). constructor; done. Qed.
Lemma only_entries_after s s1 x d s' : same_world s s1 -> only_entries s1 x d s' -> only_entries s x d s'.
Proof.
  intros [H ? ?] [Ho]. destruct (H x). constructor; try congruence. intros y Hy. destruct (Ho y Hy), (H y). constructor; congruence.
Qed.
Lemma held_dkeys k d : held k d = bool_decide (k ∈ dkeys d).
Proof. apply held_spec. Qed.
Lemma volatile_key s x cls k ks s1 : wf s -> class_of s x = Some cls -> storage_class (c_behs cls) = true -> invalidator (c_behs cls) = Some Below ->
  Cache ∉ c_behs cls -> k <> KNone -> hashable k = true -> keys x s = (Ret ks, s1) ->
  exists s', invalidate x k s = (if bool_decide (k ∈ ks) then Ret tt else Exc (KeyError k), s') /\
    only_entries s x (if bool_decide (k ∈ ks) then remove k (entries_at s x) else entries_at s x) s'.
Proof.
  intros W Hc Hs Hi Hn Hk Hh Eks. destruct (class_view _ _ _ Hc) as (w & Hw & Hwc). destruct (view_obj _ _ _ Hw) as (o & Ho & Ew).
  assert (Ec : o_cls o = cls) by (by rewrite <- Hwc, Ew).
  unfold invalidate. rewrite (bind_load _ _ _ _ Ho), Ec. rewrite inval_stack_nocache by done. rewrite inval_endpoint_eq, Hi.
  rewrite <- Hwc in Hs. destruct (storage_slot s x w W Hw Hs) as (l & s2 & E2 & Q2 & W2 & o2 & Ho2 & Hl2 & Hc2). rewrite (bind_Ret _ _ _ _ _ E2).
  rewrite decide_False by done.
  destruct (iter_any s x w W Hw) as (s1' & E1' & _). unfold keys in Eks. rewrite E1' in Eks. injection Eks as Eks <-.
  assert (Hag : snd (storage_of x s2) = s2).
  { unfold storage_of. rewrite (bind_load _ _ _ _ Ho2). unfold has. unfold storage_class, hasc in Hs. rewrite Hc2, Hs. simpl in Hl2. by rewrite Hl2. }
  assert (Hw2 : views s2 !! x = Some w) by (by rewrite (e_views _ _ Q2)).
  destruct (iter_any s2 x w W2 Hw2) as (s3 & E3 & _). pose proof (iter_same x s2 Hag) as E3s. rewrite Eks in E3. rewrite E3 in E3s. simpl in E3s. subst s3.
  unfold keys. rewrite (bind_Ret _ _ _ _ _ E3).
  case_bool_decide as Hin.
  2: { exists s2. split; [done|]. apply only_entries_same. by apply same_world_eqv. }
  assert (Evw : view_of s2 x o2 = w) by (pose proof (nodes_views _ _ _ Ho2); congruence).
  destruct (dict_del_eff s2 x o2 SStorage l k W2 Ho2 Hl2) as (r & s4 & E4 & W4 & [(Hx & _)|[(_ & Hg & -> & ->)|(_ & Hg & -> & Hwr)]]); [congruence| |].
  - exists s2. rewrite (try_catch_Exc _ _ _ _ _ _ E4). simpl. split; [done|].
    assert (Er : remove k (entries_at s x) = entries_at s x).
    { rewrite remove_spec by (by apply entries_nodup). apply ddel_notin. apply dget_None. rewrite Evw in Hg. rewrite ob_entries. unfold fld. by rewrite Hw. }
    rewrite Er. apply only_entries_same. by apply same_world_eqv.
  - exists s4. rewrite (try_catch_Ret _ _ _ _ _ _ E4). split; [done|]. eapply only_entries_after; [by apply same_world_eqv|].
    assert (Er : remove k (entries_at s x) = ddel k (slot_ent SStorage (view_of s2 x o2))).
    { rewrite remove_spec by (by apply entries_nodup). rewrite Evw, ob_entries. unfold fld. by rewrite Hw. }
    rewrite Er. by apply only_entries_wrote.
Qed.
Lemma volatile_all s x cls : wf s -> class_of s x = Some cls -> storage_class (c_behs cls) = true -> invalidator (c_behs cls) = Some Below -> Cache ∉ c_behs cls ->
  exists s', invalidate x KNone s = (Ret tt, s') /\ only_entries s x [] s'.
Proof.
  intros W Hc Hs Hi Hn. destruct (class_view _ _ _ Hc) as (w & Hw & Hwc). destruct (view_obj _ _ _ Hw) as (o & Ho & Ew).
  assert (Ec : o_cls o = cls) by (by rewrite <- Hwc, Ew).
  unfold invalidate. rewrite (bind_load _ _ _ _ Ho), Ec. rewrite inval_stack_nocache by done. rewrite inval_endpoint_eq, Hi.
  rewrite <- Hwc in Hs. destruct (storage_slot s x w W Hw Hs) as (l & s2 & E2 & Q2 & W2 & o2 & Ho2 & Hl2 & Hc2). rewrite (bind_Ret _ _ _ _ _ E2).
  rewrite decide_True by done. pose proof (slot_dict _ _ _ _ _ W2 Ho2 Hl2) as Hd. rewrite (bind_read_dict _ _ _ _ Hd).
  destruct (wf_dicts _ W2 _ _ Hd) as (_ & ND & F).
  rewrite (clear_dict l _ _ Hd ND).
  2: { apply Forall_forall. intros k Hk. apply elem_of_list_fmap in Hk as (e & -> & He). rewrite Forall_forall in F. by apply F in He as [? _]. }
  eexists. split; [reflexivity|]. eapply only_entries_after; [by apply same_world_eqv|]. apply only_entries_wrote. constructor; try done.
  exists (view_of s2 x o2). split; [by apply nodes_views|]. by apply views_write_dict.
Qed.

(** ** Deleting through the node *)
Lemma through_is_delitem s x cls k : class_of s x = Some cls -> invalidator (c_behs cls) = Some Through -> Cache ∉ c_behs cls -> k <> KNone ->
  invalidate x k s = delitem x k s.
Proof.
  intros Hc Hi Hn Hk. unfold class_of in Hc. destruct (nodes s !! x) as [o|] eqn:Ho; [|done]. injection Hc as <-.
  unfold invalidate. rewrite (bind_load _ _ _ _ Ho). rewrite inval_stack_nocache by done. rewrite inval_endpoint_eq, Hi. by rewrite decide_False.
Qed.
Lemma del_res_absent bs w k : get_res w k = Exc (KeyError k) -> nskey bs k = nskey (c_behs (w_cls w)) k ->
  (Nodespaces ∈ bs -> exists t, k = KStr t) -> DelEff.del_res bs w k = Exc (KeyError k).
Proof.
  intros Hg. unfold get_res in Hg. induction bs as [|b bs IH]; intros Hn Hs.
  - simpl. unfold nskey in Hn at 1. simpl in Hn. rewrite <- Hn in Hg. by rewrite Hg.
  - assert (Hs' : Nodespaces ∈ bs -> exists t, k = KStr t) by (intros; apply Hs; by right).
    assert (Hb : b <> Nodespaces -> nskey bs k = nskey (c_behs (w_cls w)) k).
    { intros Hb. rewrite <- Hn. unfold nskey. rewrite hasc_cons. by rewrite (bool_decide_eq_false_2 (Nodespaces = b)) by done. }
    destruct b; simpl; unfold get_res; rewrite ?Hg; try done; try (by apply IH, Hs'; apply Hb).
    destruct (Hs ltac:(left)) as (t & ->). destruct (reserved t) eqn:Hr.
    + unfold nskey in Hn at 1. rewrite hasc_cons, bool_decide_eq_true_2 in Hn by done. simpl in Hn. rewrite Hr in Hn. rewrite <- Hn in Hg. by rewrite Hg.
    + apply IH; [|done]. rewrite <- Hn. unfold nskey. simpl. by rewrite Hr, !andb_false_r.
Qed.
Lemma delitem_absent s x cls k : wf s -> class_of s x = Some cls -> tree_class (c_behs cls) = true ->
  (Reference ∈ c_behs cls -> all_tree_classes s) -> hashable k = true -> (Nodespaces ∈ c_behs cls -> exists t, k = KStr t) ->
  (to_spaces cls k -> held k (spaces_at s x) = false) -> (~ to_spaces cls k -> held k (entries_at s x) = false) ->
  exists s', delitem x k s = (Exc (KeyError k), s').
Proof.
  intros W Hc Ht Ha Hh Hs H1 H2. destruct (class_view _ _ _ Hc) as (w & Hw & <-).
  destruct (delitem_eff s x w k) as (r & s' & E & _ & G); try done.
  { intros Hr. apply all_tree_all, Ha. by apply hasc_in. }
  destruct (get_res_absent s x w k) as [Hg Hk]; try done.
  { destruct (nskey (c_behs (w_cls w)) k) eqn:Hn; [by apply H1, nskey_dunder|by apply H2, nskey_dunder_false]. }
  exists s'. rewrite E. f_equal. rewrite G; [by apply del_res_absent|]. intros _ c ? Hgc. congruence.
Qed.
Lemma delitem_present s x cls k v : wf s -> class_of s x = Some cls -> tree_class (c_behs cls) = true -> Reference ∉ c_behs cls ->
  hashable k = true -> (Nodespaces ∈ c_behs cls -> exists t, k = KStr t) -> ~ to_spaces cls k -> value_at k (entries_at s x) = Some v ->
  exists s', delitem x k s = (Ret tt, s').
Proof.
  intros W Hc Ht Hr Hh Hs Hn H2. destruct (class_view _ _ _ Hc) as (w & Hw & <-).
  assert (Hr' : hasc Reference (c_behs (w_cls w)) = false). { apply bool_decide_eq_false. done. }
  destruct (delitem_eff s x w k) as (r & s' & E & _ & G); try done. { by rewrite Hr'. }
  exists s'. rewrite E. f_equal. rewrite G; [|intros Hx; by rewrite Hx in Hr'].
  apply nskey_dunder_false in Hn. eapply del_res_ret; [|done|done]. unfold get_res, look. rewrite Hh, Hn.
  rewrite value_at_spec, ob_entries in H2. unfold fld in H2. rewrite Hw in H2. simpl in H2. by rewrite H2.
Qed.
Lemma remove_cons k v d : NoDup (dkeys ((k, v) :: d)) -> remove k ((k, v) :: d) = d.
Proof. intros ND. rewrite remove_spec by done. simpl. by rewrite decide_True. Qed.
Lemma del_all x cls d : forall s, wf s -> class_of s x = Some cls -> tree_class (c_behs cls) = true ->
  (Reference ∈ c_behs cls -> all_tree_classes s) -> entries_at s x = d -> (forall k, k ∈ map fst d -> ~ to_spaces cls k) ->
  exists r s', iterM (delitem x) (map fst d) s = (r, s') /\ entries_elsewhere s x s' /\ spaces_at s' x = spaces_at s x /\ (forall y, keeps_place s s' y) /\
    (exists n, entries_at s' x = drop n d) /\ (r = Ret tt -> entries_at s' x = []) /\
    (Reference ∉ c_behs cls -> (Nodespaces ∈ c_behs cls -> forall k, k ∈ map fst d -> exists t, k = KStr t) -> r = Ret tt).
Proof.
  induction d as [|[k v] d IH]; intros s W Hc Ht Ha He Hn.
  - exists (Ret tt), s. split; [done|]. split; [by intros ??|]. split; [done|]. split; [by intros y|]. split; [by exists 0|]. done.
  - assert (Hl : live s x) by (unfold class_of in Hc; destruct (nodes s !! x) eqn:E; [by eexists|done]).
    pose proof (entries_nodup s x W) as ND. rewrite He in ND.
    simpl map. cbn [iterM]. destruct (safe_delitem s x k Hl W) as (W1 & _ & _). destruct (delitem x k s) as [[[]|e] s1] eqn:E1; simpl in W1.
    + rewrite (bind_Ret _ _ _ _ _ E1). destruct (delitem_removed s x cls k s1 W Hc Ht Ha E1) as [Rm1 Rm2 _ Rm4 _ Rm6].
      destruct (Rm2 (Hn k ltac:(by left))) as (_ & Ee & Es). rewrite He, remove_cons in Ee by done.
      destruct (IH s1) as (r & s' & E & H1 & H2 & H3 & (n & H4) & H5 & H6); try done.
      { by rewrite Rm6. } { intros Hr y c Hy. rewrite Rm6 in Hy. by apply (Ha Hr y). } { intros k' Hk'. apply Hn. by right. }
      exists r, s'. split; [done|]. split; [intros y Hy; destruct (H1 y Hy), (Rm1 y Hy); split; congruence|]. split; [congruence|].
      split; [intros y; destruct (H3 y), (Rm4 y); split; congruence|]. split; [by exists (S n)|]. split; [done|].
      intros Hr Hs. apply H6; [done|]. intros Hns k' Hk'. apply Hs; [done|by right].
    + rewrite (bind_Exc _ _ _ _ _ E1). destruct (delitem_failed s x cls k e s1 W Hc Ht Ha E1) as [F1 F2].
      exists (Exc e), s1. split; [done|]. split; [intros y _; apply F1|]. split; [apply F1|]. split; [done|]. split; [exists 0; rewrite <- He; apply F1|]. split; [done|].
      intros Hr Hs. exfalso. destruct (delitem_present s x cls k v) as (s2 & E2); try done; [..|congruence].
      * pose proof (entries_known s x W) as F. rewrite He in F. apply Forall_cons in F as [[? _] _]. done.
      * intros Hns. apply Hs; [done|by left].
      * apply Hn. by left.
      * rewrite He. unfold value_at. simpl. by rewrite bool_decide_eq_true_2.
Qed.
Lemma through_all s x cls : wf s -> class_of s x = Some cls -> tree_class (c_behs cls) = true -> invalidator (c_behs cls) = Some Through ->
  (Reference ∈ c_behs cls -> all_tree_classes s) -> (forall k, held k (entries_at s x) = true -> ~ to_spaces cls k) ->
  exists r s', invalidate x KNone s = (r, s') /\ entries_elsewhere s x s' /\ spaces_at s' x = spaces_at s x /\ (forall y, keeps_place s s' y) /\
    (exists n, entries_at s' x = drop n (entries_at s x)) /\ (r = Ret tt -> entries_at s' x = []) /\
    (Reference ∉ c_behs cls -> (Nodespaces ∈ c_behs cls -> forall k, held k (entries_at s x) = true -> exists t, k = KStr t) -> r = Ret tt).
Proof.
  intros W Hc Ht Hi Ha Hn. destruct (class_view _ _ _ Hc) as (w & Hw & Hwc). destruct (view_obj _ _ _ Hw) as (o & Ho & Ew).
  assert (Ec : o_cls o = cls) by (by rewrite <- Hwc, Ew).
  unfold invalidate. rewrite (bind_load _ _ _ _ Ho), Ec. rewrite inval_stack_nocache.
  2: { apply tree_class_inv in Ht as [Ht _]. rewrite forallb_forall in Ht. intros Hx. apply elem_of_list_In in Hx. by apply Ht in Hx. }
  rewrite inval_endpoint_eq, Hi. rewrite decide_True by done.
  rewrite <- Hwc in Ht. destruct (iter_eff s x w W Hw Ht) as (s1 & E1 & Q1 & W1). rewrite Hwc in Ht. unfold keys. rewrite (bind_Ret _ _ _ _ _ E1).
  pose proof (same_world_eqv _ _ Q1) as SW. assert (Ee : entries_at s x = w_ent w) by (rewrite ob_entries; unfold fld; by rewrite Hw).
  assert (Hmem : forall k, k ∈ map fst (entries_at s x) -> held k (entries_at s x) = true).
  { intros k Hk. rewrite held_spec. by apply bool_decide_eq_true. }
  destruct (del_all x cls (w_ent w) s1) as (r & s' & E & H1 & H2 & H3 & H4 & H5 & H6); try done.
  { rewrite (sn_class _ _ _ (sw_nodes _ _ SW x)). done. }
  { intros Hr y c Hy. rewrite (sn_class _ _ _ (sw_nodes _ _ SW y)) in Hy. by apply (Ha Hr y). }
  { rewrite (sn_entries _ _ _ (sw_nodes _ _ SW x)). done. }
  { rewrite <- Ee. intros k Hk. apply Hn. by apply Hmem. }
  exists r, s'. split; [done|]. split.
  { intros y Hy. destruct (H1 y Hy). destruct (sw_nodes _ _ SW y). split; congruence. }
  destruct (sw_nodes _ _ SW x). split; [congruence|]. split.
  { intros y. destruct (H3 y). destruct (sw_nodes _ _ SW y). split; congruence. }
  rewrite Ee. split; [done|]. split; [done|]. intros Hr Hs. apply H6; [done|]. intros Hns k Hk. apply Hs; [done|]. rewrite <- Ee in *. by apply Hmem.
Qed.
Lemma tree_no_cache bs : tree_class bs = true -> Cache ∉ bs.
Proof. intros Ht. apply tree_class_inv in Ht as [Ht _]. rewrite forallb_forall in Ht. intros Hx. apply elem_of_list_In in Hx. by apply Ht in Hx. Qed.
