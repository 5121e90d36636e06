(** Proofs of the mapping properties at the level of observations. *)
From Verif Require Import Py Odict OdictFacts Aliaser Heap Model Classes MonadFacts WF WFOps Views
  StrFacts SpecMapping MappingProofs StorageProofs Observe SpecTree TreeOps SetEff DelEff DetachEff NewEff ObserveFacts Reach.

(** * C01 *)
Lemma any_state_mapping s x o l :
  wf s -> nodes s !! x = Some o -> plain_class (c_behs (o_cls o)) = true ->
  hasc NodeChildValidate (c_behs (o_cls o)) = true ->
  Forall (fun c => Forall (known s) (call_values c)) l ->
  exists s', run_calls x l s = (fst (calls_spec (validating_policy (o_allow o)) l (entries_at s x)), s')
    /\ entries_at s' x = snd (calls_spec (validating_policy (o_allow o)) l (entries_at s x)).
Proof.
  intros W Ho Hp Hv Hl. pose proof (wf_Rplain _ _ _ W Ho Hp) as R. rewrite Hv in R. simpl in R.
  destruct (plain_calls_sim x (o_allow o) l s (entries_at s x) R) as (s' & E & R' & _); [done|].
  exists s'. split; [done|]. by apply Rplain_entries in R'.
Qed.

Lemma any_state_mapping_std s x cls l :
  c_behs cls = BaseNode_behs \/ c_behs cls = OrderedNode_behs ->
  wf s -> class_of s x = Some cls ->
  Forall (fun c => Forall (known s) (call_values c)) l ->
  exists s', run_calls x l s = (fst (calls_spec (validating_policy (allows s x)) l (entries_at s x)), s')
    /\ entries_at s' x = snd (calls_spec (validating_policy (allows s x)) l (entries_at s x)).
Proof.
  intros Hb W Hc Hl. unfold class_of in Hc. destruct (nodes s !! x) as [o|] eqn:Ho; [|done].
  assert (allows s x = o_allow o) as -> by (unfold allows; by rewrite Ho).
  simpl in Hc. injection Hc as Hc.
  apply any_state_mapping; try done; rewrite Hc; by destruct Hb as [-> | ->].
Qed.

Lemma fresh_mapping cls s cn name parent :
  c_behs cls = BaseNode_behs \/ c_behs cls = OrderedNode_behs ->
  wf s -> (0 < next_uuid s)%N -> classes s !! cn = Some cls -> (forall p, parent = Some p -> exists_node s p) ->
  exists x s1, new_node cn name parent s = (Ret x, s1) /\ nodes s !! x = None /\ entries_at s1 x = [] /\
    forall l, Forall (fun c => Forall (known s1) (call_values c)) l ->
    exists s2, run_calls x l s1 = (fst (calls_spec (validating_policy (c_allow cls)) l []), s2)
      /\ entries_at s2 x = snd (calls_spec (validating_policy (c_allow cls)) l []).
Proof.
  intros Hb W Hu Hc Hp.
  destruct (new_node_eff s cn cls name parent) as (x & s1 & E & D); try done.
  { destruct Hb as [-> | ->]; done. }
  exists x, s1. split; [done|].
  destruct (nw_self _ _ _ _ _ _ D) as (i & u & Hv & _).
  split. { pose proof (nw_fresh _ _ _ _ _ _ D) as H. rewrite views_lookup in H. by destruct (nodes s !! x). }
  assert (He : entries_at s1 x = []). { rewrite ob_entries. unfold fld. by rewrite Hv. }
  split; [done|]. intros l Hl. destruct (view_obj _ _ _ Hv) as (o & Ho & Hw).
  assert (o_cls o = cls) as Ecls by (exact (eq_sym (f_equal w_cls Hw))).
  assert (o_allow o = c_allow cls) as Eallow by (exact (eq_sym (f_equal w_allow Hw))).
  destruct (any_state_mapping s1 x o l) as (s2 & E2 & E3); try done.
  { apply (nw_wf _ _ _ _ _ _ D). } { rewrite Ecls. by destruct Hb as [-> | ->]. } { rewrite Ecls. by destruct Hb as [-> | ->]. }
  rewrite He, Eallow in *. exists s2. done.
Qed.

(** * C02 *)
Lemma spaces_nodup s x : wf s -> NoDup (dkeys (spaces_at s x)).
Proof.
  intros W. unfold spaces_at. destruct (nodes s !! x) as [o|] eqn:Ho; simpl; [|apply NoDup_nil_2].
  destruct (o_nodespaces o) as [l|] eqn:Hl; simpl; [|apply NoDup_singleton].
  destruct (dicts s !! l) as [d|] eqn:Hd; simpl; [|apply NoDup_nil_2]. by destruct (wf_dicts _ W _ _ Hd) as (_ & ? & _).
Qed.
Lemma wf_dset_put s x k v : wf s -> dset k v (entries_at s x) = put k v (entries_at s x).
Proof. intros W. symmetry. apply put_spec. by apply entries_nodup. Qed.
Lemma wf_ddel_remove s x k : wf s -> ddel k (entries_at s x) = remove k (entries_at s x).
Proof. intros W. symmetry. apply remove_spec. by apply entries_nodup. Qed.
Lemma wf_dset_put_ns s x k v : wf s -> dset k v (spaces_at s x) = put k v (spaces_at s x).
Proof. intros W. symmetry. apply put_spec. by apply spaces_nodup. Qed.
Lemma wf_ddel_remove_ns s x k : wf s -> ddel k (spaces_at s x) = remove k (spaces_at s x).
Proof. intros W. symmetry. apply remove_spec. by apply spaces_nodup. Qed.

Lemma fld_np s s' x : fld w_np s' x = fld w_np s x -> name_at s' x = name_at s x /\ parent_at s' x = parent_at s x.
Proof.
  intros H. rewrite !ob_name, !ob_parent. unfold fld in *. destruct (views s' !! x), (views s !! x); simpl in *; try done.
  by injection H as -> ->.
Qed.
Lemma core_obs s s' x : fld w_core s' x = fld w_core s x ->
  uuid_at s' x = uuid_at s x /\ class_of s' x = class_of s x /\ cache_at s' x = cache_at s x /\
  fixed_at s' x = fixed_at s x /\ suppressed s' x = suppressed s x.
Proof.
  intros H. rewrite !ob_uuid, !ob_class, !ob_cache, !ob_fixed, !ob_suppressed.
  unfold fld in *. destruct (views s' !! x), (views s !! x); simpl in *; try done.
  by injection H as -> -> -> -> _ -> _.
Qed.
Lemma core2_obs s s' x : fld w_core2 s' x = fld w_core2 s x ->
  uuid_at s' x = uuid_at s x /\ class_of s' x = class_of s x /\ cache_at s' x = cache_at s x /\
  fixed_at s' x = fixed_at s x.
Proof.
  intros H. rewrite !ob_uuid, !ob_class, !ob_cache, !ob_fixed.
  unfold fld in *. destruct (views s' !! x), (views s !! x); simpl in *; try done.
  by injection H as -> -> -> -> _ _.
Qed.
Lemma ent_fmap (f : list (key * val) -> list (key * val)) s x : live s x -> default [] (f <$> fld w_ent s x) = f (entries_at s x).
Proof.
  rewrite ob_entries. intros H. destruct (fld w_ent s x) eqn:E; simpl; [done|].
  rewrite <- (fld_live w_ent) in H. rewrite E in H. by destruct H.
Qed.
Lemma ns_fmap (f : list (key * val) -> list (key * val)) s x : live s x -> default [] (f <$> fld w_ns s x) = f (spaces_at s x).
Proof.
  rewrite ob_spaces. intros H. destruct (fld w_ns s x) eqn:E; simpl; [done|].
  rewrite <- (fld_live w_ns) in H. rewrite E in H. by destruct H.
Qed.
Lemma live_cls s x cls : fld w_cls s x = Some cls -> live s x.
Proof. intros H. apply (fld_live w_cls). rewrite H. eauto. Qed.

Lemma setitem_assigned s x cls k v s' :
  wf s -> class_of s x = Some cls -> tree_class (c_behs cls) = true -> known s v ->
  setitem x k v s = (Ret tt, s') -> assigned cls s x k v s'.
Proof.
  intros W Hc Ht Hv E. rewrite ob_class in Hc. pose proof (live_cls _ _ _ Hc) as Hl.
  destruct (setitem_eff s x cls k v W Hc Ht Hv) as (r & s1 & E1 & F & _). rewrite E in E1. injection E1 as <- <-.
  destruct F. constructor.
  - intros y Hy. rewrite !ob_entries, !ob_spaces, se_ent, se_ns, !decide_False by done. done.
  - intros Hn. apply nskey_dunder_false in Hn. rewrite (ob_entries s'), (ob_spaces s'), se_ent, se_ns, !decide_True, Hn by done. simpl.
    rewrite ent_fmap by done. split; [by apply wf_dset_put|by rewrite ob_spaces].
  - intros Hn. apply nskey_dunder in Hn.
    rewrite (ob_entries s'), (ob_spaces s'), se_ent, se_ns, !decide_True, Hn by done. simpl.
    rewrite ns_fmap by done. split; [by apply wf_dset_put_ns|by rewrite ob_entries].
  - intros y Hy. by apply fld_np, se_np_other.
  - intros y. by apply core_obs.
  - intros y. by apply core_obs.
Qed.
Lemma setitem_failed s x cls k v e s' :
  wf s -> class_of s x = Some cls -> tree_class (c_behs cls) = true -> known s v ->
  setitem x k v s = (Exc e, s') -> entries_everywhere s s' /\ forall y, v <> VNode y -> keeps_place s s' y.
Proof.
  intros W Hc Ht Hv E. rewrite ob_class in Hc.
  destruct (setitem_eff s x cls k v W Hc Ht Hv) as (r & s1 & E1 & F & _). rewrite E in E1. injection E1 as <- <-.
  destruct F. split.
  - intros y. rewrite !ob_entries, !ob_spaces, se_ent, se_ns. by case_decide.
  - intros y Hy. by apply fld_np, se_np_other.
Qed.

Definition all_tree_classes (s : st) : Prop :=
  forall x cls, class_of s x = Some cls -> tree_class (c_behs cls) = true.
Lemma all_tree_all s : all_tree_classes s -> all_tree s.
Proof. intros H x w Hw. apply (H x). rewrite ob_class. unfold fld. by rewrite Hw. Qed.
Lemma class_view s x cls : class_of s x = Some cls -> exists w, views s !! x = Some w /\ w_cls w = cls.
Proof. rewrite ob_class. apply fld_view. Qed.
Lemma hasc_in b bs : hasc b bs = true <-> b ∈ bs.
Proof. unfold hasc. by rewrite bool_decide_eq_true. Qed.
Lemma held_obs k d : held k d = true <-> exists v, dget k d = Some v.
Proof. rewrite held_spec, bool_decide_eq_true, <- dget_is_Some. done. Qed.

Lemma delitem_removed s x cls k s' :
  wf s -> class_of s x = Some cls -> tree_class (c_behs cls) = true ->
  (Reference ∈ c_behs cls -> all_tree_classes s) ->
  delitem x k s = (Ret tt, s') -> removed cls s x k s'.
Proof.
  intros W Hc Ht Ha E. destruct (class_view _ _ _ Hc) as (w & Hw & <-).
  destruct (delitem_eff s x w k) as (r & s1 & E1 & F & _); try done.
  { intros Hr. apply all_tree_all, Ha. by apply hasc_in. }
  rewrite E in E1. injection E1 as <- <-.
  assert (Hl : live s x) by (apply views_live; eauto).
  destruct F. constructor.
  - intros y Hy. rewrite !ob_entries, !ob_spaces, de_ent, de_ns, !decide_False by done. done.
  - intros Hn. apply nskey_dunder_false in Hn. rewrite Hn in *. destruct (de_val eq_refl) as (v & Hv).
    rewrite (ob_entries s'), (ob_spaces s'), de_ent, de_ns, !decide_True by done. simpl.
    rewrite ent_fmap by done. split; [|split; [by apply wf_ddel_remove|by rewrite ob_spaces]].
    apply held_obs. rewrite ob_entries. destruct (fld w_ent s x) as [d|]; simpl in *; [eauto|done].
  - intros Hn. apply nskey_dunder in Hn. rewrite Hn in *.
    destruct (de_val eq_refl) as (v & Hv).
    rewrite (ob_entries s'), (ob_spaces s'), de_ent, de_ns, !decide_True by done. simpl.
    rewrite ns_fmap by done. split; [|split; [by apply wf_ddel_remove_ns|by rewrite ob_entries]].
    apply held_obs. rewrite ob_spaces. destruct (fld w_ns s x) as [d|]; simpl in *; [eauto|done].
  - intros y. by apply fld_np.
  - intros y. by apply core_obs.
  - intros y. by apply core_obs.
Qed.
Lemma delitem_failed s x cls k e s' :
  wf s -> class_of s x = Some cls -> tree_class (c_behs cls) = true ->
  (Reference ∈ c_behs cls -> all_tree_classes s) ->
  delitem x k s = (Exc e, s') -> entries_everywhere s s' /\ forall y, keeps_place s s' y.
Proof.
  intros W Hc Ht Ha E. destruct (class_view _ _ _ Hc) as (w & Hw & <-).
  destruct (delitem_eff s x w k) as (r & s1 & E1 & F & _); try done.
  { intros Hr. apply all_tree_all, Ha. by apply hasc_in. }
  rewrite E in E1. injection E1 as <- <-. destruct F. split.
  - intros y. rewrite !ob_entries, !ob_spaces, de_ent, de_ns. by case_decide.
  - intros y. by apply fld_np.
Qed.

(** * C03, refusal *)
Lemma validate_refuses s x o bs k v :
  nodes s !! x = Some o -> c_behs (o_cls o) = NodeChildValidate :: bs -> o_allow o = false -> not_a_node v ->
  exists msg, setitem x k v s = (Exc (ValueError msg), s).
Proof.
  intros Ho Hb Ha Hv. unfold setitem. rewrite (bind_load _ _ _ _ Ho), Hb. cbn [set_stack set_stage].
  rewrite (bind_load _ _ _ _ Ho), Ha. simpl.
  destruct v as [| | | | | | |c| | | |]; simpl; try (eexists; reflexivity). by destruct (Hv c).
Qed.

(** * C04 *)
Lemma adoption s x cls k c s' :
  wf s -> class_of s x = Some cls -> tree_class (c_behs cls) = true -> Adopt ∈ c_behs cls -> exists_node s c ->
  setitem x k (VNode c) s = (Ret tt, s') ->
  name_at s' c = Some k /\ parent_at s' c = Some x /\ exists s'', getitem x k s' = (Ret (VNode c), s'').
Proof.
  intros W Hc Ht Ha Hv E. rewrite ob_class in Hc.
  destruct (setitem_eff s x cls k (VNode c) W Hc Ht Hv) as (r & s1 & E1 & F & _). rewrite E in E1. injection E1 as <- <-.
  destruct F.
  assert (Had : hasc Adopt (c_behs cls) = true) by (by apply bool_decide_eq_true).
  specialize (se_np_ret c eq_refl eq_refl). rewrite Had in se_np_ret. simpl in se_np_ret.
  destruct (fld_view _ _ _ _ se_np_ret) as (wc & Hwc & Hnp). injection Hnp as Hn1 Hn2.
  rewrite ob_name, ob_parent. unfold fld at 1 2. rewrite Hwc. simpl. rewrite Hn1, Hn2. split; [done|]. split; [done|].
  destruct (fld_view _ _ _ _ Hc) as (w & Hw & Hwc2). destruct (fld_core_view _ _ _ _ Hw (se_core x)) as (w' & Hw' & Hc' & _).
  destruct (getitem_eff s' x w' k) as (s2 & E2 & _); try done. { by rewrite Hc', Hwc2. }
  exists s2. rewrite E2. f_equal.
  specialize (se_ent x). specialize (se_ns x). rewrite decide_True in se_ent, se_ns by done. unfold fld in *.
  rewrite Hw, Hw' in *. unfold get_res, look.
  assert (Hns : nskey (c_behs (w_cls w')) k = nskey (c_behs cls) k) by (by rewrite Hc', Hwc2).
  destruct (nskey (c_behs cls) k); simpl in *; rewrite Hns, (se_hash eq_refl).
  - injection se_ns as ->. by rewrite dget_dset_eq.
  - injection se_ent as ->. by rewrite dget_dset_eq.
Qed.

(** * C05 *)
Lemma reverts_catches e : adopt_reverts e <-> adopt_catches e = true.
Proof. unfold adopt_reverts. destruct e; simpl; naive_solver. Qed.
Lemma refused_keeps next x k c s e s' :
  set_stage Adopt next x k (VNode c) s = (Exc e, s') -> adopt_reverts e -> keeps_place s s' c.
Proof.
  intros E He. apply reverts_catches in He. unfold keeps_place. cbn [set_stage] in E. unfold load in E. unfold bind at 1 in E.
  destruct (nodes s !! c) as [o|] eqn:Ho; [|injection E as <- <-; done].
  unfold bind at 1 in E. rewrite (modify_Some _ _ _ _ Ho) in E. unfold bind at 1 in E.
  unfold modify at 1 in E. simpl in E. rewrite lookup_insert in E.
  unfold try_catch in E. destruct (next x k (VNode c) _) as [[a|e1] s1] eqn:En; [done|].
  destruct (adopt_catches e1) eqn:He1; [|injection E as <- <-; congruence].
  unfold bind in E. unfold modify in E. destruct (nodes s1 !! c) as [o1|] eqn:Ho1; [|injection E as <- <-; done].
  simpl in E. rewrite lookup_insert in E. injection E as <- <-.
  unfold name_at, parent_at. simpl. rewrite lookup_insert, Ho. done.
Qed.
Lemma refused_keeps_class s x cls k c s' e :
  wf s -> class_of s x = Some cls -> tree_class (c_behs cls) = true -> exists_node s c ->
  setitem x k (VNode c) s = (Exc e, s') -> adopt_reverts e -> keeps_place s s' c.
Proof.
  intros W Hc Ht Hv E He. apply reverts_catches in He. rewrite ob_class in Hc.
  destruct (setitem_eff s x cls k (VNode c) W Hc Ht Hv) as (r & s1 & E1 & F & _). rewrite E in E1. injection E1 as <- <-.
  destruct (se_np_exc _ _ _ _ _ _ _ _ _ _ F c e eq_refl eq_refl) as [H|[H _]]; [|congruence]. by apply fld_np.
Qed.
(** any other exception leaves the child where the rest left it, which ran with the
    new name and parent in place and everything else as before *)
Lemma other_exceptions_stick next x k c s e s' o :
  nodes s !! c = Some o ->
  set_stage Adopt next x k (VNode c) s = (Exc e, s') -> ~ adopt_reverts e ->
  exists s1, name_at s1 c = Some k /\ parent_at s1 c = Some x /\
    (forall y, y <> c -> nodes s1 !! y = nodes s !! y) /\ dicts s1 = dicts s /\ idxs s1 = idxs s /\ log s1 = log s /\
    (next x k (VNode c) s1 = (Exc e, s') \/ e = Dangling).
Proof.
  intros Ho E He. rewrite reverts_catches in He. apply not_true_is_false in He.
  cbn [set_stage] in E. unfold load in E. unfold bind at 1 in E. rewrite Ho in E.
  unfold bind at 1 in E. rewrite (modify_Some _ _ _ _ Ho) in E. unfold bind at 1 in E.
  unfold modify at 1 in E. simpl in E. rewrite lookup_insert in E.
  unfold try_catch in E.
  match type of E with context [next x k (VNode c) ?s1] => exists s1 end.
  unfold name_at, parent_at. simpl. rewrite lookup_insert. split; [done|]. split; [done|]. split.
  { intros y Hy. by rewrite !lookup_insert_ne by done. }
  split; [done|]. split; [done|]. split; [done|].
  destruct (next x k (VNode c) _) as [[a|e1] s1] eqn:En; [done|].
  destruct (adopt_catches e1) eqn:He1; [|left; congruence]. right.
  unfold bind in E. unfold modify in E. destruct (nodes s1 !! c) as [o1|] eqn:Ho1; [|by injection E as <- <-].
  simpl in E. rewrite lookup_insert in E. injection E as <- <-. congruence.
Qed.

(** * C08 *)
Lemma detach_missing bs self k e : forall s w,
  wf s -> views s !! self = Some w -> tree_class (c_behs (w_cls w)) = true -> get_res w k = Exc e ->
  exists s', detach_stack bs self k s = (Exc e, s').
Proof.
  induction bs as [|b bs IH]; intros s w W Hw Ht Hg.
  - simpl. unfold detach_endpoint. destruct (getitem_eff s self w k) as (s1 & E & _); try done.
    exists s1. by rewrite (bind_Exc _ _ _ _ _ (eq_trans E (f_equal (fun r => (r, s1)) Hg))).
  - destruct b; try (simpl; by eapply IH).
    + (* Reference *) simpl. destruct (IH s w) as (s1 & E); try done. exists s1. by rewrite (bind_Exc _ _ _ _ _ E).
    + (* Lifecycle *) simpl.
      assert (Hl : live s self) by (apply views_live; eauto).
      destruct (modify_suppress_eff s self true Hl W) as (s1 & E1 & W1 & T1). rewrite (bind_Ret _ _ _ _ _ E1).
      destruct (t_views _ _ _ _ T1) as (w0 & Hw0 & Hv). rewrite Hw in Hw0. injection Hw0 as <-.
      destruct (IH s1 (vw_suppress true w)) as (s2 & E2); try done. { rewrite Hv. by rewrite lookup_insert. }
      exists s2. by rewrite (bind_Exc _ _ _ _ _ E2).
Qed.

Lemma get_res_held s x w k v : views s !! x = Some w -> get_res w k = Ret v ->
  (if nskey (c_behs (w_cls w)) k then value_at k (spaces_at s x) else value_at k (entries_at s x)) = Some v.
Proof.
  intros Hw. unfold get_res. rewrite ob_entries, ob_spaces. unfold fld. rewrite Hw. simpl.
  rewrite !value_at_spec. unfold look. destruct (nskey _ _), (hashable k); try done; by destruct (dget k _) eqn:?; simpl; [intros [= ->]|].
Qed.

Lemma detach_removes s x cls k v s' :
  wf s -> class_of s x = Some cls -> tree_class (c_behs cls) = true ->
  (Reference ∈ c_behs cls -> all_tree_classes s) ->
  detach x k s = (Ret v, s') ->
  (exists s1, getitem x k s = (Ret v, s1) /\ same_world s s1) /\ removed cls s x k s'.
Proof.
  intros W Hc Ht Ha E. destruct (class_view _ _ _ Hc) as (w & Hw & <-).
  destruct (detach_eff s x w k) as (r & s1 & d & ix & E1 & F); try done.
  { intros Hr. apply all_tree_all, Ha. by apply hasc_in. }
  rewrite E in E1. injection E1 as <- <-.
  assert (Hl : live s x) by (apply views_live; eauto).
  destruct F. destruct (dt_ret v eq_refl) as [-> Hg]. clear dt_res dt_ref dt_idx. split.
  { destruct (getitem_eff s x w k) as (s1 & E1 & W1 & Q1); try done. exists s1. rewrite E1, Hg. split; [done|].
    by apply same_world_eqv. }
  pose proof (get_res_held s x w k v Hw Hg) as Hv. rewrite !value_at_spec in Hv.
  constructor.
  - intros y Hy. rewrite !ob_entries, !ob_spaces, dt_ent, dt_ns, !decide_False by done. done.
  - intros Hn. apply nskey_dunder_false in Hn. rewrite Hn in *.
    rewrite (ob_entries s'), (ob_spaces s'), dt_ent, dt_ns, !decide_True by done. simpl.
    rewrite ent_fmap by done. split; [|split; [by apply wf_ddel_remove|by rewrite ob_spaces]]. apply held_obs. eauto.
  - intros Hn. apply nskey_dunder in Hn. rewrite Hn in *.
    rewrite (ob_entries s'), (ob_spaces s'), dt_ent, dt_ns, !decide_True by done. simpl.
    rewrite ns_fmap by done. split; [|split; [by apply wf_ddel_remove_ns|by rewrite ob_entries]]. apply held_obs. eauto.
  - intros y. by apply fld_np.
  - intros y. by apply core2_obs.
  - intros y. by apply core2_obs.
Qed.

Lemma get_res_absent s x w k : views s !! x = Some w -> hashable k = true ->
  held k (if nskey (c_behs (w_cls w)) k then spaces_at s x else entries_at s x) = false ->
  get_res w k = Exc (KeyError k) /\ (if nskey (c_behs (w_cls w)) k then k ∉ dkeys (w_ns w) else k ∉ dkeys (w_ent w)).
Proof.
  intros Hw Hh. unfold get_res, look. rewrite ob_entries, ob_spaces, Hh. unfold fld. rewrite Hw. simpl.
  rewrite held_spec. destruct (nskey _ _); intros Hk; apply bool_decide_eq_false in Hk; (split; [|done]);
    apply dget_None in Hk; by rewrite Hk.
Qed.

Lemma detach_absent s x cls k :
  wf s -> class_of s x = Some cls -> tree_class (c_behs cls) = true ->
  (Reference ∈ c_behs cls -> all_tree_classes s) -> hashable k = true ->
  (to_spaces cls k -> held k (spaces_at s x) = false) ->
  (~ to_spaces cls k -> held k (entries_at s x) = false) ->
  exists s', detach x k s = (Exc (KeyError k), s') /\ entries_everywhere s s' /\ forall y, keeps_place s s' y.
Proof.
  intros W Hc Ht Ha Hh H1 H2. destruct (class_view _ _ _ Hc) as (w & Hw & <-).
  destruct (detach_eff s x w k) as (r & s' & d & ix & E & F); try done.
  { intros Hr. apply all_tree_all, Ha. by apply hasc_in. }
  destruct (get_res_absent s x w k) as [Hg Hk]; try done.
  { destruct (nskey (c_behs (w_cls w)) k) eqn:Hn; [by apply H1, nskey_dunder|by apply H2, nskey_dunder_false]. }
  destruct (view_obj _ _ _ Hw) as (o & Ho & Hwo).
  assert (Ecls : o_cls o = w_cls w) by (exact (eq_sym (f_equal w_cls Hwo))).
  destruct (detach_missing (c_behs (w_cls w)) x k _ s w W Hw Ht Hg) as (s2 & E2).
  unfold detach in E. rewrite (bind_load _ _ _ _ Ho), Ecls, E2 in E. injection E as <- <-.
  exists s2. split. { unfold detach. by rewrite (bind_load _ _ _ _ Ho), Ecls. }
  destruct F. split.
  - intros y. rewrite !ob_entries, !ob_spaces, dt_ent, dt_ns. case_decide as Hy; [|done]. subst y. unfold fld. rewrite Hw. simpl.
    destruct d; simpl; [|done]. destruct (nskey (c_behs (w_cls w)) k); simpl; rewrite ddel_notin by done; done.
  - intros y. by apply fld_np.
Qed.

Lemma del_res_ret bs w k v : get_res w k = Ret v -> nskey bs k = nskey (c_behs (w_cls w)) k ->
  (Nodespaces ∈ bs -> exists t, k = KStr t) -> del_res bs w k = Ret tt.
Proof.
  intros Hg. unfold get_res in Hg. induction bs as [|b bs IH]; intros Hn Hs.
  - simpl. unfold nskey in Hn at 1. simpl in Hn. rewrite <- Hn in Hg. by rewrite Hg.
  - assert (Hs' : Nodespaces ∈ bs -> exists t, k = KStr t) by (intros; apply Hs; by right).
    assert (Hb : b <> Nodespaces -> nskey bs k = nskey (c_behs (w_cls w)) k).
    { intros Hb. rewrite <- Hn. unfold nskey. rewrite hasc_cons. by rewrite (bool_decide_eq_false_2 (Nodespaces = b)) by done. }
    destruct b; simpl; unfold get_res; rewrite ?Hg; try (by apply IH, Hs'; apply Hb).
    destruct (Hs ltac:(left)) as (t & ->). destruct (reserved t) eqn:Hr.
    + unfold nskey in Hn at 1. rewrite hasc_cons, bool_decide_eq_true_2 in Hn by done. simpl in Hn. rewrite Hr in Hn. rewrite <- Hn in Hg. by rewrite Hg.
    + apply IH; [|done]. rewrite <- Hn. unfold nskey. simpl. by rewrite Hr, !andb_false_r.
Qed.

Lemma detach_present s x cls k v :
  wf s -> class_of s x = Some cls -> tree_class (c_behs cls) = true -> Reference ∉ c_behs cls ->
  hashable k = true -> (Nodespaces ∈ c_behs cls -> exists t, k = KStr t) ->
  (to_spaces cls k -> value_at k (spaces_at s x) = Some v) ->
  (~ to_spaces cls k -> value_at k (entries_at s x) = Some v) ->
  exists s', detach x k s = (Ret v, s').
Proof.
  intros W Hc Ht Hr Hh Hs H1 H2. destruct (class_view _ _ _ Hc) as (w & Hw & <-).
  assert (Hr' : hasc Reference (c_behs (w_cls w)) = false). { apply bool_decide_eq_false. done. }
  destruct (detach_eff s x w k) as (r & s' & d & ix & E & F); try done. { by rewrite Hr'. }
  exists s'. rewrite E. f_equal. rewrite (dt_res _ _ _ _ _ _ _ _ _ _ F).
  - assert (Hg : get_res w k = Ret v).
    { unfold get_res, look. rewrite Hh. destruct (nskey (c_behs (w_cls w)) k) eqn:Hn.
      - apply nskey_dunder in Hn. specialize (H1 Hn). rewrite value_at_spec, ob_spaces in H1. unfold fld in H1. rewrite Hw in H1. simpl in H1. by rewrite H1.
      - apply nskey_dunder_false in Hn. specialize (H2 Hn). rewrite value_at_spec, ob_entries in H2. unfold fld in H2. rewrite Hw in H2. simpl in H2. by rewrite H2. }
    unfold det_res. rewrite Hg. erewrite del_res_ret; done.
  - intros Hr2. by rewrite Hr2 in Hr'.
  - intros Hr2. by rewrite Hr2 in Hr'.
Qed.

(** * C09 *)
Lemma iter_set_prefix x l : forall s,
  (exists s', iterM (fun kv : key * val => setitem x (fst kv) (snd kv)) l s = (Ret tt, s') /\ all_succeed x l s /\ s' = set_all x l s) \/
  (exists pre k v post e s', l = pre ++ (k, v) :: post /\
     iterM (fun kv : key * val => setitem x (fst kv) (snd kv)) l s = (Exc e, s') /\
     all_succeed x pre s /\ setitem x k v (set_all x pre s) = (Exc e, s')).
Proof.
  induction l as [|[k v] l IH]; intros s; [left; by exists s|].
  cbn [iterM]. destruct (setitem x k v s) as [[[]|e] s1] eqn:E.
  - destruct (IH s1) as [(s' & H1 & H2 & H3)|(pre & k' & v' & post & e & s' & -> & H1 & H2 & H3)].
    + left. exists s'. split; [|split].
      * rewrite (bind_Ret _ _ _ _ _ E). done. * simpl. eauto. * simpl. by rewrite E.
    + right. exists ((k, v) :: pre), k', v', post, e, s'. split; [done|]. split; [|split].
      * rewrite (bind_Ret _ _ _ _ _ E). done. * simpl. eauto. * simpl. by rewrite E.
  - right. exists [], k, v, l, e, s1. split; [done|]. split; [by rewrite (bind_Exc _ _ _ _ _ E)|]. done.
Qed.
Lemma iterM_app {A} (f : A -> M unit) l1 l2 s :
  iterM f (l1 ++ l2) s = (do! iterM f l1 in iterM f l2) s.
Proof.
  revert s. induction l1 as [|a l1 IH]; intros s; [done|]. cbn [app iterM]. unfold bind in *.
  destruct (f a s) as [[[]|e] s1]; [|done]. by rewrite IH.
Qed.
Lemma update_is_iter x args kw s : length args <= 1 ->
  update x args kw s = iterM (fun kv : key * val => setitem x (fst kv) (snd kv)) (concat args ++ kw) s.
Proof. intros H. destruct args as [|a [|b r]]; [| |simpl in H; lia]; unfold update; by rewrite iterM_app. Qed.

Lemma update_prefix x args kw s : length args <= 1 ->
  (exists s', update x args kw s = (Ret tt, s') /\ all_succeed x (concat args ++ kw) s /\ s' = set_all x (concat args ++ kw) s) \/
  (exists pre k v post e s', concat args ++ kw = pre ++ (k, v) :: post /\
     update x args kw s = (Exc e, s') /\
     all_succeed x pre s /\ setitem x k v (set_all x pre s) = (Exc e, s')).
Proof. intros H. rewrite update_is_iter by done. apply iter_set_prefix. Qed.
Lemma update_too_many x args kw s : 1 < length args -> update x args kw s = (Exc TypeError, s).
Proof. destruct args as [|a [|b r]]; simpl; try lia. done. Qed.

(** * C51 *)
Section abstract.
  Context (x : nat) (o : obj) (s : st) (Ho : nodes s !! x = Some o) (Hb : c_behs (o_cls o) = AbstractNode_behs).
  Lemma abs_get k : getitem x k s = (Exc NotImplementedError, s).
  Proof using Ho Hb. unfold getitem. by rewrite (bind_load _ _ _ _ Ho), Hb. Qed.
  Lemma abs_del k : delitem x k s = (Exc NotImplementedError, s).
  Proof using Ho Hb. unfold delitem. by rewrite (bind_load _ _ _ _ Ho), Hb. Qed.
  Lemma abs_iter : iter x s = (Exc NotImplementedError, s).
  Proof using Ho Hb. unfold iter. by rewrite (bind_load _ _ _ _ Ho), Hb. Qed.
  Lemma abs_set k v : known s v -> exists s', setitem x k v s = (Exc NotImplementedError, s') /\ entries_everywhere s s'.
  Proof using Ho Hb.
    intros Hv. unfold setitem. rewrite (bind_load _ _ _ _ Ho), Hb. cbn [set_stack set_stage AbstractNode_behs].
    destruct v as [| | | | | | |c| | | |]; simpl; try (by exists s).
    destruct Hv as [oc Hc]. rewrite (bind_load _ _ _ _ Hc), (bind_modify _ _ _ _ _ Hc).
    erewrite bind_modify by (simpl; apply lookup_insert). unfold try_catch. cbn. eexists. split; [done|].
    intros y. unfold entries_at, spaces_at. simpl.
    destruct (decide (c = y)) as [<-|]; [|by rewrite !lookup_insert_ne]. by rewrite !lookup_insert, Hc.
  Qed.
  Lemma abs_call c : Forall (known s) (call_values c) ->
    exists s', entries_everywhere s s' /\
    run_call x c s = (if needs_storage c then AExc NotImplementedError
                      else match c with CUpdate (_ :: _ :: _) _ => AExc TypeError | _ => ANone end, s').
  Proof using Ho Hb.
    assert (Q : entries_everywhere s s) by done.
    intros Hv. destruct c as [k v|k|k|k d|k| | | | |k d| |k d|args kw|]; simpl; unfold wrap.
    - destruct (abs_set k v) as (s' & -> & E); [by apply Forall_inv in Hv|]. eauto.
    - rewrite abs_get. eauto.
    - rewrite abs_del. eauto.
    - unfold get, try_catch. rewrite abs_get. simpl. eauto.
    - unfold contains, try_catch. rewrite (bind_Exc _ _ _ _ _ (abs_get k)). simpl. eauto.
    - unfold keys. rewrite abs_iter. eauto.
    - unfold values. rewrite (bind_Exc _ _ _ _ _ abs_iter). eauto.
    - unfold items. rewrite (bind_Exc _ _ _ _ _ abs_iter). eauto.
    - unfold len, keys. rewrite (bind_Exc _ _ _ _ _ abs_iter). eauto.
    - unfold pop, try_catch. rewrite (bind_Exc _ _ _ _ _ (abs_get k)). simpl. eauto.
    - unfold popitem, keys. rewrite (bind_Exc _ _ _ _ _ abs_iter). eauto.
    - unfold setdefault, try_catch. rewrite abs_get. simpl. eauto.
    - destruct (decide (1 < length args)) as [Hl|Hl].
      { rewrite update_too_many by done. exists s. destruct args as [|a [|b r]]; simpl in *; try lia. by destruct a. }
      rewrite update_is_iter by lia. destruct (concat args ++ kw) as [|[k v] l] eqn:El.
      { exists s. split; [done|]. destruct args as [|[|a la] [|b r]]; simpl in *; try lia; try done; by destruct kw. }
      simpl in Hv. rewrite El in Hv. simpl. destruct (abs_set k v) as (s' & E & Q'); [by apply Forall_inv in Hv|].
      exists s'. split; [done|]. rewrite (bind_Exc _ _ _ _ _ E).
      destruct args as [|[|a la] [|b r]]; simpl in *; try lia; try done; by destruct kw.
    - unfold clear, keys. rewrite (bind_Exc _ _ _ _ _ abs_iter). eauto.
  Qed.
End abstract.
Lemma abstract_call s x cls c :
  class_of s x = Some cls -> c_behs cls = AbstractNode_behs -> Forall (known s) (call_values c) ->
  exists s', entries_everywhere s s' /\
    run_call x c s = (if needs_storage c then AExc NotImplementedError
                      else match c with CUpdate (_ :: _ :: _) _ => AExc TypeError | _ => ANone end, s').
Proof.
  unfold class_of. destruct (nodes s !! x) as [o|] eqn:Ho; simpl; [|done]. intros [= <-] Hb. by apply abs_call with o.
Qed.
