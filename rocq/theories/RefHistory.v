(** Tidy histories keep the indices exact. *)
From Verif Require Import SpecCache CacheProofs SpecCopy Dup InvalEff Py Odict OdictFacts Aliaser Heap Model MonadFacts WF WFOps Views SpecMapping MappingProofs StorageProofs
  Observe TreeOps SetEff DelEff DetachEff NewEff AttrsEff ObserveFacts SpecTree SpecOrder SpecUtils MappingProps OrderProofs SpecPlace PlaceProofs OpLift Reach SpecReference RefTree RefSteps.

(** * Deleting what is not there leaves the indices alone *)
Lemma del_stack_absent all self w k e : tree_class all = true -> c_behs (w_cls w) = all -> get_res w k = Exc e ->
  forall bs s, forallb tree_beh bs = true -> wf s -> views s !! self = Some w -> idxs (snd (del_stack all bs self k s)) = idxs s.
Proof.
  intros Ht Hall Hg. induction bs as [|b bs IH]; intros s Hb W Hw.
  - simpl. unfold del_endpoint. pose proof (tree_class_inv _ Ht) as [Ht' Hst]. rewrite tree_no_fixed by done.
    pose proof Hst as Hst'. unfold storage_class in Hst'. rewrite Hst'.
    destruct (del_slot_eff false (storage_of self) s self w k 0) as (r & s' & E & F & G); try done.
    { apply storage_slot; try done. by rewrite Hall. }
    rewrite E. by apply (de_noref _ _ _ _ _ _ _ _ F).
  - simpl in Hb. apply andb_prop in Hb as [Hb1 Hb2].
    destruct (decide (b = Nodespaces)) as [->|Hn].
    { simpl. destruct k as [str| | |]; try done. destruct (reserved str); [|by apply IH].
      destruct (del_slot_eff true (nodespaces_of self) s self w (KStr str) 0) as (r & s' & E & F & G); try done. { by apply ns_slot. }
      rewrite E. by apply (de_noref _ _ _ _ _ _ _ _ F). }
    destruct (decide (b = Reference \/ b = Lifecycle)) as [Hr|Hr].
    { destruct (getitem_eff s self w k) as (s1 & E1 & Q1 & W1); [done..|by rewrite Hall|]. rewrite Hg in E1.
      destruct Hr as [->| ->]; simpl; rewrite (bind_Exc _ _ _ _ _ E1); simpl; by apply e_idxs. }
    replace (del_stack all (b :: bs) self k) with (del_stack all bs self k); [by apply IH|]. destruct b; try discriminate Hb1; try done; tauto.
Qed.
Lemma delitem_absent_idx s x w k e : wf s -> views s !! x = Some w -> tree_class (c_behs (w_cls w)) = true -> get_res w k = Exc e ->
  idxs (snd (delitem x k s)) = idxs s.
Proof.
  intros W Hw Ht Hg. destruct (load_view _ _ _ Hw) as (o & Hload & Ho & Hwo). unfold delitem.
  rewrite (bind_Ret _ _ _ _ _ Hload). replace (o_cls o) with (w_cls w) by (by rewrite <- Hwo).
  apply (del_stack_absent _ x w k e); try done. by apply tree_class_inv in Ht as [? _].
Qed.

Lemma creatable_trees s : world creatable s -> all_tree_classes s.
Proof. intros W x cls Hc. apply new_tree. by apply (wd_nodes _ _ W x). Qed.
Lemma new_occ bs : new_class bs = true -> occ Reference bs <= 1.
Proof. unfold new_class. intros [_ H]%andb_prop. by apply bool_decide_eq_true in H. Qed.
Lemma occ_once bs : occ Reference bs <= 1 -> Reference ∈ bs -> occ Reference bs = 1.
Proof. intros H Hin. apply hasc_in in Hin. destruct (occ Reference bs) eqn:E; [|lia]. apply hasc_occ in E. congruence. Qed.
Lemma fld_ix s s' : (forall x, fld w_index s' x = fld w_index s x) -> forall x, index_id s' x = index_id s x.
Proof. intros H x. by rewrite !ob_index_id, H. Qed.

(** * del *)
Lemma apart_removed s s' : wf s -> (forall y, class_of s' y = class_of s y) -> (forall y k v, (k, v) ∈ entries_at s' y -> exists v0, (k, v0) ∈ entries_at s y) -> spaces_apart s -> spaces_apart s'.
Proof. intros W Hc He. apply apart_step; [done|]. intros x cls k v _ Hin. left. by apply (He x k v). Qed.

Lemma ref_ready s x w k c : wf s -> tidy_ok s -> views s !! x = Some w -> new_class (c_behs (w_cls w)) = true -> listed s x -> child s x k c ->
  get_res w k = Ret (VNode c) /\ nskey (c_behs (w_cls w)) k = false /\
  exists us i m, td (fuel_of s) (views s) c = Ret us /\ index_id s x = Some i /\ idxs s !! i = Some m /\ NoDup us /\
    (forall u, u ∈ us <-> exists y, below s c y /\ uuid_at s y = Some u) /\ del_ready (c_behs (w_cls w)) s w k.
Proof.
  intros W T Hw Hn Lx Hk. destruct (child_view s x k c W Hk) as (_ & _ & Hkw). specialize (Hkw w Hw).
  destruct (entry_get s x w k W (to_apart s T) Hw Hkw) as (v & Hg & Hv).
  assert (v = VNode c) as -> by (unfold child in Hk; congruence). split; [done|]. split.
  { apply nskey_dunder_false. apply elem_of_dkeys in Hkw as [v Hin]. apply (to_apart s T x (w_cls w) k v); [by apply view_class|]. by rewrite (view_entries _ _ _ Hw). }
  destruct (listed_index s x Lx) as (i & m & u & Hi & Hm & Hat & _ & _).
  destruct (to_down s T x k c Lx Hk) as [Lc Ic].
  destruct (td_tree s W T (fuel_of s) c [] Lc) as (us & Etd & ND & Hus); try done.
  { apply NoDup_nil_2. } { intros a Ha. by apply elem_of_nil in Ha. }
  exists us, i, m. do 5 (split; [done|]). intros _ c' cls' Hg' _ _. assert (c' = c) as -> by congruence.
  exists us, i, m. split; [done|]. split; [by rewrite <- (view_index _ _ _ Hw)|]. split; [done|]. split; [done|]. split; [|by apply new_occ].
  apply Forall_forall. intros u' (y & By & Uy)%Hus. destruct (below_listed s T c y Lc By) as [(u2 & U2 & H2) Iy]. assert (u2 = u') as -> by congruence.
  exists y. rewrite <- Hat. unfold index_at in *. by rewrite <- Ic, <- Iy.
Qed.
Lemma child_removed s s' x k : wf s -> entries_at s' x = SpecMapping.remove k (entries_at s x) -> (forall y, y <> x -> entries_at s' y = entries_at s y) ->
  forall p k' d, child s' p k' d <-> child s p k' d /\ ~ (p = x /\ k' = k).
Proof.
  intros W E Eo p k' d. unfold child. destruct (decide (p = x)) as [->|Hp]; [|rewrite Eo by done; naive_solver].
  rewrite E, value_at_remove by (by apply entries_nodup). case_decide as Ek; naive_solver.
Qed.
Lemma delete_child s x k c : world creatable s -> tidy_ok s -> listed s x -> child s x k c ->
  exists s', delitem x k s = (Ret tt, s') /\ world creatable s' /\ tidy_ok s' /\ pruned s x k c s'.
Proof.
  intros Wd T Lx Hk. pose proof (wd_wf _ _ Wd) as W. pose proof (creatable_trees s Wd) as Ha.
  destruct (listed_ref s T x Lx) as (cls & Hc & Href). destruct (class_view _ _ _ Hc) as (w & Hw & Hwc). subst cls.
  pose proof (wd_nodes _ _ Wd _ _ Hc) as Hn. unfold creatable in Hn. pose proof (new_tree _ Hn) as Ht.
  destruct (ref_ready s x w k c W T Hw Hn Lx Hk) as (Hg & Hns & us & i & m & Etd & Hi & Hm & _ & Hus & Hr).
  destruct (delitem_eff s x w k) as (r & s' & E & F & G); try done. { intros _. by apply all_tree_all. }
  specialize (G Hr). rewrite (del_res_ret _ _ _ _ Hg eq_refl) in G.
  2:{ intros _. by apply (to_str s T x k c). }
  subst r. exists s'. split; [done|]. pose proof (delitem_removed s x (w_cls w) k s' W Hc Ht (fun _ => Ha) E) as [R1 R2 _ R4 R5 R6].
  destruct R2 as (_ & R2 & _); [by apply nskey_dunder_false|].
  assert (Hcl : exists clc, class_of s c = Some clc /\ Reference ∈ c_behs clc) by (apply (listed_ref s T); by destruct (to_down s T x k c Lx Hk)).
  destruct Hcl as (clc & Hcc & Hrc).
  assert (Hidx : idxs s' = <[i := minus us m]> (idxs s)).
  { pose proof (de_ref _ _ _ _ _ _ _ _ F c clc) as D. rewrite (proj2 (hasc_in _ _) Hrc) in D.
    destruct D as (us' & i' & m' & D1 & D2 & D3 & D4).
    - by apply hasc_in.
    - done.
    - done.
    - unfold fld. rewrite Hw. simpl. rewrite <- (view_entries _ _ _ Hw), <- value_at_spec. exact Hk.
    - by rewrite <- ob_class.
    - assert (us' = us) as -> by congruence. assert (i' = i) as ->. { rewrite ob_index_id, D2 in Hi. simpl in Hi. congruence. }
      congruence. }
  pose proof (fld_ix _ _ (de_ix _ _ _ _ _ _ _ _ F)) as Hix.
  assert (Hch : forall p k' d, child s' p k' d <-> child s p k' d /\ ~ (p = x /\ k' = k)).
  { apply child_removed; try done. intros y Hy. by destruct (R1 y Hy). }
  assert (Hap : spaces_apart s').
  { apply (apart_removed s); try done; [|by apply T]. intros y k' v Hin. exists v. destruct (decide (y = x)) as [->|Hy]; [|by destruct (R1 y Hy) as [<- _]].
    rewrite R2, remove_spec in Hin by (by apply entries_nodup). by apply elem_of_ddel in Hin as [? _]; [|apply entries_nodup]. }
  destruct (tidy_drop s s' x k c T Lx Hk Hap Hch R6 R5 us Hus i m Hi Hm Hix Hidx) as [T' HL].
  split; [apply (world_same _ s); try done; apply F|]. split; [done|]. constructor; try done.
  - intros i' y. rewrite (index_at_id s x i m Hi Hm). rewrite (index_at_id s' x i (minus us m)); [|by rewrite Hix|rewrite Hidx; by rewrite lookup_insert].
    by apply (drop_minus s x k c T Lx Hk us Hus i m).
  - intros z Hz. apply index_at_eq; [done|]. intros i' Hzi. rewrite Hidx, lookup_insert_ne; [done|congruence].
Qed.
Lemma delete_other s x k : world creatable s -> tidy_ok s -> exists_node s x -> item_key s x k -> (forall c, ~ child s x k c) ->
  world creatable (snd (delitem x k s)) /\ tidy_ok (snd (delitem x k s)) /\ forall y, listed (snd (delitem x k s)) y <-> listed s y.
Proof.
  intros Wd T Hx (cls & Hc & Hns) Hno. pose proof (wd_wf _ _ Wd) as W. pose proof (creatable_trees s Wd) as Ha.
  destruct (class_view _ _ _ Hc) as (w & Hw & Hwc). subst cls.
  pose proof (wd_nodes _ _ Wd _ _ Hc) as Hn. unfold creatable in Hn. pose proof (new_tree _ Hn) as Ht.
  destruct (delitem_eff s x w k) as (r & s' & E & F & _); try done. { intros _. by apply all_tree_all. }
  assert (Hns' : nskey (c_behs (w_cls w)) k = false) by (by apply nskey_dunder_false).
  assert (Hidx : idxs s' = idxs s).
  { destruct (get_res w k) as [v|e] eqn:Hg.
    - assert (Hv : dget k (w_ent w) = Some v). { pose proof (get_res_dget _ _ _ Hg) as Hd. by rewrite Hns' in Hd. }
      apply (de_nonode _ _ _ _ _ _ _ _ F v).
      + rewrite Hns'. unfold fld. by rewrite Hw.
      + destruct v as [| | | | | | |c| | | |]; try done. exfalso. apply (Hno c). unfold child. by rewrite value_at_spec, (view_entries _ _ _ Hw).
    - pose proof (delitem_absent_idx s x w k e W Hw Ht Hg) as Hi. by rewrite E in Hi. }
  pose proof (fld_ix _ _ (de_ix _ _ _ _ _ _ _ _ F)) as Hix. rewrite E. simpl.
  assert (Hcl : forall y, class_of s' y = class_of s y) by (intros y; apply core_obs, F).
  assert (Hu : forall y, uuid_at s' y = uuid_at s y) by (intros y; apply core_obs, F).
  split; [apply (world_same _ s); try done; apply F|].
  assert (He : forall y, entries_at s' y = entries_at s y \/ (y = x /\ entries_at s' y = SpecMapping.remove k (entries_at s y))).
  { intros y. destruct r as [[]|e].
    - pose proof (delitem_removed s x (w_cls w) k s' W Hc Ht (fun _ => Ha) E) as [R1 R2 _ _ _ _]. destruct R2 as (_ & R2 & _); [done|].
      destruct (decide (y = x)) as [->|Hy]; [by right|left; by apply R1].
    - left. by apply (delitem_failed s x (w_cls w) k e s' W Hc Ht (fun _ => Ha) E). }
  apply (tidy_same s); try done.
  - apply (apart_removed s); try done; [|by apply T]. intros y k' v Hin. exists v. destruct (He y) as [<-|[-> E']]; [done|].
    rewrite E', remove_spec in Hin by (by apply entries_nodup). by apply elem_of_ddel in Hin as [? _]; [|apply entries_nodup].
  - intros p k' c. unfold child. destruct (He p) as [->|[-> ->]]; [done|]. rewrite value_at_remove by (by apply entries_nodup). case_decide as Ek; [|done].
    subst k'. split; [done|]. intros H. by destruct (Hno c).
Qed.

(** * Assignment *)
Lemma apart_put s s' x cls k v : wf s -> wf s' -> (forall y, class_of s' y = class_of s y) -> (forall y, y <> x -> entries_at s' y = entries_at s y) ->
  entries_at s' x = put k v (entries_at s x) -> class_of s x = Some cls -> ~ to_spaces cls k -> spaces_apart s -> spaces_apart s'.
Proof.
  intros W W' Hc Ho He Hx Hk. apply apart_step; [done|]. intros y cls' k' v' Hy Hin. destruct (decide (y = x)) as [->|Hne].
  - rewrite He, put_spec in Hin by (by apply entries_nodup). destruct (decide (k' = k)) as [->|Hkk]; [right; congruence|]. left. exists v'.
    pose proof (entries_nodup s x W) as ND. assert (ND' : NoDup (dkeys (dset k v (entries_at s x)))). { pose proof (entries_nodup s' x W') as N'. by rewrite He, put_spec in N'. }
    apply (in_dget _ _ _ ND') in Hin. rewrite dget_dset_ne in Hin by done. by apply dget_Some_in.
  - left. exists v'. by rewrite <- Ho.
Qed.
(** [c] has become a child of [x] *)
Lemma graft s x cls t c s' : world creatable s -> tidy_ok s -> class_of s x = Some cls -> ~ to_spaces cls (KStr t) ->
  listed s x -> lone s x c -> wf s' -> inserted cls s x c (KStr t) s' -> (forall k' d, child s' x k' d <-> child s x k' d \/ (k' = KStr t /\ d = c)) ->
  (forall k' v, (k', v) ∈ entries_at s' x -> k' = KStr t \/ exists v0, (k', v0) ∈ entries_at s x) ->
  ref_step s x c s' -> (forall y, y <> c -> fld w_index s' y = fld w_index s y) -> classes s' = classes s -> next_uuid s' = next_uuid s ->
  world creatable s' /\ tidy_ok s' /\ (forall y, listed s' y <-> listed s y) /\
  (forall i y, index_at s' x !! i = Some y <-> index_at s x !! i = Some y \/ (y = c /\ i = uuid_at s c)) /\
  index_id s' c = index_id s x /\ forall y, y <> c -> index_id s' y = index_id s y.
Proof.
  intros Wd T Hc Hns Lx HL W' [I1 I2 I3 I4 I5 I6] Hcx Hin (i & j & mi & mj & R1 & R2 & R3 & R4 & R5 & R6 & _) Hio' Hcs Hnu.
  pose proof (wd_wf _ _ Wd) as W. pose proof HL as (Lc & Ec & Tc & Uc).
  assert (Hi : index_id s x = Some i) by (rewrite ob_index_id, R1; done). assert (Hj : index_id s c = Some j) by (rewrite ob_index_id, R2; done).
  assert (Hci : index_id s' c = Some i) by (rewrite ob_index_id, R6; done).
  assert (Hio : forall y, y <> c -> index_id s' y = index_id s y). { intros y Hy. rewrite !ob_index_id. f_equal. by apply Hio'. }
  pose proof (entries_nodup s x W) as ND. pose proof (entries_nodup s' x W') as ND'.
  assert (Hch : forall p k' d, child s' p k' d <-> child s p k' d \/ (p = x /\ k' = KStr t /\ d = c)).
  { intros p k' d. destruct (decide (p = x)) as [->|Hp]; [rewrite Hcx; naive_solver|]. unfold child. rewrite (proj1 (I1 p Hp)). naive_solver. }
  assert (Hap : spaces_apart s').
  { apply (apart_step s); [done| |by apply T]. intros y cls' k' v' Hy Hv. destruct (decide (y = x)) as [->|Hne]; [|left; exists v'; by rewrite <- (proj1 (I1 y Hne))].
    apply Hin in Hv as [->|Hv]; [right; congruence|by left]. }
  destruct (tidy_join s s' x t c i j mi mj W Lx HL Hap Hch I6 I5 Hi Hj R3 R4 Hci Hio R5 T) as (T' & HL' & HC).
  split; [by apply (world_same _ s)|]. split; [done|]. split; [done|]. split; [done|]. split; [by rewrite Hi|done].
Qed.
Lemma lone_joins s x cls c : world creatable s -> tidy_ok s -> class_of s x = Some cls -> listed s x -> lone s x c -> joins cls s x c /\ Reference ∈ c_behs cls /\ exists_node s c.
Proof.
  intros Wd T Hc Lx (Lc & Ec & Tc & Uc). destruct (listed_ref s T x Lx) as (cls0 & Hc0 & Href). rewrite Hc in Hc0. injection Hc0 as <-.
  destruct (listed_ref s T c Lc) as (clc & Hcc & Hrc). split; [|split; [done|by apply listed_exists]].
  destruct (listed_index s x Lx) as (i & mi & ux & Hi & Hmi & Hai & Hux & Hx1).
  destruct (listed_index s c Lc) as (j & mj & uc & Hj & Hmj & Haj & Huc & Hc1).
  intros _. split; [apply new_occ, (wd_nodes _ _ Wd _ _ Hc)|]. split; [|exists clc; split; [done|]; split; [done|]; apply (creatable_trees s Wd c clc Hcc)].
  split. { intros ->. pose proof (Uc ux Hux) as H. rewrite Hai in H. congruence. }
  split; [by eexists|]. split; [by eexists|]. split; [|by left]. exists uc. split; [done|]. by apply Uc.
Qed.
Lemma set_child s x k c : world creatable s -> tidy_ok s -> item_key s x k -> tidy_set s x k (VNode c) ->
  exists s', setitem x k (VNode c) s = (Ret tt, s') /\ world creatable s' /\ tidy_ok s' /\ grafted s x k c s'.
Proof.
  intros Wd T _ ((cls & Hc & Hns) & Hfree & Hv). destruct (Hv c eq_refl) as (Lx & HL & t & ->).
  pose proof (wd_wf _ _ Wd) as W. pose proof (new_tree _ (wd_nodes _ _ Wd _ _ Hc)) as Ht.
  destruct (lone_joins s x cls c Wd T Hc Lx HL) as (HJ & Href & Hex).
  destruct (set_inserts s x c cls t W Hc Ht Hex Hns HJ) as (s' & E & He & I).
  exists s'. split; [done|]. pose proof Hc as Hc'. rewrite ob_class in Hc'.
  destruct (setitem_eff s x cls (KStr t) (VNode c) W Hc' Ht Hex) as (r & s1 & E1 & F & _). rewrite E in E1. injection E1 as <- <-.
  assert (Hns' : nskey (c_behs cls) (KStr t) = false) by (by apply nskey_dunder_false).
  pose proof (se_ref _ _ _ _ _ _ _ _ _ _ F c eq_refl (proj2 (hasc_in _ _) Href) Hns' eq_refl) as R.
  pose proof (se_wf _ _ _ _ _ _ _ _ _ _ F) as W'. pose proof (entries_nodup s x W) as ND.
  destruct (graft s x cls t c s') as (W1 & T1 & H1 & H2 & H3 & H4); try done; try apply F.
  - intros k' d. unfold child. rewrite He, value_at_put by done. case_decide as Ek; [|naive_solver]. subst k'. split; [intros [= ->]; by right|].
    intros [H|[_ ->]]; [by destruct (Hfree d)|done].
  - intros k' v' Hin. rewrite He, put_spec in Hin by done. destruct (decide (k' = KStr t)) as [->|Hk']; [by left|right; exists v'].
    apply (in_dget _ _ _ (NoDup_dset _ _ _ ND)) in Hin. rewrite dget_dset_ne in Hin by done. by apply dget_Some_in.
  - intros y Hy. apply (se_ix_other _ _ _ _ _ _ _ _ _ _ F). congruence.
  - split; [done|]. split; [done|]. constructor; try done. intros y Hy. by apply (ins_others _ _ _ _ _ _ I).
Qed.
Lemma set_other s x k v : world creatable s -> tidy_ok s -> tidy_set s x k v -> (forall c, v <> VNode c) ->
  world creatable (snd (setitem x k v s)) /\ tidy_ok (snd (setitem x k v s)) /\ (forall y, listed (snd (setitem x k v s)) y <-> listed s y) /\
  (forall y, y <> x -> entries_at (snd (setitem x k v s)) y = entries_at s y) /\
  (forall k', k' <> k -> value_at k' (entries_at (snd (setitem x k v s)) x) = value_at k' (entries_at s x)) /\
  (forall p k' c, child (snd (setitem x k v s)) p k' c <-> child s p k' c) /\ index_at (snd (setitem x k v s)) x = index_at s x.
Proof.
  intros Wd T ((cls & Hc & Hns) & Hfree & _) Hv. pose proof (wd_wf _ _ Wd) as W.
  pose proof (wd_nodes _ _ Wd _ _ Hc) as Hn. unfold creatable in Hn. pose proof (new_tree _ Hn) as Ht.
  assert (Hvk : known s v) by (destruct v as [| | | | | | |c| | | |]; try done; by destruct (Hv c)).
  pose proof Hc as Hc'. rewrite ob_class in Hc'. destruct (setitem_eff s x cls k v W Hc' Ht Hvk) as (r & s' & E & F & _).
  rewrite E. simpl. assert (W' : wf s') by apply F.
  assert (Hix : forall y, index_id s' y = index_id s y). { intros y. rewrite !ob_index_id. f_equal. apply (se_ix_other _ _ _ _ _ _ _ _ _ _ F). apply Hv. }
  assert (Hidx : idxs s' = idxs s). { apply (se_ix_nonnode _ _ _ _ _ _ _ _ _ _ F). destruct v as [| | | | | | |c| | | |]; try done. by destruct (Hv c). }
  assert (Hcl : forall y, class_of s' y = class_of s y) by (intros y; apply core_obs, F).
  assert (Hu : forall y, uuid_at s' y = uuid_at s y) by (intros y; apply core_obs, F).
  split; [apply (world_same _ s); try done; apply F|].
  destruct r as [[]|e].
  - pose proof (setitem_assigned s x cls k v s' W Hc Ht Hvk E) as [A1 A2 _ _ _ _]. destruct (A2 Hns) as [Ae _].
    assert (Hch : forall p k' c, child s' p k' c <-> child s p k' c).
    { intros p k' c. unfold child. destruct (decide (p = x)) as [->|Hp]; [|by rewrite (proj1 (A1 p Hp))].
      rewrite Ae, value_at_put by (by apply entries_nodup). case_decide as Ek; [|done]. subst k'. split; [intros [= H]; by destruct (Hv c)|]. intros H. by destruct (Hfree c). }
    destruct (tidy_same s s') as [T' HL]; try done.
    { apply (apart_put s s' x cls k v); try done; [|by apply T]. intros y Hy. by apply A1. }
    split; [done|]. split; [done|]. split; [intros y Hy; by apply A1|]. split; [|split; [done|apply index_at_eq; [done|]; by rewrite Hidx]].
    intros k' Hk'. rewrite Ae, value_at_put by (by apply entries_nodup). by rewrite decide_False.
  - destruct (setitem_failed s x cls k v e s' W Hc Ht Hvk E) as [Ee _].
    assert (Hch : forall p k' c, child s' p k' c <-> child s p k' c) by (intros p k' c; unfold child; by rewrite (proj1 (Ee p))).
    destruct (tidy_same s s') as [T' HL]; try done.
    { apply (apart_removed s); try done; [|by apply T]. intros y k' v' Hin. exists v'. by rewrite <- (proj1 (Ee y)). }
    split; [done|]. split; [done|]. split; [intros y _; by apply Ee|]. split; [intros k' _; by rewrite (proj1 (Ee x))|]. split; [done|]. apply index_at_eq; [done|]. by rewrite Hidx.
Qed.

(** * detach *)
Lemma detach_child s x k c : world creatable s -> tidy_ok s -> listed s x -> child s x k c ->
  exists s', detach x k s = (Ret (VNode c), s') /\ world creatable s' /\ tidy_ok s' /\ uprooted s x k c s'.
Proof.
  intros Wd T Lx Hk. pose proof (wd_wf _ _ Wd) as W. pose proof (creatable_trees s Wd) as Ha.
  destruct (listed_ref s T x Lx) as (cls & Hc & Href). destruct (class_view _ _ _ Hc) as (w & Hw & Hwc). subst cls.
  pose proof (wd_nodes _ _ Wd _ _ Hc) as Hn. unfold creatable in Hn. pose proof (new_tree _ Hn) as Ht.
  destruct (ref_ready s x w k c W T Hw Hn Lx Hk) as (Hg & Hns & us & i & m & Etd & Hi & Hm & _ & Hus & Hr).
  destruct (to_down s T x k c Lx Hk) as [Lc Ic].
  destruct (listed_ref s T c Lc) as (clc & Hcc & Hrc). destruct (listed_index s c Lc) as (ic & mc & uc & Hic & Hmc & Hac & Huc & Hc1).
  destruct (inodes_tree s (views_del false x k (views s)) W T (fuel_of s) c [] Lc) as (ps & Eps & Hps); try done.
  { apply NoDup_nil_2. } { intros a Haa. by apply elem_of_nil in Haa. }
  { intros y By. unfold views_del. rewrite lookup_alter_ne; [done|]. intros <-. by apply (child_not_below s T x k c). }
  destruct (detach_eff s x w k) as (r & s' & d & ix & E & F); try done. { intros _. by apply all_tree_all. }
  pose proof (dt_res _ _ _ _ _ _ _ _ _ _ F Hr) as Hres. unfold det_res in Hres. rewrite Hg, (del_res_ret _ _ _ _ Hg eq_refl) in Hres.
  2:{ intros _. by apply (to_str s T x k c). }
  assert (Hfc : fld w_cls s c = Some clc) by (by rewrite <- ob_class).
  assert (Hfu : fld w_uuid s c = Some (Some uc)).
  { rewrite ob_uuid in Huc. destruct (fld w_uuid s c) as [[]|]; simpl in Huc; congruence. }
  assert (r = Ret (VNode c)) as ->.
  { apply Hres. intros _. split; [by apply new_occ|]. exists c, clc, uc. repeat split; try done; [by apply hasc_in|]. by rewrite Hns, Eps. }
  clear Hres. exists s'. split; [done|].
  pose proof (detach_removes s x (w_cls w) k (VNode c) s' W Hc Ht (fun _ => Ha) E) as [_ [R1 R2 _ R4 R5 R6]].
  destruct R2 as (_ & R2 & _); [by apply nskey_dunder_false|].
  destruct (dt_ret _ _ _ _ _ _ _ _ _ _ F (VNode c) eq_refl) as [-> _].
  destruct (dt_ref _ _ _ _ _ _ _ _ _ _ F (VNode c) eq_refl) as (c' & cls' & u' & n & ps' & [= <-] & D2 & D3 & D4 & D5 & D6 & D7 & D8).
  { apply occ_once; [by apply new_occ|done]. }
  rewrite Hns in D6. assert (ps' = ps) as -> by congruence. assert (u' = uc) as -> by congruence.
  assert (Hix : ix = <[i := minus us m]> (idxs s)).
  { pose proof (ia_ref _ _ _ _ _ _ _ (dt_idx _ _ _ _ _ _ _ _ _ _ F) c clc) as D. rewrite (proj2 (hasc_in _ _) Hrc) in D.
    destruct D as (us' & i' & m' & G1 & G2 & G3 & G4); try done; [by apply hasc_in| |].
    - unfold fld. rewrite Hw. simpl. rewrite <- (view_entries _ _ _ Hw), <- value_at_spec. exact Hk.
    - assert (us' = us) as -> by congruence. assert (i' = i) as ->. { rewrite ob_index_id, G2 in Hi. simpl in Hi. congruence. }
      congruence. }
  assert (Hin : forall y, y ∈ c :: ps.*2 <-> below s c y).
  { intros y. rewrite elem_of_cons, elem_of_list_fmap. split.
    - intros [->|([u z] & -> & Hz)]; [constructor|]. by apply Hps in Hz as [? _].
    - intros By. destruct (decide (y = c)) as [->|Hy]; [by left|right]. destruct (below_listed s T c y Lc By) as [(u & Uy & _) _].
      exists (u, y). split; [done|]. by apply Hps. }
  assert (Hdec : forall y, below s c y \/ ~ below s c y).
  { intros y. destruct (decide (y ∈ c :: ps.*2)) as [H|H]; [left|right]; by rewrite <- Hin. }
  assert (Hex : forall y, below s c y -> exists_node s y). { intros y By. apply listed_exists. by apply (below_listed s T c y Lc). }
  assert (Hib : forall y, below s c y -> index_id s' y = Some n).
  { intros y By. rewrite ob_index_id, D8. rewrite (decide_True (P := y ∈ c :: ps.*2)) by (by apply Hin).
    destruct (Hex y By) as [o Ho]. unfold fld. rewrite (nodes_views _ _ _ Ho). done. }
  assert (Hin' : forall y, ~ below s c y -> index_id s' y = index_id s y).
  { intros y By. rewrite !ob_index_id, D8. rewrite (decide_False (P := y ∈ c :: ps.*2)) by (by rewrite Hin). by destruct (fld w_index s y). }
  assert (Hni : idxs s !! n = None).
  { rewrite Hix in D5. destruct (decide (i = n)) as [<-|Hne]; [by rewrite lookup_insert in D5|by rewrite lookup_insert_ne in D5]. }
  assert (Hmc' : forall i' y, ins_all {[Some uc := c]} ps !! i' = Some y <-> exists u, i' = Some u /\ below s c y /\ uuid_at s y = Some u).
  { intros i' y. rewrite lookup_ins_all.
    2:{ intros u z z' (B1 & _ & U1)%Hps (B2 & _ & U2)%Hps. destruct (below_listed s T c z Lc B1) as [L1 I1], (below_listed s T c z' Lc B2) as [L2 I2].
        apply (listed_inj s z z' u); congruence. }
    rewrite lookup_singleton_Some. split.
    - intros [(u & -> & (B & _ & U)%Hps)|[[<- <-] _]]; [by exists u|]. exists uc. split; [done|]. split; [constructor|done].
    - intros (u & -> & B & U). destruct (decide (y = c)) as [->|Hy]; [|left; exists u; split; [done|]; by apply Hps].
      assert (u = uc) as -> by congruence. right. split; [done|]. intros u0 z [= <-] (B1 & N1 & U1)%Hps. apply N1.
      destruct (below_listed s T c z Lc B1) as [L1 I1]. apply (listed_inj s z c uc); congruence. }
  assert (Hch : forall p k' d, child s' p k' d <-> child s p k' d /\ ~ (p = x /\ k' = k)).
  { apply child_removed; try done. intros y Hy. by destruct (R1 y Hy). }
  assert (Hap : spaces_apart s').
  { apply (apart_removed s); try done; [|by apply T]. intros y k' v Hin0. exists v. destruct (decide (y = x)) as [->|Hy]; [|by destruct (R1 y Hy) as [<- _]].
    rewrite R2, remove_spec in Hin0 by (by apply entries_nodup). by apply elem_of_ddel in Hin0 as [? _]; [|apply entries_nodup]. }
  assert (Hidx : idxs s' = <[n := ins_all {[Some uc := c]} ps]> (<[i := minus us m]> (idxs s))) by (by rewrite D7, Hix).
  destruct (tidy_detach s s' x k c W T Lx Hk Hap Hch R6 R5 us Hus i m Hi Hm n _ Hni Hmc' Hib Hin' Hdec Hidx) as [T' HL].
  split; [apply (world_same _ s); try done; apply F|]. split; [done|]. constructor; try done.
  - by exists n.
  - intros i' y. rewrite (index_at_id s' c n (ins_all {[Some uc := c]} ps)); [|apply Hib; constructor|rewrite Hidx; by rewrite lookup_insert].
    rewrite Hmc'. naive_solver.
  - intros i' y. rewrite (index_at_id s x i m Hi Hm). assert (Hnx : ~ below s c x) by (by apply (child_not_below s T x k c)).
    rewrite (index_at_id s' x i (minus us m)); [|by rewrite Hin'|].
    2:{ rewrite Hidx, lookup_insert_ne; [by rewrite lookup_insert|]. intros ->. congruence. }
    by apply (drop_minus s x k c T Lx Hk us Hus i m).
Qed.

(** * uuid *)
Lemma iuuid_key u : iuuid u = index_key u.
Proof. unfold iuuid, index_key. destruct u as [n|]; [|done]. destruct (decide (n = 0%N)) as [->|H]; [done|]. rewrite bool_decide_eq_false_2; [done|congruence]. Qed.
Lemma uuid_used s x cls u o : wf s -> class_of s x = Some cls -> Reference ∈ c_behs cls -> is_Some (index_id s x) ->
  index_at s x !! index_key u = Some o -> o <> x -> assign_uuid x u s = (Exc (ValueError "Given uuid was already used for another Node"), s).
Proof.
  intros W Hc Hr [i Hi] Hu Ho. unfold class_of in Hc. destruct (nodes s !! x) as [ob|] eqn:Hob; [|done]. injection Hc as Hc.
  unfold assign_uuid. rewrite (bind_load _ _ _ _ Hob). assert (has Reference ob = true) as ->. { unfold has. rewrite Hc. by apply hasc_in. }
  unfold set_uuid, index_of. unfold index_id in Hi. rewrite Hob in Hi. simpl in Hi. unfold bind at 1. rewrite (bind_load _ _ _ _ Hob), Hi. simpl.
  unfold index_at, index_id in Hu. rewrite Hob in Hu. simpl in Hu. rewrite Hi in Hu. simpl in Hu. destruct (idxs s !! i) as [m|] eqn:Hm; [|done]. simpl in Hu.
  unfold bind at 1, read_idx. rewrite Hm, iuuid_key, Hu. by rewrite decide_False.
Qed.
Lemma uuid_free s x cls u i m : wf s -> class_of s x = Some cls -> Reference ∈ c_behs cls -> index_id s x = Some i -> idxs s !! i = Some m ->
  (forall o, m !! index_key u = Some o -> o = x) -> exists s', assign_uuid x u s = (Ret tt, s') /\ mild s s' /\ uuid_at s' x = u /\
  (forall y, y <> x -> uuid_at s' y = uuid_at s y) /\ (forall y, index_id s' y = index_id s y) /\
  idxs s' = <[i := <[index_key u := x]> (delete (index_key (uuid_at s x)) m)]> (idxs s) /\ classes s' = classes s.
Proof.
  intros W Hc Hr Hi Hm Hu. unfold class_of in Hc. destruct (nodes s !! x) as [ob|] eqn:Hob; [|done]. injection Hc as Hc.
  destruct (assign_uuid x u s) as [r s'] eqn:E. exists s'. pose proof (mild_assign_uuid x u s) as Ml. rewrite E in Ml. simpl in Ml.
  unfold assign_uuid in E. rewrite (bind_load _ _ _ _ Hob) in E. assert (Hh : has Reference ob = true). { unfold has. rewrite Hc. by apply hasc_in. }
  rewrite Hh in E. unfold index_id in Hi. rewrite Hob in Hi. simpl in Hi.
  unfold set_uuid, index_of in E. unfold bind at 1 in E. rewrite (bind_load _ _ _ _ Hob), Hi in E. simpl in E.
  unfold bind at 1, read_idx in E. rewrite Hm in E.
  assert (Hch : match m !! iuuid u with Some o => if decide (o = x) then false else true | None => false end = false).
  { rewrite iuuid_key. destruct (m !! index_key u) as [o|] eqn:Eo; [|done]. rewrite (Hu o) by done. by rewrite decide_True. }
  rewrite Hch in E. rewrite (bind_load _ _ _ _ Hob) in E. rewrite !iuuid_key in E.
  assert (Hux : uuid_at s x = o_uuid ob) by (unfold uuid_at; by rewrite Hob).
  unfold write_idx in E. unfold bind at 1 in E. unfold bind, saw_uuid, modify in E. destruct u as [n|]; simpl in E; rewrite Hob in E; injection E as <- <-.
  all: split; [done|]; split; [done|]; unfold uuid_at, index_id; simpl; rewrite lookup_insert, Hob; simpl; split; [done|]; (split; [intros y Hy; by rewrite lookup_insert_ne|]);
    (split; [|done]); intros y; destruct (decide (y = x)) as [->|Hy]; [by rewrite lookup_insert, Hob|by rewrite lookup_insert_ne].
Qed.
Lemma uuid_rekeys s x cls u : wf s -> class_of s x = Some cls -> Reference ∈ c_behs cls -> is_Some (index_id s x) ->
  (forall o, index_at s x !! index_key u = Some o -> o = x) -> exists s', assign_uuid x u s = (Ret tt, s') /\ rekeyed s x u s'.
Proof.
  intros W Hc Hr [i Hi] Hu. destruct (index_known s x i W Hi) as [m Hm]. pose proof (index_at_id s x i m Hi Hm) as Ha. rewrite Ha in Hu.
  destruct (uuid_free s x cls u i m W Hc Hr Hi Hm Hu) as (s' & E & Ml & U1 & U2 & I1 & I2 & C1). exists s'. split; [done|].
  pose proof (mild_calm _ _ Ml) as [Q1 Q2 _ _].
  assert (Ha' : index_at s' x = <[index_key u := x]> (delete (index_key (uuid_at s x)) m)).
  { apply (index_at_id s' x i); [by rewrite I1|]. rewrite I2. by rewrite lookup_insert. }
  constructor; try done.
  - rewrite Ha'. by rewrite lookup_insert.
  - intros Hne. rewrite Ha', lookup_insert_ne by congruence. by rewrite lookup_delete.
  - intros j H1 H2. rewrite Ha', lookup_insert_ne by congruence. rewrite lookup_delete_ne by congruence. by rewrite Ha.
  - intros y Hy. unfold index_at at 1. rewrite I1, Hy. unfold index_at. by rewrite I1.
  - intros y Hy. apply index_at_eq; [done|]. intros j Hj. rewrite I2, lookup_insert_ne; [done|congruence].
  - intros y. split; [done|]. destruct Ml as [D N]. specialize (N y). unfold entries_at, spaces_at.
    destruct (nodes s !! y), (nodes s' !! y); try done. destruct N as (_ & _ & _ & N1 & N2). simpl. by rewrite N1, N2, D.
Qed.

(** * Every step *)
Lemma eqv_obs s s' : eqv s s' -> (forall y, class_of s' y = class_of s y) /\ (forall y, uuid_at s' y = uuid_at s y) /\ (forall y, index_id s' y = index_id s y) /\
  (forall y, entries_at s' y = entries_at s y) /\ (forall y, index_at s' y = index_at s y).
Proof.
  intros Q. assert (I : forall y, index_id s' y = index_id s y) by (intros y; rewrite !ob_index_id; f_equal; by apply fld_eqv).
  split; [intros y; rewrite !ob_class; by apply fld_eqv|]. split; [intros y; rewrite !ob_uuid; f_equal; by apply fld_eqv|]. split; [done|].
  split; [intros y; rewrite !ob_entries; f_equal; by apply fld_eqv|]. intros y. apply index_at_eq; [done|]. by rewrite (e_idxs _ _ Q).
Qed.
Lemma apart_same s s' : wf s -> (forall y, class_of s' y = class_of s y) -> (forall y, entries_at s' y = entries_at s y) -> spaces_apart s -> spaces_apart s'.
Proof. intros W Hc He. apply apart_removed; [done..|]. intros y k v Hin. exists v. by rewrite <- He. Qed.
Lemma tidy_eqv s s' : wf s -> eqv s s' -> tidy_ok s -> tidy_ok s' /\ forall y, listed s' y <-> listed s y.
Proof.
  intros W Q T. destruct (eqv_obs s s' Q) as (H1 & H2 & H3 & H4 & H5). apply (tidy_same s); try done.
  - apply (apart_same s); try done. apply T.
  - intros p k c. unfold child. by rewrite H4.
  - by apply e_idxs.
Qed.
Lemma tidy_set_eqv s s' x k v : eqv s s' -> tidy_set s x k v -> tidy_set s' x k v.
Proof.
  intros Q ((cls & Hc & Hn) & Hf & Hv). destruct (eqv_obs s s' Q) as (H1 & H2 & H3 & H4 & H5).
  split; [exists cls; by rewrite H1|]. split; [intros c; unfold child; rewrite H4; apply Hf|]. intros c ->. destruct (Hv c eq_refl) as (Lx & (L1 & L2 & L3 & L4) & Ht).
  assert (HL : forall y, listed s' y <-> listed s y) by (intros y; by apply listed_eq).
  split; [by apply HL|]. split; [|done]. split; [by apply HL|]. split; [by rewrite H4|]. split.
  - intros p k0. unfold child. rewrite H4. apply L3.
  - intros u. rewrite H2, H5. apply L4.
Qed.

(** reading and assigning *)
Record settling (L : nat -> Prop) (x : nat) (l : list (key * val)) (s : st) : Prop := Settling {
  sl_world : world creatable s;
  sl_tidy : tidy_ok s;
  sl_node : exists_node s x;
  sl_listed : forall y, listed s y <-> L y;
  sl_todo : tidy_sets s x l
}.
Lemma settling_view L x l s : settling L x l s -> exists w, views s !! x = Some w /\ class_of s x = Some (w_cls w) /\ tree_class (c_behs (w_cls w)) = true.
Proof.
  intros [W T Hx _ _]. apply exists_class in Hx as [cls Hc]. destruct (class_view _ _ _ Hc) as (w & Hw & <-). exists w. split; [done|]. split; [done|]. by apply (creatable_trees s W x).
Qed.
Lemma settling_eqv L x l s s' : eqv s s' -> wf s' -> settling L x l s -> settling L x l s'.
Proof.
  intros Q W' [W T Hx HL Hl]. pose proof (eqv_obs s s' Q) as (H1 & _). constructor.
  - by apply (world_eqv _ s).
  - apply (tidy_eqv s); try done. by apply wd_wf in W.
  - by apply (exists_same s).
  - intros y. rewrite <- HL. apply (tidy_eqv s); try done. by apply wd_wf in W.
  - destruct Hl as (H2 & H3 & H4). destruct (eqv_obs s s' Q) as (_ & Hu & _). split; [done|]. split.
    + rewrite (map_ext (uuid_at s') (uuid_at s)); done.
    + eapply Forall_impl; [exact H4|]. intros kv. by apply tidy_set_eqv.
Qed.
Lemma settling_get L x l s k : settling L x l s -> settling L x l (snd (getitem x k s)).
Proof.
  intros G. destruct (settling_view _ _ _ _ G) as (w & Hw & _ & Ht). pose proof (wd_wf _ _ (sl_world _ _ _ _ G)) as W.
  destruct (getitem_eff s x w k W Hw Ht) as (s' & E & Q & W'). rewrite E. by apply (settling_eqv L x l s).
Qed.
Lemma settling_iter L x l s : settling L x l s -> settling L x l (snd (Model.iter x s)).
Proof.
  intros G. destruct (settling_view _ _ _ _ G) as (w & Hw & _ & Ht). pose proof (wd_wf _ _ (sl_world _ _ _ _ G)) as W.
  destruct (iter_eff s x w W Hw Ht) as (s' & E & Q & W'). rewrite E. by apply (settling_eqv L x l s).
Qed.
Lemma set_keeps s x k v : wf s -> known s v -> all_tree_classes s -> exists_node s x -> exists_node (snd (setitem x k v s)) x.
Proof.
  intros W Hv Ha Hx. apply exists_class in Hx as [cls Hc]. pose proof Hc as Hc'. rewrite ob_class in Hc'.
  destruct (setitem_eff s x cls k v W Hc' (Ha _ _ Hc) Hv) as (r & s' & E & F & _). rewrite E. simpl. apply exists_class. exists cls.
  rewrite <- Hc. apply core_obs, F.
Qed.
(** one assignment made, the others are still tidy *)
Lemma set_todo s x k v l : world creatable s -> tidy_ok s -> tidy_sets s x ((k, v) :: l) -> tidy_sets (snd (setitem x k v s)) x l.
Proof.
  intros Wd T (N1 & N2 & HF). pose proof HF as HF0. apply Forall_cons in HF as [Hk HF]. simpl in Hk. apply NoDup_cons in N1 as [N0 N1]. pose proof (wd_wf _ _ Wd) as W.
  pose proof Hk as ((cls & Hc & _) & _ & Hkv). pose proof Hc as Hc'. rewrite ob_class in Hc'. pose proof (creatable_trees s Wd x cls Hc) as Ht.
  assert (Hvk : known s v). { destruct v as [| | | | | | |c| | | |]; try done. destruct (Hkv c eq_refl) as (_ & (Lc & _) & _). by apply listed_exists. }
  destruct (setitem_eff s x cls k v W Hc' Ht Hvk) as (r & s' & E & F & _).
  assert (Hcl : forall y, class_of s' y = class_of s y) by (intros y; apply core_obs, F).
  assert (Hu : forall y, uuid_at s' y = uuid_at s y) by (intros y; apply core_obs, F).
  assert (G : (forall y, listed s' y <-> listed s y) /\ (forall y, y <> x -> entries_at s' y = entries_at s y) /\
    (forall k', k' <> k -> value_at k' (entries_at s' x) = value_at k' (entries_at s x)) /\
    (forall p k' c, child s' p k' c -> child s p k' c \/ v = VNode c) /\
    (forall i y, index_at s' x !! i = Some y -> index_at s x !! i = Some y \/ (v = VNode y /\ i = uuid_at s y))).
  { assert (Hn : (exists c, v = VNode c) \/ forall c, v <> VNode c). { destruct v as [| | | | | | |c| | | |]; first [by right|by left; exists c]. }
    destruct Hn as [[c ->]|Hn].
    - destruct (set_child s x k c Wd T (proj1 Hk) Hk) as (s1 & E1 & _ & _ & [G1 G2 G3 G4 _ _]). rewrite E in E1. injection E1 as -> <-.
      split; [done|]. split; [done|]. split; [|split].
      + intros k' Hk'. rewrite G1, value_at_put by (by apply entries_nodup). by rewrite decide_False.
      + intros p k' c' H. unfold child in *. destruct (decide (p = x)) as [->|Hp]; [|left; by rewrite <- G2].
        rewrite G1, value_at_put in H by (by apply entries_nodup). case_decide; [right; congruence|by left].
      + intros i y [H|[-> ->]]%G4; [by left|by right].
    - destruct (set_other s x k v Wd T Hk Hn) as (_ & _ & G1 & G2 & G3 & G4 & G5). rewrite E in G1, G2, G3, G4, G5. simpl in *.
      split; [done|]. split; [done|]. split; [done|]. split; [intros p k' c H; left; by apply G4|]. intros i y. rewrite G5. by left. }
  destruct G as (G1 & G2 & G3 & G4 & G5). rewrite E. simpl. split; [done|].
  assert (N3 : NoDup (map (uuid_at s) (nodes_among (map snd l)))).
  { simpl in N2. destruct v as [| | | | | | |c| | | |]; simpl in N2; try done. by apply NoDup_cons in N2 as [_ N2]. }
  split; [by rewrite (map_ext (uuid_at s') (uuid_at s))|]. apply Forall_forall. intros [k' v'] Hin. rewrite Forall_forall in HF. specialize (HF _ Hin). simpl in *.
  destruct HF as ((cls' & Hc2 & Hns) & Hf & Hv'). assert (cls' = cls) as -> by congruence.
  assert (Hkk : k' <> k). { intros ->. apply N0. apply elem_of_list_fmap. by exists (k, v'). }
  split; [exists cls; by rewrite Hcl|]. split; [intros c'; unfold child; rewrite G3 by done; apply Hf|]. intros c' ->. destruct (Hv' c' eq_refl) as (Lx & (L1 & L2 & L3 & L4) & Hstr).
  assert (Hcx : c' <> x). { intros ->. destruct L1 as (u & U1 & U2). rewrite (L4 u U1) in U2. done. }
  assert (Hcv : forall c, v = VNode c -> uuid_at s c <> uuid_at s c').
  { intros c -> Huu. simpl in N2. apply NoDup_cons in N2 as [N2 _]. apply N2. apply elem_of_list_fmap. exists c'. split; [done|].
    unfold nodes_among. apply elem_of_list_In, in_flat_map. exists (VNode c'). split; [|by left]. apply elem_of_list_In, elem_of_list_fmap. by exists (k', VNode c'). }
  split; [by apply G1|]. split; [|done]. split; [by apply G1|]. split; [by rewrite G2|]. split.
  - intros p k0 H. apply G4 in H as [H|H]; [by apply (L3 p k0)|]. by apply (Hcv c' H).
  - intros u. rewrite Hu. intros Hu'. destruct (index_at s' x !! Some u) as [y|] eqn:Ey; [|done]. apply G5 in Ey as [Ey|[Hy1 Hy2]]; [rewrite (L4 u Hu') in Ey; done|].
    destruct (Hcv y Hy1). congruence.
Qed.
Lemma settling_set L x l s k v : settling L x ((k, v) :: l) s -> settling L x l (snd (setitem x k v s)).
Proof.
  intros [W T Hx HL Hls]. pose proof Hls as (_ & _ & Hl). apply Forall_cons in Hl as [Hl _]. simpl in Hl.
  pose proof (set_todo s x k v l W T Hls) as Ht. assert (Hn : (exists c, v = VNode c) \/ forall c, v <> VNode c).
  { destruct v as [| | | | | | |c| | | |]; first [by right|by left; exists c]. }
  destruct Hn as [[c ->]|Hn].
  - destruct (set_child s x k c W T) as (s' & E & W' & T' & GF); [apply Hl|done|]. rewrite E in Ht |- *. simpl in *. constructor; try done.
    2:{ intros y. rewrite <- HL. apply GF. }
    pose proof (set_keeps s x k (VNode c) (wd_wf _ _ W)) as H. rewrite E in H. apply H; [|by apply creatable_trees|done].
    destruct Hl as (_ & _ & Hl). destruct (Hl c eq_refl) as (_ & (Lc & _) & _). by apply listed_exists.
  - destruct (set_other s x k v W T Hl Hn) as (W' & T' & HL' & _). constructor; try done.
    2:{ intros y. rewrite <- HL. apply HL'. }
    apply set_keeps; try done; [by apply wd_wf in W|by destruct v as [| | | | | | |c| | | |]; try done; destruct (Hn c)|by apply creatable_trees].
Qed.
Lemma tidy_sets_nil s x : tidy_sets s x [].
Proof. split; [constructor|]. split; constructor. Qed.
Lemma tidy_sets_one s x k v : tidy_set s x k v -> tidy_sets s x [(k, v)].
Proof.
  intros H. split; [apply NoDup_singleton|]. split; [|by apply Forall_singleton]. simpl. destruct v; simpl; first [apply NoDup_nil_2|apply NoDup_singleton].
Qed.
Lemma settling_weak L x l s : settling L x l s -> settling L x [] s.
Proof. intros []. constructor; try done. apply tidy_sets_nil. Qed.

(** deleting *)
Record pruning (x : nat) (cls : classdef) (l : list (key * val)) (s : st) : Prop := Pruning {
  pg_world : world creatable s;
  pg_tidy : tidy_ok s;
  pg_listed : listed s x;
  pg_class : class_of s x = Some cls
}.
Lemma pruning_view x cls l s : pruning x cls l s -> exists w, views s !! x = Some w /\ w_cls w = cls /\ tree_class (c_behs (w_cls w)) = true.
Proof.
  intros [W T _ Hc]. destruct (class_view _ _ _ Hc) as (w & Hw & <-). exists w. split; [done|]. split; [done|]. by apply (creatable_trees s W x).
Qed.
Lemma pruning_eqv x cls l s s' : eqv s s' -> wf s' -> pruning x cls l s -> pruning x cls l s'.
Proof.
  intros Q W' [W T Hx Hc]. pose proof (eqv_obs s s' Q) as (H1 & _). destruct (tidy_eqv s s' (wd_wf _ _ W) Q T) as [T' HL]. constructor; try done.
  - by apply (world_eqv _ s).
  - by apply HL.
  - by rewrite H1.
Qed.
Lemma pruning_get x cls l s k : pruning x cls l s -> pruning x cls l (snd (getitem x k s)).
Proof.
  intros G. destruct (pruning_view _ _ _ _ G) as (w & Hw & _ & Ht). pose proof (wd_wf _ _ (pg_world _ _ _ _ G)) as W.
  destruct (getitem_eff s x w k W Hw Ht) as (s' & E & Q & W'). rewrite E. by apply (pruning_eqv x cls l s).
Qed.
Lemma pruning_iter x cls l s : pruning x cls l s -> pruning x cls l (snd (Model.iter x s)).
Proof.
  intros G. destruct (pruning_view _ _ _ _ G) as (w & Hw & _ & Ht). pose proof (wd_wf _ _ (pg_world _ _ _ _ G)) as W.
  destruct (iter_eff s x w W Hw Ht) as (s' & E & Q & W'). rewrite E. by apply (pruning_eqv x cls l s).
Qed.
Lemma pruning_del x cls s k : ~ to_spaces cls k -> pruning x cls [] s -> pruning x cls [] (snd (delitem x k s)).
Proof.
  intros Hk G. destruct (pruning_view _ _ _ _ G) as (w & Hw & Hwc & Ht). pose proof G as [W T Lx Hc]. pose proof (wd_wf _ _ W) as Wf.
  assert (Hc' : class_of (snd (delitem x k s)) x = Some cls).
  { destruct (delitem_eff s x w k) as (r & s' & E & F & _); try done. { intros _. by apply all_tree_all, creatable_trees. }
    rewrite E. simpl. rewrite <- Hc. apply core_obs, F. }
  assert (Hn : (exists c, child s x k c) \/ forall c, ~ child s x k c).
  { unfold child. destruct (value_at k (entries_at s x)) as [[| | | | | | |c| | | |]|]; first [by right|by left; exists c]. }
  destruct Hn as [[c Hch]|Hn].
  - destruct (delete_child s x k c W T Lx Hch) as (s' & E & W' & T' & P). rewrite E in *. simpl in *. constructor; try done.
    apply (pr_listed _ _ _ _ _ P). split; [done|]. by apply (child_not_below s T x k c).
  - destruct (delete_other s x k W T) as (W' & T' & HL); try done. { by apply listed_exists. } { by exists cls. }
    constructor; try done. by apply HL.
Qed.

Lemma new_listed c name parent s x s' : wf s -> (0 < next_uuid s)%N -> new_eff c name parent s x s' -> tidy_ok s -> tidy_ok s' /\
  forall y, listed s' y <-> listed s y \/ (y = x /\ is_Some (index_id s' x)).
Proof.
  intros W U [Nid Nw Nf No (i & u & Ns & Nr) _ _ _] T.
  assert (Hx : ~ exists_node s x). { intros H. apply views_live in H. rewrite Nf in H. by destruct H. }
  assert (Hsame : forall y, y <> x -> Observe.same_node s s' y) by (intros y Hy; by apply same_node_views, No).
  assert (He : entries_at s' x = []) by (by rewrite (view_entries _ _ _ Ns)).
  assert (He0 : entries_at s x = []). { rewrite ob_entries. unfold fld. by rewrite Nf. }
  assert (Hi : index_id s' x = i) by (by rewrite (view_index _ _ _ Ns)).
  apply (tidy_new s s' x); try done.
  - intros y cls k v Hc Hin. destruct (decide (y = x)) as [->|Hy]; [rewrite He in Hin; by apply elem_of_nil in Hin|].
    destruct (Hsame y Hy) as [E1 _ _ E4 _ _ _ _ _ _]. apply (to_apart s T y cls k v); congruence.
  - intros p k d. unfold child. destruct (decide (p = x)) as [->|Hp]; [by rewrite He, He0|]. by destruct (Hsame p Hp) as [_ _ _ -> _ _ _ _ _ _].
  - intros y Hy. rewrite !ob_class, !ob_uuid, !ob_index_id. unfold fld. by rewrite No.
  - unfold new_index. destruct (hasc Reference (c_behs c)) eqn:Hr.
    + right. destruct Nr as (j & -> & -> & N3 & N4 & _). exists j, (next_uuid s), c. split; [done|]. split; [by rewrite (view_uuid _ _ _ Ns)|]. split; [lia|].
      split; [by rewrite (view_class _ _ _ Ns)|]. split; [by apply hasc_in|]. done.
    + left. destruct Nr as (-> & -> & N3 & _). done.
Qed.
Lemma attrs_listed c x a s s' : wf s -> (0 < next_uuid s)%N -> attrs_eff c x a s s' -> tidy_ok s -> tidy_ok s' /\
  forall y, listed s' y <-> listed s y \/ (y = a /\ is_Some (index_id s' a)).
Proof.
  intros W U [Nw Nf No (w & Hw & Hw') (i & u & Ns & Nr) _ _ _] T.
  assert (Ha : ~ exists_node s a). { intros H. apply views_live in H. rewrite Nf in H. by destruct H. }
  assert (Hax : x <> a) by congruence.
  assert (Ho : forall y, y <> a -> class_of s' y = class_of s y /\ uuid_at s' y = uuid_at s y /\ index_id s' y = index_id s y /\ entries_at s' y = entries_at s y).
  { intros y Hy. rewrite !ob_class, !ob_uuid, !ob_index_id, !ob_entries. unfold fld. destruct (decide (y = x)) as [->|Hne]; [by rewrite Hw, Hw'|by rewrite No]. }
  assert (He : entries_at s' a = []) by (by rewrite (view_entries _ _ _ Ns)).
  assert (He0 : entries_at s a = []). { rewrite ob_entries. unfold fld. by rewrite Nf. }
  assert (Hi : index_id s' a = i) by (by rewrite (view_index _ _ _ Ns)).
  apply (tidy_new s s' a); try done.
  - intros y cls k v Hc Hin. destruct (decide (y = a)) as [->|Hy]; [rewrite He in Hin; by apply elem_of_nil in Hin|].
    destruct (Ho y Hy) as (E1 & _ & _ & E4). apply (to_apart s T y cls k v); congruence.
  - intros p k d. unfold child. destruct (decide (p = a)) as [->|Hp]; [by rewrite He, He0|]. by destruct (Ho p Hp) as (_ & _ & _ & ->).
  - intros y Hy. by destruct (Ho y Hy) as (? & ? & ? & _).
  - unfold new_index. destruct (hasc Reference (c_behs c)) eqn:Hr.
    + right. destruct Nr as (j & -> & -> & N3 & N4 & _). exists j, (next_uuid s), c. split; [done|]. split; [by rewrite (view_uuid _ _ _ Ns)|]. split; [lia|].
      split; [by rewrite (view_class _ _ _ Ns)|]. split; [by apply hasc_in|]. done.
    + left. destruct Nr as (-> & -> & N3 & _). done.
Qed.
Lemma calm_tidy s s' : wf s -> wf s' -> calm s s' -> (forall y, uuid_at s' y = uuid_at s y) -> (forall y, index_id s' y = index_id s y) -> idxs s' = idxs s ->
  tidy_ok s -> tidy_ok s' /\ forall y, listed s' y <-> listed s y.
Proof.
  intros W W' [Hc _ He _] Hu Hi Hx T. apply (tidy_same s); try done.
  - apply (apart_removed s); try done; [|by apply T]. intros y k v Hin. exists v. apply (in_dget _ _ _ (entries_nodup s' y W')) in Hin.
    rewrite <- value_at_spec, He, value_at_spec in Hin. by apply dget_Some_in.
  - intros p k c. unfold child. by rewrite He.
Qed.
Lemma modify_tidy s x f : wf s -> wf (snd (modify x f s)) -> (forall o, o_cls (f o) = o_cls o /\ o_name (f o) = o_name o /\ o_parent (f o) = o_parent o /\ o_storage (f o) = o_storage o /\ o_nodespaces (f o) = o_nodespaces o) ->
  (forall o, o_uuid (f o) = o_uuid o /\ o_index (f o) = o_index o) -> tidy_ok s -> tidy_ok (snd (modify x f s)) /\ forall y, listed (snd (modify x f s)) y <-> listed s y.
Proof.
  intros W W' Hf Hg. apply calm_tidy; try done.
  - by apply mild_calm, mild_modify.
  - intros y. unfold modify. destruct (nodes s !! x) as [o|] eqn:Ho; [|done]. unfold uuid_at. simpl.
    destruct (decide (y = x)) as [->|Hy]; [rewrite lookup_insert, Ho; apply Hg|by rewrite lookup_insert_ne].
  - intros y. unfold modify. destruct (nodes s !! x) as [o|] eqn:Ho; [|done]. unfold index_id. simpl.
    destruct (decide (y = x)) as [->|Hy]; [rewrite lookup_insert, Ho; apply Hg|by rewrite lookup_insert_ne].
  - unfold modify. by destruct (nodes s !! x).
Qed.
Lemma assign_listed s x u n : wf s -> tidy_ok s -> listed s x -> u = Some n -> n <> 0%N -> tidy_ok (snd (assign_uuid x u s)) /\ forall y, listed (snd (assign_uuid x u s)) y <-> listed s y.
Proof.
  intros W T Lx -> Hn. destruct (listed_ref s T x Lx) as (cls & Hc & Hr). destruct (listed_index s x Lx) as (i & m & ux & Hi & Hm & Ha & Hux & Hmx).
  assert (Hk : index_key (Some n) = Some n). { unfold index_key. rewrite bool_decide_eq_false_2; [done|congruence]. }
  destruct (m !! Some n) as [o|] eqn:Eo; [destruct (decide (o = x)) as [->|Hox]|].
  2:{ rewrite (uuid_used s x cls (Some n) o); try done. by rewrite Hk, Ha. }
  all: destruct (uuid_free s x cls (Some n) i m W Hc Hr Hi Hm) as (s' & E & Ml & U1 & U2 & I1 & I2 & C1); [rewrite Hk, Eo; by intros ? [= <-]|];
    rewrite E; simpl; pose proof (mild_calm _ _ Ml) as [Q1 Q2 Q3 _]; rewrite Hk, Hux in I2;
    assert (Hk2 : index_key (Some ux) = Some ux) by
      (unfold index_key; rewrite bool_decide_eq_false_2; [done|]; intros [= ->]; destruct (to_entry s T x _ x Lx ltac:(rewrite Ha; exact Hmx)) as (_ & _ & u & [= <-] & ? & _); done);
    rewrite Hk2 in I2;
    (eapply (tidy_uuid s s' x i m ux n); try done; [by (left + right)| |intros p k c; unfold child; by rewrite Q3]);
    apply (apart_same s); try done; [|by apply T]; intros y; destruct Ml as [D N]; specialize (N y); unfold entries_at;
    destruct (nodes s !! y), (nodes s' !! y); try done; destruct N as (_ & _ & _ & N1 & N2); simpl; by rewrite N1, D.
Qed.

(** * Ordered insertion *)
Lemma insert_tidy before s x n r t : world creatable s -> tidy_ok s -> exists_node s r -> name_at s n = Some (KStr t) -> value_at (KStr t) (entries_at s x) = None -> tidy_set s x (KStr t) (VNode n) ->
  world creatable (snd (insert_at before x n r s)) /\ tidy_ok (snd (insert_at before x n r s)) /\ forall y, listed (snd (insert_at before x n r s)) y <-> listed s y.
Proof.
  intros Wd T [or Hor] Hn Hfree ((cls & Hc & Hns) & _ & Hv). destruct (Hv n eq_refl) as (Lx & HL & _).
  pose proof (wd_wf _ _ Wd) as W. pose proof (new_tree _ (wd_nodes _ _ Wd _ _ Hc)) as Ht. pose proof (tree_class_inv _ Ht) as [_ Hst].
  destruct (lone_joins s x cls n Wd T Hc Lx HL) as (HJ & Href & Hex).
  assert (Hr : name_at s r = Some (o_name or)) by (unfold name_at; by rewrite Hor).
  assert (Hq : forall s', eqv s s' -> wf s' -> world creatable s' /\ tidy_ok s' /\ forall y, listed s' y <-> listed s y).
  { intros s' Q W'. split; [by apply (world_eqv _ s)|]. by apply (tidy_eqv s). }
  destruct (ordering (c_behs cls)) eqn:Hod.
  2:{ destruct (insert_at_other before s x n r cls W Hc Hst Hod) as (e & s' & E & _ & Q & W'). rewrite E. by apply Hq. }
  pose proof (insert_at_eff before s x n r cls (KStr t) (o_name or) W Hc Hst Hod Hn Hr (joins_admitted cls s x n (KStr t) HJ Hn ltac:(done))) as H.
  case_decide as Erk. { destruct H as (s' & E & Q & W'). rewrite E. by apply Hq. }
  destruct (value_at (o_name or) (entries_at s x)) as [vr|] eqn:Evr. 2:{ destruct H as (s' & E & Q & W'). rewrite E. by apply Hq. }
  destruct (insert_works before s x n r cls t _ W Hc Ht Hod Hn Hns Hfree Hr (mk_is_Some _ _ Evr) HJ) as (s' & E' & B & I). rewrite E'. simpl.
  destruct (H Hfree eq_refl) as (s1 & d & _ & _ & W1 & Hv1 & (w & Hw & Hvx) & Hi1 & Hcs1 & Hnu1 & E). rewrite E' in E. symmetry in E.
  assert (Hfi : forall y, fld w_index s1 y = fld w_index s y). { intros y. unfold fld. destruct (decide (y = x)) as [->|Hy]; [by rewrite Hvx, Hw|by rewrite Hv1]. }
  assert (Hc1 : fld w_cls s1 x = Some cls). { rewrite ob_class in Hc. unfold fld in *. rewrite Hw in Hc. by rewrite Hvx. }
  assert (Hxn : n <> x) by (by destruct (HJ Href) as (_ & (? & _) & _)).
  assert (Hex1 : known s1 (VNode n)). { simpl. change (live s1 n). rewrite views_live, Hv1 by done. by apply views_live. }
  destruct (setitem_eff s1 x cls (KStr t) (VNode n) W1 Hc1 Ht Hex1) as (r1 & s2 & E2 & F & _). rewrite E in E2. injection E2 as <- <-.
  assert (Hns' : nskey (c_behs cls) (KStr t) = false) by (by apply nskey_dunder_false).
  pose proof (se_ref _ _ _ _ _ _ _ _ _ _ F n eq_refl (proj2 (hasc_in _ _) Href) Hns' eq_refl) as (i & j & mi & mj & R1 & R2 & R3 & R4 & R5 & R6 & R7).
  destruct (graft s x cls t n s') as (G1 & G2 & G3 & _); try done.
  - apply F.
  - intros k' d'. pose proof (beside_joined before (o_name or) _ _ _ B) as Hin. unfold child. rewrite !value_at_spec.
    pose proof (entries_nodup s x W) as ND. pose proof (entries_nodup s' x (se_wf _ _ _ _ _ _ _ _ _ _ F)) as ND'. split.
    + intros H0%dget_Some_in. apply Hin in H0 as [[= -> ->]|H0]; [by right|]. left. by apply in_dget.
    + intros [H0%dget_Some_in|(-> & ->)]; (apply in_dget; [done|]); apply Hin; [by right|by left].
  - intros k' v' Hin. apply (beside_joined before (o_name or) _ _ _ B) in Hin as [[= -> ->]|Hin]; [by left|]. right. by exists v'.
  - exists i, j, mi, mj. rewrite <- !Hfi, <- Hi1. do 6 (split; [done|]). destruct R7 as [R7|R7]; [left|by right]. intros cls'. unfold fld in *. rewrite <- !Hv1 by done. apply R7.
  - intros y Hy. rewrite <- Hfi. apply (se_ix_other _ _ _ _ _ _ _ _ _ _ F). congruence.
  - rewrite <- Hcs1. apply F.
  - rewrite <- Hnu1. apply F.
Qed.
Lemma insert_end_tidy first s x n t : world creatable s -> tidy_ok s -> name_at s n = Some (KStr t) -> value_at (KStr t) (entries_at s x) = None -> tidy_set s x (KStr t) (VNode n) ->
  world creatable (snd (insert_end first x n s)) /\ tidy_ok (snd (insert_end first x n s)) /\ forall y, listed (snd (insert_end first x n s)) y <-> listed s y.
Proof.
  intros Wd T Hn Hfree HT. pose proof HT as ((cls & Hc & Hns) & _ & _). pose proof (wd_wf _ _ Wd) as W. pose proof (new_tree _ (wd_nodes _ _ Wd _ _ Hc)) as Ht.
  destruct (hasc Order (c_behs cls)) eqn:Hor; [|rewrite (insert_end_other first s x n cls Hc Hor); done].
  destruct (insert_end_eff first s x n cls W Hc Ht Hor) as (s1 & Q1 & W1 & ->).
  assert (Hq : forall s', eqv s s' -> wf s' -> world creatable s' /\ tidy_ok s' /\ (forall y, listed s' y <-> listed s y) /\ name_at s' n = Some (KStr t) /\ value_at (KStr t) (entries_at s' x) = None /\ tidy_set s' x (KStr t) (VNode n)).
  { intros s' Q W'. split; [by apply (world_eqv _ s)|]. destruct (tidy_eqv s s' W Q T) as [T' HL]. split; [done|]. split; [done|]. split; [|split; [|by apply (tidy_set_eqv s)]].
    - pose proof (same_world_eqv _ _ Q) as [Hs _ _]. destruct (Hs n). congruence.
    - destruct (eqv_obs s s' Q) as (_ & _ & _ & He & _). by rewrite He. }
  destruct (Hq s1 Q1 W1) as (Wd1 & T1 & HL1 & Hn1 & Hf1 & HT1). destruct (end_of first (entries_at s x)) as [[rk v]|].
  - pose proof HT1 as ((cls1 & Hc1 & _) & _ & _). destruct (class_view _ _ _ Hc1) as (w1 & Hw1 & Hw1c).
    destruct (getitem_eff s1 x w1 rk W1 Hw1) as (s2 & E2 & Q2 & W2). { rewrite Hw1c. by apply (creatable_trees s1 Wd1 x). }
    destruct (Hq s2 (eqv_trans _ _ _ Q1 Q2) W2) as (Wd2 & T2 & HL2 & Hn2 & Hf2 & HT2).
    unfold bind. rewrite E2. destruct (get_res w1 rk) as [v'|e] eqn:Eg; [|done]. destruct v' as [| | | | | | |r| | | |]; try done.
    destruct (insert_tidy first s2 x n r t Wd2 T2) as (G1 & G2 & G3); try done.
    + destruct (safe_getitem s1 x rk) as (_ & _ & Sf); [apply views_live; by eexists|done|]. rewrite E2 in Sf. exact Sf.
    + split; [done|]. split; [done|]. intros y. rewrite G3. apply HL2.
  - rewrite ob_name in Hn1. destruct (fld_view _ _ _ _ Hn1) as (wn & Hwn & Ewn). rewrite (bind_Ret _ _ _ _ _ (name_of_eff s1 n wn Hwn)), Ewn.
    destruct (set_child s1 x (KStr t) n Wd1 T1 (proj1 HT1) HT1) as (s' & -> & G1 & G2 & GF). split; [done|]. split; [done|]. intros y. rewrite (gf_listed _ _ _ _ _ GF). apply HL1.
Qed.

Lemma tidy_dup s s' : wf s -> duplicate s s' -> tidy_ok s -> tidy_ok s'.
Proof.
  intros W D T. pose proof (dup_below s W) as Hb. pose proof (dup_child s s' W D) as Hch. pose proof (dup_listed s s' W D) as HL.
  assert (Hlo : forall p k c, child s p k c -> exists_node s p /\ exists_node s c).
  { intros p k c H. split; [by apply (holder_exists s p InEntries k c)|by apply (held_exists s W p InEntries k c)]. }
  assert (Hold : forall y, exists_node s y -> index_id s' y = index_id s y) by (intros y Hy; by destruct (dup_same s s' W D y Hy)).
  assert (Hnew : forall y, index_id s' (next_id s + y) = Nat.add (next_id s) <$> index_id s y) by (by apply dup_index_id).
  assert (Hidx : forall y i, index_id s y = Some i -> i < next_id s).
  { intros y i Hi. destruct (index_known s y i W Hi) as [m Hm]. by destruct (wf_idxs _ W _ _ Hm). }
  destruct T as [to_apart to_single [rank R] to_ref to_down to_up to_entry to_root to_str]. constructor.
  - by apply (dup_apart s).
  - intros p k p' k' c [H|(q & d & -> & -> & H)]%Hch [H'|(q' & d' & -> & Ed & H')]%Hch.
    + by apply (to_single p k p' k' c).
    + destruct (Hlo _ _ _ H) as [_ ?%Hb]. lia.
    + destruct (Hlo _ _ _ H') as [_ ?%Hb]. lia.
    + assert (d' = d) as -> by lia. destruct (to_single _ _ _ _ _ H H') as [-> ->]. done.
  - exists (fun z => if decide (z < next_id s) then rank z else rank (z - next_id s)). intros p k c [H|(q & d & -> & -> & H)]%Hch.
    + destruct (Hlo _ _ _ H) as [?%Hb ?%Hb]. rewrite !decide_True by done. by apply (R p k c).
    + rewrite !decide_False by lia. replace (next_id s + d - next_id s) with d by lia. replace (next_id s + q - next_id s) with q by lia. by apply (R q k d).
  - intros x i Hi. destruct (dup_cases s s' D x) as [H|[(y & -> & H)|(H & _)]].
    + rewrite Hold in Hi by done. destruct (dup_same s s' W D x H) as [-> _ _ _ _ _ _ _ _ _]. by apply (to_ref x i).
    + rewrite Hnew in Hi. apply fmap_Some in Hi as (j & Hj & ->). rewrite (mi_class _ _ _ _ (dup_mirrored s s' D y H)). by apply (to_ref y j).
    + destruct (gone_node _ _ H) as (_ & _ & _ & _ & _ & E). congruence.
  - intros p k c Lp [H|(q & d & -> & -> & H)]%Hch.
    + destruct (Hlo _ _ _ H) as [Ep Ec]. rewrite !Hold by done. apply (dup_listed_old s s' W D p Ep) in Lp. destruct (to_down p k c Lp H) as [Lc ->]. split; [|done]. apply HL. by left.
    + destruct (Hlo _ _ _ H) as [Ep Ec]. rewrite !Hnew. apply (dup_listed_new s s' D q Ep) in Lp. destruct (to_down q k d Lp H) as [Lc ->]. split; [|done]. apply HL. right. by exists d.
  - intros p k c Lc [H|(q & d & -> & -> & H)]%Hch.
    + destruct (Hlo _ _ _ H) as [Ep Ec]. rewrite !Hold by done. apply (dup_listed_old s s' W D c Ec) in Lc. destruct (to_up p k c Lc H) as [Lp ->]. split; [|done]. apply HL. by left.
    + destruct (Hlo _ _ _ H) as [Ep Ec]. rewrite !Hnew. apply (dup_listed_new s s' D d Ec) in Lc. destruct (to_up q k d Lc H) as [Lp ->]. split; [|done]. apply HL. right. by exists q.
  - intros x i y [Lx|(x0 & -> & Lx)]%HL Hi; pose proof (listed_node _ _ Lx) as Ex.
    + rewrite (dup_index s s' W D x Ex) in Hi. destruct (to_entry x i y Lx Hi) as (Ly & E & u & Hu). pose proof (listed_node _ _ Ly) as Ey.
      split; [apply HL; by left|]. rewrite !Hold by done. split; [done|]. exists u. by destruct (dup_same s s' W D y Ey) as [_ _ _ _ _ _ _ -> _ _].
    + rewrite (mi_index _ _ _ _ (dup_mirrored s s' D x0 Ex)), lookup_fmap in Hi. apply fmap_Some in Hi as (y0 & Hi & ->).
      destruct (to_entry x0 i y0 Lx Hi) as (Ly & E & u & Hu). split; [apply HL; right; by exists y0|]. rewrite !Hnew, E. split; [done|]. exists u. by rewrite (dup_uuid s s' D).
  - intros x y [Lx|(x0 & -> & Lx)]%HL [Ly|(y0 & -> & Ly)]%HL Ei Tx Ty.
    + rewrite !Hold in Ei by (by eapply listed_node). apply to_root; try done; intros p k H; [apply (Tx p k)|apply (Ty p k)]; apply Hch; by left.
    + exfalso. rewrite Hold, Hnew in Ei by (by eapply listed_node). destruct (index_id s x) as [i|] eqn:Hi.
      * symmetry in Ei. apply fmap_Some in Ei as (j & Hj & ->). apply Hidx in Hi. lia.
      * destruct Lx as (u & _ & H). by rewrite (index_at_none s x Hi) in H.
    + exfalso. rewrite (Hold y), Hnew in Ei by (by eapply listed_node). destruct (index_id s y) as [i|] eqn:Hi.
      * apply fmap_Some in Ei as (j & Hj & ->). apply Hidx in Hi. lia.
      * destruct Ly as (u & _ & H). by rewrite (index_at_none s y Hi) in H.
    + f_equal. rewrite !Hnew in Ei. apply to_root; try done.
      * destruct (index_id s x0) as [i|], (index_id s y0) as [j|]; simpl in Ei; try done. f_equal. injection Ei. lia.
      * intros p k H. apply (Tx (next_id s + p) k). apply Hch. right. by exists p, x0.
      * intros p k H. apply (Ty (next_id s + p) k). apply Hch. right. by exists p, y0.
  - intros p k c [H|(q & d & -> & -> & H)]%Hch; by eapply to_str.
Qed.
Lemma not_volatile bs : VolatileStorageInvalidate ∉ bs -> invalidator bs <> Some Below.
Proof. induction bs as [|b bs IH]; [done|]. rewrite not_elem_of_cons. intros [H1 H2]. destruct b; simpl; try done; by apply IH. Qed.
Lemma basic_tidy_step s o : basic o = true -> world creatable s -> tidy_ok s -> op_ok s o -> tidy s o ->
  wf (snd (run_op o s)) -> ext s (snd (run_op o s)) -> (0 < next_uuid (snd (run_op o s)))%N ->
  world creatable (snd (run_op o s)) /\ tidy_ok (snd (run_op o s)) /\ (drops o = false -> forall y, listed s y -> listed (snd (run_op o s)) y).
Proof.
  intros Hb W T Hok HD W' X U. pose proof (wd_wf _ _ W) as Wf. pose proof (wd_uuid _ _ W) as Wu.
  assert (Hold : (forall y, class_of (snd (run_op o s)) y = class_of s y) -> tidy_ok (snd (run_op o s)) /\ (forall y, listed (snd (run_op o s)) y <-> listed s y) ->
    world creatable (snd (run_op o s)) /\ tidy_ok (snd (run_op o s)) /\ (drops o = false -> forall y, listed s y -> listed (snd (run_op o s)) y)).
  { intros C [T' HL]. split; [|split; [done|]; intros _ y Hy; by apply HL]. apply (world_old creatable s); try done. by apply old_nodes. }
  assert (Hset : forall x, op_target o = Some x -> op_dels o = [] -> op_dels_iterated o = false -> settling (listed s) x (op_sets o) s ->
    world creatable (snd (run_op o s)) /\ tidy_ok (snd (run_op o s)) /\ (drops o = false -> forall y, listed s y -> listed (snd (run_op o s)) y)).
  { intros x Ht Hd Hi G0. assert (G : settling (listed s) x [] (snd (run_op o s))).
    2:{ destruct G as [G1 G2 _ G3 _]. split; [done|]. split; [done|]. intros _ y Hy. by apply G3. }
    apply (lift_op x (settling (listed s) x) (fun _ => False)); try done.
    - intros s1 k. apply settling_get.
    - intros s1 k v. apply settling_get.
    - apply settling_iter.
    - intros l s1 k v. apply settling_set.
    - apply settling_weak.
    - by rewrite Hd.
    - by rewrite Hi. }
  assert (Hdel : forall x cls, op_target o = Some x -> op_sets o = [] -> Forall (fun k => ~ to_spaces cls k) (op_dels o) -> drops o = true -> listed s x -> class_of s x = Some cls ->
    world creatable (snd (run_op o s)) /\ tidy_ok (snd (run_op o s)) /\ (drops o = false -> forall y, listed s y -> listed (snd (run_op o s)) y)).
  { intros x cls Ht Hs Hd Hdr Lx Hc. assert (G : pruning x cls [] (snd (run_op o s)) /\ @nil (key * val) = []).
    2:{ destruct G as [[] _]. split; [done|]. split; [done|]. by rewrite Hdr. }
    apply (lift_op x (fun l s => pruning x cls l s /\ l = []) (fun k => ~ to_spaces cls k)); try done.
    - intros s1 k [G _]. split; [by apply pruning_get|done].
    - intros s1 k v [_ H]. done.
    - intros s1 [G _]. split; [by apply pruning_iter|done].
    - intros l s1 k v [_ H]. done.
    - intros s1 k Hk [G _]. split; [by apply pruning_del|done].
    - intros l s1 [[] ->]. done.
    - intros _ s1 ks [G _] Hks. destruct (pruning_view _ _ _ _ G) as (w & Hw & Hwc & Htc). destruct G as [W1 T1 L1 C1].
      destruct (iter_eff s1 x w (wd_wf _ _ W1) Hw Htc) as (s2 & E & _ & _). rewrite E in Hks. injection Hks as <-. apply Forall_forall. intros k Hk.
      apply elem_of_dkeys in Hk as [v Hv]. apply (to_apart s1 T1 x cls k v); [done|]. by rewrite (view_entries _ _ _ Hw). }
  assert (Hself : forall x, exists_node s x -> settling (listed s) x [] s) by (intros x Hx; constructor; try done; apply tidy_sets_nil).
  destruct o; simpl in Hok, HD; try done;
    try (by (apply (Hset x); [done|done|done|apply Hself; tauto])).
  - (* ONew *) clear Hold Hset Hdel. simpl in *. rewrite !snd_ignore in *. destruct (classes s !! cn) as [c|] eqn:Ec.
    + destruct (new_node_eff s cn c name parent Wf Ec) as (x & s1 & E1 & N).
      { by apply (wd_table _ _ W cn). } { done. } { by apply wd_uuid in W. }
      rewrite E1 in *. simpl in *. split; [eapply world_new; [exact N|by apply (wd_table _ _ W cn)|done..]|]. destruct (new_listed _ _ _ _ _ _ Wf Wu N T) as [T1 HL]. split; [done|]. intros _ y Hy. apply HL. by left.
    + assert (E : snd (new_node cn name parent s) = s); [|by rewrite E]. unfold new_node. cbn [instantiate]. unfold bind at 1, get_class. by rewrite Ec.
  - (* OSet *) apply (Hset x); try done. constructor; try done; [by apply Hok|by apply tidy_sets_one].
  - (* ODel *) destruct HD as [Lx (cls & Hc & Hk)]. apply (Hdel x cls); try done. simpl. by apply Forall_singleton.
  - (* ODetach *) destruct HD as (Lx & _ & c & Hc). simpl. rewrite snd_ignore. destruct (detach_child s x k c W T Lx Hc) as (s' & E & W1 & T1 & UR). rewrite E. split; [done|]. split; [done|]. intros _ y Hy. by apply UR.
  - (* OUpdate *) apply (Hset x); try done. constructor; try done. by apply Hok.
  - (* OSetdefault *) apply (Hset x); try done. constructor; try done; [by apply Hok|by apply tidy_sets_one].
  - (* OPop *) destruct HD as [Lx (cls & Hc & Hk)]. apply (Hdel x cls); try done. simpl. by apply Forall_singleton.
  - (* OPopitem *) destruct (listed_ref s T x HD) as (cls & Hc & _). apply (Hdel x cls); try done; simpl; by apply Forall_nil_2.
  - (* OClear *) destruct (listed_ref s T x HD) as (cls & Hc & _). apply (Hdel x cls); try done; simpl; by apply Forall_nil_2.
  - (* OAttrs *) clear Hold Hset Hdel. simpl in *. rewrite !snd_ignore in *. apply views_live in Hok as [w Hw].
    destruct (with_attrs (c_behs (w_cls w))) eqn:Ea.
    2:{ destruct (attrs_refused s x w Wf Hw Ea) as (e & s1 & E & Q & W1). rewrite E in *. simpl. split; [by apply (world_eqv _ s)|]. destruct (tidy_eqv s s1 Wf Q T) as [T1 HL]. split; [done|]. intros _ y Hy. by apply HL. }
    destruct (dget attrs_key (w_ns w)) as [v|] eqn:Ev.
    + destruct (attrs_found s x w v Wf Hw Ea Ev) as (s1 & E & Q & W1). rewrite E in *. simpl. split; [by apply (world_eqv _ s)|]. destruct (tidy_eqv s s1 Wf Q T) as [T1 HL]. split; [done|]. intros _ y Hy. by apply HL.
    + destruct (classes s !! c_attrs_factory (w_cls w)) as [c|] eqn:Ec.
      * pose proof (wd_table _ _ W _ _ Ec) as Hc. destruct (attrs_missing s x w c Wf Hw Ea Ev Ec) as (a & s1 & E & A); [apply Hc|done|].
        rewrite E in *. simpl in *. split; [by eapply world_attrs|]. destruct (attrs_listed _ _ _ _ _ Wf Wu A T) as [T1 HL]. split; [done|]. intros _ y Hy. apply HL. by left.
      * destruct (attrs_no_class s x w Wf Hw Ea Ev Ec) as (e & s1 & E & Q & W1). rewrite E in *. simpl. split; [by apply (world_eqv _ s)|]. destruct (tidy_eqv s s1 Wf Q T) as [T1 HL]. split; [done|]. intros _ y Hy. by apply HL.
  - (* OSwap *) destruct Hok as (H1 & H2 & H3). apply exists_class in H1 as [cls Hc]. pose proof (creatable_trees s W x cls Hc) as Ht.
    simpl in *. destruct (swap x a b s) as [r s'] eqn:E. simpl in *. pose proof (swap_calm s x a b cls r s' Wf W' Hc Ht H2 H3 E) as Cm. apply Hold; [apply Cm|].
    destruct H2 as [oa Hoa], H3 as [ob Hob]. pose proof (tree_class_inv _ Ht) as [_ Hst].
    destruct (ordering (c_behs cls)) eqn:Hod.
    2:{ destruct (swap_other s x a b cls Wf Hc Hst Hod) as (s1 & E1 & Q & _). rewrite E in E1. injection E1 as -> <-. by apply (tidy_eqv s). }
    destruct (swap_eff s x a b cls (o_name oa) (o_name ob) Wf Hc Hst Hod) as (r1 & s1 & E1 & _ & HE); [unfold name_at; by rewrite Hoa|unfold name_at; by rewrite Hob|].
    rewrite E in E1. injection E1 as <- <-.
    assert (Hq : eqv s s' \/ exists s1, eqv s s1 /\ wrote SStorage x (dswap (o_name oa) (o_name ob) (entries_at s x)) s1 s').
    { destruct (value_at (o_name oa) (entries_at s x)); [|left; apply HE]. destruct (value_at (o_name ob) (entries_at s x)); [|left; apply HE].
      destruct (decide (o_name oa = o_name ob)); [left; apply HE|]. right. apply HE. }
    destruct Hq as [Q|(s1 & Q & [(w & Hw & Hv) Hx _ _ _ _])]; [by apply (tidy_eqv s)|].
    destruct (eqv_obs s s1 Q) as (Q1 & Q2 & Q3 & _). apply (calm_tidy s); try done.
    + intros y. rewrite <- Q2, !ob_uuid. unfold fld. rewrite Hv. destruct (decide (y = x)) as [->|Hy]; [by rewrite lookup_insert, Hw|by rewrite lookup_insert_ne].
    + intros y. rewrite <- Q3, !ob_index_id. unfold fld. rewrite Hv. destruct (decide (y = x)) as [->|Hy]; [by rewrite lookup_insert, Hw|by rewrite lookup_insert_ne].
    + rewrite Hx. by apply e_idxs.
  - (* OInsertAt *) destruct HD as (t & Hn & Hfr & HT). simpl in *. destruct (insert_tidy before s x n r t W T) as (G1 & G2 & G3); try done; [apply Hok|].
    split; [done|]. split; [done|]. intros _ y Hy. by apply G3.
  - (* OInsertEnd *) destruct HD as (t & Hn & Hfr & HT). simpl in *. destruct (insert_end_tidy first s x n t W T Hn Hfr HT) as (G1 & G2 & G3).
    split; [done|]. split; [done|]. intros _ y Hy. by apply G3.
  - (* OSetUuid *) destruct HD as (Lx & n & -> & Hn). apply Hold; [apply mild_calm, mild_assign_uuid|]. by apply (assign_listed s x (Some n) n).
  - (* OSetAllow *) apply Hold; [apply mild_calm; by apply mild_modify|]. by apply modify_tidy.
  - (* OSetFallback *) apply Hold; [apply mild_calm; by apply mild_modify|]. by apply modify_tidy.
  - (* OPath *) simpl. rewrite !snd_ignore. rewrite !ro_path. split; [done|]. split; [done|]. intros _ y Hy. exact Hy.
  - (* ORoot *) simpl. rewrite !snd_ignore. rewrite !ro_root. split; [done|]. split; [done|]. intros _ y Hy. exact Hy.
Qed.
Lemma tidy_step s o : world creatable s -> tidy_ok s -> op_ok s o -> tidy s o ->
  wf (snd (run_op o s)) -> ext s (snd (run_op o s)) -> (0 < next_uuid (snd (run_op o s)))%N ->
  world creatable (snd (run_op o s)) /\ tidy_ok (snd (run_op o s)) /\ (drops o = false -> forall y, listed s y -> listed (snd (run_op o s)) y).
Proof.
  intros W T Hok HD W' X U. destruct (basic o) eqn:Hb; [by apply basic_tidy_step|]. pose proof (wd_wf _ _ W) as Wf. destruct o; try done.
  - (* OInvalidate *) simpl in Hok. destruct HD as (Lx & Hk & Hv). pose proof Hok as Hx. apply exists_class in Hx as [cls Hc].
    pose proof (inval_eff s x cls k Wf Hc (creatable_trees s W x cls Hc)) as E. pose proof (not_volatile _ (Hv cls Hc)) as Hnv. destruct (invalidator (c_behs cls)) as [[|]|]; [|done|].
    + assert (E' : run_op (OInvalidate x k) s = run_op (stands_for x k) s) by exact E. rewrite E' in *.
      destruct (basic_tidy_step s (stands_for x k)) as (S1 & S2 & _); try done.
      * apply stands_basic.
      * unfold stands_for; by case_decide.
      * unfold stands_for. case_decide; simpl; [done|]. split; [done|]. by destruct Hk.
    + cbn [run_op]. rewrite E. split; [done|]. split; [done|]. intros _ y Hy. exact Hy.
  - (* ODeepcopy *) simpl in Hok. pose proof Hok as Hx. apply exists_class in Hx as [cls Hc]. pose proof (wd_nodes _ _ W _ _ Hc) as Hn.
    destruct (deep_eff s x Wf) as (s' & E & D & _).
    assert (E' : run_op (ODeepcopy x) s = (Ret tt, s')).
    { cbn [run_op]. unfold ignore. erewrite bind_Ret; [|by eapply deepcopy_is_deep, new_no_uuid]. done. }
    rewrite E' in *. cbn [snd] in *. split; [by apply (world_dup _ s)|]. split; [by apply (tidy_dup s)|]. intros _ y Hy. apply (dup_listed s s' Wf D). by left.
  - (* OPlace *) destruct Hok as [Hx Hp]. destruct (place_eff s x k p Hx) as (s' & E & [H1 H2 _ H3 H4 _ _ _ H6 H7 H8]). rewrite E in *. cbn [snd] in *.
    split; [by apply (world_same _ s)|]. destruct (tidy_same s s') as [G1 G2]; try done.
    + apply (apart_step s); [done| |by apply T]. intros y cls k' v _ Hin. left. exists v. by rewrite <- H2.
    + intros q k' c. unfold child. by rewrite H2.
    + split; [done|]. intros _ y Hy. by apply G2.
Qed.

Lemma tidy_empty cs : tidy_ok (St ∅ ∅ ∅ 0 1 [] (-1) cs).
Proof.
  assert (He : forall x, entries_at (St ∅ ∅ ∅ 0 1 [] (-1) cs) x = []) by (intros x; unfold entries_at; simpl; by rewrite lookup_empty).
  assert (Hc : forall p k c, ~ child (St ∅ ∅ ∅ 0 1 [] (-1) cs) p k c) by (intros p k c H; unfold child in H; by rewrite He in H).
  assert (HL : forall x, ~ listed (St ∅ ∅ ∅ 0 1 [] (-1) cs) x) by (intros x (u & H & _); unfold uuid_at in H; simpl in H; by rewrite lookup_empty in H).
  constructor.
  - intros x cls k v _ H. rewrite He in H. by apply elem_of_nil in H.
  - intros p k p' k' c H. by destruct (Hc p k c).
  - exists (fun _ => 0). intros p k c H. by destruct (Hc p k c).
  - intros x i H. unfold index_id in H. simpl in H. by rewrite lookup_empty in H.
  - intros p k c H. by destruct (HL p).
  - intros p k c H. by destruct (HL c).
  - intros x i y H. by destruct (HL x).
  - intros x y H. by destruct (HL x).
  - intros p k c H. by destruct (Hc p k c).
Qed.
Theorem grown_tidy s : grown creatable tidy s -> world creatable s /\ tidy_ok s.
Proof.
  induction 1 as [cs Hcs|s o r s' G [W T] Hok HD E].
  - split; [constructor; try done; apply wf_empty|apply tidy_empty].
  - assert (R : reach s') by (eapply reach_step; [by apply (grown_reach creatable tidy)|done|done]).
    destruct (safe_run_op s o Hok (wd_wf _ _ W)) as (_ & X & _). rewrite E in X.
    pose proof (tidy_step s o W T Hok HD) as S. rewrite E in S. simpl in S. destruct S as (S1 & S2 & _); [by apply reach_wf|done|by apply reach_uuid|done].
Qed.

(** Listed nodes stay listed unless something is deleted. *)
Theorem stays_listed s o r s' x : grown creatable tidy s -> op_ok s o -> tidy s o -> drops o = false -> run_op o s = (r, s') -> listed s x -> listed s' x.
Proof.
  intros G Hok HD Hd E Lx. destruct (grown_tidy s G) as [W T].
  assert (R : reach s') by (eapply reach_step; [by apply (grown_reach creatable tidy)|done|done]).
  destruct (safe_run_op s o Hok (wd_wf _ _ W)) as (_ & X & _). rewrite E in X.
  pose proof (tidy_step s o W T Hok HD) as S. rewrite E in S. simpl in S. destruct S as (_ & _ & S); [by apply reach_wf|done|by apply reach_uuid|]. by apply S.
Qed.

(** * Lookup *)
Lemma node_lookup s x u r : wf s -> listed s x -> index_at s x !! Some u = r ->
  node_by_uuid x (Some u) s = (Ret (match r with Some y => VNode y | None => VNone end), s).
Proof.
  intros W Lx H. destruct (listed_index s x Lx) as (i & m & ux & Hi & Hm & Ha & _ & _). rewrite Ha in H.
  unfold node_by_uuid, index_of. unfold index_id in Hi. destruct (nodes s !! x) as [ob|] eqn:Hob; [|done]. simpl in Hi.
  unfold bind at 1. rewrite (bind_load _ _ _ _ Hob), Hi. simpl. unfold bind, read_idx. rewrite Hm. simpl. by rewrite H.
Qed.
Lemma node_unknown s x u : wf s -> listed s x -> index_at s x !! Some u = None ->
  node_by_uuid x (Some u) s = (Ret VNone, s) /\ index_item x (Some u) s = (Exc (KeyError (KInt (Z.of_N u))), s).
Proof.
  intros W Lx H. split; [by apply (node_lookup s x u None)|]. destruct (listed_index s x Lx) as (i & m & ux & Hi & Hm & Ha & _ & _). rewrite Ha in H.
  unfold index_item, index_of. unfold index_id in Hi. destruct (nodes s !! x) as [ob|] eqn:Hob; [|done]. simpl in Hi.
  unfold bind at 1. rewrite (bind_load _ _ _ _ Hob), Hi. simpl. unfold bind, read_idx. rewrite Hm. simpl. by rewrite H.
Qed.
Lemma index_exact_none s x u : wf s -> tidy_ok s -> listed s x -> (forall y, same_tree s x y -> uuid_at s y <> Some u) -> index_at s x !! Some u = None.
Proof.
  intros W T Lx H. destruct (index_at s x !! Some u) as [y|] eqn:E; [|done]. apply (index_exact s x (Some u) y W T Lx) in E as (u' & [= <-] & Hu & St).
  by destruct (H y St).
Qed.
Lemma created_listed s cn cls name parent : world creatable s -> tidy_ok s -> classes s !! cn = Some cls -> Reference ∈ c_behs cls ->
  (forall p, parent = Some p -> exists_node s p) -> exists x s', new_node cn name parent s = (Ret x, s') /\ listed s' x /\ ~ exists_node s x.
Proof.
  intros Wd T Ec Hr Hp. pose proof (wd_wf _ _ Wd) as W. pose proof (wd_uuid _ _ Wd) as U.
  destruct (new_node_eff s cn cls name parent W Ec) as (x & s1 & E1 & N); try done. { by apply (wd_table _ _ Wd cn). }
  exists x, s1. split; [done|]. destruct (new_listed _ _ _ _ _ _ W U N T) as [_ HL]. destruct N as [_ _ Nf _ (i & u & Ns & Nr) _ _ _]. split.
  - apply HL. right. split; [done|]. rewrite (view_index _ _ _ Ns). simpl. rewrite (proj2 (hasc_in _ _) Hr) in Nr. destruct Nr as (j & -> & _). by eexists.
  - intros H. apply views_live in H. rewrite Nf in H. by destruct H.
Qed.
Lemma refused_iff s x n : world creatable s -> tidy_ok s -> listed s x -> n <> 0%N ->
  (exists y, y <> x /\ same_tree s x y /\ uuid_at s y = Some n) <->
  fst (assign_uuid x (Some n) s) = Exc (ValueError "Given uuid was already used for another Node").
Proof.
  intros Wd T Lx Hn. pose proof (wd_wf _ _ Wd) as W. destruct (listed_ref s T x Lx) as (cls & Hc & Hr). destruct (listed_index s x Lx) as (i & m & ux & Hi & _).
  assert (Hk : index_key (Some n) = Some n). { unfold index_key. rewrite bool_decide_eq_false_2; [done|congruence]. }
  split.
  - intros (y & Hy & St & Hu). rewrite (uuid_used s x cls (Some n) y); try done. rewrite Hk. apply (index_exact s x (Some n) y W T Lx). by exists n.
  - intros E. destruct (index_at s x !! Some n) as [y|] eqn:Ey; [destruct (decide (y = x)) as [->|Hy]|].
    + destruct (uuid_rekeys s x cls (Some n)) as (s' & E' & _); try done. { rewrite Hk, Ey. congruence. } by rewrite E' in E.
    + apply (index_exact s x (Some n) y W T Lx) in Ey as (u & [= <-] & Hu & St). by exists y.
    + destruct (uuid_rekeys s x cls (Some n)) as (s' & E' & _); try done. { rewrite Hk, Ey. done. } by rewrite E' in E.
Qed.

(** A deep copy is a tree of its own with an index of its own. *)
Lemma deepcopy_found s x : grown creatable tidy s -> copyable s -> listed s x ->
  exists f s', deepcopy x s = (Ret (f x), s') /\ grown creatable tidy s' /\
    forall y u, same_tree s x y -> uuid_at s y = Some u ->
      ~ exists_node s (f y) /\ uuid_at s' (f y) = Some u /\ same_tree s' (f x) (f y) /\
      node_by_uuid (f x) (Some u) s' = (Ret (VNode (f y)), s') /\ node_by_uuid x (Some u) s' = (Ret (VNode y), s').
Proof.
  intros G C Lx. destruct (grown_tidy s G) as [W T]. pose proof (wd_wf _ _ W) as Wf. pose proof (listed_node _ _ Lx) as Ex.
  destruct (deep_eff s x Wf) as (s' & E & D & W'). specialize (W' Ex).
  assert (Hd : deepcopy x s = (Ret (next_id s + x), s')).
  { destruct (class_of s x) as [cls|] eqn:Hc; [|destruct Ex as [o Ho]; unfold class_of in Hc; by rewrite Ho in Hc].
    eapply deepcopy_is_deep; [exact Hc|exact E|]. apply new_no_uuid. by apply (wd_nodes _ _ W x). }
  assert (G' : grown creatable tidy s').
  { eapply (grown_step creatable tidy s (ODeepcopy x) (Ret tt)); [exact G|exact Ex|exact C|]. cbn [run_op]. unfold ignore. by erewrite bind_Ret; [|exact Hd]. }
  exists (Nat.add (next_id s)), s'. split; [exact Hd|]. split; [exact G'|]. destruct (grown_tidy s' G') as [W2 T2].
  intros y u St Hu. assert (Lf : listed s' (next_id s + x)) by (by apply (dup_listed_new s s' D)).
  assert (Lo : listed s' x) by (by apply (dup_listed_old s s' Wf D)).
  assert (Hi : index_at s x !! Some u = Some y) by (apply (index_exact s x (Some u) y Wf T Lx); by exists u).
  assert (Hi' : index_at s' (next_id s + x) !! Some u = Some (next_id s + y)).
  { rewrite (mi_index _ _ _ _ (dup_mirrored s s' D x Ex)), lookup_fmap, Hi. done. }
  split; [intros Hy; apply (dup_below s Wf) in Hy; lia|]. split; [by rewrite (dup_uuid s s' D)|].
  split; [by apply (index_exact s' _ (Some u) (next_id s + y) (wd_wf _ _ W2) T2 Lf) in Hi' as (? & _ & _ & ?)|].
  split; [exact (node_lookup s' _ u _ (wd_wf _ _ W2) Lf Hi')|].
  apply (node_lookup s' x u (Some y) (wd_wf _ _ W2) Lo). by rewrite (dup_index s s' Wf D x Ex).
Qed.
