(** Proofs about Order. *)
From Verif Require Import Py Odict OdictFacts Aliaser Heap Model MonadFacts WF WFOps Views SpecMapping
  MappingProofs StorageProofs Observe TreeOps SetEff DelEff DetachEff ObserveFacts SpecTree MappingProps SpecOrder.
From stdpp Require Import list.

(** * The dictionary *)
Lemma dinsert_beside (before : bool) ref k (v : val) d : is_Some (dget ref d) ->
  beside before ref (k, v) d (if before then dinsert_before ref k v d else dinsert_after ref k v d).
Proof.
  induction d as [|[k' v'] d IH]; simpl; [by intros [? ?]|]. case_decide as E.
  - subst k'. intros _. exists [], v', d. by destruct before.
  - intros H. destruct (IH H) as (l1 & v0 & l2 & -> & E'). exists ((k', v') :: l1), v0, l2. split; [done|].
    destruct before; simpl; by rewrite E'.
Qed.
Lemma beside_dget before ref k v d d' : k ∉ dkeys d -> k <> ref -> beside before ref (k, v) d d' -> dget k d' = Some v.
Proof.
  intros Hk Hne (l1 & v0 & l2 & -> & ->). rewrite dkeys_app in Hk. apply not_elem_of_app in Hk as [H1 _].
  assert (H : forall r, dget k (l1 ++ r) = dget k r).
  { intros r. clear -H1. induction l1 as [|[k' v'] l1 IH]; [done|]. simpl in *. apply not_elem_of_cons in H1 as [? ?]. rewrite decide_False by done. by apply IH. }
  destruct before; rewrite H; simpl; [by rewrite decide_True|]. by rewrite decide_False, decide_True.
Qed.
Lemma dset_same k (v : val) d : dget k d = Some v -> dset k v d = d.
Proof. induction d as [|[k' v'] d IH]; simpl; [done|]. case_decide as E; [intros [= ->]; by subst|]. intros H. by rewrite IH. Qed.

Lemma dget_lookup k (v : val) d : NoDup (dkeys d) -> dget k d = Some v -> exists i, d !! i = Some (k, v).
Proof. intros _ H. apply dget_Some_in in H. by apply elem_of_list_lookup in H. Qed.
Lemma nodup_key (d : list (key * val)) i j k v v' : NoDup (dkeys d) -> d !! i = Some (k, v) -> d !! j = Some (k, v') -> i = j.
Proof.
  intros ND Hi Hj. eapply NoDup_lookup; [exact ND| |]; unfold dkeys; rewrite list_lookup_fmap.
  - by rewrite Hi.
  - by rewrite Hj.
Qed.
Lemma dswap_exchanged a b (va vb : val) d i j : NoDup (dkeys d) -> a <> b -> d !! i = Some (a, va) -> d !! j = Some (b, vb) ->
  exchanged i j d (dswap a b d).
Proof.
  intros ND Hne Hi Hj. unfold dswap.
  rewrite (in_dget a va d ND), (in_dget b vb d ND) by (by eapply elem_of_list_lookup_2).
  split; [apply map_length|]. split; [|split].
  - rewrite list_lookup_fmap, Hi, Hj. simpl. by rewrite decide_True.
  - rewrite list_lookup_fmap, Hi, Hj. simpl. by rewrite decide_False, decide_True.
  - intros m Hmi Hmj. rewrite list_lookup_fmap. destruct (d !! m) as [[k v]|] eqn:Em; [|done]. simpl.
    rewrite decide_False, decide_False; [done| |]; intros ->; [apply Hmj|apply Hmi]; by eapply nodup_key.
Qed.

(** * Writing the storage of [x] *)
Lemma ent_obs s x w : views s !! x = Some w -> entries_at s x = w_ent w.
Proof. intros Hw. rewrite ob_entries. unfold fld. by rewrite Hw. Qed.
Lemma name_of_eff s x w : views s !! x = Some w -> name_of x s = (Ret (w_name w), s).
Proof. intros Hw. destruct (load_view _ _ _ Hw) as (o & Hl & _ & <-). unfold name_of. by rewrite (bind_Ret _ _ _ _ _ Hl). Qed.

Lemma write_slot s x o a l d : wf s -> nodes s !! x = Some o -> get_slot a o = Some l -> is_Some (dicts s !! l) ->
  NoDup (dkeys d) -> Forall (eok s) d ->
  exists s', write_dict l d s = (Ret tt, s') /\ wf s' /\ wrote a x d s s'.
Proof.
  intros W Ho Hs Hd ND HF. pose proof (safe_write_dict s l d Hd ND HF W) as (W' & _ & _). unfold write_dict in *.
  eexists. split; [reflexivity|]. split; [exact W'|]. constructor; try done.
  exists (view_of s x o). split; [by apply nodes_views|]. by apply views_write_dict.
Qed.

(** * Where the methods of Order work *)
Definition ordering (bs : list behavior) : bool := hasc Order bs && keeps_order bs.
Lemma orders_ordering cls : orders cls -> ordering (c_behs cls) = true.
Proof.
  intros (H1 & H2 & H3). unfold ordering. rewrite (proj2 (hasc_in _ _) H1). simpl. clear H1. induction (c_behs cls) as [|b bs IH]; [by apply elem_of_nil in H2|].
  apply not_elem_of_cons in H3 as [Hn H3]. apply elem_of_cons in H2 as [<-|H2]; [done|]. destruct b; try done; simpl; auto.
Qed.
Lemma load_cls s x w : views s !! x = Some w -> exists o, load x s = (Ret o, s) /\ o_cls o = w_cls w.
Proof. intros Hw. destruct (load_view _ _ _ Hw) as (o & Hl & _ & <-). by exists o. Qed.
Lemma ordering_inv bs : ordering bs = true -> hasc Order bs = true /\ keeps_order bs = true.
Proof. apply andb_prop. Qed.
Lemma order_yes {A} s x w (m : M A) : views s !! x = Some w -> hasc Order (c_behs (w_cls w)) = true -> order_method x m s = m s.
Proof. intros Hw H. destruct (load_cls _ _ _ Hw) as (o & Hl & Hc). unfold order_method. rewrite (bind_Ret _ _ _ _ _ Hl). unfold has. rewrite Hc. unfold hasc in H. by rewrite H. Qed.
Lemma order_no {A} s x w (m : M A) : views s !! x = Some w -> hasc Order (c_behs (w_cls w)) = false -> order_method x m s = (Exc AttributeError, s).
Proof. intros Hw H. destruct (load_cls _ _ _ Hw) as (o & Hl & Hc). unfold order_method. rewrite (bind_Ret _ _ _ _ _ Hl). unfold has. rewrite Hc. unfold hasc in H. by rewrite H. Qed.
Lemma odict_of_eff s x w : wf s -> views s !! x = Some w -> storage_class (c_behs (w_cls w)) = true ->
  exists l s', odict_of x s = (if keeps_order (c_behs (w_cls w)) then Ret l else Exc AttributeError, s') /\ eqv s s' /\ wf s'
    /\ exists o', nodes s' !! x = Some o' /\ get_slot SStorage o' = Some l /\ o_cls o' = w_cls w.
Proof.
  intros W Hw Hst. destruct (storage_slot s x w W Hw Hst) as (l & s1 & E1 & Q1 & W1 & Ho). destruct (load_cls _ _ _ Hw) as (o & Hl & Hc).
  exists l, s1. split; [|done]. unfold odict_of, own_storage. rewrite (bind_Ret _ _ _ _ _ Hl). rewrite bind_assoc, (bind_Ret _ _ _ _ _ Hl).
  unfold has. rewrite Hc. unfold storage_class, hasc in Hst. rewrite Hst. rewrite (bind_Ret _ _ _ _ _ E1). by destruct (keeps_order _).
Qed.
Lemma odict_slot s x w : wf s -> views s !! x = Some w -> storage_class (c_behs (w_cls w)) = true -> keeps_order (c_behs (w_cls w)) = true ->
  exists l s', odict_of x s = (Ret l, s') /\ eqv s s' /\ wf s'
    /\ exists o', nodes s' !! x = Some o' /\ get_slot SStorage o' = Some l /\ o_cls o' = w_cls w.
Proof. intros W Hw Hst Hk. destruct (odict_of_eff s x w W Hw Hst) as (l & s1 & E1 & H). rewrite Hk in E1. eauto. Qed.

(** * swap *)
Lemma swap_eff s x a b cls ka kb : wf s -> class_of s x = Some cls -> storage_class (c_behs cls) = true -> ordering (c_behs cls) = true ->
  name_at s a = Some ka -> name_at s b = Some kb ->
  exists r s', swap x a b s = (r, s') /\ wf s' /\
  match value_at ka (entries_at s x), value_at kb (entries_at s x) with
  | Some va, Some vb => if decide (ka = kb) then r = Exc (ValueError "Swap keys are equal") /\ eqv s s'
      else r = Ret tt /\ exists s1, eqv s s1 /\ wrote SStorage x (dswap ka kb (entries_at s x)) s1 s'
  | va, _ => r = Exc (if decide (ka = kb) then ValueError "Swap keys are equal" else KeyError (if va then kb else ka)) /\ eqv s s'
  end.
Proof.
  intros W Hc Hst [Hor Hko]%ordering_inv Ha Hb. destruct (class_view _ _ _ Hc) as (w & Hw & Hwc).
  rewrite ob_name in Ha, Hb. destruct (fld_view _ _ _ _ Ha) as (wa & Hwa & <-). destruct (fld_view _ _ _ _ Hb) as (wb & Hwb & <-).
  destruct (odict_slot s x w W Hw) as (l & s1 & E1 & Q1 & W1 & o1 & Ho1 & Hs1 & Ho1c); [by rewrite Hwc..|].
  unfold swap. rewrite (order_yes s x w) by (by rewrite ?Hwc). rewrite (bind_Ret _ _ _ _ _ E1). rewrite (bind_Ret _ _ _ _ _ (name_of_eff s1 a wa (eqv_view _ _ _ _ Q1 Hwa))).
  rewrite (bind_Ret _ _ _ _ _ (name_of_eff s1 b wb (eqv_view _ _ _ _ Q1 Hwb))). unfold odict_swap.
  assert (Hd : dicts s1 !! l = Some (entries_at s x)).
  { rewrite (slot_dict s1 x o1 SStorage l W1 Ho1 Hs1). pose proof (nodes_views _ _ _ Ho1) as Hv. rewrite (eqv_view _ _ _ _ Q1 Hw) in Hv.
    injection Hv as <-. by rewrite (ent_obs _ _ _ Hw). }
  case_decide as Eab.
  { exists (Exc (ValueError "Swap keys are equal")), s1. split; [done|]. split; [done|].
    destruct (value_at (w_name wa) (entries_at s x)), (value_at (w_name wb) (entries_at s x)); rewrite ?decide_True by done; done. }
  unfold bind, read_dict. rewrite Hd. rewrite !value_at_spec. destruct (dget (w_name wa) (entries_at s x)) as [va|] eqn:Eva; [|by eexists _, s1].
  destruct (dget (w_name wb) (entries_at s x)) as [vb|] eqn:Evb; [|by eexists _, s1].
  destruct (write_slot s1 x o1 SStorage l (dswap (w_name wa) (w_name wb) (entries_at s x)) W1 Ho1 Hs1 (mk_is_Some _ _ Hd)) as (s2 & E2 & W2 & Wr).
  - apply NoDup_dswap. by apply entries_nodup.
  - destruct (wf_dicts _ W1 _ _ Hd) as (_ & _ & F). rewrite Forall_forall in F. unfold dswap. rewrite Eva, Evb. apply Forall_forall. intros e He.
    apply elem_of_list_In, in_map_iff in He as ([k v] & <- & He). apply elem_of_list_In in He. simpl.
    apply dget_Some_in in Eva, Evb. case_decide; [by apply (F (w_name wb, vb))|]. case_decide; [by apply (F (w_name wa, va))|]. by apply (F (k, v)).
  - rewrite E2. exists (Ret tt), s2. split; [done|]. split; [done|]. split; [done|]. by exists s1.
Qed.

Lemma wrote_order s s1 x d s' : eqv s s1 -> wrote SStorage x d s1 s' -> only_order s x d s'.
Proof.
  intros Q [(w & Hw & Hv) Hi _ Hl _ _]. rewrite (e_views _ _ Q) in Hw, Hv.
  assert (Hx : views s' !! x = Some (vw_ent d w)) by (by rewrite Hv, lookup_insert).
  constructor.
  - by rewrite (ent_obs _ _ _ Hx).
  - rewrite !ob_spaces. unfold fld. by rewrite Hx, Hw.
  - intros y Hy. apply same_node_views. by rewrite Hv, lookup_insert_ne.
  - unfold keeps_place. rewrite !ob_class, !ob_name, !ob_parent, !ob_uuid, !ob_index_id. unfold fld. by rewrite Hx, Hw.
  - rewrite Hi. by apply e_idxs.
  - rewrite Hl. by apply e_log.
Qed.
Lemma swap_other s x a b cls : wf s -> class_of s x = Some cls -> storage_class (c_behs cls) = true -> ordering (c_behs cls) = false ->
  exists s', swap x a b s = (Exc AttributeError, s') /\ eqv s s' /\ wf s'.
Proof.
  intros W Hc Hst Hno. destruct (class_view _ _ _ Hc) as (w & Hw & <-). unfold swap. unfold ordering in Hno.
  destruct (hasc Order (c_behs (w_cls w))) eqn:Ho; [rewrite (order_yes s x w) by done|rewrite (order_no s x w) by done; exists s; split; [done|split; [apply eqv_refl|done]]].
  simpl in Hno. destruct (odict_of_eff s x w W Hw Hst) as (l & s1 & E1 & Q1 & W1 & _). rewrite Hno in E1. exists s1. unfold bind at 1. by rewrite E1.
Qed.
Lemma swap_works s x a b cls ka kb i j va vb : wf s -> class_of s x = Some cls -> storage_class (c_behs cls) = true -> ordering (c_behs cls) = true ->
  name_at s a = Some ka -> name_at s b = Some kb -> ka <> kb ->
  entries_at s x !! i = Some (ka, va) -> entries_at s x !! j = Some (kb, vb) ->
  exists d s', swap x a b s = (Ret tt, s') /\ exchanged i j (entries_at s x) d /\ only_order s x d s'.
Proof.
  intros W Hc Hst Hor Ha Hb Hne Hi Hj. destruct (swap_eff s x a b cls ka kb W Hc Hst Hor Ha Hb) as (r & s' & E & W' & H).
  pose proof (entries_nodup s x W) as ND.
  rewrite !value_at_spec in H. rewrite (in_dget ka va), (in_dget kb vb) in H by (try done; by eapply elem_of_list_lookup_2).
  rewrite decide_False in H by done. destruct H as (-> & s1 & Q & Wr).
  exists (dswap ka kb (entries_at s x)), s'. split; [done|]. split; [by eapply dswap_exchanged|by eapply wrote_order].
Qed.
Lemma swap_refused s x a b cls ka kb : wf s -> class_of s x = Some cls -> storage_class (c_behs cls) = true -> ordering (c_behs cls) = true ->
  name_at s a = Some ka -> name_at s b = Some kb ->
  ka = kb \/ value_at ka (entries_at s x) = None \/ value_at kb (entries_at s x) = None ->
  exists s', swap x a b s = (Exc (if decide (ka = kb) then ValueError "Swap keys are equal"
                                  else KeyError (if value_at ka (entries_at s x) then kb else ka)), s') /\ same_world s s'.
Proof.
  intros W Hc Hst Hor Ha Hb H0. destruct (swap_eff s x a b cls ka kb W Hc Hst Hor Ha Hb) as (r & s' & E & W' & H). exists s'. rewrite E.
  destruct (value_at ka _) as [va|]; [|destruct H as [-> Q]; split; [done|by apply same_world_eqv]].
  destruct (value_at kb _) as [vb|]; [|destruct H as [-> Q]; split; [done|by apply same_world_eqv]].
  case_decide; [destruct H as [-> Q]; split; [done|by apply same_world_eqv]|]. naive_solver.
Qed.
Lemma exchanged_back i j d d1 d2 : exchanged i j d d1 -> exchanged i j d1 d2 -> d2 = d.
Proof.
  intros (L1 & A1 & B1 & C1) (L2 & A2 & B2 & C2). apply list_eq. intros m.
  destruct (decide (m = i)) as [->|Hi]; [by rewrite A2, B1|]. destruct (decide (m = j)) as [->|Hj]; [by rewrite B2, A1|]. by rewrite C2, C1.
Qed.

(** * Insertion *)
Lemma unnamed_refused before s x n r cls : class_of s x = Some cls -> Order ∈ c_behs cls -> name_at s n = Some KNone ->
  insert_at before x n r s = (Exc (ValueError "Given node has no __name__ set."), s).
Proof.
  intros Hc Hor%hasc_in. destruct (class_view _ _ _ Hc) as (w & Hw & <-).
  unfold name_at. intros H. apply fmap_Some in H as (o & Ho & Hn). unfold insert_at. rewrite (order_yes s x w) by done. unfold validateinsertion.
  rewrite bind_assoc, (bind_load _ _ _ _ Ho). by rewrite decide_True.
Qed.
Lemma known_refused before s x n r cls cls' k u : wf s -> class_of s x = Some cls -> Order ∈ c_behs cls -> Reference ∈ c_behs cls -> class_of s n = Some cls' ->
  Reference ∈ c_behs cls' \/ UUIDAware ∈ c_behs cls' -> name_at s n = Some k -> k <> KNone ->
  uuid_at s n = Some u -> is_Some (index_id s x) -> is_Some (index_at s x !! Some u) ->
  insert_at before x n r s = (Exc (KeyError (KStr "Given node already contained in tree.")), s).
Proof.
  intros W Hc Hor%hasc_in. destruct (class_view _ _ _ Hc) as (w & Hw & Hwc). rewrite <- Hwc in Hor. revert Hc.
  unfold name_at, class_of, uuid_at, index_at. intros Hc Href Hcn Hrn Hn Hk Hu Hi Hin.
  apply fmap_Some in Hn as (o & Ho & Hn). apply fmap_Some in Hc as (ox & Hox & Hc). rewrite Ho in Hcn, Hu. simpl in Hcn, Hu. injection Hcn as Hcn.
  unfold index_id in *. rewrite Hox in Hi, Hin. simpl in Hi, Hin. destruct (o_index ox) as [i|] eqn:Ei; [|by destruct Hi]. simpl in Hin.
  destruct (idxs s !! i) as [m|] eqn:Em; [|by destruct Hin as [? ?]]. simpl in Hin. destruct Hin as [y Hy].
  unfold insert_at. rewrite (order_yes s x w) by done. unfold validateinsertion. rewrite bind_assoc, (bind_load _ _ _ _ Ho). rewrite decide_False by congruence.
  rewrite bind_assoc, (bind_load _ _ _ _ Hox). unfold has. rewrite Hc in Href. rewrite Hcn. rewrite bool_decide_eq_true_2 by done.
  replace (bool_decide (Reference ∈ c_behs cls') || bool_decide (UUIDAware ∈ c_behs cls')) with true
    by (symmetry; apply orb_true_iff; rewrite !bool_decide_eq_true; done).
  rewrite Hu. unfold index_of. rewrite bind_assoc. rewrite bind_assoc, (bind_load _ _ _ _ Hox), Ei, bind_ret. unfold bind, read_idx. rewrite Em, Hy. done.
Qed.
Lemma validate_passes s x n cls : wf s -> class_of s x = Some cls -> exists_node s n -> admitted cls s x n -> validateinsertion x n s = (Ret tt, s).
Proof.
  unfold class_of, index_at. intros W Hc [o Ho] [Hn Hr]. apply fmap_Some in Hc as (ox & Hox & ->). unfold validateinsertion.
  rewrite (bind_load _ _ _ _ Ho). unfold name_at in Hn. rewrite Ho in Hn. simpl in Hn. rewrite decide_False by congruence.
  rewrite (bind_load _ _ _ _ Hox). unfold has. case_bool_decide as Href; [|done].
  destruct (Hr Href) as (cls' & u & Hcn & Hrn & Hu & Hi & Hin). unfold class_of, uuid_at in *. rewrite Ho in Hcn, Hu. simpl in Hcn, Hu. injection Hcn as Hcn.
  unfold index_at, index_id in *. rewrite Hox in Hi, Hin. simpl in Hi, Hin. destruct (o_index ox) as [i|] eqn:Ei; [|by destruct Hi]. simpl in Hin.
  rewrite Hcn. replace (bool_decide (Reference ∈ c_behs cls') || bool_decide (UUIDAware ∈ c_behs cls')) with true
    by (symmetry; apply orb_true_iff; rewrite !bool_decide_eq_true; done).
  rewrite Hu. unfold index_of. rewrite bind_assoc, (bind_load _ _ _ _ Hox), Ei, bind_ret.
  destruct (wf_nodes _ W _ _ Hox) as [_ Hok]. destruct (ok_index _ _ Hok _ Ei) as [m Em]. unfold bind, read_idx. rewrite Em in *. simpl in Hin. by rewrite Hin.
Qed.
Lemma ro_validate x n s : snd (validateinsertion x n s) = s.
Proof.
  unfold validateinsertion, index_of, bind, load, read_idx. destruct (nodes s !! n) as [no|]; [|done]. case_decide; [done|].
  destruct (nodes s !! x) as [o|] eqn:Hx; [|done]. destruct (has Reference o); [|done]. destruct (_ || _); [|done]. destruct (o_uuid no); [|done].
  rewrite Hx. destruct (o_index o) as [i|]; [|done]. simpl. destruct (idxs s !! i) as [m|]; [|done]. by destruct (m !! _).
Qed.
Lemma insert_at_other before s x n r cls : wf s -> class_of s x = Some cls -> storage_class (c_behs cls) = true -> ordering (c_behs cls) = false ->
  exists e s', insert_at before x n r s = (Exc e, s') /\ (fst (validateinsertion x n s) = Ret tt -> e = AttributeError) /\ eqv s s' /\ wf s'.
Proof.
  intros W Hc Hst Hno. destruct (class_view _ _ _ Hc) as (w & Hw & <-). unfold insert_at. unfold ordering in Hno.
  destruct (hasc Order (c_behs (w_cls w))) eqn:Ho; [rewrite (order_yes s x w) by done|rewrite (order_no s x w) by done; exists AttributeError, s; split; [done|split; [done|split; [apply eqv_refl|done]]]].
  simpl in Hno. pose proof (ro_validate x n s) as Hro. unfold bind at 1. destruct (validateinsertion x n s) as [[u|e] s0]; simpl in Hro; subst s0.
  2:{ exists e, s. split; [done|split; [done|split; [apply eqv_refl|done]]]. }
  destruct (odict_of_eff s x w W Hw Hst) as (l & s1 & E1 & Q1 & W1 & _). rewrite Hno in E1. exists AttributeError, s1. unfold bind at 1. by rewrite E1.
Qed.
Lemma insert_at_eff before s x n r cls k rk : wf s -> class_of s x = Some cls -> storage_class (c_behs cls) = true -> ordering (c_behs cls) = true ->
  name_at s n = Some k -> name_at s r = Some rk -> admitted cls s x n ->
  if decide (rk = k) then exists s', insert_at before x n r s = (Exc (ValueError "Reference key and new key are equal"), s') /\ eqv s s' /\ wf s'
  else match value_at rk (entries_at s x) with
  | None => exists s', insert_at before x n r s = (Exc (ValueError "Given reference node not child of self."), s') /\ eqv s s' /\ wf s'
  | Some _ => value_at k (entries_at s x) = None -> hashable k = true ->
      exists s1 d, beside before rk (k, VNode n) (entries_at s x) d /\ only_order s x d s1 /\ wf s1 /\
        (forall y, y <> x -> views s1 !! y = views s !! y) /\
        (exists w, views s !! x = Some w /\ views s1 !! x = Some (vw_ent d w)) /\ idxs s1 = idxs s /\ classes s1 = classes s /\ next_uuid s1 = next_uuid s /\
        insert_at before x n r s = setitem x k (VNode n) s1
  end.
Proof.
  intros W Hc Hst [Hor Hko]%ordering_inv Hn Hr Had. destruct (class_view _ _ _ Hc) as (w & Hw & Hwc).
  pose proof Hn as Hn'. rewrite ob_name in Hn, Hr. destruct (fld_view _ _ _ _ Hn) as (wn & Hwn & <-). destruct (fld_view _ _ _ _ Hr) as (wr & Hwr & <-).
  assert (Hex : exists_node s n). { destruct (view_obj _ _ _ Hwn) as (o & Ho & _). by eexists. }
  destruct (odict_slot s x w W Hw) as (l & s1 & E1 & Q1 & W1 & o1 & Ho1 & Hs1 & Ho1c); [by rewrite Hwc..|].
  assert (EI : insert_at before x n r s =
    (do! try_catch (odict_insert before l (w_name wr) (w_name wn) (VNode n)) is_key_error
        (fun _ => raise (ValueError "Given reference node not child of self.")) in
     let! k := name_of n in setitem x k (VNode n)) s1).
  { unfold insert_at. rewrite (order_yes s x w) by (by rewrite ?Hwc). rewrite (bind_Ret _ _ _ _ _ (validate_passes s x n cls W Hc Hex Had)). rewrite (bind_Ret _ _ _ _ _ E1).
    rewrite (bind_Ret _ _ _ _ _ (name_of_eff s1 r wr (eqv_view _ _ _ _ Q1 Hwr))).
    by rewrite (bind_Ret _ _ _ _ _ (name_of_eff s1 n wn (eqv_view _ _ _ _ Q1 Hwn))). }
  assert (Hd : dicts s1 !! l = Some (entries_at s x)).
  { rewrite (slot_dict s1 x o1 SStorage l W1 Ho1 Hs1). pose proof (nodes_views _ _ _ Ho1) as Hv. rewrite (eqv_view _ _ _ _ Q1 Hw) in Hv.
    injection Hv as <-. by rewrite (ent_obs _ _ _ Hw). }
  rewrite EI. clear EI. unfold odict_insert. case_decide as Ek.
  { exists s1. split; [|done]. done. }
  rewrite !value_at_spec. destruct (dget (w_name wr) (entries_at s x)) as [vr|] eqn:Evr.
  2: { exists s1. split; [|done]. unfold bind, try_catch, read_dict. rewrite Hd, Evr. done. }
  intros Ekn Hh. set (d := if before then dinsert_before (w_name wr) (w_name wn) (VNode n) (entries_at s x)
                                     else dinsert_after (w_name wr) (w_name wn) (VNode n) (entries_at s x)).
  pose proof (entries_nodup s x W) as ND. destruct (wf_dicts _ W1 _ _ Hd) as (_ & _ & F).
  destruct (write_slot s1 x o1 SStorage l d W1 Ho1 Hs1 (mk_is_Some _ _ Hd)) as (s2 & E2 & W2 & Wr).
  - apply NoDup_dinsert; [apply dget_is_Some; eauto|by apply dget_None|done].
  - apply Forall_dinsert; [done|]. split; [done|]. by eapply eqv_live.
  - exists s2, d. pose proof (wrote_order _ _ _ _ _ Q1 Wr) as OO.
    assert (Hb : beside before (w_name wr) (w_name wn, VNode n) (entries_at s x) d) by (apply dinsert_beside; eauto).
    destruct Wr as [(w1 & Hw1 & Hv2) Hi2 Hu2 _ _ Hc2]. rewrite (eqv_view _ _ _ _ Q1 Hw) in Hw1. injection Hw1 as <-. rewrite (e_views _ _ Q1) in Hv2.
    assert (Hn2 : exists wn2, views s2 !! n = Some wn2 /\ w_name wn2 = w_name wn).
    { rewrite Hv2. destruct (decide (x = n)) as [->|Hxn]; [rewrite lookup_insert; rewrite Hw in Hwn; injection Hwn as <-; by eexists|].
      rewrite lookup_insert_ne by done. by exists wn. }
    destruct Hn2 as (wn2 & Hwn2 & En2).
    split; [done|]. split; [done|]. split; [done|]. split; [intros y Hy; by rewrite Hv2, lookup_insert_ne|].
    split; [exists w; split; [done|by rewrite Hv2, lookup_insert]|]. split; [rewrite Hi2; by apply e_idxs|]. split; [rewrite Hc2; by apply e_classes|].
    split; [rewrite Hu2; by apply e_uuid|].
    assert (EO : odict_insert before l (w_name wr) (w_name wn) (VNode n) s1 = (Ret tt, s2)).
    { unfold odict_insert. rewrite decide_False by done. unfold bind at 1, read_dict. rewrite Hd, Evr, Ekn, Hh. exact E2. }
    unfold odict_insert in EO. rewrite decide_False in EO by done.
    unfold bind at 1. unfold try_catch. rewrite EO. rewrite (bind_Ret _ _ _ _ _ (name_of_eff s2 n wn2 Hwn2)). by rewrite En2.
Qed.

Lemma set_res_node a bs t n : nskey bs (KStr t) = false -> set_res a bs (KStr t) (VNode n) = Ret tt.
Proof.
  unfold nskey. simpl. induction bs as [|b bs IH]; [done|]. rewrite hasc_cons. intros H.
  destruct (decide (b = Nodespaces)) as [->|Hb].
  - simpl in *. rewrite H. apply IH. by rewrite H, andb_false_r.
  - rewrite bool_decide_eq_false_2 in H by done. simpl in H. destruct b; try done; try (by apply IH).
    simpl. rewrite !andb_false_r. by apply IH.
Qed.
Lemma joins_ready cls s x n s1 : wf s -> joins cls s x n -> idxs s1 = idxs s -> (Reference ∈ c_behs cls -> fld w_index s1 x = fld w_index s x) ->
  (n <> x -> views s1 !! n = views s !! n) -> ref_ready (c_behs cls) s1 x (VNode n).
Proof.
  intros W HJ Hi Hix Hv c [= <-] Hr. apply hasc_in in Hr. destruct (HJ Hr) as (Hocc & (Hne & [i Hii] & [j Hj] & _ & Hd) & cls' & Hc' & Hr' & Ht).
  rewrite ob_index_id in Hii, Hj. specialize (Hix Hr). specialize (Hv Hne).
  destruct (fld w_index s x) as [[i'|]|] eqn:Ex; try done. injection Hii as ->.
  destruct (fld w_index s n) as [[j'|]|] eqn:En; try done. injection Hj as ->.
  assert (Gx : exists mi, idxs s !! i = Some mi).
  { destruct (fld_view _ _ _ _ Ex) as (w & Hw & Hwi). destruct (view_obj _ _ _ Hw) as (o & Ho & ->). destruct (wf_nodes _ W _ _ Ho) as [_ Hok].
    by apply (ok_index _ _ Hok i). }
  assert (Gn : exists mj, idxs s !! j = Some mj).
  { destruct (fld_view _ _ _ _ En) as (w & Hw & Hwi). destruct (view_obj _ _ _ Hw) as (o & Ho & ->). destruct (wf_nodes _ W _ _ Ho) as [_ Hok].
    by apply (ok_index _ _ Hok j). }
  destruct Gx as [mi Hmi], Gn as [mj Hmj]. rewrite ob_class in Hc'.
  destruct (fld_view _ _ _ _ Hc') as (wn & Hwn & Hwnc). unfold fld in *. rewrite Hwn in Hv.
  exists i, j, mi, mj, cls', (w_ent wn). rewrite Hix, Hi, Hv. simpl. rewrite Hwn in En. simpl in En.
  split; [done|]. split; [done|]. split; [done|]. split; [done|]. split; [by rewrite Hwnc|]. split; [done|]. split; [done|].
  destruct Hd as [Hd|Hd]; [left; by rewrite (ent_obs _ _ _ Hwn) in Hd|right]. split; [|done].
  unfold index_at in Hd. rewrite !ob_index_id in Hd. unfold fld in Hd. rewrite Ex, Hwn in Hd. simpl in Hd. injection En as En.
  rewrite En in Hd. simpl in Hd. rewrite Hmi, Hmj in Hd. simpl in Hd.
  apply set_eq. intros u. rewrite elem_of_intersection, !elem_of_dom. split; [|set_solver]. intros [H1 H2]. rewrite (Hd u H2) in H1. by destruct H1.
Qed.
Lemma joins_admitted cls s x n k : joins cls s x n -> name_at s n = Some k -> k <> KNone -> admitted cls s x n.
Proof.
  intros HJ Hn Hk. split; [congruence|]. intros Hr. destruct (HJ Hr) as (_ & (_ & Hi & _ & (u & Hu & Hin) & _) & cls' & Hc' & Hr' & _).
  exists cls', u. split; [done|]. split; [by left|]. done.
Qed.
Lemma insert_works before s x n r cls t rk : wf s -> class_of s x = Some cls -> tree_class (c_behs cls) = true -> ordering (c_behs cls) = true ->
  name_at s n = Some (KStr t) -> ~ to_spaces cls (KStr t) -> value_at (KStr t) (entries_at s x) = None ->
  name_at s r = Some rk -> is_Some (value_at rk (entries_at s x)) -> joins cls s x n ->
  exists s', insert_at before x n r s = (Ret tt, s') /\
    beside before rk (KStr t, VNode n) (entries_at s x) (entries_at s' x) /\ inserted cls s x n (KStr t) s'.
Proof.
  intros W Hc Ht Hor Hn Hns Hk Hr [vr Hvr] HJ. pose proof (tree_class_inv _ Ht) as [_ Hst].
  pose proof (insert_at_eff before s x n r cls (KStr t) rk W Hc Hst Hor Hn Hr (joins_admitted cls s x n (KStr t) HJ Hn ltac:(done))) as H.
  assert (Hne : rk <> KStr t) by congruence. rewrite decide_False in H by done. rewrite Hvr in H.
  destruct (H Hk eq_refl) as (s1 & d & Hb & OO & W1 & Hv1 & (w & Hw & Hvx) & Hi1 & _ & _ & E). rewrite E.
  assert (Hc1 : class_of s1 x = Some cls). { rewrite ob_class in *. unfold fld in *. rewrite Hw in Hc. by rewrite Hvx. }
  assert (Hex1 : known s1 (VNode n)).
  { assert (Hln : live s n). { unfold name_at in Hn. apply fmap_Some in Hn as (o & Ho & _). by eexists. }
    simpl. change (live s1 n). rewrite views_live in *. destruct (decide (n = x)) as [->|Hnx]; [rewrite Hvx; by eexists|by rewrite Hv1]. }
  pose proof Hc1 as Hc1'. rewrite ob_class in Hc1'.
  destruct (setitem_eff s1 x cls (KStr t) (VNode n) W1 Hc1' Ht Hex1) as (res & s' & Es & F & Ho).
  assert (Hns' : nskey (c_behs cls) (KStr t) = false) by (by apply nskey_dunder_false).
  assert (Eres : res = Ret tt).
  { rewrite <- (set_res_node (w_allow w) (c_behs cls) t n Hns'). apply Ho.
    - apply (joins_ready cls s x n s1); try done. { intros _. unfold fld. by rewrite Hw, Hvx. } { intros Hnx. by apply Hv1. }
    - unfold fld. by rewrite Hvx. }
  subst res. exists s'. split; [done|]. pose proof (setitem_assigned s1 x cls (KStr t) (VNode n) s' W1 Hc1 Ht Hex1 Es) as [A1 A2 _ A4 A5 A6].
  destruct (A2 Hns) as [A2e A2s]. destruct OO as [O1 O2 O3 (O4 & O5 & O6 & O7) O8 O9].
  assert (Ed : entries_at s' x = d).
  { rewrite A2e, O1. rewrite put_spec; [|rewrite <- O1; by apply entries_nodup]. apply dset_same.
    eapply beside_dget; [|done|exact Hb]. apply dget_None. by rewrite <- value_at_spec. }
  split; [by rewrite Ed|]. constructor.
  - intros y Hy. destruct (A1 y Hy) as [-> ->]. destruct (O3 y Hy). done.
  - congruence.
  - intros y Hy. destruct (A4 y) as [H1 H2]; [congruence|]. unfold keeps_place. rewrite H1, H2.
    destruct (decide (y = x)) as [->|Hyx]; [done|]. by destruct (O3 y Hyx).
  - intros Ha. destruct (adoption s1 x cls (KStr t) n s' W1 Hc1 Ht Ha Hex1 Es) as (G1 & G2 & _). done.
  - intros y. rewrite A5. destruct (decide (y = x)) as [->|Hyx]; [done|]. by destruct (O3 y Hyx).
  - intros y. rewrite A6. destruct (decide (y = x)) as [->|Hyx]; [done|]. by destruct (O3 y Hyx).
Qed.
Lemma absent_refused before s x n r cls k rk : wf s -> class_of s x = Some cls -> tree_class (c_behs cls) = true -> ordering (c_behs cls) = true ->
  name_at s n = Some k -> admitted cls s x n -> name_at s r = Some rk -> value_at rk (entries_at s x) = None ->
  exists m s', insert_at before x n r s = (Exc (ValueError m), s') /\ same_world s s'.
Proof.
  intros W Hc Ht Hor Hn Had Hr Hv. pose proof (tree_class_inv _ Ht) as [_ Hst].
  pose proof (insert_at_eff before s x n r cls k rk W Hc Hst Hor Hn Hr Had) as H. case_decide.
  - destruct H as (s' & E & Q & _). eexists _, s'. split; [exact E|by apply same_world_eqv].
  - rewrite Hv in H. destruct H as (s' & E & Q & _). eexists _, s'. split; [exact E|by apply same_world_eqv].
Qed.

(** ** At the ends *)
Lemma end_keys first (d : list (key * val)) : end_of first (dkeys d) = fst <$> end_of first d.
Proof. destruct first; simpl; [by destruct d|]. unfold dkeys. apply fmap_last. Qed.
Lemma insert_end_other first s x n cls : class_of s x = Some cls -> hasc Order (c_behs cls) = false -> insert_end first x n s = (Exc AttributeError, s).
Proof. intros Hc Ho. destruct (class_view _ _ _ Hc) as (w & Hw & <-). unfold insert_end. by apply (order_no s x w). Qed.
Lemma insert_end_eff first s x n cls : wf s -> class_of s x = Some cls -> tree_class (c_behs cls) = true -> hasc Order (c_behs cls) = true ->
  exists s1, eqv s s1 /\ wf s1 /\ insert_end first x n s =
    match end_of first (entries_at s x) with
    | None => (let! k := name_of n in setitem x k (VNode n)) s1
    | Some (rk, v) => (let! r := getitem x rk in match r with VNode r => insert_at first x n r | _ => raise AttributeError end) s1
    end.
Proof.
  intros W Hc Ht Hor. destruct (class_view _ _ _ Hc) as (w & Hw & Hwc).
  destruct (iter_eff s x w W Hw) as (s1 & E1 & Q1 & W1); [by rewrite Hwc|]. exists s1. split; [done|]. split; [done|].
  unfold insert_end. rewrite (order_yes s x w) by (by rewrite ?Hwc). unfold keys. rewrite (bind_Ret _ _ _ _ _ E1). rewrite (ent_obs _ _ _ Hw).
  change (if first then head (dkeys (w_ent w)) else last (dkeys (w_ent w))) with (end_of first (dkeys (w_ent w))).
  rewrite end_keys. by destruct (end_of first (w_ent w)) as [[rk v]|].
Qed.

Lemma beside_end first rk v new (d d' : list (key * val)) : NoDup (dkeys d) -> end_of first d = Some (rk, v) -> beside first rk new d d' ->
  d' = if first then new :: d else d ++ [new].
Proof.
  intros ND He (l1 & v0 & l2 & -> & ->). destruct first; simpl in *.
  - destruct l1 as [|[k1 v1] l1]; [done|]. simpl in *. injection He as -> ->. apply NoDup_cons in ND as [Hn _]. exfalso. apply Hn.
    rewrite dkeys_app. apply elem_of_app. right. left.
  - destruct l2 as [|e l2 _] using rev_ind; [by rewrite <- app_assoc|].
    rewrite app_comm_cons, app_assoc, last_snoc in He. injection He as ->.
    rewrite dkeys_app in ND. apply NoDup_app in ND as (_ & _ & ND). simpl in ND. apply NoDup_cons in ND as [Hn _]. exfalso. apply Hn.
    rewrite dkeys_app. apply elem_of_app. right. left.
Qed.
Lemma joins_eqv cls s s1 x n : eqv s s1 -> joins cls s x n -> joins cls s1 x n.
Proof.
  intros Q HJ Hr. pose proof (same_world_eqv _ _ Q) as [Hs Hi _]. destruct (HJ Hr) as (H1 & (H2 & H3 & H4 & H5 & H6) & H7).
  destruct (Hs x) as [_ _ _ _ _ _ _ _ Gx _], (Hs n) as [Gc _ _ Ge _ _ _ Gu Gn _].
  split; [done|]. split; [|by rewrite Gc]. unfold can_join, index_at. rewrite Gx, Gn, Ge, Gu, Hi. done.
Qed.
Lemma inserted_eqv cls s s1 x n k s' : eqv s s1 -> inserted cls s1 x n k s' -> inserted cls s x n k s'.
Proof.
  intros Q []. pose proof (same_world_eqv _ _ Q) as [Hs Hi _]. constructor.
  - intros y Hy. destruct (ins_others y Hy) as [-> ->]. destruct (Hs y). done.
  - rewrite ins_spaces. destruct (Hs x). done.
  - intros y Hy. destruct (ins_places y Hy) as [H1 H2]. destruct (Hs y). split; congruence.
  - done.
  - intros y. rewrite ins_uuid. by destruct (Hs y).
  - intros y. rewrite ins_class. by destruct (Hs y).
Qed.
Lemma set_inserts s x n cls t : wf s -> class_of s x = Some cls -> tree_class (c_behs cls) = true -> exists_node s n ->
  ~ to_spaces cls (KStr t) -> joins cls s x n ->
  exists s', setitem x (KStr t) (VNode n) s = (Ret tt, s') /\ entries_at s' x = put (KStr t) (VNode n) (entries_at s x) /\ inserted cls s x n (KStr t) s'.
Proof.
  intros W Hc Ht Hn Hns HJ. pose proof Hc as Hc'. rewrite ob_class in Hc'.
  destruct (setitem_eff s x cls (KStr t) (VNode n) W Hc' Ht Hn) as (res & s' & Es & F & Ho).
  assert (Hns' : nskey (c_behs cls) (KStr t) = false) by (by apply nskey_dunder_false).
  assert (Eres : res = Ret tt).
  { destruct (fld_view _ _ _ _ Hc') as (w & Hw & _). rewrite <- (set_res_node (w_allow w) (c_behs cls) t n Hns'). apply Ho.
    - by apply (joins_ready cls s x n s).
    - unfold fld. by rewrite Hw. }
  subst res. exists s'. split; [done|]. pose proof (setitem_assigned s x cls (KStr t) (VNode n) s' W Hc Ht Hn Es) as [A1 A2 _ A4 A5 A6].
  destruct (A2 Hns) as [A2e A2s]. split; [done|]. constructor; try done.
  - intros y Hy. apply A4. congruence.
  - intros Ha. destruct (adoption s x cls (KStr t) n s' W Hc Ht Ha Hn Es) as (G1 & G2 & _). done.
Qed.
Lemma insert_end_works first s x n cls t : wf s -> class_of s x = Some cls -> tree_class (c_behs cls) = true -> hasc Order (c_behs cls) = true -> (entries_at s x <> [] -> ordering (c_behs cls) = true) ->
  name_at s n = Some (KStr t) -> ~ to_spaces cls (KStr t) -> value_at (KStr t) (entries_at s x) = None -> joins cls s x n ->
  (forall rk v, end_of first (entries_at s x) = Some (rk, v) -> ~ to_spaces cls rk /\ exists r, v = VNode r /\ name_at s r = Some rk) ->
  exists s', insert_end first x n s = (Ret tt, s') /\
    entries_at s' x = (if first then (KStr t, VNode n) :: entries_at s x else entries_at s x ++ [(KStr t, VNode n)]) /\ inserted cls s x n (KStr t) s'.
Proof.
  intros W Hc Ht Hor Hok Hn Hns Hk HJ Hend. destruct (insert_end_eff first s x n cls W Hc Ht Hor) as (s1 & Q1 & W1 & E1). rewrite E1.
  pose proof (same_world_eqv _ _ Q1) as [Hs1 _ _]. destruct (Hs1 x) as [Gc _ _ Ge _ _ _ _ _ _]. destruct (Hs1 n) as [_ Gn _ _ _ _ _ _ _ _].
  assert (Hc1 : class_of s1 x = Some cls) by congruence. assert (Hn1 : name_at s1 n = Some (KStr t)) by congruence.
  assert (Hex1 : exists_node s1 n). { unfold name_at in Hn1. apply fmap_Some in Hn1 as (o & Ho & _). by eexists. }
  destruct (end_of first (entries_at s x)) as [[rk v]|] eqn:Ee.
  - destruct (Hend _ _ eq_refl) as (Hrs & r & -> & Hr). destruct (class_view _ _ _ Hc1) as (w1 & Hw1 & Hw1c).
    assert (Hin : (rk, VNode r) ∈ entries_at s x).
    { destruct first; simpl in Ee; [destruct (entries_at s x); [done|]; injection Ee as ->; left|].
      apply last_Some in Ee as [l ->]. apply elem_of_app. right. by left. }
    assert (Hg : value_at rk (entries_at s x) = Some (VNode r)). { rewrite value_at_spec. apply in_dget; [by apply entries_nodup|done]. }
    destruct (getitem_eff s1 x w1 rk W1 Hw1) as (s2 & E2 & Q2 & W2); [by rewrite Hw1c|].
    assert (Eg : get_res w1 rk = Ret (VNode r)).
    { unfold get_res, look. rewrite Hw1c. assert (nskey (c_behs cls) rk = false) as -> by (by apply nskey_dunder_false).
      pose proof (entries_known s x W) as HF. rewrite Forall_forall in HF. destruct (HF _ Hin) as [Hh _]. simpl in Hh. rewrite Hh.
      rewrite <- (ent_obs _ _ _ Hw1), Ge, <- value_at_spec, Hg. done. }
    rewrite Eg in E2. rewrite (bind_Ret _ _ _ _ _ E2). pose proof (eqv_trans _ _ _ Q1 Q2) as Q.
    pose proof (same_world_eqv _ _ Q) as [Hs2 _ _]. destruct (Hs2 x) as [Gc2 _ _ Ge2 _ _ _ _ _ _]. destruct (Hs2 n) as [_ Gn2 _ _ _ _ _ _ _ _].
    destruct (Hs2 r) as [_ Gr2 _ _ _ _ _ _ _ _].
    destruct (insert_works first s2 x n r cls t rk W2) as (s' & E' & Hb & Hi); try congruence.
    + apply Hok. intros H0. rewrite H0 in Hin. by apply elem_of_nil in Hin.
    + rewrite Ge2, Hg. by eexists.
    + by apply (joins_eqv cls s).
    + exists s'. split; [done|]. split; [|by eapply inserted_eqv]. rewrite Ge2 in Hb. eapply beside_end; [by apply entries_nodup|done|done].
  - assert (E0 : entries_at s x = []). { destruct first; simpl in Ee; [by destruct (entries_at s x)|]. by apply last_None in Ee. }
    rewrite ob_name in Hn1. destruct (fld_view _ _ _ _ Hn1) as (wn & Hwn & Ewn). rewrite (bind_Ret _ _ _ _ _ (name_of_eff s1 n wn Hwn)), Ewn.
    destruct (set_inserts s1 x n cls t W1 Hc1 Ht Hex1 Hns) as (s' & E' & He & Hi); [by apply (joins_eqv cls s)|].
    exists s'. split; [done|]. split; [|by eapply inserted_eqv]. rewrite He, Ge, E0. by destruct first.
Qed.

Lemma swap_twice s x a b cls s1 s2 : wf s -> class_of s x = Some cls -> storage_class (c_behs cls) = true -> ordering (c_behs cls) = true -> exists_node s a -> exists_node s b ->
  swap x a b s = (Ret tt, s1) -> swap x a b s1 = (Ret tt, s2) -> entries_at s2 x = entries_at s x.
Proof.
  intros W Hc Hst Hor [oa Hoa] [ob Hob] E1 E2.
  assert (Ha : name_at s a = Some (o_name oa)) by (unfold name_at; by rewrite Hoa).
  assert (Hb : name_at s b = Some (o_name ob)) by (unfold name_at; by rewrite Hob).
  destruct (decide (o_name oa = o_name ob)) as [He|Hne].
  { destruct (swap_refused s x a b cls _ _ W Hc Hst Hor Ha Hb (or_introl He)) as (? & E & _). congruence. }
  destruct (value_at (o_name oa) (entries_at s x)) as [va|] eqn:Hva.
  2:{ destruct (swap_refused s x a b cls _ _ W Hc Hst Hor Ha Hb (or_intror (or_introl Hva))) as (? & E & _). congruence. }
  destruct (value_at (o_name ob) (entries_at s x)) as [vb|] eqn:Hvb.
  2:{ destruct (swap_refused s x a b cls _ _ W Hc Hst Hor Ha Hb (or_intror (or_intror Hvb))) as (? & E & _). congruence. }
  rewrite value_at_spec in Hva, Hvb. apply dget_Some_in in Hva, Hvb.
  apply elem_of_list_lookup in Hva as [i Hi], Hvb as [j Hj].
  destruct (swap_eff s x a b cls _ _ W Hc Hst Hor Ha Hb) as (r1 & s1' & E1' & W1 & _). rewrite E1 in E1'. injection E1' as <- <-.
  destruct (swap_works s x a b cls _ _ i j va vb W Hc Hst Hor Ha Hb Hne Hi Hj) as (d & s1' & E1' & X1 & O1). rewrite E1 in E1'. injection E1' as <-.
  destruct O1 as [Oe _ Oo (Oc & [On _] & _) _ _].
  assert (Hn : forall y, name_at s1 y = name_at s y). { intros y. destruct (decide (y = x)) as [->|Hy]; [done|by destruct (Oo y Hy)]. }
  destruct X1 as (L & Xi & Xj & Xo).
  destruct (swap_works s1 x a b cls (o_name oa) (o_name ob) j i va vb W1) as (d2 & s2' & E2' & X2 & O2); try congruence.
  rewrite E2 in E2'. injection E2' as <-. destruct O2 as [O2e _ _ _ _ _]. rewrite O2e, Oe in *.
  apply (exchanged_back i j _ d); [done|]. destruct X2 as (L2 & A & B & C). repeat split; auto.
Qed.

(** * Without an odict *)
Lemma no_odict cls : Order ∉ c_behs cls \/ OdictStorage ∉ c_behs cls -> ordering (c_behs cls) = false.
Proof.
  unfold ordering. intros [H|H]; [by rewrite (bool_decide_eq_false_2 _ H : hasc _ _ = false)|].
  apply andb_false_iff. right. induction (c_behs cls) as [|b bs IH]; [done|]. apply not_elem_of_cons in H as [Hn H]. destruct b; simpl; auto; done.
Qed.
Lemma no_odict_swap s x a b cls : wf s -> class_of s x = Some cls -> storage_class (c_behs cls) = true -> Order ∉ c_behs cls \/ OdictStorage ∉ c_behs cls ->
  exists s', swap x a b s = (Exc AttributeError, s') /\ same_world s s'.
Proof.
  intros W Hc Hst H%no_odict. destruct (swap_other s x a b cls W Hc Hst H) as (s' & E & Q & _). exists s'. split; [done|by apply same_world_eqv].
Qed.
Lemma no_odict_insert before s x n r cls : wf s -> class_of s x = Some cls -> tree_class (c_behs cls) = true -> Order ∉ c_behs cls \/ OdictStorage ∉ c_behs cls ->
  exists e s', insert_at before x n r s = (Exc e, s') /\ (exists_node s n -> admitted cls s x n -> e = AttributeError) /\ same_world s s'.
Proof.
  intros W Hc [_ Hst]%tree_class_inv H%no_odict. destruct (insert_at_other before s x n r cls W Hc Hst H) as (e & s' & E & HA & Q & _).
  exists e, s'. split; [done|]. split; [|by apply same_world_eqv]. intros Hn Ha. apply HA. by rewrite (validate_passes s x n cls).
Qed.
