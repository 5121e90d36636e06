(** Where a caching node reads from, whatever is in its cache. *)
From Verif Require Import Py Odict OdictFacts Aliaser Heap Model Classes MonadFacts WF
  SpecMapping MappingProofs StorageProofs SpecCache Observe ObserveFacts CacheProofs Reach.

Lemma dset_same (k : key) (v : val) d : dget k d = Some v -> dset k v d = d.
Proof. induction d as [|[k0 v0] d IH]; simpl; [done|]. case_decide as E; [intros [= ->]; by subst|]. intros H. by rewrite IH. Qed.
Section serve.
Context (x : nat) (cls : classdef) (al : bool).
Context (Hst : has_storage (c_behs cls) = true) (Hfx : hasc FixedChildren (c_behs cls) = false) (Hcf : hasc ChildFactory (c_behs cls) = false).
Notation all := (c_behs cls).

Definition read_via (c : bool) (k : key) (d dc : list (key * val)) : res val * list (key * val) :=
  match get_d k (if c then dc else []) with
  | Ret v => (Ret v, dc)
  | Exc _ => match get_d k d with Ret v => (Ret v, if c then dset k v dc else dc) | Exc e => (Exc e, dc) end
  end.
Lemma get_stack_serve fb bs k : forallb cache_beh bs = true -> forall s d dc, cst x cls al s d dc ->
  exists s', get_stack fb all bs x k s = (fst (read_via (hasc Cache bs) k d dc), s') /\ cst x cls al s' d (snd (read_via (hasc Cache bs) k d dc)) /\ moves x s s'.
Proof.
  assert (Hn : forall b bs', b <> Cache -> hasc Cache (b :: bs') = hasc Cache bs') by (intros b bs' Hb; apply bool_decide_ext; set_solver).
  induction bs as [|b bs IH]; intros Hb s d dc H.
  - simpl. destruct (get_endpoint_c x cls al Hst Hfx s d dc k H) as (s' & E & H' & G). exists s'. rewrite E.
    change (hasc Cache []) with false. unfold read_via, get_d. simpl. destruct (hashable k); [|done]. by destruct (dget k d).
  - simpl in Hb. apply andb_prop in Hb as [Hb1 Hb2]. destruct b; try discriminate Hb1; try (rewrite Hn by done; exact (IH Hb2 s d dc H)).
    assert (Hc : hasc Cache (Cache :: bs) = true) by (apply bool_decide_eq_true; left). rewrite Hc.
    simpl. destruct (cst_cache x cls al s d dc H) as (l & s1 & E1 & H1 & G1 & Hl & o & Ho & Eo). rewrite (bind_Ret _ _ _ _ _ E1).
    unfold dict_get at 1. unfold read_via. unfold get_d at 1 2 3 4. destruct (hashable k) eqn:Hk; [|by exists s1].
    destruct (dget k dc) as [v|] eqn:Eg.
    + erewrite try_catch_Ret; [|rewrite (bind_read_dict _ _ _ _ Hl), Eg; reflexivity]. by exists s1.
    + erewrite try_catch_Exc; [|rewrite (bind_read_dict _ _ _ _ Hl), Eg; reflexivity]. simpl.
      destruct (IH Hb2 s1 d dc H1) as (s2 & E2 & H2 & G2).
      assert (Ei : read_via (hasc Cache bs) k d dc = match dget k d with Some v => (Ret v, if hasc Cache bs then dset k v dc else dc) | None => (Exc (KeyError k), dc) end).
      { unfold read_via, get_d. rewrite Hk. destruct (hasc Cache bs); [rewrite Eg|simpl]; by destruct (dget k d). }
      rewrite Ei in E2, H2. destruct (dget k d) as [v|] eqn:Ed; simpl in *.
      * rewrite (bind_Ret _ _ _ _ _ E2). unfold dict_set. rewrite Hk.
        assert (exists o2, nodes s2 !! x = Some o2 /\ o_cache o2 = Some l) as (o2 & Ho2 & El2).
        { eapply (proj2 G2); eauto. }
        destruct (cst_cache_write _ _ _ _ _ _ _ _ (dset k v (if hasc Cache bs then dset k v dc else dc)) H2 Ho2 El2 (NoDup_dset _ _ _ (c_ndc _ _ _ _ _ _ H2))) as [Hl2 H3].
        rewrite bind_assoc. rewrite (bind_read_dict _ _ _ _ Hl2). unfold bind at 1, write_dict at 1.
        unfold dict_get. rewrite Hk. erewrite bind_read_dict; [|simpl; by rewrite lookup_insert]. rewrite dget_dset_eq.
        eexists. split; [reflexivity|]. split; [|eapply moves_trans; [exact G1|eapply moves_trans; [exact G2|apply moves_dicts]]].
        assert (Hd : dset k v (if hasc Cache bs then dset k v dc else dc) = dset k v dc) by (destruct (hasc Cache bs); [apply dset_same, dget_dset_eq|done]).
        rewrite Hd in H3 |- *. exact H3.
      * rewrite (bind_Exc _ _ _ _ _ E2). exists s2. split; [done|]. split; [done|by eapply moves_trans].
Qed.
Lemma ddel_ddel_same k (dc : list (key * val)) : NoDup (dkeys dc) -> ddel k (ddel k dc) = ddel k dc.
Proof. intros ND. apply ddel_notin, dget_None, dget_ddel_eq, ND. Qed.
Lemma del_stack_serve bs k : forallb cache_beh bs = true -> hashable k = true -> forall s d dc, cst x cls al s d dc ->
  exists s', del_stack all bs x k s = (del_res k d, s') /\ cst x cls al s' (del_d k d) (if hasc Cache bs then ddel k dc else dc) /\ moves x s s'.
Proof.
  assert (Hn : forall b bs', b <> Cache -> hasc Cache (b :: bs') = hasc Cache bs') by (intros b bs' Hb; apply bool_decide_ext; set_solver).
  intros Hb Hk. induction bs as [|b bs IH]; intros s d dc H.
  - simpl. destruct (del_endpoint_c x cls al Hst Hfx s d dc k H) as (s' & E & H' & G). by exists s'.
  - simpl in Hb. apply andb_prop in Hb as [Hb1 Hb2]. specialize (IH Hb2). destruct b; try discriminate Hb1; try (rewrite Hn by done; exact (IH s d dc H)).
    assert (Hc : hasc Cache (Cache :: bs) = true) by (apply bool_decide_eq_true; left). rewrite Hc.
    simpl. destruct (cst_cache x cls al s d dc H) as (l & s1 & E1 & H1 & G1 & Hl & o & Ho & Eo). rewrite (bind_Ret _ _ _ _ _ E1).
    destruct (cst_cache_drop x cls al s1 d dc l o k H1 Ho Eo) as (s2 & E2 & G2 & H2). rewrite Hk in E2, H2.
    rewrite (bind_Ret _ _ _ _ _ E2). destruct (IH s2 d (ddel k dc) H2) as (s3 & E3 & H3 & G3).
    exists s3. split; [done|]. split; [|eapply moves_trans; [exact G1|]; by eapply moves_trans].
    destruct (hasc Cache bs); [|done]. rewrite ddel_ddel_same in H3; [done|apply H].
Qed.
(** An assignment drops the key from the cache, unless it is refused before it gets there. *)
Lemma set_stack_serve bs k v : forallb cache_beh bs = true -> hashable k = true -> forall s d dc, cst x cls al s d dc -> valid_val s v ->
  exists s' dc', set_stack all bs x k v s = (unit_res (set_err al bs k v), s') /\ cst x cls al s' (set_d al bs k v d) dc' /\ moves x s s' /\
    (Cache ∈ bs -> set_err al bs k v = None -> dc' = ddel k dc) /\ (dc' = dc \/ dc' = ddel k dc) /\ (Cache ∉ bs -> dc' = dc).
Proof.
  intros Hb Hk. induction bs as [|b bs IH]; intros s d dc H Hv.
  - simpl. destruct (set_endpoint_c x cls al Hst Hfx s d dc k v H) as (s' & E & H' & G). rewrite Hk in E, H'.
    exists s', dc. unfold set_d. simpl. rewrite Hk. split; [done|]. split; [done|]. split; [done|]. split; [by intros ?%elem_of_nil|]. split; [by left|done].
  - simpl in Hb. apply andb_prop in Hb as [Hb1 Hb2]. specialize (IH Hb2).
    assert (Hskip : b <> Cache -> forall s1 d1 dc1, cst x cls al s1 d1 dc1 -> valid_val s1 v -> exists s' dc', set_stack all bs x k v s1 = (unit_res (set_err al bs k v), s') /\
      cst x cls al s' (set_d al bs k v d1) dc' /\ moves x s1 s' /\
      (Cache ∈ b :: bs -> set_err al bs k v = None -> dc' = ddel k dc1) /\ (dc' = dc1 \/ dc' = ddel k dc1) /\ (Cache ∉ b :: bs -> dc' = dc1)).
    { intros Hne s1 d1 dc1 H1 Hv1. destruct (IH s1 d1 dc1 H1 Hv1) as (s' & dc' & E & H' & G & A & B & C). exists s', dc'. split; [done|]. split; [done|]. split; [done|].
      split; [|split; [done|]]; [intros Hin; apply A|intros Hin; apply C]; set_solver. }
    destruct b; try discriminate Hb1; try (exact (Hskip ltac:(done) s d dc H Hv)).
    + (* Adopt *)
      destruct v; try (exact (Hskip ltac:(done) s d dc H Hv)). simpl in Hv. destruct Hv as [oc Hoc]. cbn [set_stack set_stage].
      rewrite (bind_load _ _ _ _ Hoc). rewrite (bind_modify _ _ _ _ _ Hoc). erewrite bind_modify; [|simpl; apply lookup_insert].
      set (s1 := set_nodes _ (set_nodes _ s)).
      assert (H1 : cst x cls al s1 d dc).
      { unfold s1. eapply cst_modify with (f := with_parent (Some x)); [done..|simpl; by rewrite lookup_insert|]. by eapply cst_modify with (f := with_name k). }
      assert (G1 : moves x s s1).
      { unfold s1. eapply moves_trans; [by apply moves_modify with (f := with_name k)|]. apply moves_modify with (f := with_parent (Some x)); [simpl; by rewrite lookup_insert|done]. }
      assert (Hl1 : is_Some (nodes s1 !! o)) by (unfold s1; simpl; rewrite lookup_insert; eauto).
      destruct (Hskip ltac:(done) s1 d dc H1 Hl1) as (s2 & dc2 & E2 & H2 & G2 & A & B & C).
      change (set_err al (Adopt :: bs) k (VNode o)) with (set_err al bs k (VNode o)). change (set_d al (Adopt :: bs) k (VNode o) d) with (set_d al bs k (VNode o) d).
      destruct (set_err al bs k (VNode o)) as [e|] eqn:Ee; simpl in E2.
      * rewrite (try_catch_Exc _ _ _ _ _ _ E2). destruct (adopt_catches e).
        -- destruct Hl1 as [o1 Ho1]. destruct (lookup_grows s1 s2 o o1 (proj1 G2) Ho1) as [o2 Ho2].
           rewrite (bind_modify _ _ _ _ _ Ho2). erewrite bind_modify; [|simpl; apply lookup_insert].
           eexists _, dc2. split; [reflexivity|]. split; [|split; [|done]].
           ++ eapply cst_modify with (f := with_parent (o_parent oc)); [done..|simpl; by rewrite lookup_insert|]. by eapply cst_modify with (f := with_name (o_name oc)).
           ++ eapply moves_trans; [exact G1|]. eapply moves_trans; [exact G2|]. eapply moves_trans; [by apply moves_modify with (f := with_name (o_name oc))|].
              apply moves_modify with (f := with_parent (o_parent oc)); [simpl; by rewrite lookup_insert|done].
        -- exists s2, dc2. split; [done|]. split; [done|]. split; [by eapply moves_trans|done].
      * rewrite (try_catch_Ret _ _ _ _ _ _ E2). exists s2, dc2. split; [done|]. split; [done|]. split; [by eapply moves_trans|done].
    + (* NodeChildValidate *)
      cbn [set_stack set_stage]. pose proof H as [Hobj ND NDc]. pose proof Hobj as (o & Ho & _ & Hal & _). rewrite (bind_load _ _ _ _ Ho). rewrite Hal.
      unfold set_d. cbn [set_err]. unfold validate_exc.
      destruct (negb al && is_class v) eqn:E1; [exists s, dc; split; [done|]; split; [done|]; split; [apply moves_refl|]; split; [done|]; split; [by left|done]|].
      destruct (negb al && negb (is_node v)) eqn:E2; [exists s, dc; split; [done|]; split; [done|]; split; [apply moves_refl|]; split; [done|]; split; [by left|done]|].
      exact (Hskip ltac:(done) s d dc H Hv).
    + (* Cache *)
      cbn [set_stack set_stage]. destruct (cst_cache x cls al s d dc H) as (l & s1 & E1 & H1 & G1 & Hl & o & Ho & Eo). rewrite (bind_Ret _ _ _ _ _ E1).
      destruct (cst_cache_drop x cls al s1 d dc l o k H1 Ho Eo) as (s2 & E2 & G2 & H2). unfold set_d. cbn [set_err]. rewrite Hk in *.
      rewrite (bind_Ret _ _ _ _ _ E2). destruct (IH s2 d (ddel k dc) H2) as (s3 & dc3 & E3 & H3 & G3 & A & B & C).
      { eapply valid_val_grows; [|exact Hv]. eapply grows_trans; [apply G1|apply G2]. }
      rewrite ddel_ddel_same in * by apply H. assert (dc3 = ddel k dc) as -> by (by destruct B).
      exists s3, (ddel k dc). split; [done|]. split; [done|]. split; [eapply moves_trans; [exact G1|]; by eapply moves_trans|]. split; [done|]. split; [by right|].
      intros Hin. destruct Hin. left.
Qed.
End serve.

Lemma cache_nodup s x : wf s -> NoDup (dkeys (cache_at s x)).
Proof.
  intros W. destruct (class_of s x) as [cls|] eqn:Hc.
  - by apply (c_ndc _ _ _ _ _ _ (cst_of_wf x cls s W Hc)).
  - unfold class_of in Hc. unfold cache_at. destruct (nodes s !! x); [done|]. constructor.
Qed.
Theorem cached_read s x cls k : wf s -> class_of s x = Some cls -> cache_class (c_behs cls) = true -> Cache ∈ c_behs cls -> hashable k = true ->
  exists s', entries_at s' x = entries_at s x /\
    match value_at k (cache_at s x), value_at k (entries_at s x) with
    | Some v, _ => getitem x k s = (Ret v, s') /\ cache_at s' x = cache_at s x
    | None, Some v => getitem x k s = (Ret v, s') /\ cache_at s' x = put k v (cache_at s x)
    | None, None => getitem x k s = (Exc (KeyError k), s') /\ cache_at s' x = cache_at s x
    end.
Proof.
  intros W Hc Hcls Hin Hk. pose proof (cst_of_wf x cls s W Hc) as H. destruct (cache_class_inv _ Hcls) as (H1 & H2 & H3 & H4).
  destruct (get_stack_serve x cls (allows s x) H2 H3 H4 fb_search (c_behs cls) k H1 s _ _ H) as (s' & E & H' & _).
  assert (Hg : getitem x k s = get_stack fb_search (c_behs cls) (c_behs cls) x k s).
  { unfold class_of in Hc. destruct (nodes s !! x) as [o|] eqn:Ho; [|done]. injection Hc as <-. unfold getitem. by rewrite (bind_load _ _ _ _ Ho). }
  rewrite <- Hg in E. clear Hg. assert (Hb : hasc Cache (c_behs cls) = true) by (by apply bool_decide_eq_true). rewrite Hb in E, H'.
  exists s'. destruct (cst_entries _ _ _ _ _ _ H') as (Ee & Ec & _). split; [done|]. rewrite !value_at_spec.
  unfold read_via, get_d in *. rewrite Hk in *. destruct (dget k (cache_at s x)) as [v|] eqn:Eg; [done|].
  destruct (dget k (entries_at s x)) as [v|]; [|done]. simpl in *. split; [done|]. rewrite put_spec; [done|]. by apply cache_nodup.
Qed.
Theorem cached_delete s x cls k : wf s -> class_of s x = Some cls -> cache_class (c_behs cls) = true -> Cache ∈ c_behs cls -> hashable k = true ->
  exists s', cache_at s' x = SpecMapping.remove k (cache_at s x) /\
    if held k (entries_at s x) then delitem x k s = (Ret tt, s') /\ entries_at s' x = SpecMapping.remove k (entries_at s x)
    else delitem x k s = (Exc (KeyError k), s') /\ entries_at s' x = entries_at s x.
Proof.
  intros W Hc Hcls Hin Hk. pose proof (cst_of_wf x cls s W Hc) as H. destruct (cache_class_inv _ Hcls) as (H1 & H2 & H3 & H4).
  destruct (del_stack_serve x cls (allows s x) H2 H3 H4 (c_behs cls) k H1 Hk s _ _ H) as (s' & E & H' & _).
  assert (Hg : delitem x k s = del_stack (c_behs cls) (c_behs cls) x k s).
  { unfold class_of in Hc. destruct (nodes s !! x) as [o|] eqn:Ho; [|done]. injection Hc as <-. unfold delitem. by rewrite (bind_load _ _ _ _ Ho). }
  rewrite <- Hg in E. clear Hg. assert (Hb : hasc Cache (c_behs cls) = true) by (by apply bool_decide_eq_true). rewrite Hb in H'.
  exists s'. destruct (cst_entries _ _ _ _ _ _ H') as (Ee & Ec & _). split; [rewrite remove_spec; [done|by apply cache_nodup]|].
  rewrite held_spec. unfold del_res, del_d in *. rewrite Hk in *. destruct (dget k (entries_at s x)) as [v|] eqn:Eg.
  - rewrite bool_decide_eq_true_2 by (apply dget_Some_in in Eg; apply elem_of_dkeys; by exists v). split; [done|]. rewrite remove_spec; [done|]. by apply entries_nodup.
  - rewrite bool_decide_eq_false_2 by (by apply dget_None). split; [done|]. rewrite Ee. apply ddel_notin. by apply dget_None.
Qed.
Theorem cached_set s x cls k v r s' : wf s -> class_of s x = Some cls -> cache_class (c_behs cls) = true -> Cache ∈ c_behs cls -> hashable k = true -> known s v ->
  setitem x k v s = (r, s') ->
  match r with
  | Ret _ => entries_at s' x = put k v (entries_at s x) /\ cache_at s' x = SpecMapping.remove k (cache_at s x)
  | Exc _ => entries_at s' x = entries_at s x /\ (cache_at s' x = cache_at s x \/ cache_at s' x = SpecMapping.remove k (cache_at s x))
  end.
Proof.
  intros W Hc Hcls Hin Hk Hv Es. pose proof (cst_of_wf x cls s W Hc) as H. destruct (cache_class_inv _ Hcls) as (H1 & H2 & H3 & H4).
  destruct (set_stack_serve x cls (allows s x) H2 H3 H4 (c_behs cls) k v H1 Hk s _ _ H Hv) as (s1 & dc & E & H' & _ & A & B & _).
  assert (Hg : setitem x k v s = set_stack (c_behs cls) (c_behs cls) x k v s).
  { unfold class_of in Hc. destruct (nodes s !! x) as [o|] eqn:Ho; [|done]. injection Hc as <-. unfold setitem. by rewrite (bind_load _ _ _ _ Ho). }
  rewrite <- Hg, Es in E. clear Hg. injection E as -> <-. destruct (cst_entries _ _ _ _ _ _ H') as (Ee & Ec & _).
  rewrite Ee, Ec, remove_spec by (by apply cache_nodup). unfold set_d. destruct (set_err (allows s x) (c_behs cls) k v) as [e|]; simpl.
  - done.
  - split; [rewrite put_spec; [done|by apply entries_nodup]|]. by apply A.
Qed.
(** Writing to the storage itself leaves the cache alone. *)
Theorem stored_behind s x cls k v : wf s -> class_of s x = Some cls -> cache_class (c_behs cls) = true -> hashable k = true ->
  exists s', store x k v s = (Ret tt, s') /\ cache_at s' x = cache_at s x /\ entries_at s' x = put k v (entries_at s x) /\ class_of s' x = Some cls.
Proof.
  intros W Hc Hcls Hk. pose proof (cst_of_wf x cls s W Hc) as H. destruct (cache_class_inv _ Hcls) as (H1 & H2 & H3 & H4).
  destruct (set_endpoint_c x cls (allows s x) H2 H3 s _ _ k v H) as (s' & E & H' & _). rewrite Hk in E, H'.
  assert (Hg : store x k v s = set_endpoint (c_behs cls) x k v s).
  { unfold class_of in Hc. destruct (nodes s !! x) as [o|] eqn:Ho; [|done]. injection Hc as <-. unfold store, own_storage, set_endpoint. rewrite H3.
    unfold has_storage in H2. rewrite H2. unfold bind at 1. rewrite (bind_load _ _ _ _ Ho). change (has DictStorage o || has OdictStorage o) with (hasc DictStorage (c_behs (o_cls o)) || hasc OdictStorage (c_behs (o_cls o))). by rewrite H2. }
  rewrite <- Hg in E. exists s'. split; [done|]. destruct (cst_entries _ _ _ _ _ _ H') as (Ee & Ec & Hcl & _). split; [done|]. split; [rewrite put_spec; [done|by apply entries_nodup]|done].
Qed.
Lemma class_of_node s x cls : class_of s x = Some cls -> exists_node s x.
Proof. unfold class_of, exists_node. by destruct (nodes s !! x). Qed.
Lemma reach_class_of s o r s' x cls : reach s -> op_ok s o -> run_op o s = (r, s') -> class_of s x = Some cls -> class_of s' x = Some cls.
Proof.
  intros R Hok E. destruct (safe_run_op s o Hok (reach_wf s R)) as (_ & X & _). rewrite E in X. simpl in X. unfold class_of.
  destruct (nodes s !! x) as [ob|] eqn:Ho; [|done]. destruct (ext_nodes _ _ X _ _ Ho) as (o' & -> & E'). simpl. intros [= <-]. by rewrite E'.
Qed.
Lemma value_at_put s x k v : wf s -> value_at k (put k v (entries_at s x)) = Some v.
Proof. intros W. rewrite put_spec by (by apply entries_nodup). rewrite value_at_spec. apply dget_dset_eq. Qed.
Lemma value_at_remove s x k : wf s -> value_at k (SpecMapping.remove k (cache_at s x)) = None.
Proof. intros W. rewrite remove_spec by (by apply cache_nodup). rewrite value_at_spec. apply dget_ddel_eq. by apply cache_nodup. Qed.
