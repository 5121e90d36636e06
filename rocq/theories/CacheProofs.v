(** Caching nodes: a cache in front of a dictionary. *)
From Verif Require Import Py Odict OdictFacts Aliaser Heap Model Classes MonadFacts WF
  SpecMapping MappingProofs StorageProofs SpecCache Observe.

Definition cache_beh (b : behavior) : bool := match b with Cache => true | _ => plain_beh b end.
Definition cache_class (bs : list behavior) : bool := forallb cache_beh bs && has_storage bs.

(** [self] holds [d] and has cached [dc] *)
Definition slot_holds (s : st) (l : option nat) (d : list (key * val)) : Prop :=
  match l with None => d = [] | Some l => dicts s !! l = Some d /\ l < next_id s end.
Record cst (self : nat) (cls : classdef) (allow : bool) (s : st) (d dc : list (key * val)) : Prop := Cst {
  c_obj : exists o, nodes s !! self = Some o /\ o_cls o = cls /\ o_allow o = allow /\
    slot_holds s (o_storage o) d /\ slot_holds s (o_cache o) dc /\
    (forall l, o_storage o = Some l -> o_cache o = Some l -> False);
  c_nd : NoDup (dkeys d);
  c_ndc : NoDup (dkeys dc)
}.
Lemma cst_of_wf x cls s : wf s -> class_of s x = Some cls -> cst x cls (allows s x) s (entries_at s x) (cache_at s x).
Proof.
  intros W Hc. unfold class_of in Hc. destruct (nodes s !! x) as [o|] eqn:Ho; [|done]. injection Hc as <-.
  unfold entries_at, cache_at, allows. rewrite Ho. simpl.
  assert (Hd : forall a, slot_holds s (get_slot a o) (default [] (get_slot a o ≫= fun l => dicts s !! l)) /\ NoDup (dkeys (default [] (get_slot a o ≫= fun l => dicts s !! l)))).
  { intros a. destruct (get_slot a o) as [l|] eqn:El; simpl; [|by split; [|constructor]].
    destruct (wf_nodes s W x o Ho) as [_ [_ Hs _ _]]. destruct (Hs a l El) as [d Hl]. rewrite Hl. simpl.
    destruct (wf_dicts s W l d Hl) as (? & ? & _). done. }
  split; [|apply (Hd SStorage)|apply (Hd SCache)]. exists o. split; [done|]. split; [done|]. split; [done|].
  split; [apply (Hd SStorage)|]. split; [apply (Hd SCache)|].
  intros l H1 H2. destruct (wf_own s W x x o o SStorage SCache l Ho Ho H1 H2). done.
Qed.
Lemma cst_entries x cls al s d dc : cst x cls al s d dc -> entries_at s x = d /\ cache_at s x = dc /\ class_of s x = Some cls /\ allows s x = al.
Proof.
  intros [(o & Ho & Hc & Hal & Hs & Hca & _) _ _]. unfold entries_at, cache_at, class_of, allows. rewrite Ho. simpl. unfold slot_holds in *.
  split; [|split; [|split; [by rewrite Hc|done]]].
  - destruct (o_storage o) as [l|]; [|done]. destruct Hs as [Hs _]. simpl. by rewrite Hs.
  - destruct (o_cache o) as [l|]; [|done]. destruct Hca as [Hca _]. simpl. by rewrite Hca.
Qed.
Lemma cst_modify x cls al s d dc y f o :
  (forall o, o_cls (f o) = o_cls o) -> (forall o, o_allow (f o) = o_allow o) -> (forall o, o_storage (f o) = o_storage o) ->
  (forall o, o_cache (f o) = o_cache o) -> nodes s !! y = Some o -> cst x cls al s d dc -> cst x cls al (set_nodes <[y := f o]> s) d dc.
Proof.
  intros H1 H2 H3 H4 Ho [(o1 & Ho1 & Hr) ND NDc]. split; [|done|done]. destruct (decide (y = x)) as [->|Hne].
  - assert (o1 = o) by congruence. subst. exists (f o). simpl. rewrite lookup_insert, H1, H2, H3, H4. done.
  - exists o1. simpl. rewrite lookup_insert_ne by done. done.
Qed.
(** ** The two dictionaries *)
Definition moves (x : nat) (s s' : st) : Prop := grows s s' /\
  forall o l, nodes s !! x = Some o -> o_cache o = Some l -> exists o', nodes s' !! x = Some o' /\ o_cache o' = Some l.
Lemma moves_refl x s : moves x s s. Proof. split; [apply grows_refl|eauto]. Qed.
Lemma moves_trans x s1 s2 s3 : moves x s1 s2 -> moves x s2 s3 -> moves x s1 s3.
Proof. intros [G1 H1] [G2 H2]. split; [by eapply grows_trans|]. intros o l Ho Hl. destruct (H1 o l Ho Hl) as (o' & Ho' & Hl'). eauto. Qed.
Lemma moves_dicts x s f : moves x s (set_dicts f s). Proof. split; [unfold grows; simpl; done|eauto]. Qed.
Lemma moves_modify x s y f o : nodes s !! y = Some o -> (forall o, o_cache (f o) = o_cache o) -> moves x s (set_nodes <[y := f o]> s).
Proof.
  intros Ho Hf. split; [apply grows_modify|]. intros o' l Ho' Hl. simpl. destruct (decide (y = x)) as [->|Hne].
  - rewrite lookup_insert. eexists. split; [done|]. rewrite Hf. congruence.
  - rewrite lookup_insert_ne by done. eauto.
Qed.
Lemma cst_storage x cls al s d dc : has_storage (c_behs cls) = true -> cst x cls al s d dc ->
  exists l s', storage_of x s = (Ret l, s') /\ cst x cls al s' d dc /\ moves x s s' /\ dicts s' !! l = Some d /\
    (forall d', NoDup (dkeys d') -> cst x cls al (set_dicts <[l := d']> s') d' dc) /\ storage_of x s' = (Ret l, s').
Proof.
  intros Hs [(o & Ho & Hc & Hal & Hst & Hca & Hne) ND NDc]. unfold storage_of. rewrite (bind_load _ _ _ _ Ho).
  unfold has_storage, hasc in Hs. rewrite <- Hc in Hs. unfold has. rewrite Hs. destruct (o_storage o) as [l|] eqn:El.
  - exists l, s. split; [done|]. split; [split; [|done|done]; exists o; rewrite El; done|]. split; [apply moves_refl|]. split; [apply Hst|].
    split; [|unfold storage_of; rewrite (bind_load _ _ _ _ Ho); unfold has; by rewrite Hs, El].
    intros d' ND'. split; [|done|done]. exists o. simpl. split; [done|]. split; [done|]. split; [done|]. rewrite El. destruct Hst as [Hst1 Hst2].
    split; [simpl; by rewrite lookup_insert|]. split; [|done]. destruct (o_cache o) as [c|] eqn:Ec; [|done].
    simpl in *. destruct (decide (c = l)) as [->|]; [by destruct (Hne l)|]. by rewrite lookup_insert_ne.
  - unfold alloc_dict. unfold bind at 1. erewrite bind_modify; [|exact Ho]. simpl in Hst. subst d.
    eexists _, _. split; [reflexivity|].
    assert (Hcst : forall d', NoDup (dkeys d') -> cst x cls al (set_nodes <[x:=with_storage (Some (next_id s)) o]> (set_next_id S (set_dicts <[next_id s := d']> s))) d' dc).
    { intros d' ND'. split; [|done|done]. eexists. simpl. rewrite lookup_insert. split; [done|]. split; [done|]. split; [done|]. simpl.
      split; [rewrite lookup_insert; split; [done|lia]|]. unfold slot_holds in *. destruct (o_cache o) as [c|]; [|done]. destruct Hca as [Hca Hlt]. simpl.
      split; [rewrite lookup_insert_ne by lia; split; [done|lia]|]. intros l [= <-] [= ->]. lia. }
    split; [by apply Hcst|]. split; [|split; [simpl; by rewrite lookup_insert|]].
    { split; [unfold grows; simpl; set_solver|]. intros o' l Ho' Hl. simpl. rewrite lookup_insert. eexists. split; [done|]. simpl. congruence. }
    split; [|unfold storage_of; erewrite bind_load; [|simpl; by rewrite lookup_insert]; unfold has; simpl; by rewrite Hs].
    intros d' ND'. pose proof (Hcst d' ND') as HH. unfold set_dicts, set_nodes, set_next_id in *. simpl in *. by rewrite insert_insert.
Qed.
Lemma cst_cache x cls al s d dc : cst x cls al s d dc ->
  exists l s', cache_of x s = (Ret l, s') /\ cst x cls al s' d dc /\ moves x s s' /\ dicts s' !! l = Some dc /\
    (exists o, nodes s' !! x = Some o /\ o_cache o = Some l).
Proof.
  intros [(o & Ho & Hc & Hal & Hst & Hca & Hne) ND NDc]. unfold cache_of. rewrite (bind_load _ _ _ _ Ho). destruct (o_cache o) as [l|] eqn:El.
  - exists l, s. split; [done|]. split; [split; [|done|done]; exists o; rewrite El; done|]. split; [apply moves_refl|]. split; [apply Hca|]. eauto.
  - unfold alloc_dict. unfold bind at 1. erewrite bind_modify; [|exact Ho]. simpl in Hca. subst dc.
    eexists _, _. split; [reflexivity|]. split; [|split; [split; [unfold grows; simpl; set_solver|intros o' l Ho' Hl; congruence]|split; [simpl; by rewrite lookup_insert|]]].
    + split; [|done|done]. eexists. simpl. rewrite lookup_insert. split; [done|]. split; [done|]. split; [done|]. simpl.
      unfold slot_holds in *. destruct (o_storage o) as [c|]; simpl.
      * destruct Hst as [Hst Hlt]. split; [rewrite lookup_insert_ne by lia; split; [done|lia]|]. split; [rewrite lookup_insert; split; [done|lia]|]. intros l [= <-] [= Hx]. lia.
      * split; [done|]. split; [rewrite lookup_insert; split; [done|lia]|]. done.
    + eexists. simpl. rewrite lookup_insert. done.
Qed.
(** the cache dictionary later on *)
Lemma cst_cache_write x cls al s d dc l o dc' : cst x cls al s d dc -> nodes s !! x = Some o -> o_cache o = Some l -> NoDup (dkeys dc') ->
  dicts s !! l = Some dc /\ cst x cls al (set_dicts <[l := dc']> s) d dc'.
Proof.
  intros [(o1 & Ho1 & Hc & Hal & Hst & Hca & Hne) ND NDc] Ho El ND'. assert (o1 = o) by congruence. subst o1. rewrite El in Hca. destruct Hca as [Hca Hlt].
  split; [done|]. split; [|done|done]. exists o. split; [done|]. split; [done|]. split; [done|]. rewrite El. simpl. split; [|split; [by rewrite lookup_insert|intros l' H1 H2; eapply Hne; [done|congruence]]].
  unfold slot_holds in *. destruct (o_storage o) as [c|]; [|done]. simpl. destruct (decide (c = l)) as [->|]; [by destruct (Hne l)|]. by rewrite lookup_insert_ne.
Qed.
Lemma ddel_NoDup_get (d : list (key * val)) k k' v : NoDup (dkeys d) -> dget k' (ddel k d) = Some v -> k' <> k /\ dget k' d = Some v.
Proof.
  intros ND H. destruct (decide (k' = k)) as [->|Hne]; [by rewrite dget_ddel_eq in H|]. by rewrite dget_ddel_ne in H.
Qed.
(** [try: del cache[k] except KeyError: pass] *)
Lemma cst_cache_drop x cls al s d dc l o k : cst x cls al s d dc -> nodes s !! x = Some o -> o_cache o = Some l ->
  exists s', try_catch (dict_del l k) is_key_error (fun _ => ret tt) s = (if hashable k then Ret tt else Exc TypeError, s') /\ moves x s s' /\
    cst x cls al s' d (if hashable k then ddel k dc else dc).
Proof.
  intros H Ho El. unfold dict_del. destruct (hashable k); [|exists s; split; [done|]; split; [apply moves_refl|done]]. unfold try_catch.
  destruct (cst_cache_write _ _ _ _ _ _ _ _ (ddel k dc) H Ho El (NoDup_ddel _ _ (c_ndc _ _ _ _ _ _ H))) as [Hl Hw].
  rewrite (bind_read_dict _ _ _ _ Hl). destruct (dget k dc) as [v|] eqn:Eg.
  - simpl. eexists. split; [reflexivity|]. split; [apply moves_dicts|done].
  - simpl. exists s. split; [done|]. split; [apply moves_refl|]. rewrite ddel_notin; [done|by apply dget_None].
Qed.
Lemma cache_class_inv bs : cache_class bs = true -> forallb cache_beh bs = true /\ has_storage bs = true /\ hasc FixedChildren bs = false /\ hasc ChildFactory bs = false.
Proof.
  intros H. apply andb_prop in H as [H1 H2]. split; [done|]. split; [done|].
  split; apply bool_decide_eq_false; intros Hin; apply elem_of_list_In in Hin; rewrite forallb_forall in H1; by apply H1 in Hin.
Qed.

(** Fresh names for the pure side of [up_to_date] *)
Definition sub (dc d : list (key * val)) : Prop := forall k v, dget k dc = Some v -> dget k d = Some v.
Lemma sub_iff dc d : up_to_date dc d <-> sub dc d.
Proof. unfold up_to_date, sub. by setoid_rewrite value_at_spec. Qed.

Section stacks.
Context (x : nat) (cls : classdef) (al : bool).
Context (Hst : has_storage (c_behs cls) = true) (Hfx : hasc FixedChildren (c_behs cls) = false) (Hcf : hasc ChildFactory (c_behs cls) = false).
Notation all := (c_behs cls).

(** ** Reading *)
Definition get_d (k : key) (d : list (key * val)) : res val :=
  if hashable k then match dget k d with Some v => Ret v | None => Exc (KeyError k) end else Exc TypeError.
Lemma get_endpoint_c s d dc k : cst x cls al s d dc -> exists s', get_endpoint all x k s = (get_d k d, s') /\ cst x cls al s' d dc /\ moves x s s'.
Proof.
  intros H. unfold get_endpoint. rewrite Hfx. unfold has_storage in Hst. rewrite Hst.
  destruct (cst_storage x cls al s d dc Hst H) as (l & s' & E & H' & G & Hl & _ & _). rewrite (bind_Ret _ _ _ _ _ E).
  exists s'. split; [|done]. unfold dict_get, get_d. destruct (hashable k); [|done]. rewrite (bind_read_dict _ _ _ _ Hl). by destruct (dget k d).
Qed.
Lemma get_stack_c fb bs k : forallb cache_beh bs = true -> forall s d dc, cst x cls al s d dc -> sub dc d ->
  exists s' dc', get_stack fb all bs x k s = (get_d k d, s') /\ cst x cls al s' d dc' /\ sub dc' d /\ moves x s s' /\ (Cache ∉ bs -> dc' = dc).
Proof.
  induction bs as [|b bs IH]; intros Hb s d dc H Hsub.
  - simpl. destruct (get_endpoint_c s d dc k H) as (s' & E & H' & G). eauto 10.
  - simpl in Hb. apply andb_prop in Hb as [Hb1 Hb2]. destruct b; try discriminate Hb1; try (destruct (IH Hb2 s d dc H Hsub) as (s' & dc' & E & H' & Hs' & G & Hc); exists s', dc'; split; [done|]; split; [done|]; split; [done|]; split; [done|]; intros Hx; apply Hc; intros Hy; apply Hx; by right).
    simpl. destruct (cst_cache x cls al s d dc H) as (l & s1 & E1 & H1 & G1 & Hl & o & Ho & Eo). rewrite (bind_Ret _ _ _ _ _ E1).
    unfold dict_get at 1. unfold get_d. destruct (hashable k) eqn:Hk.
    2: { eexists s1, dc. split; [done|]. done. }
    destruct (dget k dc) as [v|] eqn:Eg.
    + erewrite try_catch_Ret; [|rewrite (bind_read_dict _ _ _ _ Hl), Eg; reflexivity]. rewrite (Hsub _ _ Eg). eexists s1, dc. done.
    + erewrite try_catch_Exc; [|rewrite (bind_read_dict _ _ _ _ Hl), Eg; reflexivity]. simpl.
      destruct (IH Hb2 s1 d dc H1 Hsub) as (s2 & dc2 & E2 & H2 & Hsub2 & G2 & _). unfold get_d in E2. rewrite Hk in E2.
      destruct (dget k d) as [v|] eqn:Ed.
      * rewrite (bind_Ret _ _ _ _ _ E2). unfold dict_set. rewrite Hk.
        assert (exists o2, nodes s2 !! x = Some o2 /\ o_cache o2 = Some l) as (o2 & Ho2 & El2).
        { eapply (proj2 G2); eauto. }
        destruct (cst_cache_write _ _ _ _ _ _ _ _ (dset k v dc2) H2 Ho2 El2 (NoDup_dset _ _ _ (c_ndc _ _ _ _ _ _ H2))) as [Hl2 H3].
        rewrite bind_assoc. rewrite (bind_read_dict _ _ _ _ Hl2). unfold bind at 1, write_dict at 1.
        unfold dict_get. rewrite Hk. erewrite bind_read_dict; [|simpl; by rewrite lookup_insert]. rewrite dget_dset_eq.
        eexists _, _. split; [reflexivity|]. split; [exact H3|]. split; [|split; [eapply moves_trans; [exact G1|eapply moves_trans; [exact G2|apply moves_dicts]]|intros Hx; destruct Hx; left]].
        intros k' v' Hk'. destruct (decide (k' = k)) as [->|Hne]; [rewrite dget_dset_eq in Hk'; congruence|]. rewrite dget_dset_ne in Hk' by done. by apply Hsub2.
      * rewrite (bind_Exc _ _ _ _ _ E2). eexists s2, dc2. split; [done|]. split; [done|]. split; [done|]. split; [by eapply moves_trans|]. intros Hx; destruct Hx; left.
Qed.

(** ** Iterating *)
Lemma iter_override_c s bs : hasc ChildFactory bs = false -> has_storage bs = true ->
    iter_override bs x s = (let! l := storage_of x in let! d := read_dict l in ret (dkeys d)) s.
Proof using.
  clear. induction bs as [|b bs IH]; intros H1 H2; [done|]. unfold has_storage, hasc in *. rewrite bool_decide_eq_false in H1.
  apply orb_true_iff in H2. rewrite !bool_decide_eq_true in H2.
  destruct b; try done; simpl; try (apply IH; [rewrite bool_decide_eq_false; set_solver|apply orb_true_iff; rewrite !bool_decide_eq_true; set_solver]).
  destruct H1. left.
Qed.
Lemma iter_endpoint_c s d dc : cst x cls al s d dc -> exists s', iter_endpoint all x s = (Ret (dkeys d), s') /\ cst x cls al s' d dc /\ moves x s s'.
Proof.
  intros H. unfold iter_endpoint. rewrite Hfx.
  rewrite iter_override_c by done. destruct (cst_storage x cls al s d dc Hst H) as (l & s' & E & H' & G & Hl & _ & _). rewrite (bind_Ret _ _ _ _ _ E).
  rewrite (bind_read_dict _ _ _ _ Hl). eauto.
Qed.
Lemma iter_stack_c bs s : forallb cache_beh bs = true -> iter_stack all bs x s = iter_endpoint all x s.
Proof.
  induction bs as [|b bs IH]; simpl; intros Hb; [done|]. apply andb_prop in Hb as [Hb1 Hb2]. destruct b; try discriminate Hb1; simpl; by apply IH.
Qed.
(** ** Deleting *)
Definition del_res (k : key) (d : list (key * val)) : res unit :=
  if hashable k then match dget k d with Some _ => Ret tt | None => Exc (KeyError k) end else Exc TypeError.
Definition del_d (k : key) (d : list (key * val)) : list (key * val) := if hashable k then ddel k d else d.
Lemma del_d_notin k d : hashable k = true -> dget k d = None -> d = del_d k d.
Proof. intros Hk H. unfold del_d. rewrite Hk. rewrite ddel_notin; [done|]. by apply dget_None. Qed.
Lemma del_endpoint_c s d dc k : cst x cls al s d dc -> exists s', del_endpoint all x k s = (del_res k d, s') /\ cst x cls al s' (del_d k d) dc /\ moves x s s'.
Proof.
  intros H. unfold del_endpoint. rewrite Hfx. unfold has_storage in Hst. rewrite Hst.
  destruct (cst_storage x cls al s d dc Hst H) as (l & s' & E & H' & G & Hl & Hw & _). rewrite (bind_Ret _ _ _ _ _ E).
  unfold dict_del, del_res, del_d. destruct (hashable k) eqn:Hk; [|eauto]. rewrite (bind_read_dict _ _ _ _ Hl). destruct (dget k d) eqn:Ed.
  - eexists. split; [reflexivity|]. split; [apply Hw, NoDup_ddel; apply H|]. eapply moves_trans; [exact G|apply moves_dicts].
  - exists s'. split; [done|]. rewrite ddel_notin by (by apply dget_None). done.
Qed.
Lemma sub_ddel dc d k : NoDup (dkeys dc) -> sub dc d -> sub (ddel k dc) d.
Proof. intros ND H k' v Hk. destruct (ddel_NoDup_get _ _ _ _ ND Hk). by apply H. Qed.
Lemma sub_del_both dc d k : NoDup (dkeys dc) -> sub dc d -> dget k dc = None -> sub dc (del_d k d).
Proof.
  intros ND H Hn k' v Hk. unfold del_d. destruct (hashable k); [|by apply H]. rewrite dget_ddel_ne; [by apply H|]. congruence.
Qed.
Lemma del_stack_c bs k : forallb cache_beh bs = true -> forall s d dc, cst x cls al s d dc -> sub dc d -> (Cache ∈ bs \/ dget k dc = None) ->
  exists s' dc', del_stack all bs x k s = (del_res k d, s') /\ cst x cls al s' (del_d k d) dc' /\ sub dc' (del_d k d) /\ moves x s s' /\ sub dc' dc.
Proof.
  induction bs as [|b bs IH]; intros Hb s d dc H Hsub Hin.
  - simpl. destruct (del_endpoint_c s d dc k H) as (s' & E & H' & G). destruct Hin as [Hin|Hin]; [by apply elem_of_nil in Hin|].
    exists s', dc. split; [done|]. split; [done|]. split; [|split; [done|by intros ??]]. apply sub_del_both; [apply H|done|done].
  - simpl in Hb. apply andb_prop in Hb as [Hb1 Hb2]. destruct b; try discriminate Hb1; try (apply (IH Hb2 s d dc H Hsub); set_solver).
    simpl. destruct (cst_cache x cls al s d dc H) as (l & s1 & E1 & H1 & G1 & Hl & o & Ho & Eo). rewrite (bind_Ret _ _ _ _ _ E1).
    destruct (cst_cache_drop x cls al s1 d dc l o k H1 Ho Eo) as (s2 & E2 & G2 & H2). destruct (hashable k) eqn:Hk.
    + rewrite (bind_Ret _ _ _ _ _ E2).
      destruct (IH Hb2 s2 d (ddel k dc) H2) as (s3 & dc3 & E3 & H3 & Hsub3 & G3 & Hss).
      { apply sub_ddel; [apply H|done]. } { right. apply dget_ddel_eq. apply H. }
      exists s3, dc3. split; [done|]. split; [done|]. split; [done|]. split; [eapply moves_trans; [exact G1|]; by eapply moves_trans|].
      intros k' v' Hk'. apply Hss in Hk'. by apply ddel_NoDup_get in Hk' as [_ ?]; [|apply H].
    + rewrite (bind_Exc _ _ _ _ _ E2). exists s2, dc. unfold del_res, del_d. rewrite Hk. split; [done|]. split; [done|]. split; [done|]. split; [by eapply moves_trans|by intros ??].
Qed.
(** ** Assigning *)
Fixpoint set_err (bs : list behavior) (k : key) (v : val) : option exc :=
  match bs with
  | [] => if hashable k then None else Some TypeError
  | Cache :: r => if hashable k then set_err r k v else Some TypeError
  | NodeChildValidate :: r => match validate_exc al v with Some e => Some e | None => set_err r k v end
  | _ :: r => set_err r k v
  end.
Definition set_d (bs : list behavior) (k : key) (v : val) (d : list (key * val)) : list (key * val) :=
  match set_err bs k v with Some _ => d | None => dset k v d end.
Definition unit_res (e : option exc) : res unit := match e with Some e => Exc e | None => Ret tt end.
Lemma set_endpoint_c s d dc k v : cst x cls al s d dc ->
  exists s', set_endpoint all x k v s = (if hashable k then Ret tt else Exc TypeError, s') /\ cst x cls al s' (if hashable k then dset k v d else d) dc /\ moves x s s'.
Proof.
  intros H. unfold set_endpoint. rewrite Hfx. unfold has_storage in Hst. rewrite Hst.
  destruct (cst_storage x cls al s d dc Hst H) as (l & s' & E & H' & G & Hl & Hw & _). rewrite (bind_Ret _ _ _ _ _ E).
  unfold dict_set. destruct (hashable k) eqn:Hk; [|eauto]. rewrite (bind_read_dict _ _ _ _ Hl).
  eexists. split; [reflexivity|]. split; [apply Hw, NoDup_dset; apply H|]. eapply moves_trans; [exact G|apply moves_dicts].
Qed.
Lemma set_stack_c bs k v : forallb cache_beh bs = true -> forall s d dc, cst x cls al s d dc -> sub dc d -> (Cache ∈ bs \/ dget k dc = None) -> valid_val s v ->
  exists s' dc', set_stack all bs x k v s = (unit_res (set_err bs k v), s') /\ cst x cls al s' (set_d bs k v d) dc' /\ sub dc' (set_d bs k v d) /\ moves x s s' /\ sub dc' dc.
Proof.
  induction bs as [|b bs IH]; intros Hb s d dc H Hsub Hin Hv.
  - simpl. destruct (set_endpoint_c s d dc k v H) as (s' & E & H' & G). destruct Hin as [Hin|Hin]; [by apply elem_of_nil in Hin|].
    exists s', dc. unfold set_d. simpl. destruct (hashable k); (split; [done|]; split; [done|]; split; [|split; [done|by intros ??]]); [|done].
    intros k' v' Hk'. rewrite dget_dset_ne; [by apply Hsub|]. congruence.
  - simpl in Hb. apply andb_prop in Hb as [Hb1 Hb2]. destruct b; try discriminate Hb1; try (apply (IH Hb2 s d dc H Hsub); [set_solver|done]).
    + (* Adopt *)
      destruct v; try (apply (IH Hb2 s d dc H Hsub); [set_solver|done]). simpl in Hv. destruct Hv as [oc Hoc]. cbn [set_stack set_stage].
      rewrite (bind_load _ _ _ _ Hoc). rewrite (bind_modify _ _ _ _ _ Hoc). erewrite bind_modify; [|simpl; apply lookup_insert].
      set (s1 := set_nodes _ (set_nodes _ s)).
      assert (H1 : cst x cls al s1 d dc).
      { unfold s1. eapply cst_modify with (f := with_parent (Some x)); [done..|simpl; by rewrite lookup_insert|]. by eapply cst_modify with (f := with_name k). }
      assert (G1 : moves x s s1).
      { unfold s1. eapply moves_trans; [by apply moves_modify with (f := with_name k)|]. apply moves_modify with (f := with_parent (Some x)); [simpl; by rewrite lookup_insert|done]. }
      assert (Hl1 : is_Some (nodes s1 !! o)) by (unfold s1; simpl; rewrite lookup_insert; eauto).
      destruct (IH Hb2 s1 d dc H1 Hsub ltac:(set_solver) Hl1) as (s2 & dc2 & E2 & H2 & Hsub2 & G2 & Hss).
      change (set_err (Adopt :: bs) k (VNode o)) with (set_err bs k (VNode o)). change (set_d (Adopt :: bs) k (VNode o) d) with (set_d bs k (VNode o) d).
      destruct (set_err bs k (VNode o)) as [e|] eqn:Ee; simpl in E2.
      * rewrite (try_catch_Exc _ _ _ _ _ _ E2). destruct (adopt_catches e).
        -- destruct Hl1 as [o1 Ho1]. destruct (lookup_grows s1 s2 o o1 (proj1 G2) Ho1) as [o2 Ho2].
           rewrite (bind_modify _ _ _ _ _ Ho2). erewrite bind_modify; [|simpl; apply lookup_insert].
           eexists _, dc2. split; [reflexivity|]. split; [|split; [done|split; [|done]]].
           ++ eapply cst_modify with (f := with_parent (o_parent oc)); [done..|simpl; by rewrite lookup_insert|]. by eapply cst_modify with (f := with_name (o_name oc)).
           ++ eapply moves_trans; [exact G1|]. eapply moves_trans; [exact G2|]. eapply moves_trans; [by apply moves_modify with (f := with_name (o_name oc))|].
              apply moves_modify with (f := with_parent (o_parent oc)); [simpl; by rewrite lookup_insert|done].
        -- exists s2, dc2. split; [done|]. split; [done|]. split; [done|]. split; [by eapply moves_trans|done].
      * rewrite (try_catch_Ret _ _ _ _ _ _ E2). exists s2, dc2. split; [done|]. split; [done|]. split; [done|]. split; [by eapply moves_trans|done].
    + (* NodeChildValidate *)
      cbn [set_stack set_stage]. destruct H as [Hobj ND NDc] eqn:EH. clear EH. pose proof Hobj as (o & Ho & _ & Hal & _). rewrite (bind_load _ _ _ _ Ho). rewrite Hal.
      unfold set_d. cbn [set_err]. unfold validate_exc.
      destruct (negb al && is_class v) eqn:E1; [exists s, dc; split; [done|]; split; [done|]; split; [done|split; [apply moves_refl|by intros ??]]|].
      destruct (negb al && negb (is_node v)) eqn:E2; [exists s, dc; split; [done|]; split; [done|]; split; [done|split; [apply moves_refl|by intros ??]]|].
      apply (IH Hb2 s d dc (Cst _ _ _ _ _ _ Hobj ND NDc) Hsub); [set_solver|done].
    + (* Cache *)
      cbn [set_stack set_stage]. destruct (cst_cache x cls al s d dc H) as (l & s1 & E1 & H1 & G1 & Hl & o & Ho & Eo). rewrite (bind_Ret _ _ _ _ _ E1).
      destruct (cst_cache_drop x cls al s1 d dc l o k H1 Ho Eo) as (s2 & E2 & G2 & H2). unfold set_d. cbn [set_err]. destruct (hashable k) eqn:Hk.
      * rewrite (bind_Ret _ _ _ _ _ E2). destruct (IH Hb2 s2 d (ddel k dc) H2) as (s3 & dc3 & E3 & H3 & Hsub3 & G3 & Hss).
        { apply sub_ddel; [apply H|done]. } { right. apply dget_ddel_eq. apply H. }
        { eapply valid_val_grows; [|exact Hv]. eapply grows_trans; [apply G1|apply G2]. }
        exists s3, dc3. split; [done|]. split; [done|]. split; [done|]. split; [eapply moves_trans; [exact G1|]; by eapply moves_trans|].
        intros k' v' Hk'. apply Hss in Hk'. by apply ddel_NoDup_get in Hk' as [_ ?]; [|apply H].
      * rewrite (bind_Exc _ _ _ _ _ E2). exists s2, dc. split; [done|]. split; [done|]. split; [done|]. split; [by eapply moves_trans|by intros ??].
Qed.
End stacks.

(** * The node as a mapping *)
Fixpoint cache_early (bs : list behavior) : bool :=
  match bs with [] => false | Cache :: _ => true | NodeChildValidate :: _ => false | _ :: r => cache_early r end.
Definition pol (cls : classdef) (al : bool) : policy :=
  caching_policy (cache_early (c_behs cls)) (negb (hasc NodeChildValidate (c_behs cls)) || al).
Lemma set_err_policy al bs k v : set_err al bs k v = p_set (caching_policy (cache_early bs) (negb (hasc NodeChildValidate bs) || al)) k v.
Proof.
  assert (Hh : forall b bs', b <> NodeChildValidate -> hasc NodeChildValidate (b :: bs') = hasc NodeChildValidate bs') by (intros b bs' Hb; apply bool_decide_ext; set_solver).
  induction bs as [|b bs IH].
  - simpl. by destruct k, v.
  - destruct (decide (b = NodeChildValidate)) as [->|Hn].
    + assert (E : hasc NodeChildValidate (NodeChildValidate :: bs) = true) by (apply bool_decide_eq_true; left). rewrite E.
      cbn [set_err cache_early]. rewrite IH. unfold validate_exc. simpl.
      destruct al, v; simpl; rewrite ?orb_true_r; destruct k, (cache_early bs); done.
    + rewrite Hh by done. destruct (decide (b = Cache)) as [->|Hc].
      * cbn [set_err cache_early]. rewrite IH. simpl. destruct k; done.
      * transitivity (set_err al bs k v); [by destruct b|]. rewrite IH. by destruct b.
Qed.
Lemma unit_res_alt (e : option exc) : unit_res e = match e with None => Ret tt | Some e => Exc e end.
Proof. by destruct e. Qed.

Section mapping.
Context (x : nat) (cls : classdef) (al : bool) (Hcls : cache_class (c_behs cls) = true).
(** a class without Cache never caches *)
Definition used (dc : list (key * val)) : Prop := Cache ∈ c_behs cls \/ dc = [].
Lemma used_get dc k : used dc -> Cache ∈ c_behs cls \/ dget k dc = None.
Proof. intros [H| ->]; [by left|by right]. Qed.
Lemma sub_nil (dc : list (key * val)) : sub dc [] -> dc = [].
Proof. clear. intros H. destruct dc as [|[k v] dc]; [done|]. specialize (H k v). simpl in H. rewrite decide_True in H by done. by discriminate (H eq_refl). Qed.
Lemma used_sub dc dc' : used dc -> sub dc' dc -> used dc'.
Proof. intros [H| ->] Hs; [by left|right]. by apply sub_nil. Qed.
Definition RC (s : st) (d : list (key * val)) : Prop := exists dc, cst x cls al s d dc /\ sub dc d /\ used dc.
Lemma RC_load s d : RC s d -> exists o, nodes s !! x = Some o /\ o_cls o = cls.
Proof. intros (dc & [(o & Ho & Hc & _) _ _] & _). eauto. Qed.
Lemma RC_nodup s d : RC s d -> NoDup (dkeys d).
Proof. intros (dc & [_ ND _] & _). done. Qed.
Lemma RC_iter s d : RC s d -> exists s', iter x s = (Ret (dkeys d), s') /\ RC s' d /\ grows s s'.
Proof using Hcls.
  intros H. destruct (RC_load s d H) as (o & Ho & Hc). unfold iter. rewrite (bind_load _ _ _ _ Ho), Hc.
  destruct (cache_class_inv _ Hcls) as (H1 & H2 & H3 & H4). rewrite iter_stack_c by done. destruct H as (dc & H & Hs & Hu).
  destruct (iter_endpoint_c x cls al H2 H3 H4 s d dc H) as (s' & E & H' & [G _]). exists s'. split; [done|]. split; [|done]. by exists dc.
Qed.
Lemma get_d_policy k d p : p_get p k = (match k with KUnhashable _ => Some TypeError | _ => None end) -> get_d k d = do_get p k d.
Proof. intros E. unfold get_d, do_get. rewrite E, value_at_spec. by destruct k. Qed.
Lemma RC_get s d k : RC s d -> exists s', getitem x k s = (do_get (pol cls al) k d, s') /\ RC s' d /\ grows s s'.
Proof using Hcls.
  intros H. destruct (RC_load s d H) as (o & Ho & Hc). unfold getitem. rewrite (bind_load _ _ _ _ Ho), Hc.
  destruct (cache_class_inv _ Hcls) as (H1 & H2 & H3 & H4). destruct H as (dc & H & Hs & Hu).
  destruct (get_stack_c x cls al H2 H3 fb_search (c_behs cls) k H1 s d dc H Hs) as (s' & dc' & E & H' & Hs' & [G _] & Hn). exists s'.
  split; [rewrite E; f_equal; by apply get_d_policy|]. split; [exists dc'; split; [done|]; split; [done|]|done].
  destruct (decide (Cache ∈ c_behs cls)); [by left|]. rewrite Hn by done. done.
Qed.
Lemma RC_set s d k v : RC s d -> valid_val s v ->
  exists s', setitem x k v s = (match fst (do_set (pol cls al) k v d) with None => Ret tt | Some e => Exc e end, s') /\
    RC s' (snd (do_set (pol cls al) k v d)) /\ grows s s'.
Proof using Hcls.
  intros H Hv. destruct (RC_load s d H) as (o & Ho & Hc). unfold setitem. rewrite (bind_load _ _ _ _ Ho), Hc.
  destruct (cache_class_inv _ Hcls) as (H1 & H2 & H3 & H4). pose proof (RC_nodup s d H) as ND. destruct H as (dc & H & Hs & Hu).
  destruct (set_stack_c x cls al H2 H3 H4 (c_behs cls) k v H1 s d dc H Hs (used_get dc k Hu) Hv) as (s' & dc' & E & H' & Hs' & [G _] & Hss). pose proof (used_sub _ _ Hu Hss) as Hu'. exists s'.
  unfold set_d in *. rewrite set_err_policy in *. fold (pol cls al) in *. unfold do_set.
  destruct (p_set (pol cls al) k v); simpl in *.
  - split; [done|]. split; [by exists dc'|done].
  - split; [done|]. rewrite put_spec by done. split; [by exists dc'|done].
Qed.
Lemma RC_del s d k : RC s d ->
  exists s', delitem x k s = (match fst (do_del (pol cls al) k d) with None => Ret tt | Some e => Exc e end, s') /\
    RC s' (snd (do_del (pol cls al) k d)) /\ grows s s'.
Proof using Hcls.
  intros H. destruct (RC_load s d H) as (o & Ho & Hc). unfold delitem. rewrite (bind_load _ _ _ _ Ho), Hc.
  destruct (cache_class_inv _ Hcls) as (H1 & H2 & H3 & H4). pose proof (RC_nodup s d H) as ND. destruct H as (dc & H & Hs & Hu).
  destruct (del_stack_c x cls al H2 H3 H4 (c_behs cls) k H1 s d dc H Hs (used_get dc k Hu)) as (s' & dc' & E & H' & Hs' & [G _] & Hss). pose proof (used_sub _ _ Hu Hss) as Hu'. exists s'.
  unfold del_res, del_d in *. unfold do_del. assert (Ep : p_del (pol cls al) k = if hashable k then None else Some TypeError) by (by destruct k).
  rewrite Ep. destruct (hashable k) eqn:Hk.
  - rewrite held_spec. destruct (dget k d) as [v|] eqn:Ed.
    + rewrite bool_decide_eq_true_2 by (apply dget_is_Some; eauto). simpl. rewrite remove_spec by done. split; [done|]. split; [by exists dc'|done].
    + rewrite bool_decide_eq_false_2 by (by apply dget_None). simpl. rewrite ddel_notin in H', Hs' by (by apply dget_None). split; [done|]. split; [by exists dc'|done].
  - simpl. split; [done|]. split; [by exists dc'|done].
Qed.

(** ** invalidate(key) *)
Fixpoint invalidator (bs : list behavior) : option invalidation :=
  match bs with
  | [] => None
  | Invalidate :: _ => Some Through
  | VolatileStorageInvalidate :: _ => Some Below
  | _ :: r => invalidator r
  end.
Lemma inval_endpoint_eq bs k s : invalidate_endpoint bs x k s =
  match invalidator bs with
  | None => raise AttributeError s
  | Some Through => (if decide (k = KNone) then let! ks := keys x in iterM (delitem x) ks else delitem x k) s
  | Some Below => (let! l := storage_of x in
      if decide (k = KNone) then let! d := read_dict l in iterM (dict_del l) (dkeys d)
      else let! ks := keys x in if bool_decide (k ∈ ks) then try_catch (dict_del l k) is_key_error (fun _ => ret tt) else raise (KeyError k)) s
  end.
Proof. induction bs as [|b bs IH]; [done|]. destruct b; done. Qed.
Lemma inval_endpoint_c i k s d dc : invalidator (c_behs cls) = Some i -> k <> KNone -> hashable k = true -> cst x cls al s d dc -> sub dc d -> used dc -> dget k dc = None ->
  exists s' dc', invalidate_endpoint (c_behs cls) x k s = (if bool_decide (k ∈ dkeys d) then Ret tt else Exc (KeyError k), s') /\
    cst x cls al s' (ddel k d) dc' /\ sub dc' (ddel k d) /\ moves x s s' /\ sub dc' dc.
Proof using Hcls.
  intros Ei Hk Hh H Hs Hu Hn. rewrite inval_endpoint_eq, Ei. destruct (cache_class_inv _ Hcls) as (H1 & H2 & H3 & H4).
  assert (Hload : exists o, nodes s !! x = Some o /\ o_cls o = cls) by (apply RC_load with d; by exists dc). destruct Hload as (o & Ho & Hc).
  destruct i.
  - rewrite decide_False by done. unfold delitem. rewrite (bind_load _ _ _ _ Ho), Hc.
    destruct (del_stack_c x cls al H2 H3 H4 (c_behs cls) k H1 s d dc H Hs (used_get dc k Hu)) as (s' & dc' & E & H' & Hs' & G & Hss).
    exists s', dc'. unfold del_res, del_d in *. rewrite Hh in *. rewrite E. split; [|done]. destruct (dget k d) eqn:Ed.
    + by rewrite bool_decide_eq_true_2 by (apply dget_is_Some; eauto).
    + by rewrite bool_decide_eq_false_2 by (by apply dget_None).
  - destruct (cst_storage x cls al s d dc H2 H) as (l & s1 & E1 & H1' & G1 & Hl & Hw & Hag). rewrite (bind_Ret _ _ _ _ _ E1).
    assert (Hload1 : exists o, nodes s1 !! x = Some o /\ o_cls o = cls) by (apply RC_load with d; by exists dc). destruct Hload1 as (o1 & Ho1 & Hc1).
    assert (Ek : keys x s1 = (Ret (dkeys d), s1)).
    { unfold keys, iter. rewrite (bind_load _ _ _ _ Ho1), Hc1. rewrite iter_stack_c by done. unfold iter_endpoint. rewrite H3.
      rewrite iter_override_c by done. rewrite (bind_Ret _ _ _ _ _ Hag), (bind_read_dict _ _ _ _ Hl). done. }
    rewrite decide_False by done. rewrite (bind_Ret _ _ _ _ _ Ek). case_bool_decide as Hd.
    + apply dget_is_Some in Hd as [v Hd]. unfold dict_del. rewrite Hh. erewrite try_catch_Ret; [|rewrite (bind_read_dict _ _ _ _ Hl), Hd; reflexivity].
      eexists _, dc. split; [reflexivity|]. split; [apply Hw, NoDup_ddel; apply H|]. split; [|split; [eapply moves_trans; [exact G1|apply moves_dicts]|by intros ??]].
      intros k' v' Hk'. rewrite dget_ddel_ne; [by apply Hs|congruence].
    + rewrite ddel_notin by done. exists s1, dc. split; [done|]. split; [done|]. split; [done|]. split; [done|by intros ??].
Qed.

Lemma inval_stack_c i k bs : invalidator (c_behs cls) = Some i -> k <> KNone -> hashable k = true -> forallb cache_beh bs = true ->
  forall s d dc, cst x cls al s d dc -> sub dc d -> used dc -> (Cache ∈ bs \/ dget k dc = None) ->
  exists s' dc', invalidate_stack (c_behs cls) bs x k s = (if bool_decide (k ∈ dkeys d) then Ret tt else Exc (KeyError k), s') /\
    cst x cls al s' (ddel k d) dc' /\ sub dc' (ddel k d) /\ moves x s s' /\ sub dc' dc.
Proof using Hcls.
  intros Ei Hk Hh. induction bs as [|b bs IH]; intros Hb s d dc H Hs Hu Hn.
  - simpl. destruct Hn as [Hn|Hn]; [by apply elem_of_nil in Hn|]. by eapply inval_endpoint_c.
  - simpl in Hb. apply andb_prop in Hb as [Hb1 Hb2]. destruct b; try discriminate Hb1; try (apply (IH Hb2 s d dc H Hs Hu); set_solver).
    simpl. destruct (cst_cache x cls al s d dc H) as (l & s1 & E1 & H1 & G1 & Hl & o & Ho & Eo). rewrite (bind_Ret _ _ _ _ _ E1).
    rewrite decide_False by done. destruct (cst_cache_drop x cls al s1 d dc l o k H1 Ho Eo) as (s2 & E2 & G2 & H2). rewrite Hh in *.
    rewrite (bind_Ret _ _ _ _ _ E2). destruct (IH Hb2 s2 d (ddel k dc) H2) as (s3 & dc3 & E3 & H3 & Hsub3 & G3 & Hss).
    { apply sub_ddel; [apply H|done]. } { apply (used_sub dc); [done|]. apply sub_ddel; [apply H|by intros ??]. } { right. apply dget_ddel_eq. apply H. }
    exists s3, dc3. split; [done|]. split; [done|]. split; [done|]. split; [eapply moves_trans; [exact G1|]; by eapply moves_trans|].
    intros k' v' Hk'. apply Hss in Hk'. by apply ddel_NoDup_get in Hk' as [_ ?]; [|apply H].
Qed.
Lemma RC_invalidate i s d k : invalidator (c_behs cls) = Some i -> k <> KNone -> hashable k = true -> RC s d ->
  exists s', wrap (fun _ => ANone) (invalidate x k) s = (fst (invalidate_spec i (pol cls al) k d), s') /\
    RC s' (snd (invalidate_spec i (pol cls al) k d)) /\ grows s s'.
Proof using Hcls.
  intros Ei Hk Hh H. destruct (RC_load s d H) as (o & Ho & Hc). pose proof (RC_nodup s d H) as ND. unfold wrap, invalidate. rewrite (bind_load _ _ _ _ Ho), Hc.
  destruct (cache_class_inv _ Hcls) as (H1 & H2 & H3 & H4). destruct H as (dc & H & Hs & Hu).
  destruct (inval_stack_c i k (c_behs cls) Ei Hk Hh H1 s d dc H Hs Hu (used_get dc k Hu)) as (s' & dc' & E & H' & Hs' & [G _] & Hss). pose proof (used_sub _ _ Hu Hss) as Hu'. exists s'. rewrite E.
  assert (Ep : p_del (pol cls al) k = None) by (by destruct k).
  destruct i; simpl; unfold do_del; rewrite ?Ep, held_spec; case_bool_decide as Hd; simpl; (split; [done|]); split; try done;
    rewrite ?remove_spec by done; try (by exists dc'); rewrite ddel_notin in H', Hs' by done; by exists dc'.
Qed.
End mapping.

(** Histories with invalidation *)
Definition run_icall (x : nat) (c : icall) : st -> answer * st :=
  match c with Call c => run_call x c | Invalidates k => wrap (fun _ => ANone) (invalidate x k) end.
Fixpoint run_icalls (x : nat) (l : list icall) (s : st) : list answer * st :=
  match l with
  | [] => ([], s)
  | c :: r => let '(a, s1) := run_icall x c s in let '(as_, s2) := run_icalls x r s1 in (a :: as_, s2)
  end.
Section histories.
Context (x : nat) (p : policy) (i : invalidation) (R : st -> list (key * val) -> Prop).
Hypothesis R_call : forall s d c, R s d -> Forall (valid_val s) (call_values c) ->
  exists s', run_call x c s = (fst (call_spec p c d), s') /\ R s' (snd (call_spec p c d)) /\ grows s s'.
Hypothesis R_inval : forall s d k, k <> KNone -> hashable k = true -> R s d ->
  exists s', wrap (fun _ => ANone) (invalidate x k) s = (fst (invalidate_spec i p k d), s') /\ R s' (snd (invalidate_spec i p k d)) /\ grows s s'.
Lemma run_icalls_sim l : forall s d, R s d -> Forall (fun c => Forall (valid_val s) (icall_values c)) l ->
  Forall (fun c => match c with Invalidates k => k <> KNone /\ hashable k = true | _ => True end) l ->
  exists s', run_icalls x l s = (fst (icalls_spec i p l d), s') /\ R s' (snd (icalls_spec i p l d)) /\ grows s s'.
Proof.
  induction l as [|c l IH]; intros s d H Hv Hk.
  - exists s. split; [done|]. split; [done|apply grows_refl].
  - apply Forall_cons in Hv as [Hv1 Hv2]. apply Forall_cons in Hk as [Hk1 Hk2].
    assert (exists s', run_icall x c s = (fst (match c with Call c => call_spec p c d | Invalidates k => invalidate_spec i p k d end), s') /\
      R s' (snd (match c with Call c => call_spec p c d | Invalidates k => invalidate_spec i p k d end)) /\ grows s s') as (s1 & E1 & H1 & G1).
    { destruct c as [c|k]; [by apply R_call|]. destruct Hk1. by apply R_inval. }
    cbn [run_icalls icalls_spec]. rewrite E1. destruct (match c with Call c => call_spec p c d | Invalidates k => invalidate_spec i p k d end) as [a d1]. simpl in *.
    destruct (IH s1 d1 H1) as (s2 & E2 & H2 & G2); [|done|].
    { eapply Forall_impl; [exact Hv2|]. intros c' Hc'. eapply Forall_impl; [exact Hc'|]. intros v. by apply valid_val_grows. }
    rewrite E2. destruct (icalls_spec i p l d1) as [as_ d2]. simpl in *. exists s2. split; [done|]. split; [done|]. by eapply grows_trans.
Qed.
End histories.


(** * Histories on caching and other nodes *)
Lemma RC_icalls x cls al i l s d : cache_class (c_behs cls) = true -> invalidator (c_behs cls) = Some i ->
  RC x cls al s d -> Forall (fun c => Forall (valid_val s) (icall_values c)) l ->
  Forall (fun c => match c with Invalidates k => k <> KNone /\ hashable k = true | _ => True end) l ->
  exists s', run_icalls x l s = (fst (icalls_spec i (pol cls al) l d), s') /\ RC x cls al s' (snd (icalls_spec i (pol cls al) l d)) /\ grows s s'.
Proof.
  intros Hcls Hi. apply run_icalls_sim.
  - intros s0 d0 c H Hv. eapply run_call_sim; eauto using RC_nodup, RC_iter, RC_get, RC_set, RC_del.
  - intros s0 d0 k Hk Hh H. by apply RC_invalidate.
Qed.

Lemma known_valid s v : known s v <-> valid_val s v.
Proof. destruct v; done. Qed.
Definition inval_keys_ok (l : list icall) : Prop :=
  Forall (fun c => match c with Invalidates k => k <> KNone /\ hashable k = true | _ => True end) l.
Lemma RC_of_wf s x cls : wf s -> class_of s x = Some cls -> up_to_date (cache_at s x) (entries_at s x) ->
  (Cache ∈ c_behs cls \/ cache_at s x = []) -> RC x cls (allows s x) s (entries_at s x).
Proof. intros W Hc Hu H. exists (cache_at s x). split; [by apply cst_of_wf|]. split; [by apply sub_iff|done]. Qed.
Lemma known_values s l : Forall (fun c => Forall (known s) (icall_values c)) l -> Forall (fun c => Forall (valid_val s) (icall_values c)) l.
Proof. intros H. eapply Forall_impl; [exact H|]. intros c Hc. eapply Forall_impl; [exact Hc|]. intros v. apply known_valid. Qed.
Lemma caching_history s x cls i l : wf s -> class_of s x = Some cls -> cache_class (c_behs cls) = true -> Cache ∈ c_behs cls ->
  invalidator (c_behs cls) = Some i -> up_to_date (cache_at s x) (entries_at s x) ->
  Forall (fun c => Forall (known s) (icall_values c)) l -> inval_keys_ok l ->
  exists s', run_icalls x l s = (fst (icalls_spec i (pol cls (allows s x)) l (entries_at s x)), s') /\
    entries_at s' x = snd (icalls_spec i (pol cls (allows s x)) l (entries_at s x)) /\
    up_to_date (cache_at s' x) (entries_at s' x).
Proof.
  intros W Hc Hcls Hin Hi Hu Hv Hk. destruct (RC_icalls x cls (allows s x) i l s (entries_at s x)) as (s' & E & (dc & H & Hs & _) & _); try done.
  { apply RC_of_wf; auto. }
  exists s'. split; [done|]. destruct (cst_entries _ _ _ _ _ _ H) as (E1 & E2 & _). split; [done|]. rewrite E1, E2. by apply sub_iff.
Qed.
(** the early refusal only concerns unhashable keys *)
Lemma caching_policy_set e a k v : hashable k = true -> p_set (caching_policy e a) k v = p_set (caching_policy false a) k v.
Proof. by destruct k. Qed.
Lemma do_set_caching e a k v d : hashable k = true -> do_set (caching_policy e a) k v d = do_set (caching_policy false a) k v d.
Proof. intros H. unfold do_set. by rewrite caching_policy_set. Qed.
Lemma do_update_caching e a l : forall d, Forall (fun k => hashable k = true) (map fst l) -> do_update (caching_policy e a) l d = do_update (caching_policy false a) l d.
Proof.
  induction l as [|[k v] l IH]; intros d H; [done|]. simpl in H. apply Forall_cons in H as [H1 H2]. cbn [do_update]. rewrite do_set_caching by done.
  destruct (do_set (caching_policy false a) k v d) as [[?|] d']; [done|]. by apply IH.
Qed.
Lemma do_values_caching e a ks d : do_values (caching_policy e a) ks d = do_values (caching_policy false a) ks d.
Proof. induction ks as [|k ks IH]; [done|]. cbn [do_values]. by rewrite IH. Qed.
Lemma do_clear_caching e a d : do_clear (caching_policy e a) d = do_clear (caching_policy false a) d.
Proof. induction d as [|[k v] d IH]; [done|]. cbn [do_clear]. by rewrite IH. Qed.
Lemma call_spec_caching e a c d : Forall (fun k => hashable k = true) (icall_keys (Call c)) -> call_spec (caching_policy e a) c d = call_spec (caching_policy false a) c d.
Proof.
  intros H. destruct c; simpl in H; cbn [call_spec]; rewrite ?do_values_caching, ?do_clear_caching; try reflexivity.
  - apply Forall_cons in H as [H _]. by rewrite do_set_caching.
  - apply Forall_cons in H as [H _]. by rewrite do_set_caching.
  - destruct args as [|a1 [|a2 args]]; try reflexivity; by rewrite do_update_caching.
Qed.
Lemma icalls_spec_caching i e a l : forall d, Forall (fun c => Forall (fun k => hashable k = true) (icall_keys c)) l ->
  icalls_spec i (caching_policy e a) l d = icalls_spec i (caching_policy false a) l d.
Proof.
  induction l as [|c l IH]; intros d H; [done|]. apply Forall_cons in H as [H1 H2]. cbn [icalls_spec].
  assert (E : match c with Call c => call_spec (caching_policy e a) c d | Invalidates k => invalidate_spec i (caching_policy e a) k d end =
              match c with Call c => call_spec (caching_policy false a) c d | Invalidates k => invalidate_spec i (caching_policy false a) k d end).
  { destruct c; [by apply call_spec_caching|done]. }
  rewrite E. destruct (match c with Call c => call_spec (caching_policy false a) c d | Invalidates k => invalidate_spec i (caching_policy false a) k d end) as [an d1].
  by rewrite IH.
Qed.
Definition uncache (bs : list behavior) : list behavior := filter (fun b => b <> Cache) bs.
Lemma uncache_early bs : cache_early (uncache bs) = false.
Proof. unfold uncache. induction bs as [|b bs IH]; [done|]. rewrite filter_cons. destruct (decide (b <> Cache)); [|done]. destruct b; done. Qed.
Lemma uncache_has b bs : b <> Cache -> hasc b (uncache bs) = hasc b bs.
Proof. intros Hb. apply bool_decide_ext. unfold uncache. rewrite elem_of_list_filter. naive_solver. Qed.
Lemma uncache_class bs : cache_class bs = true -> cache_class (uncache bs) = true.
Proof.
  unfold cache_class. intros H. apply andb_prop in H as [H1 H2]. apply andb_true_intro. split.
  - rewrite forallb_forall in *. intros b Hb. apply H1. apply elem_of_list_In in Hb. unfold uncache in Hb. apply elem_of_list_filter in Hb as [_ Hb]. by apply elem_of_list_In.
  - unfold has_storage. rewrite !uncache_has by done. done.
Qed.
Lemma uncache_invalidator bs : invalidator (uncache bs) = invalidator bs.
Proof. unfold uncache. induction bs as [|b bs IH]; [done|]. rewrite filter_cons. destruct (decide (b <> Cache)) as [H|H]; [by destruct b|]. apply dec_stable in H. by subst b. Qed.
Lemma caching_invisible s x cls t y cls' i l : wf s -> wf t -> class_of s x = Some cls -> class_of t y = Some cls' ->
  cache_class (c_behs cls) = true -> Cache ∈ c_behs cls -> invalidator (c_behs cls) = Some i -> c_behs cls' = uncache (c_behs cls) ->
  up_to_date (cache_at s x) (entries_at s x) -> cache_at t y = [] -> entries_at t y = entries_at s x -> allows t y = allows s x ->
  Forall (fun c => Forall (fun v => known s v /\ known t v) (icall_values c)) l -> inval_keys_ok l ->
  Forall (fun c => Forall (fun k => hashable k = true) (icall_keys c)) l ->
  exists as_ s' t', run_icalls x l s = (as_, s') /\ run_icalls y l t = (as_, t') /\ entries_at s' x = entries_at t' y.
Proof.
  intros W Wt Hc Hc' Hcls Hin Hi Hb Hu Hn He Ha Hv Hk Hh.
  assert (Hv1 : Forall (fun c => Forall (known s) (icall_values c)) l /\ Forall (fun c => Forall (known t) (icall_values c)) l).
  { split; (eapply Forall_impl; [exact Hv|]; intros c Hcc; eapply Forall_impl; [exact Hcc|]; by intros v [? ?]). }
  destruct Hv1 as [Hv1 Hv2].
  destruct (caching_history s x cls i l W Hc Hcls Hin Hi Hu Hv1 Hk) as (s' & E & Hent & _).
  destruct (RC_icalls y cls' (allows t y) i l t (entries_at t y)) as (t' & E' & (dc & H & Hs & _) & _).
  { rewrite Hb. by apply uncache_class. } { by rewrite Hb, uncache_invalidator. }
  { apply RC_of_wf; try done; [rewrite Hn; done|by right]. } { by apply known_values. } { done. }
  destruct (cst_entries _ _ _ _ _ _ H) as (E1 & _).
  assert (Ep : icalls_spec i (pol cls' (allows t y)) l (entries_at t y) = icalls_spec i (pol cls (allows s x)) l (entries_at s x)).
  { unfold pol. rewrite He, Ha, Hb, uncache_early, uncache_has by done. symmetry. by apply icalls_spec_caching. }
  rewrite Ep in *. eexists _, s', t'. split; [done|]. split; [done|]. congruence.
Qed.

(** * invalidate() *)
Lemma clear_dict l : forall d s, dicts s !! l = Some d -> NoDup (dkeys d) -> Forall (fun k => hashable k = true) (dkeys d) ->
  iterM (dict_del l) (dkeys d) s = (Ret tt, set_dicts <[l := []]> s).
Proof.
  induction d as [|[k v] d IH]; intros s Hl ND Hh.
  - simpl. unfold set_dicts. rewrite insert_id by done. by destruct s.
  - simpl in *. apply Forall_cons in Hh as [Hk Hh]. apply NoDup_cons in ND as [Hn ND]. unfold dict_del at 1. rewrite Hk.
    erewrite bind_Ret; [|rewrite (bind_read_dict _ _ _ _ Hl); simpl; rewrite decide_True by done; simpl; reflexivity].
    rewrite IH; [|simpl; rewrite decide_True by done; by rewrite lookup_insert|done|done].
    unfold set_dicts. simpl. by rewrite insert_insert.
Qed.
Section inval_none.
Context (x : nat) (cls : classdef) (al : bool) (Hcls : cache_class (c_behs cls) = true) (i : invalidation) (Hi : invalidator (c_behs cls) = Some i).
Notation hk d := (Forall (fun k => hashable k = true) (dkeys d)).
Lemma del_all_c d : forall s, cst x cls al s d [] -> hk d -> exists s', iterM (delitem x) (dkeys d) s = (Ret tt, s') /\ cst x cls al s' [] [].
Proof using Hcls.
  destruct (cache_class_inv _ Hcls) as (H1 & H2 & H3 & H4).
  induction d as [|[k v] d IH]; intros s H Hh; [by exists s|]. simpl in Hh. apply Forall_cons in Hh as [Hk Hh]. cbn [dkeys map fst iterM].
  pose proof H as [(o & Ho & Hc & _) ND _]. unfold delitem at 1. rewrite bind_assoc. rewrite (bind_load _ _ _ _ Ho), Hc.
  destruct (del_stack_c x cls al H2 H3 H4 (c_behs cls) k H1 s ((k, v) :: d) [] H) as (s1 & dc1 & E1 & Hc1 & _ & _ & Hs1); [done|by right|].
  apply sub_nil in Hs1. subst dc1. unfold del_res in E1. rewrite Hk in E1. simpl in E1. rewrite decide_True in E1 by done.
  rewrite (bind_Ret _ _ _ _ _ E1). unfold del_d in Hc1. rewrite Hk in Hc1. simpl in Hc1. rewrite decide_True in Hc1 by done. by apply IH.
Qed.
Lemma inval_all_c s d : cst x cls al s d [] -> hk d -> exists s', invalidate_endpoint (c_behs cls) x KNone s = (Ret tt, s') /\ cst x cls al s' [] [].
Proof using Hcls Hi.
  intros H Hh. destruct (cache_class_inv _ Hcls) as (H1 & H2 & H3 & H4). rewrite inval_endpoint_eq, Hi. rewrite decide_True by done. destruct i.
  - destruct (RC_iter x cls al Hcls s d) as (s1 & E1 & _); [by exists []; split; [|split; [|right]]|].
    pose proof H as [(o & Ho & Hc & _) _ _].
    unfold keys. unfold iter in E1. rewrite (bind_load _ _ _ _ Ho), Hc in E1. rewrite iter_stack_c in E1 by done.
    destruct (iter_endpoint_c x cls al H2 H3 H4 s d [] H) as (s1' & E1' & Hc1 & _). rewrite E1' in E1. injection E1 as ->.
    unfold iter. rewrite bind_assoc. rewrite (bind_load _ _ _ _ Ho), Hc. erewrite bind_Ret; [|rewrite iter_stack_c by done; exact E1']. by apply del_all_c.
  - destruct (cst_storage x cls al s d [] H2 H) as (l & s1 & E1 & Hc1 & _ & Hl & Hw & _). rewrite (bind_Ret _ _ _ _ _ E1). rewrite decide_True by done.
    rewrite (bind_read_dict _ _ _ _ Hl). rewrite clear_dict with (d := d); [|done|apply H|done]. eexists. split; [done|]. apply Hw. constructor.
Qed.
Lemma inval_none_empty bs s d : forallb cache_beh bs = true -> cst x cls al s d [] -> hk d ->
  exists s', invalidate_stack (c_behs cls) bs x KNone s = (Ret tt, s') /\ cst x cls al s' [] [].
Proof using Hcls Hi.
  revert s. induction bs as [|b bs IH]; intros s Hb H Hh; [by eapply inval_all_c|].
  simpl in Hb. apply andb_prop in Hb as [Hb1 Hb2]. destruct b; try discriminate Hb1; try (by apply (IH s)).
  simpl. destruct (cst_cache x cls al s d [] H) as (l & s1 & E1 & H1 & G1 & Hl & o & Ho & Eo). rewrite (bind_Ret _ _ _ _ _ E1).
  rewrite (bind_read_dict _ _ _ _ Hl). simpl. by apply IH.
Qed.
Definition last_key (dc : list (key * val)) : key := default KNone (last (dkeys dc)).
Lemma inval_none_c bs s d dc : forallb cache_beh bs = true -> Cache ∈ bs -> cst x cls al s d dc -> hk d -> hk dc ->
  let k := last_key dc in
  exists s', invalidate_stack (c_behs cls) bs x KNone s = (if decide (k = KNone) then Ret tt else if bool_decide (k ∈ dkeys d) then Ret tt else Exc (KeyError k), s') /\
    cst x cls al s' (if decide (k = KNone) then [] else ddel k d) [].
Proof using Hcls Hi.
  revert s. induction bs as [|b bs IH]; intros s Hb Hin H Hh Hhc; [by apply elem_of_nil in Hin|].
  simpl in Hb. apply andb_prop in Hb as [Hb1 Hb2]. destruct b; try discriminate Hb1; try (apply (IH s); try done; set_solver).
  clear IH. simpl. destruct (cst_cache x cls al s d dc H) as (l & s1 & E1 & H1 & G1 & Hl & o & Ho & Eo). rewrite (bind_Ret _ _ _ _ _ E1).
  rewrite (bind_read_dict _ _ _ _ Hl). erewrite bind_Ret; [|apply clear_dict; [exact Hl|apply H|done]]. fold (last_key dc).
  destruct (cst_cache_write _ _ _ _ _ _ _ _ [] H1 Ho Eo (NoDup_nil_2)) as [_ H2].
  destruct (decide (last_key dc = KNone)) as [Ek|Ek].
  - rewrite Ek. by eapply inval_none_empty.
  - assert (Hk : hashable (last_key dc) = true).
    { unfold last_key in *. destruct (last (dkeys dc)) as [k|] eqn:El; [|done]. simpl. rewrite Forall_forall in Hhc. apply Hhc.
      by apply last_Some_elem_of. }
    destruct (inval_stack_c x cls al Hcls i (last_key dc) bs Hi Ek Hk Hb2 _ d [] H2) as (s3 & dc3 & E3 & H3 & _ & _ & Hs3); [done|by right|by right|].
    apply sub_nil in Hs3. subst dc3. exists s3. done.
Qed.
End inval_none.

Lemma slot_known s x a : wf s -> forall o, nodes s !! x = Some o -> Forall (fun k => hashable k = true) (dkeys (default [] (get_slot a o ≫= fun l => dicts s !! l))).
Proof.
  intros W o Ho. destruct (get_slot a o) as [l|]; simpl; [|constructor]. destruct (dicts s !! l) as [d|] eqn:Hd; simpl; [|constructor].
  destruct (wf_dicts _ W _ _ Hd) as (_ & _ & F). apply Forall_forall. intros k Hk. apply elem_of_list_fmap in Hk as (e & -> & He).
  rewrite Forall_forall in F. by apply F in He as [? _].
Qed.
Lemma invalidate_none s x cls i : wf s -> class_of s x = Some cls -> cache_class (c_behs cls) = true -> Cache ∈ c_behs cls ->
  invalidator (c_behs cls) = Some i ->
  exists r s', invalidate x KNone s = (r, s') /\ cache_at s' x = [] /\
    match last (cache_at s x) with
    | None | Some (KNone, _) => r = Ret tt /\ entries_at s' x = []
    | Some (k, _) => if held k (entries_at s x) then r = Ret tt /\ entries_at s' x = remove k (entries_at s x)
                     else r = Exc (KeyError k) /\ entries_at s' x = entries_at s x
    end.
Proof.
  intros W Hc Hcls Hin Hi. pose proof (cst_of_wf x cls s W Hc) as H. destruct (cache_class_inv _ Hcls) as (H1 & _).
  pose proof H as [(o & Ho & Hco & _) ND NDc]. 
  assert (Hh : Forall (fun k => hashable k = true) (dkeys (entries_at s x))).
  { unfold entries_at. rewrite Ho. apply (slot_known s x SStorage W o Ho). }
  assert (Hhc : Forall (fun k => hashable k = true) (dkeys (cache_at s x))).
  { unfold cache_at. rewrite Ho. apply (slot_known s x SCache W o Ho). }
  destruct (inval_none_c x cls (allows s x) Hcls i Hi (c_behs cls) s _ _ H1 Hin H Hh Hhc) as (s' & E & H').
  destruct (cst_entries _ _ _ _ _ _ H') as (E1 & E2 & _). unfold invalidate. rewrite (bind_load _ _ _ _ Ho), Hco, E.
  eexists _, s'. split; [done|]. split; [done|]. clear E. rewrite E1. clear E1. 
  assert (El : last_key (cache_at s x) = default KNone (fst <$> last (cache_at s x))) by (unfold last_key, dkeys; by rewrite fmap_last).
  rewrite El. clear El. destruct (last (cache_at s x)) as [[k v]|]; simpl; [|done].
  destruct (decide (k = KNone)) as [->|Hk]; [done|]. rewrite held_spec.
  assert (Hres : if bool_decide (k ∈ dkeys (entries_at s x)) then
      (if bool_decide (k ∈ dkeys (entries_at s x)) then Ret tt else Exc (KeyError k)) = Ret tt /\ ddel k (entries_at s x) = remove k (entries_at s x)
    else (if bool_decide (k ∈ dkeys (entries_at s x)) then Ret tt else Exc (KeyError k)) = Exc (KeyError k) /\ ddel k (entries_at s x) = entries_at s x).
  { case_bool_decide; (split; [done|]); [by rewrite remove_spec|by apply ddel_notin]. }
  destruct k; done.
Qed.
