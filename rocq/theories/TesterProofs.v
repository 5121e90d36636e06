(** The mapping tester run on an empty node of storage, validation, adoption and passive behaviors. *)
From Verif Require Import Py Odict OdictFacts Aliaser Heap Model Classes MonadFacts SpecMapping MappingProofs StorageProofs WF Observe ObserveFacts
  ShallowProofs Reach SpecTester Tester.

(** * Reading a node whose storage exists *)
Section touched.
Context (x : nat) (s : st) (o : obj) (l : nat) (d : list (key * val)).
Hypothesis Ho : nodes s !! x = Some o.
Hypothesis Hp : plain_class (c_behs (o_cls o)) = true.
Hypothesis Hl : o_storage o = Some l.
Hypothesis Hd : dicts s !! l = Some d.
Lemma t_storage : storage_of x s = (Ret l, s).
Proof.
  unfold storage_of. rewrite (bind_load _ _ _ _ Ho). apply plain_class_inv in Hp as [_ Hs]. unfold has_storage, hasc in Hs. unfold has. rewrite Hs, Hl. done.
Qed.
Lemma t_get k : hashable k = true -> getitem x k s = (match dget k d with Some v => Ret v | None => Exc (KeyError k) end, s).
Proof.
  intros Hh. pose proof (plain_class_inv _ Hp) as [Hb Hs]. unfold getitem. rewrite (bind_load _ _ _ _ Ho), get_stack_plain by done. unfold get_endpoint.
  rewrite plain_no_fixed by done. unfold has_storage in Hs. rewrite Hs, (bind_Ret _ _ _ _ _ t_storage). unfold dict_get. rewrite Hh, (bind_read_dict _ _ _ _ Hd).
  by destruct (dget k d).
Qed.
Lemma t_iter : Model.iter x s = (Ret (dkeys d), s).
Proof.
  pose proof (plain_class_inv _ Hp) as [Hb Hs]. unfold Model.iter. rewrite (bind_load _ _ _ _ Ho), iter_stack_plain by done. unfold iter_endpoint.
  rewrite plain_no_fixed by done. rewrite iter_override_plain by done. by rewrite (bind_Ret _ _ _ _ _ t_storage), (bind_read_dict _ _ _ _ Hd).
Qed.
Lemma t_del k v : hashable k = true -> dget k d = Some v -> delitem x k s = (Ret tt, set_dicts <[l := ddel k d]> s).
Proof.
  intros Hh Hv. pose proof (plain_class_inv _ Hp) as [Hb Hs]. unfold delitem. rewrite (bind_load _ _ _ _ Ho), del_stack_plain by done. unfold del_endpoint.
  rewrite plain_no_fixed by done. unfold has_storage in Hs. rewrite Hs, (bind_Ret _ _ _ _ _ t_storage). unfold dict_del. by rewrite Hh, (bind_read_dict _ _ _ _ Hd), Hv.
Qed.
End touched.

(** * Assignment of a node *)
(** Everything but the storage of [x] and the place of [c] stays. *)
Record put_eff (x c : nat) (k : key) (v : val) (ad : bool) (s s' : st) : Prop := PutEff {
  pe_classes : classes s' = classes s;
  pe_next : next_id s <= next_id s';
  pe_dom : forall y o, nodes s' !! y = Some o -> exists o', nodes s !! y = Some o';
  pe_other : forall y, y <> x -> y <> c -> nodes s' !! y = nodes s !! y;
  pe_child : forall oc, nodes s !! c = Some oc -> exists oc', nodes s' !! c = Some oc' /\ o_name oc' = (if ad then k else o_name oc);
  pe_self : forall o, nodes s !! x = Some o -> exists o' l, nodes s' !! x = Some o' /\ o_cls o' = o_cls o /\ o_name o' = o_name o /\ o_parent o' = o_parent o /\
    o_storage o' = Some l /\ l < next_id s' /\ dicts s' !! l = Some (dset k v (match o_storage o with Some l0 => default [] (dicts s !! l0) | None => [] end))
}.
Lemma put_endpoint x c k v all s o : c <> x -> nodes s !! x = Some o -> hasc DictStorage all || hasc OdictStorage all = true -> hasc FixedChildren all = false ->
  has DictStorage o || has OdictStorage o = true ->
  (forall l, o_storage o = Some l -> l < next_id s /\ is_Some (dicts s !! l)) -> hashable k = true ->
  exists s', set_endpoint all x k v s = (Ret tt, s') /\ put_eff x c k v false s s'.
Proof.
  intros Hcx Ho Ha Hf Hs Hl Hh. unfold set_endpoint. rewrite Hf, Ha. unfold storage_of. rewrite bind_assoc, (bind_load _ _ _ _ Ho), Hs.
  destruct (o_storage o) as [l|] eqn:El.
  - destruct (Hl l eq_refl) as [Ll [d Hd]]. unfold dict_set. rewrite Hh, bind_ret, (bind_read_dict _ _ _ _ Hd). eexists. split; [reflexivity|].
    constructor; simpl; try done; try eauto. intros o' Ho'. assert (o' = o) as -> by congruence. exists o, l. rewrite El, Hd. simpl. by rewrite lookup_insert.
  - rewrite bind_assoc. unfold alloc_dict. unfold bind at 1. rewrite bind_assoc. erewrite bind_modify; [|exact Ho]. rewrite bind_ret. unfold dict_set. rewrite Hh.
    erewrite bind_read_dict; [|simpl; apply lookup_insert]. eexists. split; [reflexivity|].
    constructor; simpl; try done.
    + lia.
    + intros y oy. destruct (decide (y = x)) as [->|Hne]; [eauto|]. rewrite lookup_insert_ne by done. eauto.
    + intros y Hy _. by rewrite lookup_insert_ne.
    + intros oc Hoc. exists oc. by rewrite lookup_insert_ne.
    + intros o' Ho'. assert (o' = o) as -> by congruence. exists (with_storage (Some (next_id s)) o), (next_id s). rewrite !lookup_insert, El. simpl. repeat split. lia.
Qed.
Lemma put_stack x c k all bs : hasc DictStorage all || hasc OdictStorage all = true -> hasc FixedChildren all = false -> c <> x -> hashable k = true ->
  forallb plain_beh bs = true -> forall s o oc, nodes s !! x = Some o -> nodes s !! c = Some oc -> has DictStorage o || has OdictStorage o = true ->
  (forall l, o_storage o = Some l -> l < next_id s /\ is_Some (dicts s !! l)) ->
  exists s', set_stack all bs x k (VNode c) s = (Ret tt, s') /\ put_eff x c k (VNode c) (hasc Adopt bs) s s'.
Proof.
  intros Ha Hf Hcx Hh. induction bs as [|b bs IH]; intros Hb s o oc Ho Hc Hs Hl; [by apply (put_endpoint x c k _ all s o)|].
  simpl in Hb. apply andb_prop in Hb as [Hb1 Hb2]. cbn [set_stack].
  assert (Hpass : set_stage b (set_stack all bs) x k (VNode c) s = set_stack all bs x k (VNode c) s -> b <> Adopt ->
    exists s', set_stage b (set_stack all bs) x k (VNode c) s = (Ret tt, s') /\ put_eff x c k (VNode c) (hasc Adopt (b :: bs)) s s').
  { intros -> Hne. destruct (IH Hb2 s o oc Ho Hc Hs Hl) as (s' & E & P). exists s'. split; [done|].
    assert (hasc Adopt (b :: bs) = hasc Adopt bs) as -> by (apply bool_decide_ext; set_solver). done. }
  destruct b; try discriminate Hb1; try (apply Hpass; done); clear Hpass.
  - (* Adopt *)
    assert (hasc Adopt (Adopt :: bs) = true) as -> by (apply bool_decide_eq_true; left).
    simpl. rewrite (bind_load _ _ _ _ Hc), (bind_modify _ _ _ _ _ Hc). erewrite bind_modify; [|simpl; apply lookup_insert].
    set (s1 := set_nodes _ (set_nodes _ s)).
    assert (Hn1 : nodes s1 = <[c := with_parent (Some x) (with_name k oc)]> (nodes s)) by (unfold s1; simpl; by rewrite insert_insert).
    destruct (IH Hb2 s1 o (with_parent (Some x) (with_name k oc))) as (s' & E & P).
    { rewrite Hn1, lookup_insert_ne by done. done. } { by rewrite Hn1, lookup_insert. } { done. } { done. }
    rewrite (try_catch_Ret _ _ _ _ _ _ E). exists s'. split; [done|]. destruct P as [P1 P2 P3 P4 P5 P6]. constructor; try done.
    + intros y oy Hy. destruct (P3 y oy Hy) as [o' Ho']. rewrite Hn1 in Ho'. destruct (decide (y = c)) as [->|Hne]; [eauto|]. rewrite lookup_insert_ne in Ho' by done. eauto.
    + intros y Hy1 Hy2. rewrite P4 by done. by rewrite Hn1, lookup_insert_ne by done.
    + intros oc' _. destruct (P5 (with_parent (Some x) (with_name k oc))) as (o' & Ho' & En); [by rewrite Hn1, lookup_insert|]. exists o'. split; [done|].
      rewrite En. by destruct (hasc Adopt bs).
    + intros o' Ho'. apply P6. by rewrite Hn1, lookup_insert_ne by done.
  - (* NodeChildValidate *)
    simpl. rewrite (bind_load _ _ _ _ Ho). rewrite !andb_false_r.
    destruct (IH Hb2 s o oc Ho Hc Hs Hl) as (s' & E & P). exists s'. split; [done|].
    assert (hasc Adopt (NodeChildValidate :: bs) = hasc Adopt bs) as -> by (apply bool_decide_ext; set_solver). done.
Qed.

(** * Creation *)
Record made (cls : classdef) (name : key) (n : nat) (s s' : st) : Prop := Made {
  md_classes : classes s' = classes s;
  md_dicts : dicts s' = dicts s;
  md_next : next_id s' = next_id s;
  md_nodes : exists o, nodes s' = <[n := o]> (nodes s) /\ o_cls o = cls /\ o_name o = name /\ o_storage o = None
}.
Lemma made_init mk all bs name n cls s : forallb plain_beh all = true -> c_behs cls = all -> hasc DefaultInit all = true -> forallb plain_beh bs = true ->
  (exists o, nodes s !! n = Some o /\ o_cls o = cls /\ o_storage o = None) ->
  exists s', init_stack mk all bs name None n s = (Ret tt, s') /\ made cls name n s s'.
Proof.
  intros Hall Hcls Hd. induction bs as [|b bs IH]; intros Hb Hn.
  - destruct Hn as (o & Ho & Ec & Es). simpl. unfold init_endpoint. rewrite Hd, (bind_modify _ _ _ _ _ Ho). erewrite modify_Some; [|simpl; apply lookup_insert].
    eexists. split; [reflexivity|]. constructor; simpl; try done. exists (with_parent None (with_name name o)). by rewrite insert_insert.
  - simpl in Hb. apply andb_prop in Hb as [Hb1 Hb2]. destruct (IH Hb2 Hn) as (s' & E & M). cbn [init_stack].
    destruct b; try discriminate Hb1; try (exists s'; split; [exact E|done]).
    simpl. rewrite (bind_Ret _ _ _ _ _ E). unfold uuid4. unfold bind at 1. unfold assign_uuid. destruct M as [M1 M2 M3 (o & Mn & Mc & Mm & Ms)].
    assert (Ho : nodes (set_next_uuid N.succ s') !! n = Some o) by (simpl; by rewrite Mn, lookup_insert).
    rewrite (bind_load _ _ _ _ Ho).
    assert (has Reference o = false) as ->.
    { apply bool_decide_eq_false. rewrite Mc, Hcls. intros Hin. rewrite forallb_forall in Hall. apply elem_of_list_In, Hall in Hin. done. }
    unfold saw_uuid. unfold bind at 1. erewrite modify_Some; [|exact Ho]. eexists. split; [reflexivity|]. constructor; simpl; try done.
    eexists. rewrite Mn, insert_insert. split; [done|]. done.
Qed.
Lemma new_plain cn cls name s : classes s !! cn = Some cls -> plain_class (c_behs cls) = true -> DefaultInit ∈ c_behs cls -> nodes s !! next_id s = None ->
  exists s', new_node cn name None s = (Ret (next_id s), s') /\ classes s' = classes s /\ dicts s' = dicts s /\ next_id s' = S (next_id s) /\
    exists o, nodes s' = <[next_id s := o]> (nodes s) /\ o_cls o = cls /\ o_name o = name /\ o_storage o = None.
Proof.
  intros Hc Hp Hd Hf. apply plain_class_inv in Hp as [Hp _]. unfold new_node. cbn [instantiate].
  assert (Eg : get_class cn s = (Ret cls, s)) by (unfold get_class; by rewrite Hc). rewrite (bind_Ret _ _ _ _ _ Eg). unfold alloc_node. unfold bind at 1.
  set (s1 := set_next_id S _). assert (hasc DefaultInit (c_behs cls) = true) as Hd' by (by apply bool_decide_eq_true). clear Hd. rename Hd' into Hd.
  destruct (made_init (fun cn0 => instantiate (size (classes s)) cn0 KNone None) (c_behs cls) (c_behs cls) name (next_id s) cls s1 Hp eq_refl Hd Hp) as (s' & E & [M1 M2 M3 (o & Mn & Mo)]).
  { exists (blank cls). split; [simpl; apply lookup_insert|done]. }
  rewrite (bind_Ret _ _ _ _ _ E). exists s'. split; [done|]. split; [done|]. split; [done|]. split; [done|]. exists o. rewrite Mn. simpl. rewrite insert_insert. done.
Qed.

(** * The context between the tests *)
Definition stored (d : list (key * nat)) : list (key * val) := map (fun kc => (fst kc, VNode (snd kc))) d.
Section run.
Context (x : nat) (cls kcls : classdef) (cn : string).
Hypothesis Hp : plain_class (c_behs cls) = true.
Hypothesis Hk : plain_class (c_behs kcls) = true.
Hypothesis Hi : DefaultInit ∈ c_behs kcls.
Let ad := hasc Adopt (c_behs cls).
Definition named (k n : key) : Prop := if ad then n = k else n = KNone \/ n = xxx.
(** [t]: the storage exists *)
Record world (t : bool) (nm : key) (pr : option nat) (s : st) (d : list (key * nat)) : Prop := World {
  wd_class : classes s !! cn = Some kcls;
  wd_ids : forall y o, nodes s !! y = Some o -> y < next_id s;
  wd_self : exists o, nodes s !! x = Some o /\ o_cls o = cls /\ o_name o = nm /\ o_parent o = pr /\
    match o_storage o with Some l => l < next_id s /\ dicts s !! l = Some (stored d) | None => t = false /\ d = [] end;
  wd_kids : forall k c, (k, c) ∈ d -> c <> x /\ exists oc, nodes s !! c = Some oc /\ named k (o_name oc)
}.
(** a node the tester made and did not assign yet *)
Definition ready (b : bool) (s : st) (d : list (key * nat)) (c : nat) : Prop :=
  c <> x /\ (forall k, (k, c) ∉ d) /\ exists o, nodes s !! c = Some o /\ (b = true -> o_cls o = kcls /\ o_storage o = None) /\ (o_name o = KNone \/ o_name o = xxx).
Lemma w_new t nm pr s d name : world t nm pr s d -> name = KNone \/ name = xxx ->
  exists c s', new_node cn name None s = (Ret c, s') /\ world t nm pr s' d /\ ready true s' d c /\ forall b y, ready b s d y -> ready b s' d y /\ y <> c.
Proof.
  intros [W1 W2 (o & Ho & Wc & Wn & Wp & Ws) W4] Hn.
  assert (Hf : nodes s !! next_id s = None). { destruct (nodes s !! next_id s) eqn:E; [|done]. apply W2 in E. lia. }
  destruct (new_plain cn kcls name s W1 Hk Hi Hf) as (s' & E & E1 & E2 & E3 & oc & En & Ec & Em & Es).
  assert (Hx : x < next_id s) by (by eapply W2). exists (next_id s), s'. split; [done|].
  assert (Hold : forall y o, nodes s !! y = Some o -> nodes s' !! y = Some o /\ y <> next_id s).
  { intros y oy Hy. pose proof (W2 y oy Hy). rewrite En, lookup_insert_ne by lia. split; [done|lia]. }
  split; [|split].
  - constructor.
    + by rewrite E1.
    + intros y oy Hy. rewrite En in Hy. rewrite E3. destruct (decide (y = next_id s)) as [->|Hne]; [lia|]. rewrite lookup_insert_ne in Hy by done. apply W2 in Hy. lia.
    + exists o. destruct (Hold x o Ho) as [-> _]. rewrite E2, E3. repeat (split; [done|]). destruct (o_storage o); [|done]. destruct Ws. split; [lia|done].
    + intros k c Hin. destruct (W4 k c Hin) as (Hc & oc' & Hoc & Hnm). split; [done|]. exists oc'. split; [by apply Hold|done].
  - split; [lia|]. split.
    + intros k Hin. destruct (W4 k _ Hin) as (_ & oc' & Hoc & _). congruence.
    + exists oc. rewrite En, lookup_insert. by subst.
  - intros b y (Hy & Hyd & oy & Hoy & Hyy). destruct (Hold y oy Hoy) as [Hs' Hne]. split; [|done]. split; [done|]. split; [done|]. by exists oy.
Qed.
Lemma stored_keys d : dkeys (stored d) = map fst d.
Proof. unfold dkeys, stored. by rewrite map_map. Qed.
Lemma stored_dset d k c : k ∉ map fst d -> dset k (VNode c) (stored d) = stored (d ++ [(k, c)]).
Proof.
  induction d as [|[k' c'] d IH]; simpl; [done|]. intros H. apply not_elem_of_cons in H as [H1 H2]. rewrite decide_False by done. by rewrite IH.
Qed.
Lemma w_set b t nm pr s d k c : world t nm pr s d -> ready b s d c -> hashable k = true -> k ∉ map fst d ->
  exists s', setitem x k (VNode c) s = (Ret tt, s') /\ world true nm pr s' (d ++ [(k, c)]) /\
    forall b y, ready b s d y -> y <> c -> ready b s' (d ++ [(k, c)]) y.
Proof.
  intros [W1 W2 (o & Ho & Wc & Wn & Wp & Ws) W4] (Hc & Hcd & oc & Hoc & _ & Hon) Hh Hkd.
  pose proof (plain_class_inv _ Hp) as [Hb Hs].
  unfold setitem. rewrite (bind_load _ _ _ _ Ho), Wc.
  destruct (put_stack x c k (c_behs cls) (c_behs cls) Hs (plain_no_fixed _ Hb) Hc Hh Hb s o oc Ho Hoc) as (s' & E & [P1 P2 P3 P4 P5 P6]).
  { unfold has. by rewrite Wc. } { intros l El. rewrite El in Ws. destruct Ws as [? H]. by rewrite H. }
  exists s'. split; [done|]. destruct (P6 o Ho) as (o' & l & Ho' & Pc & Pn & Pp & Pl & Pll & Pd). destruct (P5 oc Hoc) as (oc' & Hoc' & Pn').
  assert (Hd : match o_storage o with Some l0 => default [] (dicts s !! l0) | None => [] end = stored d).
  { destruct (o_storage o) as [l0|]; [destruct Ws as [_ ->]; done|destruct Ws as [_ ->]; done]. }
  rewrite Hd, stored_dset in Pd by done.
  split.
  - constructor.
    + by rewrite P1.
    + intros y oy Hy. destruct (P3 y oy Hy) as [o0 H0]. apply W2 in H0. lia.
    + exists o'. rewrite Pl, Pc, Pn, Pp. done.
    + intros k' c' [Hin|Hin]%elem_of_app.
      * destruct (W4 k' c' Hin) as (Hx' & oc0 & H0 & Hn0). split; [done|]. exists oc0. rewrite P4; [done|done|]. intros ->. by apply (Hcd k').
      * apply elem_of_list_singleton in Hin as [= -> ->]. split; [done|]. exists oc'. split; [done|]. rewrite Pn'. unfold named. fold ad. by destruct ad.
  - intros b' y (Hy & Hyd & oy & Hoy & Hyy) Hyc. split; [done|]. split.
    + intros k' [Hin|Hin]%elem_of_app; [by apply (Hyd k')|]. apply elem_of_list_singleton in Hin as [= _ ->]. done.
    + exists oy. by rewrite P4.
Qed.
Section reading.
Context (nm : key) (pr : option nat) (s : st) (d : list (key * nat)).
Hypothesis W : world true nm pr s d.
Lemma w_self : exists o l, nodes s !! x = Some o /\ o_cls o = cls /\ o_name o = nm /\ o_parent o = pr /\ o_storage o = Some l /\ l < next_id s /\ dicts s !! l = Some (stored d).
Proof. destruct W as [_ _ (o & Ho & Wc & Wn & Wp & Ws) _]. destruct (o_storage o) as [l|] eqn:El; [|by destruct Ws]. destruct Ws. by exists o, l. Qed.
Lemma w_get k : hashable k = true -> getitem x k s = (match dget k (stored d) with Some v => Ret v | None => Exc (KeyError k) end, s).
Proof. intros Hh. destruct w_self as (o & l & Ho & Wc & _ & _ & Wl & _ & Wd). apply (t_get x s o l); try done. by rewrite Wc. Qed.
Lemma w_iter : Model.iter x s = (Ret (map fst d), s).
Proof. destruct w_self as (o & l & Ho & Wc & _ & _ & Wl & _ & Wd). rewrite <- stored_keys. apply (t_iter x s o l); try done. by rewrite Wc. Qed.
Lemma w_del k v : hashable k = true -> dget k (stored d) = Some v -> exists s', delitem x k s = (Ret tt, s') /\
  forall d', ddel k (stored d) = stored d' -> (forall kc, kc ∈ d' -> kc ∈ d) -> world true nm pr s' d'.
Proof.
  intros Hh Hv. destruct w_self as (o & l & Ho & Wc & Wn & Wp & Wl & Wll & Wd). eexists. split; [apply (t_del x s o l (stored d) Ho) with (v := v); try done; by rewrite Wc|].
  intros d' Ed Hsub. destruct W as [W1 W2 _ W4]. constructor; simpl; try done.
  - exists o. rewrite Wl. repeat (split; [done|]). by rewrite lookup_insert, Ed.
  - intros k' c' Hin. apply W4, Hsub, Hin.
Qed.
Lemma w_name k c : (k, c) ∈ d -> exists n, name_of c s = (Ret n, s) /\ named k n.
Proof. intros Hin. destruct (wd_kids _ _ _ _ _ W k c Hin) as (_ & oc & Hoc & Hn). exists (o_name oc). split; [|done]. unfold name_of. by rewrite (bind_load _ _ _ _ Hoc). Qed.
End reading.
(** a new node has no items *)
Lemma w_items nm pr s d c : world true nm pr s d -> ready true s d c -> exists s', items c s = (Ret [], s') /\ world true nm pr s' d /\
  (forall b y, y <> c -> ready b s d y -> ready b s' d y) /\ ready false s' d c.
Proof.
  intros [W1 W2 (o & Ho & Wc & Wn & Wp & Ws) W4] (Hc & Hcd & oc & Hoc & Hcc & Hcn). destruct (Hcc eq_refl) as [Hcc' Hcs]. clear Hcc. rename Hcc' into Hcc. pose proof (plain_class_inv _ Hk) as [Hb Hst].
  assert (Es : storage_of c s = (Ret (next_id s), set_nodes <[c := with_storage (Some (next_id s)) oc]> (set_next_id S (set_dicts <[next_id s := []]> s)))).
  { unfold storage_of. rewrite (bind_load _ _ _ _ Hoc). unfold has_storage, hasc in Hst. unfold has. rewrite Hcc, Hst, Hcs. unfold alloc_dict. unfold bind at 1.
    erewrite bind_modify; [reflexivity|exact Hoc]. }
  eexists. split; [|split].
  - unfold items, Model.iter. rewrite bind_assoc, (bind_load _ _ _ _ Hoc), Hcc.
    assert (Ei : iter_stack (c_behs kcls) (c_behs kcls) c s = (Ret [], set_nodes <[c := with_storage (Some (next_id s)) oc]> (set_next_id S (set_dicts <[next_id s := []]> s)))).
    { rewrite iter_stack_plain by done. unfold iter_endpoint. rewrite plain_no_fixed by done. rewrite iter_override_plain by done.
      rewrite (bind_Ret _ _ _ _ _ Es). erewrite bind_read_dict; [|simpl; apply lookup_insert]. done. }
    rewrite (bind_Ret _ _ _ _ _ Ei). reflexivity.
  - constructor; simpl; try done.
    + intros y oy Hy. destruct (decide (y = c)) as [->|Hne]; [apply W2 in Hoc; lia|]. rewrite lookup_insert_ne in Hy by done. apply W2 in Hy. lia.
    + exists o. rewrite lookup_insert_ne by done. repeat (split; [done|]). destruct (o_storage o) as [l|]; [|done]. destruct Ws as [Hl Hd]. split; [lia|]. rewrite lookup_insert_ne by lia. done.
    + intros k c' Hin. destruct (W4 k c' Hin) as (Hx & o' & Ho' & Hn'). split; [done|]. exists o'. rewrite lookup_insert_ne; [done|]. intros <-. by apply (Hcd k).
  - split.
    + intros b y Hy (Y1 & Y2 & oy & Y3 & Y4). split; [done|]. split; [done|]. exists oy. simpl. by rewrite lookup_insert_ne.
    + split; [done|]. split; [done|]. eexists. simpl. rewrite lookup_insert. split; [done|]. done.
Qed.

Section more_reading.
Context (nm : key) (pr : option nat) (s : st) (d : list (key * nat)).
Hypothesis W : world true nm pr s d.
Lemma w_got k v : hashable k = true -> dget k (stored d) = Some v -> getitem x k s = (Ret v, s).
Proof. intros Hh Hv. rewrite (w_get _ _ _ _ W k Hh). by rewrite Hv. Qed.
Lemma w_missing k : hashable k = true -> dget k (stored d) = None -> getitem x k s = (Exc (KeyError k), s).
Proof. intros Hh Hv. rewrite (w_get _ _ _ _ W k Hh). by rewrite Hv. Qed.
Lemma o_get k v : hashable k = true -> get x k v s = (Ret (default v (dget k (stored d))), s).
Proof.
  intros Hh. unfold get. destruct (dget k (stored d)) as [w|] eqn:E.
  - by rewrite (try_catch_Ret _ _ _ _ _ _ (w_got k w Hh E)).
  - by rewrite (try_catch_Exc _ _ _ _ _ _ (w_missing k Hh E)).
Qed.
Lemma o_contains k : hashable k = true -> contains x k s = (Ret (bool_decide (is_Some (dget k (stored d)))), s).
Proof.
  intros Hh. unfold contains. destruct (dget k (stored d)) as [w|] eqn:E.
  - assert (E' : (do! getitem x k in ret true) s = (Ret true, s)) by (by rewrite (bind_Ret _ _ _ _ _ (w_got k w Hh E))). rewrite (try_catch_Ret _ _ _ _ _ _ E').
    rewrite bool_decide_eq_true_2; [done|eauto].
  - assert (E' : (do! getitem x k in ret true) s = (Exc (KeyError k), s)) by (by rewrite (bind_Exc _ _ _ _ _ (w_missing k Hh E))). rewrite (try_catch_Exc _ _ _ _ _ _ E').
    rewrite bool_decide_eq_false_2; [done|]. by intros [? [=]].
Qed.
Lemma o_len : len x s = (Ret (length d), s).
Proof. unfold len, keys. rewrite (bind_Ret _ _ _ _ _ (w_iter _ _ _ _ W)). unfold ret. by rewrite map_length. Qed.
Hypothesis Hnd : NoDup (map fst d).
Hypothesis Hh : Forall (fun kc : key * nat => hashable (fst kc) = true) d.
Lemma w_entry k c : (k, c) ∈ d -> getitem x k s = (Ret (VNode c), s).
Proof.
  intros Hin. apply w_got. { rewrite Forall_forall in Hh. apply (Hh _ Hin). } apply in_dget; [by rewrite stored_keys|]. unfold stored. apply elem_of_list_In, (in_map (fun kc : key * nat => (fst kc, VNode (snd kc))) d (k, c)), elem_of_list_In, Hin.
Qed.
Lemma o_values : values x s = (Ret (map snd (stored d)), s).
Proof.
  unfold values. rewrite (bind_Ret _ _ _ _ _ (w_iter _ _ _ _ W)).
  assert (H : forall l, (forall kc, kc ∈ l -> kc ∈ d) -> mapM_ (getitem x) (map fst l) s = (Ret (map snd (stored l)), s)); [|by apply H].
  induction l as [|[k c] l IH]; intros Hl; [done|]. simpl. rewrite (bind_Ret _ _ _ _ _ (w_entry k c (Hl _ (elem_of_list_here _ _)))).
  rewrite (bind_Ret _ _ _ _ _ (IH (fun kc H => Hl kc (elem_of_list_further _ _ _ H)))). done.
Qed.
Lemma o_items : items x s = (Ret (stored d), s).
Proof.
  unfold items. rewrite (bind_Ret _ _ _ _ _ (w_iter _ _ _ _ W)).
  assert (H : forall l, (forall kc, kc ∈ l -> kc ∈ d) -> mapM_ (fun k => let! v := getitem x k in ret (k, v)) (map fst l) s = (Ret (stored l), s)); [|by apply H].
  induction l as [|[k c] l IH]; intros Hl; [done|]. simpl. rewrite bind_assoc, (bind_Ret _ _ _ _ _ (w_entry k c (Hl _ (elem_of_list_here _ _)))), bind_ret.
  rewrite (bind_Ret _ _ _ _ _ (IH (fun kc H => Hl kc (elem_of_list_further _ _ _ H)))). done.
Qed.
End more_reading.

(** * The tests *)
Context (nc : bool).
Let bad := nc && negb ad.
Definition complain (b : bool) (m : string) : option string := if b then Some m else None.
Lemma c_names nm pr s d expected : world true nm pr s d -> KNone ∉ expected -> xxx ∉ expected -> forall l, l <> [] -> (forall kc, kc ∈ l -> kc ∈ d /\ fst kc ∈ expected) ->
  check_names (map snd (stored l)) expected s = (Ret (complain (negb ad) "Expected __name__ of value invalid. Got"), s).
Proof.
  intros W Hn Hx. induction l as [|[k c] l IH]; intros Hl Hin; [done|]. destruct (Hin _ (elem_of_list_here _ _)) as [Hd He]. simpl in He.
  destruct (w_name _ _ _ _ W k c Hd) as (n & En & Nn). simpl. rewrite (bind_Ret _ _ _ _ _ En). unfold named in Nn. unfold check, is_in. destruct ad; simpl.
  - subst n. rewrite bool_decide_eq_true_2 by done. destruct l as [|kc l]; [done|]. apply IH; [done|]. intros kc' H'. apply Hin. by right.
  - rewrite bool_decide_eq_false_2; [done|]. by destruct Nn as [-> | ->].
Qed.
Lemma c_pairs nm pr s d expected : world true nm pr s d -> KNone ∉ expected -> xxx ∉ expected -> forall l, l <> [] -> (forall kc, kc ∈ l -> kc ∈ d /\ fst kc ∈ expected) ->
  check_pairs nc (stored l) expected s = (Ret (complain bad "Expected same value for ``key`` and ``__name__``"), s).
Proof.
  intros W Hn Hx. induction l as [|[k c] l IH]; intros Hl Hin; [done|]. destruct (Hin _ (elem_of_list_here _ _)) as [Hd He]. simpl in He.
  assert (IH' : l <> [] -> check_pairs nc (stored l) expected s = (Ret (complain bad "Expected same value for ``key`` and ``__name__``"), s)).
  { intros Hl'. apply IH; [done|]. intros kc' H'. apply Hin. by right. }
  clear IH. simpl. unfold check at 1, is_in. rewrite bool_decide_eq_true_2 by done. unfold bad in *. destruct nc; simpl in *; [|destruct l; [done|by apply IH']].
  destruct (w_name _ _ _ _ W k c Hd) as (n & En & Nn). rewrite (bind_Ret _ _ _ _ _ En). unfold named in Nn. unfold check. destruct ad; simpl in *.
  - subst n. rewrite bool_decide_eq_true_2 by done. destruct l; [done|]. by apply IH'.
  - rewrite bool_decide_eq_false_2; [done|]. intros <-. destruct Nn as [-> | ->]; done.
Qed.
Lemma c_same nm pr s d : world true nm pr s d -> NoDup (map fst d) -> Forall (fun kc : key * nat => hashable (fst kc) = true) d ->
  forall l, (forall kc, kc ∈ l -> kc ∈ d) -> check_same x (stored l) s = (Ret None, s).
Proof.
  intros W Hnd Hh. induction l as [|[k c] l IH]; intros Hin; [done|]. simpl. rewrite (bind_Ret _ _ _ _ _ (w_entry _ _ _ _ W Hnd Hh k c (Hin _ (elem_of_list_here _ _)))).
  unfold check. simpl. rewrite Nat.eqb_refl. apply IH. intros kc H. apply Hin. by right.
Qed.
Lemma c_items nm pr s d expected : world true nm pr s d -> NoDup (map fst d) -> Forall (fun kc : key * nat => hashable (fst kc) = true) d -> d <> [] ->
  KNone ∉ expected -> xxx ∉ expected -> length d = length expected -> (forall kc, kc ∈ d -> fst kc ∈ expected) ->
  check_items x nc (stored d) expected s = (Ret (complain bad "Expected same value for ``key`` and ``__name__``"), s).
Proof.
  intros W Hnd Hh Hne Hn Hx Hl Hin. unfold check_items, check. unfold stored at 1. rewrite map_length, Hl, Nat.eqb_refl. unfold and_then.
  rewrite (bind_Ret _ _ _ _ _ (c_pairs _ _ _ _ expected W Hn Hx d Hne (fun kc H => conj H (Hin kc H)))). unfold complain. destruct bad; [done|].
  by apply (c_same _ _ _ _ W).
Qed.
Ltac nodup := apply (bool_decide_unpack _); reflexivity.
Ltac hashes := match goal with |- Forall _ _ => repeat constructor end.
Lemma q_setitem t nm pr s : world t nm pr s [] -> exists f b s', test_setitem x cn nc s = (Ret None, s') /\ world true nm pr s' [(foo, f); (bar, b)].
Proof.
  intros W. destruct (w_new _ _ _ _ _ KNone W) as (f & s1 & E1 & W1 & R1 & _); [by left|].
  destruct (w_set _ _ _ _ _ _ foo f W1 R1) as (s2 & E2 & W2 & _); [done|set_solver|].
  assert (H : exists b s3, (if nc then let! c := new_node cn xxx None in ret (VNode c) else child cn) s2 = (Ret (VNode b), s3) /\ world true nm pr s3 [(foo, f)] /\ ready true s3 [(foo, f)] b).
  { destruct (w_new _ _ _ _ _ (if nc then xxx else KNone) W2) as (b & s3 & E3 & W3 & R3 & _); [destruct nc; tauto|]. exists b, s3. split; [|done].
    destruct nc; [|unfold child]; by rewrite (bind_Ret _ _ _ _ _ E3). }
  destruct H as (b & s3 & E3 & W3 & R3). destruct (w_set _ _ _ _ _ _ bar b W3 R3) as (s4 & E4 & W4 & _); [done|by apply (bool_decide_unpack _)|].
  exists f, b, s4. split; [|done]. unfold test_setitem, child at 1. rewrite bind_assoc, (bind_Ret _ _ _ _ _ E1), bind_ret, (bind_Ret _ _ _ _ _ E2), (bind_Ret _ _ _ _ _ E3), (bind_Ret _ _ _ _ _ E4). done.
Qed.
Section first.
Context (nm : key) (pr : option nat) (s : st) (f b : nat).
Hypothesis W : world true nm pr s [(foo, f); (bar, b)].
Let got k v := w_got nm pr s [(foo, f); (bar, b)] W k v.
Lemma q_getitem : test_getitem x nc s = (Ret (complain bad "Child ``bar`` has wrong ``__name__``"), s).
Proof.
  unfold test_getitem. rewrite (bind_Ret _ _ _ _ _ (got foo (VNode f) eq_refl eq_refl)). unfold bad. destruct nc; [|done].
  rewrite (bind_Ret _ _ _ _ _ (got bar (VNode b) eq_refl eq_refl)). destruct (w_name _ _ _ _ W bar b) as (n & En & Nn); [right; left|].
  simpl. rewrite (bind_Ret _ _ _ _ _ En). unfold named in Nn. unfold check. destruct ad; simpl; [subst n; by rewrite bool_decide_eq_true_2|].
  rewrite bool_decide_eq_false_2; [done|]. by destruct Nn as [-> | ->].
Qed.
Lemma q_get : test_get x s = (Ret None, s).
Proof.
  unfold test_get. rewrite (bind_Ret _ _ _ _ _ (o_get _ _ _ _ W foo an_object eq_refl)). simpl. rewrite (bind_Ret _ _ _ _ _ (o_get _ _ _ _ W xxx an_object eq_refl)). done.
Qed.
Lemma q_iter : test_iter x s = (Ret None, s).
Proof. unfold test_iter. rewrite (bind_Ret _ _ _ _ _ (w_iter _ _ _ _ W)). done. Qed.
Lemma q_keys : test_keys x s = (Ret None, s).
Proof. exact q_iter. Qed.
Lemma q_iterkeys : test_iterkeys x s = (Ret None, s).
Proof.
  rewrite <- q_iter. unfold test_iterkeys, test_iter. unfold iterkeys. rewrite bind_assoc. destruct (w_self _ _ _ _ W) as (o & l & Ho & Wc & _). rewrite (bind_load _ _ _ _ Ho).
  assert (has ChildFactory o = false) as ->; [|done]. apply bool_decide_eq_false. rewrite Wc. apply plain_no_factory. by destruct (plain_class_inv _ Hp) as [? _].
Qed.
Lemma q_values : test_values x nc s = (Ret (complain bad "Expected __name__ of value invalid. Got"), s).
Proof.
  unfold test_values. rewrite (bind_Ret _ _ _ _ _ (o_values _ _ _ _ W ltac:(nodup) ltac:(hashes))). unfold check_values, check. simpl length. simpl (_ =? _). unfold bad.
  destruct nc; [|done]. apply (c_names _ _ _ _ _ W); [by apply (bool_decide_unpack _)|by apply (bool_decide_unpack _)|done|].
  intros kc H. split; [done|]. repeat (apply elem_of_cons in H as [->|H]; [apply (bool_decide_unpack _); reflexivity|]). by apply elem_of_nil in H.
Qed.
Lemma q_items : test_items x nc s = (Ret (complain bad "Expected same value for ``key`` and ``__name__``"), s).
Proof.
  unfold test_items. rewrite (bind_Ret _ _ _ _ _ (o_items _ _ _ _ W ltac:(nodup) ltac:(hashes))). apply (c_items _ _ _ _ _ W); try nodup; try done; try hashes.
  intros kc H. repeat (apply elem_of_cons in H as [->|H]; [apply (bool_decide_unpack _); reflexivity|]). by apply elem_of_nil in H.
Qed.
Lemma q_contains : test_contains x s = (Ret None, s).
Proof.
  unfold test_contains. rewrite (bind_Ret _ _ _ _ _ (o_contains _ _ _ _ W foo eq_refl)). simpl. rewrite (bind_Ret _ _ _ _ _ (o_contains _ _ _ _ W bar eq_refl)). simpl.
  rewrite (bind_Ret _ _ _ _ _ (o_contains _ _ _ _ W xxx eq_refl)). done.
Qed.
Lemma q_has_key : test_has_key x s = (Ret None, s).
Proof. unfold test_has_key. rewrite (bind_Ret _ _ _ _ _ (o_contains _ _ _ _ W foo eq_refl)). simpl. rewrite (bind_Ret _ _ _ _ _ (o_contains _ _ _ _ W bar eq_refl)). done. Qed.
Lemma q_len : test_len x s = (Ret None, s).
Proof. unfold test_len. rewrite (bind_Ret _ _ _ _ _ (o_len _ _ _ _ W)). done. Qed.
End first.

Lemma w_deleted nm pr s d k v d' : world true nm pr s d -> hashable k = true -> dget k (stored d) = Some v -> ddel k (stored d) = stored d' -> (forall kc, kc ∈ d' -> kc ∈ d) ->
  exists s', delitem x k s = (Ret tt, s') /\ world true nm pr s' d'.
Proof. intros W Hh Hv Hd Hs. destruct (w_del _ _ _ _ W k v Hh Hv) as (s' & E & H). exists s'. split; [done|]. by apply H. Qed.
Ltac sub := intros kc H; repeat (apply elem_of_cons in H as [->|H]; [set_solver|]); by apply elem_of_nil in H.
Lemma q_update nm pr s f b : world true nm pr s [(foo, f); (bar, b)] -> exists z s', test_update x cn s = (Ret None, s') /\ world true nm pr s' [(foo, f); (bar, b); (baz, z)].
Proof.
  intros W. destruct (w_new _ _ _ _ _ KNone W) as (z & s1 & E1 & W1 & R1 & _); [by left|].
  destruct (w_new _ _ _ _ _ KNone W1) as (c & s2 & E2 & W2 & R2 & K2); [by left|]. destruct (K2 _ _ R1) as [R1' Hzc].
  destruct (w_items _ _ _ _ z W2 R1') as (s3 & E3 & W3 & K3 & R3). pose proof (K3 _ c (not_eq_sym Hzc) R2) as R2'.
  destruct (w_set _ _ _ _ _ _ baz z W3 R3) as (s4 & E4 & W4 & K4); [done|by apply (bool_decide_unpack _)|]. pose proof (K4 _ c R2' (not_eq_sym Hzc)) as R4.
  destruct (w_set _ _ _ _ _ _ blub c W4 R4) as (s5 & E5 & W5 & _); [done|by apply (bool_decide_unpack _)|]. simpl in W4, W5.
  destruct (w_deleted _ _ _ _ blub (VNode c) [(foo, f); (bar, b); (baz, z)] W5) as (s6 & E6 & W6); [done|done|done|sub|].
  exists z, s6. split; [|done]. unfold test_update, child. rewrite (bind_Ret _ _ _ _ _ E1), bind_assoc, (bind_Ret _ _ _ _ _ E2), bind_ret.
  assert (Eu : update_from x z s2 = (Ret tt, s3)) by (unfold update_from; by rewrite (bind_Ret _ _ _ _ _ E3)). rewrite (bind_Ret _ _ _ _ _ Eu).
  assert (Ev : update x [[(baz, VNode z)]] [(blub, VNode c)] s3 = (Ret tt, s5)).
  { unfold update. simpl. rewrite !bind_assoc. rewrite (bind_Ret _ _ _ _ _ E4), bind_ret, (bind_Ret _ _ _ _ _ E5). done. }
  rewrite (bind_Ret _ _ _ _ _ Ev). unfold and_then.
  pose proof (w_got _ _ _ _ W5 baz (VNode z) eq_refl eq_refl) as G1. pose proof (w_got _ _ _ _ W5 blub (VNode c) eq_refl eq_refl) as G2.
  assert (Et : try_catch (do! getitem x baz in do! getitem x blub in pass) is_key_error (fun _ => ret (Some "KeyError, Expected ``baz`` and ``blub`` after update")) s5 = (Ret None, s5)).
  { apply try_catch_Ret. by rewrite (bind_Ret _ _ _ _ _ G1), (bind_Ret _ _ _ _ _ G2). }
  rewrite (bind_Ret _ _ _ _ _ Et), (bind_Ret _ _ _ _ _ G1). unfold check. simpl. rewrite Nat.eqb_refl, (bind_Ret _ _ _ _ _ G2). simpl. rewrite Nat.eqb_refl.
  rewrite (bind_Ret _ _ _ _ _ (try_catch_Ret _ _ _ _ _ _ E6)). done.
Qed.
Lemma q_delitem nm pr s f b z : world true nm pr s [(foo, f); (bar, b); (baz, z)] -> exists s', test_delitem x s = (Ret None, s') /\ world true nm pr s' [(foo, f); (baz, z)].
Proof.
  intros W. destruct (w_deleted _ _ _ _ bar (VNode b) [(foo, f); (baz, z)] W) as (s1 & E1 & W1); [done|done|done|sub|]. exists s1. split; [|done].
  unfold test_delitem, and_then. assert (Et : try_catch (do! delitem x bar in pass) is_key_error (fun _ => ret (Some "KeyError, expected ``bar``")) s = (Ret None, s1)).
  { apply try_catch_Ret. by rewrite (bind_Ret _ _ _ _ _ E1). }
  rewrite (bind_Ret _ _ _ _ _ Et). unfold keys. rewrite (bind_Ret _ _ _ _ _ (w_iter _ _ _ _ W1)). done.
Qed.
Lemma w_renamed t nm pr s d k : world t nm pr s d -> exists s', modify x (with_name k) s = (Ret tt, s') /\ world t k pr s' d /\ next_id s' = next_id s.
Proof.
  intros [W1 W2 (o & Ho & Wc & Wn & Wp & Ws) W4]. rewrite (modify_Some _ _ _ _ Ho). eexists. split; [done|]. split; [|done]. constructor; simpl; try done.
  - intros y oy. destruct (decide (y = x)) as [->|Hne]; [intros _; by eapply W2|]. rewrite lookup_insert_ne by done. apply W2.
  - eexists. rewrite lookup_insert. split; [done|]. done.
  - intros k' c Hin. destruct (W4 k' c Hin) as (Hx & oc & Hoc & Hn). split; [done|]. exists oc. by rewrite lookup_insert_ne.
Qed.
Lemma w_moved t nm pr s d q : world t nm pr s d -> exists s', modify x (with_parent q) s = (Ret tt, s') /\ world t nm q s' d /\ next_id s' = next_id s.
Proof.
  intros [W1 W2 (o & Ho & Wc & Wn & Wp & Ws) W4]. rewrite (modify_Some _ _ _ _ Ho). eexists. split; [done|]. split; [|done]. constructor; simpl; try done.
  - intros y oy. destruct (decide (y = x)) as [->|Hne]; [intros _; by eapply W2|]. rewrite lookup_insert_ne by done. apply W2.
  - eexists. rewrite lookup_insert. split; [done|]. done.
  - intros k' c Hin. destruct (W4 k' c Hin) as (Hx & oc & Hoc & Hn). split; [done|]. exists oc. by rewrite lookup_insert_ne.
Qed.
Lemma w_object t nm pr s d : world t nm pr s d -> world t nm pr (set_next_id S s) d.
Proof.
  intros [W1 W2 (o & Ho & Wc & Wn & Wp & Ws) W4]. constructor; simpl; try done.
  - intros y oy Hy. apply W2 in Hy. lia.
  - exists o. repeat (split; [done|]). destruct (o_storage o); [|done]. destruct Ws. split; [lia|done].
Qed.
(** the copy is an object of its own with the attributes of the context *)
Lemma w_copied nm pr s d : world true nm pr s d -> UUIDAware ∉ c_behs cls -> exists c s', copy x s = (Ret c, s') /\ c <> x /\ world true nm pr s' d /\
  (exists o, nodes s' !! c = Some o /\ o_name o = nm /\ o_parent o = pr) /\
  forall k v, hashable k = true -> dget k (stored d) = Some v -> getitem c k s' = (Ret v, s').
Proof.
  intros W Hu. destruct (w_self _ _ _ _ W) as (o & l & Ho & Wc & Wn & Wp & Wl & Wll & Wd). destruct W as [W1 W2 _ W4]. pose proof (W2 _ _ Ho) as Hx.
  exists (next_id s), (set_next_id S (set_nodes <[next_id s := o]> s)). split. { unfold copy. rewrite (bind_load _ _ _ _ Ho). apply copy_stack_eff; [by rewrite Wc|done|done]. }
  split; [lia|]. split; [|split].
  - constructor; simpl; try done.
    + intros y oy Hy. destruct (decide (y = next_id s)) as [->|Hne]; [lia|]. rewrite lookup_insert_ne in Hy by done. apply W2 in Hy. lia.
    + exists o. rewrite lookup_insert_ne by lia. rewrite Wl. repeat (split; [done|]). split; [lia|done].
    + intros k c Hin. destruct (W4 k c Hin) as (Hc & oc & Hoc & Hn). split; [done|]. exists oc. rewrite lookup_insert_ne; [done|]. apply W2 in Hoc. lia.
  - exists o. simpl. by rewrite lookup_insert.
  - intros k v Hh Hv. erewrite (t_get (next_id s) _ o l (stored d)); [by rewrite Hv|simpl; by rewrite lookup_insert|by rewrite Wc|done|done|done].
Qed.
Lemma q_copy nm pr s f z : world true nm pr s [(foo, f); (baz, z)] -> UUIDAware ∉ c_behs cls ->
  exists s', test_copy x nc s = (Ret None, s') /\ world true nm pr s' [(foo, f); (baz, z)].
Proof.
  intros W Hu. unfold test_copy, new_object. unfold bind at 1. pose proof (w_object _ _ _ _ _ W) as W0. destruct (w_self _ _ _ _ W0) as (o & l & Ho & _ & On & Op & _).
  rewrite (bind_load _ _ _ _ Ho).
  assert (H : exists nm1 pr1 s1, (if nc then do! modify x (with_name (KStr "nametopcopy")) in modify x (with_parent (Some (next_id s))) else ret tt) (set_next_id S s) = (Ret tt, s1) /\
    world true nm1 pr1 s1 [(foo, f); (baz, z)] /\ (nc = false -> nm1 = nm /\ pr1 = pr)).
  { destruct nc; [|by exists nm, pr, (set_next_id S s)]. destruct (w_renamed _ _ _ _ _ (KStr "nametopcopy") W0) as (s1 & E1 & W1 & N1).
    destruct (w_moved _ _ _ _ _ (Some (next_id s)) W1) as (s2 & E2 & W2 & N2). eexists _, _, s2. by rewrite (bind_Ret _ _ _ _ _ E1). }
  destruct H as (nm1 & pr1 & s1 & E1 & W1 & H1). rewrite (bind_Ret _ _ _ _ _ E1).
  destruct (w_copied _ _ _ _ W1 Hu) as (c & s2 & E2 & Hc & W2 & (oc & Hoc & Nc & Pc) & G). rewrite (bind_Ret _ _ _ _ _ E2). unfold check at 1.
  rewrite (proj2 (Nat.eqb_neq c x) Hc). change (negb false) with true. cbv iota.
  rewrite (bind_Ret _ _ _ _ _ (G foo (VNode f) eq_refl eq_refl)), (bind_Ret _ _ _ _ _ (w_got _ _ _ _ W2 foo (VNode f) eq_refl eq_refl)).
  unfold check at 1. change (same_value (VNode f) (VNode f)) with (f =? f). rewrite Nat.eqb_refl. destruct nc; [|exists s2; destruct (H1 eq_refl) as [-> ->]; done].
  rewrite (bind_load _ _ _ _ Hoc). destruct (w_self _ _ _ _ W2) as (ox & lx & Hox & _ & Nx & Px & _). rewrite (bind_load _ _ _ _ Hox). unfold check.
  rewrite !bool_decide_eq_true_2 by congruence. destruct (w_renamed _ _ _ _ _ (o_name o) W2) as (s3 & E3 & W3 & _). destruct (w_moved _ _ _ _ _ (o_parent o) W3) as (s4 & E4 & W4 & _).
  rewrite (bind_Ret _ _ _ _ _ E3), (bind_Ret _ _ _ _ _ E4). exists s4. split; [done|]. by rewrite On, Op in W4.
Qed.
(** a UUIDAware context cannot be copied: the new name and parent stay *)
Lemma q_copy_uuid nm pr s f z : world true nm pr s [(foo, f); (baz, z)] -> UUIDAware ∈ c_behs cls ->
  exists nm1 pr1 s', test_copy x nc s = (Exc RuntimeError, s') /\ world true nm1 pr1 s' [(foo, f); (baz, z)] /\
    (nm1, pr1) = (if nc then (KStr "nametopcopy", Some (next_id s)) else (nm, pr)) /\ nodes s !! next_id s = None /\ dom (nodes s') = dom (nodes s) /\ next_id s' = S (next_id s).
Proof.
  intros W Hu. unfold test_copy, new_object. unfold bind at 1. pose proof (w_object _ _ _ _ _ W) as W0. destruct (w_self _ _ _ _ W0) as (o & l & Ho & Oc & On & Op & _).
  rewrite (bind_load _ _ _ _ Ho).
  assert (Hf : nodes s !! next_id s = None). { destruct (nodes s !! next_id s) eqn:E; [|done]. apply (wd_ids _ _ _ _ _ W) in E. lia. }
  assert (H : exists nm1 pr1 s1, (if nc then do! modify x (with_name (KStr "nametopcopy")) in modify x (with_parent (Some (next_id s))) else ret tt) (set_next_id S s) = (Ret tt, s1) /\
    world true nm1 pr1 s1 [(foo, f); (baz, z)] /\ (nm1, pr1) = (if nc then (KStr "nametopcopy", Some (next_id s)) else (nm, pr)) /\ dom (nodes s1) = dom (nodes s) /\ next_id s1 = S (next_id s)).
  { destruct nc; [|by exists nm, pr, (set_next_id S s)]. destruct (w_renamed _ _ _ _ _ (KStr "nametopcopy") W0) as (s1 & E1 & W1 & N1).
    destruct (w_moved _ _ _ _ _ (Some (next_id s)) W1) as (s2 & E2 & W2 & N2). eexists _, _, s2. rewrite (bind_Ret _ _ _ _ _ E1). split; [done|]. split; [done|]. split; [done|].
    rewrite N2, N1. split; [|done]. revert E1 E2. unfold modify. rewrite Ho. intros [= <-]. simpl. rewrite lookup_insert. intros [= <-]. simpl.
    rewrite !dom_insert_L. simpl in Ho. apply elem_of_dom_2 in Ho. set_solver. }
  destruct H as (nm1 & pr1 & s1 & E1 & W1 & H1 & D1). rewrite (bind_Ret _ _ _ _ _ E1).
  destruct (w_self _ _ _ _ W1) as (o1 & l1 & Ho1 & Oc1 & _).
  assert (Ecp : copy x s1 = (Exc RuntimeError, s1)). { apply (copy_uuid_aware s1 x cls); [|done]. unfold class_of. by rewrite Ho1; simpl; rewrite Oc1. }
  rewrite (bind_Exc _ _ _ _ _ Ecp). exists nm1, pr1, s1. done.
Qed.
Lemma q_setdefault nm pr s f z : world true nm pr s [(foo, f); (baz, z)] ->
  exists n s', test_setdefault x cn nc s = (Ret (complain bad "Expected same value for ``key`` and ``__name__``"), s') /\ world true nm pr s' [(foo, f); (baz, z); (bar, n)].
Proof.
  intros W. destruct (w_new _ _ _ _ _ KNone W) as (n & s1 & E1 & W1 & R1 & _); [by left|].
  destruct (w_set _ _ _ _ _ _ bar n W1 R1) as (s2 & E2 & W2 & _); [done|by apply (bool_decide_unpack _)|]. simpl in W2.
  exists n, s2. split; [|done]. unfold test_setdefault, child. rewrite bind_assoc, (bind_Ret _ _ _ _ _ E1), bind_ret.
  assert (Ef : setdefault x foo (VNode n) s1 = (Ret (VNode f), s1)). { unfold setdefault. by rewrite (try_catch_Ret _ _ _ _ _ _ (w_got _ _ _ _ W1 foo (VNode f) eq_refl eq_refl)). }
  assert (Eb : setdefault x bar (VNode n) s1 = (Ret (VNode n), s2)).
  { unfold setdefault. rewrite (try_catch_Exc _ _ _ _ _ _ (w_missing _ _ _ _ W1 bar eq_refl eq_refl)). simpl. by rewrite (bind_Ret _ _ _ _ _ E2). }
  rewrite (bind_Ret _ _ _ _ _ Ef). unfold check at 1. change (same_value (VNode f) (VNode n)) with (f =? n).
  assert (Hfn : f =? n = false). { apply Nat.eqb_neq. intros ->. destruct R1 as (_ & R1 & _). apply (R1 foo). left. }
  rewrite Hfn. change (negb false) with true. cbv iota. rewrite (bind_Ret _ _ _ _ _ Eb). unfold check at 1. change (same_value (VNode n) (VNode n)) with (n =? n). rewrite Nat.eqb_refl.
  rewrite (bind_Ret _ _ _ _ _ (o_items _ _ _ _ W2 ltac:(nodup) ltac:(hashes))). apply (c_items _ _ _ _ _ W2); try nodup; try done; try hashes.
  intros kc H. repeat (apply elem_of_cons in H as [->|H]; [apply (bool_decide_unpack _); reflexivity|]). by apply elem_of_nil in H.
Qed.
Lemma q_pop nm pr s f z n : world true nm pr s [(foo, f); (baz, z); (bar, n)] -> exists s', test_pop x s = (Ret None, s') /\ world true nm pr s' [(baz, z); (bar, n)].
Proof.
  intros W. destruct (w_deleted _ _ _ _ foo (VNode f) [(baz, z); (bar, n)] W) as (s1 & E1 & W1); [done|done|done|sub|]. exists s1. split; [|done].
  pose proof (w_missing _ _ _ _ W xxx eq_refl eq_refl) as G0. pose proof (w_got _ _ _ _ W foo (VNode f) eq_refl eq_refl) as G1.
  assert (Ep0 : forall dv, pop x xxx dv s = match dv with None | Some VUnset => (Exc (KeyError xxx), s) | Some d => (Ret d, s) end).
  { intros dv. unfold pop. assert (Eb : (let! v := getitem x xxx in do! delitem x xxx in ret v) s = (Exc (KeyError xxx), s)) by (by rewrite (bind_Exc _ _ _ _ _ G0)).
    rewrite (try_catch_Exc _ _ _ _ _ _ Eb). simpl. destruct dv as [[]|]; done. }
  assert (Ep1 : pop x foo None s = (Ret (VNode f), s1)).
  { unfold pop. apply try_catch_Ret. by rewrite (bind_Ret _ _ _ _ _ G1), (bind_Ret _ _ _ _ _ E1). }
  unfold test_pop, and_then.
  assert (Et : try_catch (do! pop x xxx None in ret (Some "Expected ``KeyError`` for inexistent item.")) is_key_error (fun _ => pass) s = (Ret None, s)).
  { erewrite try_catch_Exc; [|apply (bind_Exc _ _ _ _ _ (Ep0 None))]. done. }
  rewrite (bind_Ret _ _ _ _ _ Et), (bind_Ret _ _ _ _ _ (Ep0 (Some an_object))). simpl. rewrite (bind_Ret _ _ _ _ _ (o_len _ _ _ _ W)), (bind_Ret _ _ _ _ _ G1), (bind_Ret _ _ _ _ _ Ep1), (bind_Ret _ _ _ _ _ (o_len _ _ _ _ W1)).
  unfold check at 1. change (same_value (VNode f) (VNode f)) with (f =? f). rewrite Nat.eqb_refl. simpl. unfold keys. rewrite (bind_Ret _ _ _ _ _ (w_iter _ _ _ _ W1)). done.
Qed.
Lemma popped nm pr s d k c d' : world true nm pr s d -> last (map fst d) = Some k -> hashable k = true -> dget k (stored d) = Some (VNode c) -> ddel k (stored d) = stored d' -> (forall kc, kc ∈ d' -> kc ∈ d) ->
  exists s', popitem x s = (Ret (k, VNode c), s') /\ world true nm pr s' d'.
Proof.
  intros W Hl Hh Hv Hd Hs. destruct (w_deleted _ _ _ _ k (VNode c) d' W Hh Hv Hd Hs) as (s1 & E1 & W1). exists s1. split; [|done].
  unfold popitem, keys. rewrite (bind_Ret _ _ _ _ _ (w_iter _ _ _ _ W)). destruct (rev (map fst d)) as [|k' r] eqn:Er.
  - apply (f_equal (@rev key)) in Er. rewrite rev_involutive in Er. rewrite Er in Hl. done.
  - apply (f_equal (@rev key)) in Er. rewrite rev_involutive in Er. simpl in Er. rewrite Er, last_snoc in Hl. injection Hl as ->.
    by rewrite (bind_Ret _ _ _ _ _ (w_got _ _ _ _ W k _ Hh Hv)), (bind_Ret _ _ _ _ _ E1).
Qed.
Lemma q_popitem nm pr s z n : world true nm pr s [(baz, z); (bar, n)] -> exists s', test_popitem x s = (Ret None, s') /\ world true nm pr s' [].
Proof.
  intros W. destruct (popped _ _ _ _ bar n [(baz, z)] W) as (s1 & E1 & W1); [done|done|done|done|sub|].
  destruct (popped _ _ _ _ baz z [] W1) as (s2 & E2 & W2); [done|done|done|done|sub|]. exists s2. split; [|done]. unfold test_popitem.
  rewrite (bind_Ret _ _ _ _ _ E1). unfold keys. rewrite (bind_Ret _ _ _ _ _ (w_iter _ _ _ _ W1)). simpl. rewrite (bind_Ret _ _ _ _ _ E2).
  assert (E3 : popitem x s2 = (Exc (KeyError (KStr "popitem(): mapping is empty")), s2)) by (unfold popitem, keys; by rewrite (bind_Ret _ _ _ _ _ (w_iter _ _ _ _ W2))).
  erewrite try_catch_Exc; [|apply (bind_Exc _ _ _ _ _ E3)]. done.
Qed.
Lemma q_clear nm pr s : world true nm pr s [] -> exists s', test_clear x cn s = (Ret None, s') /\ world true nm pr s' [].
Proof.
  intros W. destruct (w_new _ _ _ _ _ KNone W) as (f & s1 & E1 & W1 & R1 & _); [by left|].
  destruct (w_set _ _ _ _ _ _ foo f W1 R1) as (s2 & E2 & W2 & _); [done|set_solver|].
  destruct (w_new _ _ _ _ _ KNone W2) as (b & s3 & E3 & W3 & R3 & _); [by left|].
  destruct (w_set _ _ _ _ _ _ bar b W3 R3) as (s4 & E4 & W4 & _); [done|by apply (bool_decide_unpack _)|]. simpl in W4.
  destruct (w_deleted _ _ _ _ foo (VNode f) [(bar, b)] W4) as (s5 & E5 & W5); [done|done|done|sub|].
  destruct (w_deleted _ _ _ _ bar (VNode b) [] W5) as (s6 & E6 & W6); [done|done|done|sub|].
  exists s6. split; [|done]. unfold test_clear, child. rewrite bind_assoc, (bind_Ret _ _ _ _ _ E1), bind_ret, (bind_Ret _ _ _ _ _ E2), bind_assoc, (bind_Ret _ _ _ _ _ E3), bind_ret, (bind_Ret _ _ _ _ _ E4).
  unfold keys. rewrite (bind_Ret _ _ _ _ _ (w_iter _ _ _ _ W4)). unfold and_then. unfold check_keys at 1, check. simpl.
  unfold pass at 1. rewrite bind_ret.
  assert (Ec : clear x s4 = (Ret tt, s6)).
  { unfold clear, keys. rewrite (bind_Ret _ _ _ _ _ (w_iter _ _ _ _ W4)). simpl. by rewrite (bind_Ret _ _ _ _ _ E5), (bind_Ret _ _ _ _ _ E6). }
  rewrite (bind_Ret _ _ _ _ _ Ec), (bind_Ret _ _ _ _ _ (w_iter _ _ _ _ W6)). done.
Qed.

Definition told (b : bool) (m : string) : verdict := if b then Failed m else OK.
Definition un := hasc UUIDAware (c_behs cls).
Definition names_msg := "Expected same value for ``key`` and ``__name__``".
Definition values_msg := "Expected __name__ of value invalid. Got".
Definition reported : list (string * verdict) :=
  [("__setitem__", OK); ("__getitem__", told bad "Child ``bar`` has wrong ``__name__``"); ("get", OK); ("__iter__", OK); ("keys", OK); ("iterkeys", OK);
   ("values", told bad values_msg); ("itervalues", told bad values_msg); ("items", told bad names_msg); ("iteritems", told bad names_msg);
   ("__contains__", OK); ("has_key", OK); ("__len__", OK); ("update", OK); ("__delitem__", OK); ("copy", if un then Raised RuntimeError else OK);
   ("setdefault", told bad names_msg); ("pop", OK); ("popitem", OK); ("clear", OK)].
Lemma step_none n t r s s1 : t s = (Ret None, s1) -> run_tests ((n, t) :: r) s = (let '(vs, s2) := run_tests r s1 in ((n, OK) :: vs, s2)).
Proof. intros E. simpl. by rewrite E. Qed.
Lemma step_told n t r s s1 b m : t s = (Ret (complain b m), s1) -> run_tests ((n, t) :: r) s = (let '(vs, s2) := run_tests r s1 in ((n, told b m) :: vs, s2)).
Proof. intros E. simpl. rewrite E. by destruct b. Qed.
Lemma step_raised n t r s s1 e : t s = (Exc e, s1) -> run_tests ((n, t) :: r) s = (let '(vs, s2) := run_tests r s1 in ((n, Raised e) :: vs, s2)).
Proof. intros E. simpl. by rewrite E. Qed.
Lemma q_run t nm pr s : world t nm pr s [] -> exists nm' pr' s', run_tester cn x nc s = (reported, s') /\ world true nm' pr' s' [] /\
  if nc && un then nm' = KStr "nametopcopy" else nm' = nm /\ pr' = pr.
Proof.
  intros W. destruct (q_setitem _ _ _ _ W) as (f & b & s1 & E1 & W1). destruct (q_update _ _ _ _ _ W1) as (z & s2 & E2 & W2). destruct (q_delitem _ _ _ _ _ _ W2) as (s3 & E3 & W3).
  assert (H : exists nm' pr' s4, (test_copy x nc s3 = (if un then Exc RuntimeError else Ret None, s4)) /\ world true nm' pr' s4 [(foo, f); (baz, z)] /\
    if nc && un then nm' = KStr "nametopcopy" else nm' = nm /\ pr' = pr).
  { unfold un, hasc. destruct (decide (UUIDAware ∈ c_behs cls)) as [Hu|Hu].
    - rewrite bool_decide_eq_true_2 by done. destruct (q_copy_uuid _ _ _ _ _ W3 Hu) as (nm1 & pr1 & s4 & E4 & W4 & H4 & _). exists nm1, pr1, s4. split; [done|]. split; [done|].
      destruct nc; simpl; by injection H4 as -> ->.
    - rewrite bool_decide_eq_false_2 by done. destruct (q_copy _ _ _ _ _ W3 Hu) as (s4 & E4 & W4). exists nm, pr, s4. split; [done|]. split; [done|]. by rewrite andb_false_r. }
  destruct H as (nm' & pr' & s4 & E4 & W4 & H4). destruct (q_setdefault _ _ _ _ _ W4) as (n & s5 & E5 & W5). destruct (q_pop _ _ _ _ _ _ W5) as (s6 & E6 & W6).
  destruct (q_popitem _ _ _ _ _ W6) as (s7 & E7 & W7). destruct (q_clear _ _ _ W7) as (s8 & E8 & W8). exists nm', pr', s8. split; [|done].
  unfold run_tester, contract. rewrite (step_none _ _ _ _ _ E1), (step_told _ _ _ _ _ _ _ (q_getitem _ _ _ _ _ W1)), (step_none _ _ _ _ _ (q_get _ _ _ _ _ W1)),
    (step_none _ _ _ _ _ (q_iter _ _ _ _ _ W1)), (step_none _ _ _ _ _ (q_keys _ _ _ _ _ W1)), (step_none _ _ _ _ _ (q_iterkeys _ _ _ _ _ W1)),
    (step_told _ _ _ _ _ _ _ (q_values _ _ _ _ _ W1)). unfold test_itervalues, test_iteritems.
  rewrite (step_told _ _ _ _ _ _ _ (q_values _ _ _ _ _ W1)), (step_told _ _ _ _ _ _ _ (q_items _ _ _ _ _ W1)), (step_told _ _ _ _ _ _ _ (q_items _ _ _ _ _ W1)),
    (step_none _ _ _ _ _ (q_contains _ _ _ _ _ W1)), (step_none _ _ _ _ _ (q_has_key _ _ _ _ _ W1)), (step_none _ _ _ _ _ (q_len _ _ _ _ _ W1)), (step_none _ _ _ _ _ E2), (step_none _ _ _ _ _ E3).
  unfold reported. destruct un.
  - rewrite (step_raised _ _ _ _ _ _ E4), (step_told _ _ _ _ _ _ _ E5), (step_none _ _ _ _ _ E6), (step_none _ _ _ _ _ E7), (step_none _ _ _ _ _ E8). done.
  - rewrite (step_none _ _ _ _ _ E4), (step_told _ _ _ _ _ _ _ E5), (step_none _ _ _ _ _ E6), (step_none _ _ _ _ _ E7), (step_none _ _ _ _ _ E8). done.
Qed.
End run.

(** * What the tester reports *)
Lemma reported_names cls nc : map fst (reported cls nc) = tested.
Proof. done. Qed.
Lemma reported_ok cls nc n v : (n, v) ∈ reported cls nc -> v = OK <-> ~ should_fail cls nc n.
Proof.
  intros Hin.
  assert (Hb : nc && negb (hasc Adopt (c_behs cls)) = true <-> nc = true /\ Adopt ∉ c_behs cls).
  { rewrite andb_true_iff, negb_true_iff. unfold hasc. by rewrite bool_decide_eq_false. }
  assert (Hu : hasc UUIDAware (c_behs cls) = true <-> UUIDAware ∈ c_behs cls) by apply bool_decide_eq_true.
  unfold should_fail, looks_at_names. unfold reported, un, told in Hin.
  destruct (nc && negb (hasc Adopt (c_behs cls))) eqn:Eb; destruct (hasc UUIDAware (c_behs cls)) eqn:Eu;
    repeat (apply elem_of_cons in Hin as [[= -> ->]|Hin]; [split; [intros [=]; intros [(? & ? & ?)|[? ?]]; first [set_solver|naive_solver]|intros; try done; exfalso; naive_solver set_solver]|]);
    by apply elem_of_nil in Hin.
Qed.
Lemma tester_reports s x cls cn kcls nc vs s' : reach s -> class_of s x = Some cls -> plain_class (c_behs cls) = true -> entries_at s x = [] ->
  classes s !! cn = Some kcls -> plain_class (c_behs kcls) = true -> DefaultInit ∈ c_behs kcls -> run_tester cn x nc s = (vs, s') ->
  map fst vs = tested /\ (forall n v, (n, v) ∈ vs -> v = OK <-> ~ should_fail cls nc n) /\ entries_at s' x = [] /\
  (UUIDAware ∉ c_behs cls \/ nc = false -> name_at s' x = name_at s x /\ parent_at s' x = parent_at s x) /\
  (UUIDAware ∈ c_behs cls -> nc = true -> name_at s' x = Some (KStr "nametopcopy")).
Proof.
  intros R Hc Hp He Hcn Hk Hi Hr. pose proof (reach_wf s R) as Wf. unfold class_of in Hc. destruct (nodes s !! x) as [o|] eqn:Ho; [|done]. injection Hc as Hc.
  assert (W : exists t, world x cls kcls cn t (o_name o) (o_parent o) s []).
  { destruct (wf_nodes _ Wf _ _ Ho) as [_ [_ K _ _]]. unfold entries_at in He. rewrite Ho in He. simpl in He.
    assert (Hids : forall y oy, nodes s !! y = Some oy -> y < next_id s) by (intros y oy Hy; by destruct (wf_nodes _ Wf _ _ Hy)).
    destruct (o_storage o) as [l|] eqn:El.
    - exists true. constructor; try done; [|intros ? ? H; by apply elem_of_nil in H]. exists o. rewrite El. repeat (split; [done|]). destruct (K SStorage l El) as [d Hd].
      simpl in He. rewrite Hd in He. simpl in He. subst d. split; [|done]. by destruct (wf_dicts _ Wf _ _ Hd).
    - exists false. constructor; try done; [|intros ? ? H; by apply elem_of_nil in H]. exists o. by rewrite El. }
  destruct W as [t W]. destruct (q_run x cls kcls cn Hp Hk Hi nc _ _ _ _ W) as (nm' & pr' & s1 & E1 & W1 & H1). rewrite E1 in Hr. injection Hr as <- <-.
  destruct (w_self _ _ _ _ _ _ _ _ W1) as (o1 & l1 & Ho1 & _ & N1 & P1 & L1 & _ & D1).
  split; [done|]. split; [apply reported_ok|]. split; [unfold entries_at; rewrite Ho1; simpl; by rewrite L1; simpl; rewrite D1|].
  unfold name_at, parent_at. rewrite Ho, Ho1. simpl. rewrite N1, P1. unfold un, hasc in H1. split.
  - intros [Hu|Hnc]; [rewrite bool_decide_eq_false_2 in H1 by done; rewrite andb_false_r in H1; by destruct H1 as [-> ->]|subst nc; by destruct H1 as [-> ->]].
  - intros Hu ->. rewrite bool_decide_eq_true_2 in H1 by done. simpl in H1. by rewrite H1.
Qed.
Lemma fresh_reports s cn cls nc : reach s -> classes s !! cn = Some cls -> plain_class (c_behs cls) = true -> DefaultInit ∈ c_behs cls ->
  exists x vs s', run_fresh cn nc s = (Ret x, (vs, s')) /\ map fst vs = tested /\ (forall n v, (n, v) ∈ vs -> v = OK <-> ~ should_fail cls nc n) /\ entries_at s' x = [].
Proof.
  intros R Hc Hp Hi. pose proof (reach_wf s R) as W.
  assert (Hf : nodes s !! next_id s = None). { destruct (nodes s !! next_id s) eqn:E; [|done]. destruct (wf_nodes _ W _ _ E). lia. }
  destruct (new_plain cn cls KNone s Hc Hp Hi Hf) as (s1 & E & E1 & E2 & E3 & o & En & Ec & _ & Es).
  assert (R1 : reach s1). { eapply (reach_step s (ONew cn KNone None) (Ret tt)); try done. simpl. unfold ignore. by rewrite (bind_Ret _ _ _ _ _ E). }
  exists (next_id s). unfold run_fresh. rewrite E. destruct (run_tester cn (next_id s) nc s1) as [vs s'] eqn:Er. exists vs, s'. split; [done|].
  destruct (tester_reports s1 (next_id s) cls cn cls nc vs s' R1) as (H1 & H2 & H3 & _); try done.
  - unfold class_of. rewrite En, lookup_insert. simpl. by rewrite Ec.
  - unfold entries_at. rewrite En, lookup_insert. simpl. by rewrite Es.
  - by rewrite E1.
Qed.
