(** Proofs about reading trees from JSON. *)
From Verif Require Import Py Odict OdictFacts Aliaser Heap Model MonadFacts WF WFOps Views SpecMapping MappingProofs StorageProofs TreeOps SetEff DelEff
  DetachEff NewEff AttrsEff Observe ObserveFacts Reach SpecTree MappingProps PlaceProofs UtilsProofs AliasProofs RefTree DeepProofs FactoryProofs Serializer SpecSerial SerialValues SerialData SerialEncode.

(** * Storing *)
Lemma set_res_ok a bs k v : hashable k = true -> (Nodespaces ∈ bs -> exists t, k = KStr t /\ reserved t = false) ->
  (is_node v = true \/ (NodeChildValidate ∈ bs -> a = true)) -> set_res a bs k v = Ret tt.
Proof.
  intros Hk Hns Hv. induction bs as [|b bs IH]; simpl; [by rewrite Hk|].
  assert (IH' : set_res a bs k v = Ret tt).
  { apply IH; [intros H; apply Hns; by right|]. destruct Hv as [Hv|Hv]; [by left|right]. intros H. apply Hv. by right. }
  destruct b; try done.
  - destruct Hv as [Hv|Hv].
    + destruct v; try discriminate Hv. simpl. by rewrite !andb_false_r.
    + assert (a = true) as -> by (apply Hv; by left). done.
  - destruct Hns as (t & -> & Hr); [by left|]. by rewrite Hr.
Qed.
Lemma core_view s s' y w : fld w_core s' y = fld w_core s y -> views s !! y = Some w -> exists w', views s' !! y = Some w' /\ w_core w' = w_core w.
Proof. unfold fld. intros H Hw. rewrite Hw in H. destruct (views s' !! y) as [w'|]; [|done]. exists w'. split; [done|]. simpl in H. congruence. Qed.
Lemma no_spaces cls k : ~ to_spaces cls k -> nskey (c_behs cls) k = false.
Proof. apply nskey_dunder_false. Qed.
Lemma spaces_str cls k : ~ to_spaces cls k -> (Nodespaces ∈ c_behs cls -> exists t, k = KStr t) -> Nodespaces ∈ c_behs cls -> exists t, k = KStr t /\ reserved t = false.
Proof.
  intros H1 H2 Hn. destruct (H2 Hn) as [t ->]. exists t. split; [done|]. apply no_spaces in H1. unfold nskey in H1.
  rewrite (proj2 (hasc_in _ _) Hn) in H1. done.
Qed.

Lemma store_node s x k c w wc : wf s -> views s !! x = Some w -> tree_class (c_behs (w_cls w)) = true -> views s !! c = Some wc -> c <> x ->
  (Reference ∈ c_behs (w_cls w) -> w_ent wc = []) -> tree_class (c_behs (w_cls wc)) = true -> Adopt ∈ c_behs (w_cls w) -> ~ to_spaces (w_cls w) k -> hashable k = true ->
  (Nodespaces ∈ c_behs (w_cls w) -> exists t, k = KStr t) ->
  (Reference ∈ c_behs (w_cls w) -> is_Some (w_index w) /\ is_Some (w_index wc)) ->
  exists s' i, setitem x k (VNode c) s = (Ret tt, s') /\ wf s' /\ next_uuid s' = next_uuid s /\ classes s' = classes s /\
    views s' !! x = Some (vw_ent (dset k (VNode c) (w_ent w)) w) /\
    views s' !! c = Some (View (w_cls wc) k (Some x) (w_ent wc) (w_cache wc) (w_fixed wc) (w_ns wc) i (w_uuid wc) (w_allow wc) (w_suppress wc) (w_fallback wc)) /\
    (is_Some (w_index wc) -> is_Some i) /\
    (forall y, y <> x -> y <> c -> views s' !! y = views s !! y).
Proof.
  intros W Hw Ht Hwc Hne He Htc Had Hns Hk Hstr Href.
  assert (Hcl : fld w_cls s x = Some (w_cls w)) by (unfold fld; by rewrite Hw).
  assert (Hlive : vok s (VNode c)). { simpl. apply views_live. eauto. }
  destruct (setitem_eff s x (w_cls w) k (VNode c) W Hcl Ht Hlive) as (r & s' & E & F & G).
  assert (r = Ret tt) as ->.
  { rewrite (G (w_allow w)).
    - apply set_res_ok; [done|by apply spaces_str|by left].
    - intros c0 [= <-] Hr. apply hasc_in in Hr. specialize (He Hr). destruct (Href Hr) as [[i Hi] [j Hj]].
      destruct (view_obj _ _ _ Hw) as (o & Ho & Ew). destruct (view_obj _ _ _ Hwc) as (oc & Hoc & Ewc).
      destruct (ok_index _ _ (proj2 (wf_nodes _ W _ _ Ho)) i) as [mi Hmi]; [by subst w|].
      destruct (ok_index _ _ (proj2 (wf_nodes _ W _ _ Hoc)) j) as [mj Hmj]; [by subst wc|].
      exists i, j, mi, mj, (w_cls wc), []. unfold fld. rewrite Hw, Hwc. simpl. rewrite Hi, Hj, He. repeat split; try done. by left.
    - unfold fld. by rewrite Hw. }
  destruct F. rewrite (no_spaces _ _ Hns) in *. simpl in *.
  destruct (core_view _ _ _ _ (se_core c) Hwc) as (wc' & Hwc' & Ecc).
  exists s', (w_index wc'). split; [done|]. split; [done|]. split; [done|]. split; [done|]. split; [|split; [|split]].
  - destruct (core_view _ _ _ _ (se_core x) Hw) as (w' & Hw' & Ec). rewrite Hw'. f_equal.
    pose proof (se_ent x) as E1. pose proof (se_ns x) as E2. rewrite decide_True in E1, E2 by done.
    pose proof (se_np_other x ltac:(congruence)) as E3. pose proof (se_ix_other x ltac:(congruence)) as E4.
    unfold fld in E1, E2, E3, E4. rewrite Hw, Hw' in E1, E2, E3, E4. simpl in *. injection E1 as E1. injection E2 as E2. injection E3 as E3a E3b. injection E4 as E4.
    injection Ec as ? ? ? ? ? ? ?. destruct w', w; unfold vw_ent; simpl in *; congruence.
  - rewrite Hwc'. f_equal. pose proof (se_ent c) as E1. pose proof (se_ns c) as E2. rewrite decide_False in E1, E2 by done.
    pose proof (se_np_ret c eq_refl eq_refl) as E3. rewrite (proj2 (hasc_in _ _) Had) in E3. simpl in E3.
    unfold fld in E1, E2, E3. rewrite Hwc, Hwc' in E1, E2. rewrite Hwc' in E3. simpl in *. injection E1 as E1. injection E2 as E2. injection E3 as E3a E3b.
    injection Ecc as ? ? ? ? ? ? ?. destruct wc', wc; simpl in *; congruence.
  - intros Hi. destruct (hasc Reference (c_behs (w_cls w))) eqn:Hr.
    + destruct (se_ref c eq_refl eq_refl eq_refl eq_refl) as (i & j & mi & mj & _ & _ & _ & _ & _ & K & _). unfold fld in K. rewrite Hwc' in K. injection K as ->. eauto.
    + destruct (se_ix eq_refl) as [K _]. specialize (K c). unfold fld in K. rewrite Hwc, Hwc' in K. injection K as ->. done.
  - intros y Hx Hc. apply view_fields; [done|rewrite se_ent; by rewrite decide_False|rewrite se_ns; by rewrite decide_False|apply se_np_other; congruence|apply se_ix_other; congruence].
Qed.
Lemma store_value s x k v w : wf s -> views s !! x = Some w -> tree_class (c_behs (w_cls w)) = true -> not_a_node v -> ~ to_spaces (w_cls w) k -> hashable k = true ->
  (Nodespaces ∈ c_behs (w_cls w) -> exists t, k = KStr t) -> (NodeChildValidate ∈ c_behs (w_cls w) -> w_allow w = true) ->
  exists s', setitem x k v s = (Ret tt, s') /\ wf s' /\ next_uuid s' = next_uuid s /\ classes s' = classes s /\
    views s' !! x = Some (vw_ent (dset k v (w_ent w)) w) /\ (forall y, y <> x -> views s' !! y = views s !! y).
Proof.
  intros W Hw Ht Hv Hns Hk Hstr Hal.
  assert (Hcl : fld w_cls s x = Some (w_cls w)) by (unfold fld; by rewrite Hw).
  assert (Hok : vok s v). { destruct v as [| | | | | | |c| | | |]; try done. by destruct (Hv c). }
  destruct (setitem_eff s x (w_cls w) k v W Hcl Ht Hok) as (r & s' & E & F & G).
  assert (r = Ret tt) as ->.
  { rewrite (G (w_allow w)).
    - apply set_res_ok; [done|by apply spaces_str|by right].
    - intros c0 ->. by destruct (Hv c0).
    - unfold fld. by rewrite Hw. }
  destruct F. rewrite (no_spaces _ _ Hns) in *. simpl in *.
  exists s'. split; [done|]. split; [done|]. split; [done|]. split; [done|]. split.
  - destruct (core_view _ _ _ _ (se_core x) Hw) as (w' & Hw' & Ec). rewrite Hw'. f_equal.
    pose proof (se_ent x) as E1. pose proof (se_ns x) as E2. rewrite decide_True in E1, E2 by done.
    pose proof (se_np_other x (Hv x)) as E3. pose proof (se_ix_other x (Hv x)) as E4.
    unfold fld in E1, E2, E3, E4. rewrite Hw, Hw' in E1, E2, E3, E4. simpl in *. injection E1 as E1. injection E2 as E2. injection E3 as E3a E3b. injection E4 as E4.
    injection Ec as ? ? ? ? ? ? ?. destruct w', w; unfold vw_ent; simpl in *; congruence.
  - intros y Hx. apply view_fields; [done|rewrite se_ent; by rewrite decide_False|rewrite se_ns; by rewrite decide_False|apply se_np_other, Hv|apply se_ix_other, Hv].
Qed.

(** * Growing states *)
Record grew (Q : nat -> Prop) (t t' : st) : Prop := Grew {
  gw_wf : wf t';
  gw_next : (next_uuid t <= next_uuid t')%N;
  gw_classes : classes t' = classes t;
  gw_old : forall y w, views t !! y = Some w -> exists w', views t' !! y = Some w' /\ w_uuid w' = w_uuid w /\ (~ Q y -> w' = w);
  gw_uuid : forall y w u, views t !! y = None -> views t' !! y = Some w -> w_uuid w = Some u -> (next_uuid t <= u < next_uuid t')%N;
  gw_uuids : forall y z w v u, views t !! y = None -> views t !! z = None -> views t' !! y = Some w -> views t' !! z = Some v ->
    w_uuid w = Some u -> w_uuid v = Some u -> y = z
}.
Lemma grew_refl Q t : wf t -> grew Q t t.
Proof. intros W. constructor; [done|lia|done| | |]; intros; try congruence. eauto. Qed.
Lemma grew_weaken (Q Q' : nat -> Prop) t t' : (forall y, is_Some (views t !! y) -> Q y -> Q' y) -> grew Q t t' -> grew Q' t t'.
Proof.
  intros H []. constructor; try done. intros y w Hw. destruct (gw_old0 y w Hw) as (w' & K1 & K2 & K3). exists w'. split; [done|]. split; [done|].
  intros HQ. apply K3. intros ?. apply HQ, H; [rewrite Hw; eauto|done].
Qed.
Lemma grew_trans Q t t1 t2 : wf t1 -> grew Q t t1 -> grew Q t1 t2 -> grew Q t t2.
Proof.
  intros W1 G1 G2. destruct G1 as [? N1 C1 O1 U1 D1], G2 as [W2 N2 C2 O2 U2 D2]. constructor; [done|lia|congruence| | |].
  - intros y w Hw. destruct (O1 y w Hw) as (w1 & H1 & E1 & F1). destruct (O2 y w1 H1) as (w2 & H2 & E2 & F2). exists w2. split; [done|]. split; [congruence|].
    intros HQ. rewrite F2, F1; done.
  - intros y w u Hn Hw Hu. destruct (views t1 !! y) as [w1|] eqn:H1.
    + destruct (O2 y w1 H1) as (w2 & H2 & E2 & _). rewrite Hw in H2. injection H2 as <-. rewrite E2 in Hu. pose proof (U1 y w1 u Hn H1 Hu). lia.
    + pose proof (U2 y w u H1 Hw Hu). lia.
  - intros y z w v u Hy Hz Hw Hv Huw Huv. destruct (views t1 !! y) as [w1|] eqn:H1, (views t1 !! z) as [v1|] eqn:H1'.
    + destruct (O2 y w1 H1) as (w2 & H2 & E2 & _). destruct (O2 z v1 H1') as (v2 & H2' & E2' & _).
      rewrite Hw in H2. rewrite Hv in H2'. injection H2 as <-. injection H2' as <-. rewrite E2 in Huw. rewrite E2' in Huv. by eapply D1.
    + destruct (O2 y w1 H1) as (w2 & H2 & E2 & _). rewrite Hw in H2. injection H2 as <-. rewrite E2 in Huw.
      pose proof (U1 y w1 u Hy H1 Huw). pose proof (U2 z v u H1' Hv Huv). lia.
    + destruct (O2 z v1 H1') as (w2 & H2 & E2 & _). rewrite Hv in H2. injection H2 as <-. rewrite E2 in Huv.
      pose proof (U1 z v1 u Hz H1' Huv). pose proof (U2 y w u H1 Hw Huw). lia.
    + by eapply D2.
Qed.
Lemma grew_new Q c name parent t x t' : wf t -> new_eff c name parent t x t' -> grew Q t t'.
Proof.
  intros W [Hid Wf Fr Ot (i & u0 & Se & Hr) _ _ Cl].
  assert (forall y w, views t !! y = None -> views t' !! y = Some w -> y = x) as K.
  { intros y w H1 H2. destruct (decide (y = x)); [done|]. rewrite Ot in H2 by done. congruence. }
  constructor; [done| |done| | |].
  - destruct (hasc Reference (c_behs c)); [destruct Hr as (_ & _ & _ & _ & _ & ->)|destruct Hr as (_ & _ & _ & ->)]; lia.
  - intros y w Hw. exists w. rewrite Ot; [done|]. congruence.
  - intros y w u Hn Hw Hu. pose proof (K _ _ Hn Hw) as ->. rewrite Se in Hw. injection Hw as <-. simpl in Hu.
    destruct (hasc Reference (c_behs c)); [destruct Hr as (_ & _ & -> & _ & _ & ->)|destruct Hr as (_ & -> & _)]; [injection Hu as <-; lia|done].
  - intros y z w v u H1 H2 H3 H4 _ _. by rewrite (K _ _ H1 H3), (K _ _ H2 H4).
Qed.
(** a step that changes only nodes of [Q] and makes none *)
Lemma grew_step (Q : nat -> Prop) t t' : wf t' -> next_uuid t' = next_uuid t -> classes t' = classes t ->
  (forall y w, views t !! y = Some w -> Q y -> exists w', views t' !! y = Some w' /\ w_uuid w' = w_uuid w) ->
  (forall y, Q y -> is_Some (views t !! y)) ->
  (forall y, ~ Q y -> views t' !! y = views t !! y) -> (forall y, Q y \/ ~ Q y) -> grew Q t t'.
Proof.
  intros W U C H1 H2 H3 Hd.
  assert (N : forall y, views t !! y = None -> views t' !! y = None).
  { intros y Hy. rewrite H3; [done|]. intros HQ. apply H2 in HQ as [? ?]. congruence. }
  constructor; [done|lia|done| | |].
  - intros y w Hw. destruct (Hd y) as [HQ|HQ].
    + destruct (H1 y w Hw HQ) as (w' & ? & ?). eauto 6 with congruence.
    + exists w. by rewrite H3.
  - intros y w u Hn Hw. rewrite N in Hw; done.
  - intros y z w v u Hn _ Hw. rewrite N in Hw; done.
Qed.

(** * Trees stay trees *)
(** the root may get another holder *)
Lemma tree_move (P P' : option nat -> nat -> Prop) s s' : classes s' = classes s ->
  (forall h y w, P (Some h) y -> views s !! y = Some w -> views s' !! y = Some w /\ P' (Some h) y) ->
  forall sh x h h' w w', tree_in P s h x sh -> views s !! x = Some w -> views s' !! x = Some w' -> P' h' x ->
    w_cls w' = w_cls w -> w_name w' = w_name w -> w_ns w' = w_ns w -> w_ent w' = w_ent w -> tree_in P' s' h' x sh.
Proof.
  intros Hc V. induction sh as [k v|cn n attrs kids IH IHa] using shape_nested; intros x h h' w w' T Hw Hw' Hp' F1 F2 F3 F4; [by inversion T|].
  inversion T as [h0 x0 cls n0 at0 k0 Hp Hcl Hcc Hnm Hat Hes]; subst. rewrite (view_class _ _ _ Hw) in Hcl. injection Hcl as Hcl.
  assert (K : forall ks q es, Forall (fun sh => forall x h h' w w', tree_in P s h x sh -> views s !! x = Some w -> views s' !! x = Some w' -> P' h' x ->
    w_cls w' = w_cls w -> w_name w' = w_name w -> w_ns w' = w_ns w -> w_ent w' = w_ent w -> tree_in P' s' h' x sh) ks ->
    Forall2 (entry_in P s q) es ks -> Forall2 (entry_in P' s' q) es ks).
  { intros ks q es I. induction 1 as [|e kid es1 ks1 He Hes1 IHl]; constructor.
    - apply Forall_cons in I as [I _]. inversion He as [|q0 k c cn at1 ks0 T1]; subst; constructor; [done|].
      inversion T1 as [h0 x0 cls1 n0 at0 k0 Hp1 Hcl1]; subst. destruct (class_view _ _ _ Hcl1) as (w1 & Hw1 & _).
      destruct (V _ _ _ Hp1 Hw1) as [Hw1' Hp1']. by eapply I.
    - apply Forall_cons in I as [_ I]. by apply IHl. }
  constructor.
  - done.
  - rewrite (view_class _ _ _ Hw'). congruence.
  - by rewrite Hc.
  - rewrite (view_name _ _ _ Hw'). rewrite (view_name _ _ _ Hw) in Hnm. congruence.
  - apply attrs_in_iff in Hat. apply attrs_in_iff.
    destruct attrs as [al|]; [|done]. destruct Hat as [Ha Hat]. split; [done|]. rewrite value_at_spec, (view_spaces _ _ _ Hw) in Hat.
    rewrite value_at_spec, (view_spaces _ _ _ Hw'), F3. destruct Hat as [[Hd ->]|(a & ca & Hd & Hpa & Hca & Hcf & He)]; [by left|].
    right. exists a, ca. destruct (class_view _ _ _ Hca) as (wa & Hwa & Ewa). destruct (V _ _ _ Hpa Hwa) as [Hwa' Hpa'].
    split; [done|]. split; [done|]. rewrite Hc, (view_class _ _ _ Hwa'), (view_entries _ _ _ Hwa'). rewrite (view_entries _ _ _ Hwa) in He. rewrite Ewa.
    split; [done|]. split; [done|]. by apply K.
  - rewrite (view_entries _ _ _ Hw'), F4. rewrite (view_entries _ _ _ Hw) in Hes. by apply K.
Qed.
Lemma tree_keep (P P' : option nat -> nat -> Prop) s s' : classes s' = classes s ->
  (forall h y w, P h y -> views s !! y = Some w -> views s' !! y = Some w /\ P' h y) ->
  forall sh x h, tree_in P s h x sh -> tree_in P' s' h x sh.
Proof.
  intros Hc V sh x h T. assert (exists w, views s !! x = Some w /\ P h x) as (w & Hw & Hp).
  { inversion T as [h0 x0 cls n0 at0 k0 Hp Hcl]; subst. destruct (class_view _ _ _ Hcl) as (w & Hw & _). eauto. }
  destruct (V _ _ _ Hp Hw) as [Hw' Hp']. eapply (tree_move P P' s s'); [done|intros; by apply V|exact T|done|done|done|done..].
Qed.
(** the nodes made between [t] and [t'] *)
Definition made (t t' : st) (h : option nat) (y : nat) : Prop := ~ exists_node t y /\ parent_at t' y = h.
Lemma made_keep Q t t1 t2 t3 : grew Q t t1 -> (forall y, Q y -> exists_node t1 y) -> forall Q', grew Q' t2 t3 -> (forall y, Q' y -> exists_node t1 y) ->
  forall h y w, made t1 t2 h y -> views t2 !! y = Some w -> views t3 !! y = Some w /\ made t t3 h y.
Proof.
  intros G1 _ Q' G2 HQ' h y w [Hn Hp] Hw. destruct (gw_old _ _ _ G2 y w Hw) as (w' & Hw' & _ & E). assert (w' = w) as -> by (apply E; intros ?%HQ'; done).
  split; [done|]. split.
  - intros [v Hv]%views_live. apply Hn, views_live. destruct (gw_old _ _ _ G1 y v Hv) as (v' & ? & _). eauto.
  - by rewrite (view_parent _ _ _ Hw'), <- (view_parent _ _ _ Hw).
Qed.

(** * Running the decoder *)
Lemma new_tree bs : new_class bs = true -> tree_class bs = true.
Proof. unfold new_class. rewrite !andb_true_iff. by intros [[[? _] _] _]. Qed.
Lemma imp_grew ev Q t t' : grew Q t t' -> importable ev t' = importable ev t.
Proof. intros G. unfold importable. by rewrite (gw_classes _ _ _ G). Qed.
Definition takes_view (cs : gmap string classdef) (w : view) (sh : shape) : Prop :=
  tree_class (c_behs (w_cls w)) = true /\ holds cs (w_cls w) sh /\ ~ to_spaces (w_cls w) (shape_key sh) /\ hashable (shape_key sh) = true /\
  (Reference ∈ c_behs (w_cls w) -> is_Some (w_index w)).
Definition decodes (others : string -> bool) (sh : shape) : Prop := forall f t parent, height sh <= f -> wf t -> (0 < next_uuid t)%N ->
  storable (classes t) (importable (std_env others) t) sh -> is_leaf sh = false ->
  (forall q, parent = Some q -> exists w, views t !! q = Some w /\ takes_view (classes t) w sh) ->
  exists x t', decode f (std_env others) parent (json_tree false true sh) t = (Ret (VNode x), t') /\ views t !! x = None /\
    grew (fun y => parent = Some y) t t' /\ tree_in (made t t') t' parent x (pruned sh) /\
    (forall q w, parent = Some q -> views t !! q = Some w -> views t' !! q = Some (vw_ent (dset (shape_key sh) (VNode x) (w_ent w)) w)).

Lemma keep_entries (P P' : option nat -> nat -> Prop) s s' x es kids : classes s' = classes s ->
  (forall h y w, P (Some h) y -> views s !! y = Some w -> views s' !! y = Some w /\ P' (Some h) y) ->
  Forall2 (entry_in P s x) es kids -> Forall2 (entry_in P' s' x) es kids.
Proof.
  intros Hc V. induction 1 as [|e kid es kids He _ IH]; constructor; [|done]. inversion He as [|q0 k c cn at1 ks0 T1]; subst; constructor; [done|].
  inversion T1 as [h0 x0 cls1 n0 at0 k0 Hp1 Hcl1]; subst. destruct (class_view _ _ _ Hcl1) as (w1 & Hw1 & _).
  destruct (V _ _ _ Hp1 Hw1) as [Hw1' Hp1']. by eapply (tree_move P P' s s').
Qed.
Lemma entries_keys P s x es kids : Forall2 (entry_in P s x) es kids -> map fst es = map shape_key kids.
Proof. induction 1 as [|e kid es kids He _ IH]; simpl; [done|]. rewrite IH. f_equal. by inversion He. Qed.
Lemma pruned_key sh : shape_key (pruned sh) = shape_key sh.
Proof. by destruct sh. Qed.

Section decode.
  Context (others : string -> bool).
  Notation ev := (std_env others).
  Lemma decode_kids f x kids : Forall (decodes others) kids -> Forall (fun k => height k <= f) kids -> forall t w, wf t -> (0 < next_uuid t)%N ->
    views t !! x = Some w -> Forall (storable (classes t) (importable ev t)) kids ->
    Forall (fun kid => is_leaf kid = false -> takes_view (classes t) w kid) kids ->
    NoDup (map fst (w_ent w) ++ map shape_key kids) ->
    exists t' es, iterM (fun c => do! decode f ev (Some x) c in ret tt) (map (json_tree false true) kids) t = (Ret tt, t') /\
      grew (fun y => y = x) t t' /\ views t' !! x = Some (vw_ent (w_ent w ++ es) w) /\
      Forall2 (entry_in (made t t') t' x) es (flat_map (fun k => if is_leaf k then [] else [pruned k]) kids).
  Proof.
    induction kids as [|kid kids IHk]; intros Hd Hh t w W Hu Hw Hst Htk Hnd.
    - exists t, []. split; [done|]. split; [by apply grew_refl|]. split; [|constructor]. rewrite app_nil_r. rewrite Hw. by destruct w.
    - apply Forall_cons in Hd as [Hd1 Hd2]. apply Forall_cons in Hh as [Hh1 Hh2]. apply Forall_cons in Hst as [Hs1 Hs2]. apply Forall_cons in Htk as [Ht1 Ht2].
      cbn [map iterM]. destruct (is_leaf kid) eqn:Hl.
      + destruct kid as [|k v]; [done|]. inversion Hs1 as [? ? Hp|]; subst.
        assert (E : decode f ev (Some x) (json_tree false true (Leaf k v)) t = (Ret v, t)). { apply decode_plain; [done|]. simpl in Hh1. lia. }
        rewrite bind_assoc, (bind_Ret _ _ _ _ _ E), bind_ret. destruct (IHk Hd2 Hh2 t w W Hu Hw Hs2 Ht2) as (t' & es & E' & G & K & F).
        { clear - Hnd. apply NoDup_app in Hnd as (H1 & H2 & H3). apply NoDup_app. cbn [map] in H2, H3. apply NoDup_cons in H3 as [_ H3]. split; [done|]. split; [|done].
          intros y Hy Hin. apply (H2 y Hy). by right. }
        exists t', es. done.
      + destruct (Hd1 f t (Some x) Hh1 W Hu Hs1 Hl) as (c & t1 & E1 & Fr & G1 & T1 & P1).
        { intros q [= <-]. eauto. }
        rewrite bind_assoc, (bind_Ret _ _ _ _ _ E1), bind_ret. specialize (P1 x w eq_refl Hw).
        assert (G1' : grew (fun y => y = x) t t1) by (eapply grew_weaken; [|exact G1]; simpl; congruence).
        assert (Hkx : shape_key kid ∉ dkeys (w_ent w)).
        { intros Hin. apply NoDup_app in Hnd as (_ & H2 & _). apply (H2 _ Hin). by left. }
        rewrite dset_absent in P1 by done.
        destruct (IHk Hd2 Hh2 t1 (vw_ent (w_ent w ++ [(shape_key kid, VNode c)]) w) (gw_wf _ _ _ G1)) as (t2 & es & E2 & G2 & K2 & F2).
        * pose proof (gw_next _ _ _ G1). lia.
        * done.
        * by rewrite (imp_grew _ _ _ _ G1), (gw_classes _ _ _ G1).
        * rewrite (gw_classes _ _ _ G1). done.
        * simpl. rewrite map_app, <- app_assoc. done.
        * exists t2, ((shape_key kid, VNode c) :: es). split; [done|]. split; [by eapply grew_trans; [apply G1|..]|].
          split; [rewrite K2; unfold vw_ent; simpl; by rewrite <- app_assoc|].
          cbn [flat_map]. rewrite Hl. cbn [app]. constructor.
          -- rewrite <- pruned_key. assert (K : tree_in (made t t2) t2 (Some x) c (pruned kid)).
             { eapply (tree_keep (made t t1)); [apply G2| |exact T1]. eapply (made_keep (fun y => y = x) t t t1 t2); [by apply grew_refl| |exact G2|]; intros y ->; apply views_live; eauto. }
             destruct kid as [cn n attrs ks|]; [|done]. constructor. exact K.
          -- eapply keep_entries; [..|exact F2]; [done|].
             intros h y wy Hm Hy. split; [done|]. destruct Hm as [Hm1 Hm2]. split; [|done]. intros [v Hv]%views_live. apply Hm1, views_live.
             destruct (gw_old _ _ _ G1' y v Hv) as (v' & ? & _). eauto.
  Qed.

  (** attributes; [done] have been stored *)
  Definition attrs_state (t s : st) (x : nat) (w : view) (ca : classdef) (done : list shape) : Prop :=
    grew (fun y => y = x) t s /\
    (done = [] /\ views s !! x = Some w \/
     exists a wa, views t !! a = None /\ views s !! x = Some (vw_ns (dset attrs_key (VNode a) (w_ns w)) w) /\ views s !! a = Some wa /\
       w_cls wa = ca /\ w_parent wa = Some x /\ w_allow wa = c_allow ca /\ Forall2 (entry_in (fun h y => made t s h y /\ y <> a) s a) (w_ent wa) done).
  Lemma attrs_state_grew t s s1 x w ca pre : wf s -> attrs_state t s x w ca pre -> grew (fun _ => False) s s1 -> attrs_state t s1 x w ca pre.
  Proof.
    intros Ws [G Hst] G1.
    assert (O : forall y w, views s !! y = Some w -> views s1 !! y = Some w).
    { intros y v Hv. destruct (gw_old _ _ _ G1 y v Hv) as (w' & Hw' & _ & E). rewrite Hw'. f_equal. apply E. by intros []. }
    split.
    { eapply grew_trans; [exact Ws|exact G|]. eapply grew_weaken; [|exact G1]. done. }
    destruct Hst as [[-> Hx]|(a & wa & Fr & Hx & Ha & Kc & Kp & Ka & Ke)].
    - left. split; [done|]. by apply O.
    - right. exists a, wa. split; [done|]. split; [by apply O|]. split; [by apply O|]. do 3 (split; [done|]).
      eapply keep_entries; [apply G1| |exact Ke]. intros h y wy [[H1 H2] H3] Hy. pose proof (O y wy Hy) as Hw0.
      split; [done|]. split; [|done]. split; [done|]. by rewrite (view_parent _ _ _ Hw0), <- (view_parent _ _ _ Hy).
  Qed.
  Lemma attrs_ready t s x w ca pre : wf t -> (0 < next_uuid t)%N -> views t !! x = Some w -> with_attrs (c_behs (w_cls w)) = true -> dget attrs_key (w_ns w) = None ->
    classes t !! c_attrs_factory (w_cls w) = Some ca -> new_class (c_behs ca) = true -> attrs_state t s x w ca pre ->
    exists a s1 wa, attrs_of x s = (Ret (VNode a), s1) /\ grew (fun y => y = x) t s1 /\ classes s1 = classes s /\ wf s1 /\ views t !! a = None /\
      views s1 !! x = Some (vw_ns (dset attrs_key (VNode a) (w_ns w)) w) /\ views s1 !! a = Some wa /\
      w_cls wa = ca /\ w_parent wa = Some x /\ w_allow wa = c_allow ca /\ Forall2 (entry_in (fun h y => made t s1 h y /\ y <> a) s1 a) (w_ent wa) pre /\
      (forall y wy, views s !! y = Some wy -> y <> x -> views s1 !! y = Some wy) /\
      (views s !! a = None \/ exists wx, views s !! x = Some wx /\ dget attrs_key (w_ns wx) = Some (VNode a)).
  Proof.
    intros W Hu Hw Hwa Hd Hca Hnew [G Hst]. pose proof (gw_wf _ _ _ G) as Ws.
    destruct Hst as [[-> Hx]|(a & wa & Fr & Hx & Ha & Kc & Kp & Ka & Ke)].
    - destruct (attrs_missing s x w ca Ws Hx Hwa Hd) as (a & s1 & E1 & A); [by rewrite (gw_classes _ _ _ G)|done|pose proof (gw_next _ _ _ G); lia|].
      exists a, s1. destruct A as [Wf Fr Ot (w0 & Hw0 & Se) (i & u & Na & Hr) _ _ Cl]. rewrite Hx in Hw0. injection Hw0 as <-.
      assert (a <> x) by congruence.
      eexists. split; [done|]. split; [|split; [done|split; [done|split; [|split; [exact Se|split; [exact Na|]]]]]];
        [|destruct (views t !! a) as [v0|] eqn:E0; [|done]; destruct (gw_old _ _ _ G a v0 E0) as (? & ? & _); congruence|].
      2: { do 3 (split; [done|]). split; [constructor|]. split; [|by left]. intros y wy Hy Hyx. rewrite Ot; [done|congruence|done]. }
      eapply grew_trans; [exact Ws|exact G|].
      assert (K : forall y wy, views s !! y = None -> views s1 !! y = Some wy -> y = a).
      { intros y wy H1 H2. destruct (decide (y = a)); [done|]. destruct (decide (y = x)) as [->|]; [congruence|]. rewrite Ot in H2 by done. congruence. }
      constructor; [done| |done| | |].
      + destruct (hasc Reference (c_behs ca)); [destruct Hr as (_ & _ & _ & _ & _ & ->)|destruct Hr as (_ & _ & _ & ->)]; lia.
      + intros y wy Hy. destruct (decide (y = x)) as [->|Hyx].
        * rewrite Hx in Hy. injection Hy as <-. eexists. split; [exact Se|]. split; [done|]. intros Hc. by destruct Hc.
        * exists wy. rewrite Ot; [done|congruence|done].
      + intros y wy u0 Hn0 Hy Hu0. pose proof (K _ _ Hn0 Hy) as ->. rewrite Na in Hy. injection Hy as <-. simpl in Hu0.
        destruct (hasc Reference (c_behs ca)); [destruct Hr as (_ & _ & -> & _ & _ & ->)|destruct Hr as (_ & -> & _)]; [injection Hu0 as <-; lia|done].
      + intros y z ? ? u0 H1 H2 H3 H4 _ _. by rewrite (K _ _ H1 H3), (K _ _ H2 H4).
    - destruct (attrs_found s x (vw_ns (dset attrs_key (VNode a) (w_ns w)) w) (VNode a) Ws Hx Hwa) as (s1 & E1 & Q1 & W1); [simpl; by rewrite dget_dset_eq|].
      exists a, s1, wa. split; [done|]. split; [|split; [apply Q1|]].
      { eapply grew_trans; [exact Ws|exact G|]. apply grew_step; [done|apply Q1|apply Q1| | | |].
        + intros y wy Hy _. rewrite (e_views _ _ Q1). eauto.
        + intros y ->. eauto.
        + intros y _. by rewrite (e_views _ _ Q1).
        + intros y. destruct (decide (y = x)); auto. }
      rewrite (e_views _ _ Q1). do 7 (split; [done|]). split; [|split; [by intros|right; eexists; split; [exact Hx|]; simpl; by rewrite dget_dset_eq]].
      eapply keep_entries; [apply Q1| |exact Ke]. intros h y wy [[H1 H2] H3] Hy. rewrite (e_views _ _ Q1). split; [done|]. split; [|done]. split; [done|].
      rewrite <- H2. rewrite !ob_parent. unfold fld. by rewrite (e_views _ _ Q1).
  Qed.
  Lemma decode_attr f t s x w ca pre e : wf t -> (0 < next_uuid t)%N -> views t !! x = Some w -> with_attrs (c_behs (w_cls w)) = true -> dget attrs_key (w_ns w) = None ->
    classes t !! c_attrs_factory (w_cls w) = Some ca -> new_class (c_behs ca) = true -> (NodeChildValidate ∈ c_behs ca -> c_allow ca = true) ->
    decodes others e -> storable (classes t) (importable ev t) e -> (exists n, shape_key e = KStr n) -> ~ to_spaces ca (shape_key e) ->
    (is_leaf e = false -> Adopt ∈ c_behs ca /\ Reference ∉ c_behs ca) -> height e <= f -> shape_key e ∉ map shape_key pre -> attrs_state t s x w ca pre ->
    exists s', (let! v := decode f ev None (json_tree false true e) in let! a := attrs_of x in
                match a with VNode a => setitem a (KStr (attr_name e)) v | _ => raise TypeError end) s = (Ret tt, s') /\ attrs_state t s' x w ca (pre ++ [pruned e]).
  Proof.
    intros W Hu Hw Hwa Hd Hca Hnew Hval Hde Hst [n Hn] Hsp Hnode Hf Hfr S. pose proof S as [G _]. pose proof (gw_wf _ _ _ G) as Ws.
    assert (exists v s0, decode f ev None (json_tree false true e) s = (Ret v, s0) /\ grew (fun _ => False) s s0 /\
      ((not_a_node v /\ e = Leaf (KStr n) v) \/
       (is_leaf e = false /\ exists c, v = VNode c /\ views s !! c = None /\ tree_in (made s s0) s0 None c (pruned e)))) as (v & s0 & E & G0 & Hv).
    { destruct (is_leaf e) eqn:Hl.
      - destruct e as [|k v]; [done|]. simpl in Hn. subst k. inversion Hst as [? ? Hp|]; subst. exists v, s. split; [|split; [by apply grew_refl|]].
        + apply decode_plain; [by rewrite (imp_grew _ _ _ _ G)|]. simpl in Hf. lia.
        + left. split; [by eapply plain_not_node|done].
      - destruct (Hde f s None Hf Ws) as (c & s0 & E & Fr & G0 & T & _); try done.
        + pose proof (gw_next _ _ _ G). lia.
        + by rewrite (imp_grew _ _ _ _ G), (gw_classes _ _ _ G).
        + exists (VNode c), s0. split; [done|]. split; [eapply grew_weaken; [|exact G0]; done|]. right. split; [done|]. eauto. }
    rewrite (bind_Ret _ _ _ _ _ E).
    assert (attr_name e = n) as -> by (unfold attr_name; by rewrite Hn).
    pose proof (attrs_state_grew _ _ _ _ _ _ _ Ws S G0) as S0. pose proof (gw_wf _ _ _ G0) as W0.
    destruct (attrs_ready t s0 x w ca pre W Hu Hw Hwa Hd Hca Hnew S0) as (a & s1 & wa & E1 & G1 & C1 & W1 & Fr & Hx1 & Ha1 & Kc & Kp & Ka & Ke & Ky & Kn).
    rewrite (bind_Ret _ _ _ _ _ E1).
    assert (Hax : a <> x) by congruence.
    assert (Hkey : KStr n ∉ dkeys (w_ent wa)). { unfold dkeys. rewrite (entries_keys _ _ _ _ _ Ke). by rewrite <- Hn. }
    assert (Hka : ~ to_spaces (w_cls wa) (KStr n)) by (by rewrite Kc, <- Hn).
    assert (Hta : tree_class (c_behs (w_cls wa)) = true) by (rewrite Kc; by apply new_tree).
    destruct Hv as [[Hv ->]|(Hl & c & -> & Hcs & T)].
    - destruct (store_value s1 a (KStr n) v wa W1 Ha1) as (s2 & E2 & W2 & U2 & C2 & V2 & O2); [done|done|done|done|eauto|by rewrite Kc, Ka|].
      exists s2. split; [done|].
      assert (A2 : grew (fun y => y = x \/ y = a) s1 s2).
      { eapply (grew_weaken (fun y => y = a)); [simpl; auto|]. apply grew_step; [done..| | | |].
        - intros y wy Hy ->. rewrite Ha1 in Hy. injection Hy as <-. eexists. split; [exact V2|done].
        - intros y ->. eauto.
        - done.
        - intros y. destruct (decide (y = a)); auto. }
      split.
      + assert (A1 : grew (fun y => y = x \/ y = a) t s1) by (eapply grew_weaken; [|exact G1]; simpl; auto).
        eapply grew_weaken; [|eapply grew_trans; [exact W1|exact A1|exact A2]]. simpl. intros y [? ?] [->| ->]; congruence.
      + right. eexists a, _. split; [done|]. split; [rewrite O2 by congruence; exact Hx1|]. split; [exact V2|]. simpl. do 3 (split; [done|]).
        rewrite dset_absent by done. apply Forall2_app; [|by repeat constructor].
        eapply keep_entries; [exact C2| |exact Ke]. intros h y wy [[H1 H2] H3] Hy. rewrite (O2 y H3). split; [done|]. split; [|done]. split; [done|].
        rewrite <- H2. rewrite !ob_parent. unfold fld. by rewrite (O2 y H3).
    - destruct (Hnode Hl) as [Had Hrf].
      assert (exists wc0, views s0 !! c = Some wc0 /\ w_name wc0 = KStr n /\ w_parent wc0 = None /\ tree_class (c_behs (w_cls wc0)) = true) as (wc & Hc0 & Nc & Pc & Tc).
      { destruct e as [cn nm attrs kids|]; [|done]. cbn [pruned] in T. inversion T as [h0 x0 cls n0 at0 k0 [_ Hp] Hcl Hcc Hnm]; subst.
        inversion Hst as [|cls' ? ? ? Hcs' Hnew']; subst.
        destruct (class_view _ _ _ Hcl) as (wc & Hwc & Ec). exists wc. split; [done|]. rewrite (view_name _ _ _ Hwc) in Hnm. rewrite (view_parent _ _ _ Hwc) in Hp.
        simpl in Hn. split; [congruence|]. split; [done|]. rewrite Ec. apply new_tree.
        assert (cls' = cls) as <-; [|done]. rewrite (gw_classes _ _ _ G0), (gw_classes _ _ _ G) in Hcc. congruence. }
      assert (Hcx : c <> x). { intros ->. destruct (gw_old _ _ _ G x w Hw) as (? & ? & _). congruence. }
      assert (Hyx : forall y wy, ~ exists_node s y -> views s0 !! y = Some wy -> y <> x /\ y <> a).
      { intros y wy Hy Hwy. split.
        - intros ->. apply Hy, views_live. destruct (gw_old _ _ _ G x w Hw) as (? & ? & _). eauto.
        - intros ->. destruct Kn as [?|(wx & Hwx & Hdx)]; [congruence|]. destruct S as [_ [[-> Hx]|(a0 & wa0 & _ & Hx & Ha0 & _)]].
          + destruct (gw_old _ _ _ G0 x w Hx) as (w' & Hw' & _ & E'). rewrite E' in Hw' by (by intros []). rewrite Hwx in Hw'. injection Hw' as ->. congruence.
          + destruct (gw_old _ _ _ G0 x _ Hx) as (w' & Hw' & _ & E'). rewrite E' in Hw' by (by intros []). rewrite Hwx in Hw'. injection Hw' as ->. simpl in Hdx. rewrite dget_dset_eq in Hdx.
            injection Hdx as ->. apply Hy, views_live. eauto. }
      assert (Hcn : ~ exists_node s c). { intros [? ?]%views_live. congruence. }
      destruct (Hyx c wc Hcn Hc0) as [_ Hca0].
      pose proof (Ky c wc Hc0 Hcx) as Hc1.
      destruct (store_node s1 a (KStr n) c wa wc W1 Ha1) as (s2 & i & E2 & W2 & U2 & C2 & V2 & X2 & _ & O2); [done|done|done| |done|by rewrite Kc|done|done|eauto| |].
      { rewrite Kc. done. }
      { rewrite Kc. done. }
      exists s2. split; [done|].
      assert (Hts : forall y, exists_node t y -> exists_node s y).
      { intros y [v Hv]%views_live. apply views_live. destruct (gw_old _ _ _ G y v Hv) as (? & ? & _). eauto. }
      assert (A2 : grew (fun y => y = x \/ (y = a \/ y = c)) s1 s2).
      { eapply (grew_weaken (fun y => y = a \/ y = c)); [simpl; tauto|]. apply grew_step; [done..| | | |].
        - intros y wy Hy [->| ->]; [rewrite Ha1 in Hy|rewrite Hc1 in Hy]; injection Hy as <-; eexists; (split; [eassumption|done]).
        - intros y [->| ->]; eauto.
        - intros y Hy. apply O2; tauto.
        - intros y. destruct (decide (y = a)); [tauto|]. destruct (decide (y = c)); tauto. }
      assert (Htc : views t !! c = None). { destruct (views t !! c) eqn:E'; [|done]. destruct Hcn. apply Hts, views_live. eauto. }
      split.
      + assert (A1 : grew (fun y => y = x \/ (y = a \/ y = c)) t s1) by (eapply grew_weaken; [|exact G1]; simpl; auto).
        eapply grew_weaken; [|eapply grew_trans; [exact W1|exact A1|exact A2]]. simpl. intros y [? ?] [->|[->| ->]]; congruence.
      + right. eexists a, _. split; [done|]. split; [rewrite O2 by congruence; exact Hx1|]. split; [exact V2|]. simpl. do 3 (split; [done|]).
        rewrite dset_absent by done.
        assert (V12 : forall h y wy, made t s1 (Some h) y -> y <> a -> views s1 !! y = Some wy -> views s2 !! y = Some wy /\ made t s2 (Some h) y /\ y <> a).
        { intros h y wy [H1 H2] H3 Hy. assert (y <> c). { intros ->. rewrite (view_parent _ _ _ Hc1) in H2. congruence. }
          assert (Hy2 : views s2 !! y = Some wy) by (by rewrite O2).
          split; [done|]. split; [|done]. split; [done|]. rewrite <- H2. by rewrite (view_parent _ _ _ Hy2), (view_parent _ _ _ Hy). }
        apply Forall2_app.
        * eapply keep_entries; [exact C2| |exact Ke]. intros h y wy [H1 H2] Hy. by apply (V12 h y wy).
        * constructor; [|constructor]. rewrite <- Hn.
          assert (K : tree_in (fun h y => made t s2 h y /\ y <> a) s2 (Some a) c (pruned e)).
          { eapply (tree_move (made s s0) (fun h y => made t s2 h y /\ y <> a) s0 s2) with (w := wc); [by rewrite C2, C1| |exact T|done|exact X2| |done|by rewrite Nc|done|done].
            - intros h y wy [H1 H2] Hy. destruct (Hyx y wy H1 Hy) as [K1 K2]. pose proof (Ky y wy Hy K1) as Hy1.
              apply (V12 h y wy); [|done|done]. split; [intros ?; by apply H1, Hts|]. by rewrite (view_parent _ _ _ Hy1), <- (view_parent _ _ _ Hy).
            - split; [|done]. split; [intros ?; by apply Hcn, Hts|]. by rewrite (view_parent _ _ _ X2). }
          destruct e as [cn nm attrs kids|]; [|done]. constructor. exact K.
  Qed.
  Lemma decode_attrs f t x w ca al : wf t -> (0 < next_uuid t)%N -> views t !! x = Some w -> with_attrs (c_behs (w_cls w)) = true -> dget attrs_key (w_ns w) = None ->
    classes t !! c_attrs_factory (w_cls w) = Some ca -> new_class (c_behs ca) = true -> (NodeChildValidate ∈ c_behs ca -> c_allow ca = true) ->
    forall pre s, Forall (decodes others) al -> Forall (storable (classes t) (importable ev t)) al ->
    Forall (fun e => (exists n, shape_key e = KStr n) /\ ~ to_spaces ca (shape_key e) /\ (is_leaf e = false -> Adopt ∈ c_behs ca /\ Reference ∉ c_behs ca)) al ->
    Forall (fun e => height e <= f) al -> NoDup (map shape_key (pre ++ al)) -> attrs_state t s x w ca pre ->
    exists s', iterM (fun kc : string * json => let! v := decode f ev None (snd kc) in let! a := attrs_of x in
                match a with VNode a => setitem a (KStr (fst kc)) v | _ => raise TypeError end) (map (fun e => (attr_name e, json_tree false true e)) al) s = (Ret tt, s') /\
      attrs_state t s' x w ca (pre ++ map pruned al).
  Proof.
    intros W Hu Hw Hwa Hd Hca Hnew Hval. induction al as [|e al IH]; intros pre s Hde Hst Hal Hh Hnd S.
    - exists s. by rewrite app_nil_r.
    - apply Forall_cons in Hde as [D1 Hde]. apply Forall_cons in Hst as [S1' Hst]. apply Forall_cons in Hal as [(Hn & Hsp & Hnode) Hal]. apply Forall_cons in Hh as [Hv Hh].
      assert (Hfr : shape_key e ∉ map shape_key pre). { rewrite map_app in Hnd. apply NoDup_app in Hnd as (_ & H2 & _). intros Hin. apply (H2 _ Hin). by left. }
      destruct (decode_attr f t s x w ca pre e) as (s1 & E1 & S1); try done.
      cbn [map iterM fst snd]. rewrite (bind_Ret _ _ _ _ _ E1). destruct (IH (pre ++ [pruned e]) s1) as (s2 & E2 & S2); try done.
      + rewrite !map_app in *. simpl in *. rewrite pruned_key, <- app_assoc. done.
      + exists s2. split; [done|]. rewrite <- app_assoc in S2. done.
  Qed.
End decode.

(** * Trees *)
Definition node_data (cn : string) (n : key) (attrs : option (list shape)) (kids : list shape) : list (string * json) :=
  [("class", JStr cn); ("name", json_name n)] ++
  match kids with [] => [] | _ => [("children", JList (map (json_tree false true) kids))] end ++
  match attrs with None => [] | Some al => [("attrs", JObj (map (fun e => (attr_name e, json_tree false true e)) al))] end.
Lemma json_tree_data cn n attrs kids : json_tree false true (Shape cn n attrs kids) = JObj [("__node__", JObj (node_data cn n attrs kids))].
Proof. reflexivity. Qed.
Lemma data_class cn n attrs kids : member "class" (node_data cn n attrs kids) = Some (JStr cn).
Proof. reflexivity. Qed.
Lemma data_name cn n attrs kids : member "name" (node_data cn n attrs kids) = Some (json_name n).
Proof. reflexivity. Qed.
Lemma data_kw cn n attrs kids : member "kw" (node_data cn n attrs kids) = None.
Proof. by destruct kids, attrs. Qed.
Lemma data_children cn n attrs kids : member "children" (node_data cn n attrs kids) =
  match kids with [] => None | _ => Some (JList (map (json_tree false true) kids)) end.
Proof. by destruct kids, attrs. Qed.
Lemma data_attrs cn n attrs kids : member "attrs" (node_data cn n attrs kids) =
  match attrs with None => None | Some al => Some (JObj (map (fun e => (attr_name e, json_tree false true e)) al)) end.
Proof. by destruct kids, attrs. Qed.
Lemma name_key_json k : hashable k = true -> name_key (json_name k) = Some k.
Proof. by destruct k. Qed.

Lemma ns_default_attrs x : dget attrs_key (ns_default x) = None.
Proof. done. Qed.
Lemma decode_factory others cls n attrs kids t parent : wf t -> (0 < next_uuid t)%N -> classes t !! c_name cls = Some cls -> new_class (c_behs cls) = true ->
  hashable n = true -> (forall q, parent = Some q -> exists w, views t !! q = Some w /\ takes_view (classes t) w (Shape (c_name cls) n attrs kids)) ->
  exists x t' i u, node_factory (std_env others) (JObj (node_data (c_name cls) n attrs kids)) parent t = (Ret x, t') /\ views t !! x = None /\
    grew (fun y => parent = Some y) t t' /\ views t' !! x = Some (fresh_view cls n parent i u x) /\ (Reference ∈ c_behs cls -> is_Some i) /\
    (forall q w, parent = Some q -> views t !! q = Some w -> views t' !! q = Some (vw_ent (dset n (VNode x) (w_ent w)) w)).
Proof.
  intros W Hu Hc Hnew Hn Hp. unfold node_factory. rewrite data_class.
  assert (E0 : resolve (std_env others) (JStr (c_name cls)) t = (Ret (c_name cls), t)).
  { unfold resolve. rewrite bool_decide_eq_true_2 by (rewrite Hc; eauto). done. }
  rewrite (bind_Ret _ _ _ _ _ E0), data_kw, data_name, name_key_json by done.
  rewrite (bind_Ret (fun s => (Ret (classes s), s)) _ _ (classes t) t eq_refl), Hc.
  destruct (new_node_eff t (c_name cls) cls KNone None W Hc Hnew) as (x & t1 & E1 & N); [done|done|].
  rewrite (bind_Ret _ _ _ _ _ E1). pose proof (grew_new (fun y => parent = Some y) _ _ _ _ _ _ W N) as G1.
  destruct N as [Hid Wf Fr Ot (i & u & Se & Hr) _ _ Cl].
  assert (Hi : Reference ∈ c_behs cls -> is_Some i). { intros H%hasc_in. rewrite H in Hr. destruct Hr as (j & -> & _). eauto. }
  destruct parent as [q|].
  - destruct (Hp q eq_refl) as (w & Hw & Ht & (Had & Hstr & Href) & Hns & Hk & Hix).
    assert (Hqx : x <> q) by congruence. assert (Hw1 : views t1 !! q = Some w) by (rewrite Ot; congruence).
    destruct (store_node t1 q n x w (fresh_view cls KNone None i u x) Wf Hw1 Ht Se Hqx) as (t2 & i2 & E2 & W2 & U2 & C2 & V2 & X2 & I2 & O2); try done.
    { by apply new_tree. }
    { intros H. split; [by apply Hix|]. simpl. apply Hi. destruct (Href H) as (c & Hc' & Hr'). rewrite Hc in Hc'. injection Hc' as <-. done. }
    rewrite (bind_Ret _ _ _ _ _ E2). exists x, t2, i2, u. split; [done|]. split; [done|]. split; [|split; [exact X2|split; [intros H; by apply I2, Hi|]]].
    + assert (A1 : grew (fun y => Some q = Some y \/ y = x) t t1) by (eapply grew_weaken; [|exact G1]; simpl; auto).
      assert (A2 : grew (fun y => Some q = Some y \/ y = x) t1 t2).
      { apply grew_step; [done..| | | |].
        - intros y wy Hy [[= <-]| ->]; [rewrite Hw1 in Hy|rewrite Se in Hy]; injection Hy as <-; eexists; (split; [eassumption|done]).
        - intros y [[= <-]| ->]; eauto.
        - intros y Hy. apply O2; intros ->; apply Hy; auto.
        - intros y. destruct (decide (y = q)) as [->|]; [auto|]. destruct (decide (y = x)); [auto|]. right. intros [[= ?]|?]; congruence. }
      eapply grew_weaken; [|eapply grew_trans; [exact Wf|exact A1|exact A2]]. simpl. intros y [? ?] [?| ->]; [done|congruence].
    + intros q0 w0 [= <-] Hw0. rewrite Hw in Hw0. injection Hw0 as <-. done.
  - destruct (modify_name_eff t1 x n) as (t2 & E2 & W2 & [(w0 & Hw0 & V2) _ U2 _ _ C2]); [apply views_live; eauto|done|].
    rewrite Se in Hw0. injection Hw0 as <-.
    rewrite (bind_Ret _ _ _ _ _ E2). exists x, t2, i, u. split; [done|]. split; [done|]. split; [|split; [by rewrite V2, lookup_insert|split; [done|done]]].
    assert (A1 : grew (fun y => y = x) t t1) by (eapply grew_weaken; [|exact G1]; done).
    assert (A2 : grew (fun y => y = x) t1 t2).
    { apply grew_step; [done..| | | |].
      - intros y wy Hy ->. rewrite Se in Hy. injection Hy as <-. eexists. rewrite V2, lookup_insert. done.
      - intros y ->. eauto.
      - intros y Hy. by rewrite V2, lookup_insert_ne.
      - intros y. destruct (decide (y = x)); auto. }
    eapply grew_weaken; [|eapply grew_trans; [exact Wf|exact A1|exact A2]]. simpl. intros y [? ?] ->. congruence.
Qed.
Lemma made_later Q t t1 t2 h y : grew Q t t1 -> made t1 t2 h y -> made t t2 h y.
Proof.
  intros G [H1 H2]. split; [|done]. intros [v Hv]%views_live. apply H1, views_live. destruct (gw_old _ _ _ G y v Hv) as (v' & ? & _). eauto.
Qed.
Lemma decode_tree others sh : decodes others sh.
Proof.
  induction sh as [k v|cn n attrs kids IH IHa] using shape_nested; intros f t parent Hf W Hu Hst Hl Hp; [done|].
  assert (Hkids : forall kid, kid ∈ kids -> 8 + height kid <= f).
  { intros kid Hin. etrans; [by apply (height_kids cn n attrs)|done]. }
  assert (Hattrs : forall al e, attrs = Some al -> e ∈ al -> 8 + height e <= f).
  { intros al e -> Hin. etrans; [by apply (height_attrs cn n al kids)|done]. }
  assert (8 <= f) by (cbn [height] in Hf; lia). clear Hf.
  destruct f as [|f]; [lia|]. inversion Hst as [|cls ? ? ? Hcs Hnew Hnod Hhash Hats Hast Hkd Hnd Hks]; subst.
  destruct (decode_factory others cls n attrs kids t parent) as (x & t1 & i & u & E1 & Fr & G1 & X1 & I1 & Q1); try done.
  rewrite json_tree_data. cbn [decode].
  change (member "__ob__" [("__node__", JObj (node_data (c_name cls) n attrs kids))]) with (@None json).
  change (member "__node__" [("__node__", JObj (node_data (c_name cls) n attrs kids))]) with (Some (JObj (node_data (c_name cls) n attrs kids))).
  cbv beta iota. rewrite (bind_Ret _ _ _ _ _ E1). destruct (view_obj _ _ _ X1) as (o & Ho & Ew). rewrite (bind_load _ _ _ _ Ho).
  assert (o_cls o = cls) as -> by (change (o_cls o) with (w_cls (view_of t1 x o)); by rewrite <- Ew).
  change (v_deser (std_env others)) with (registered [(INode, deserialize_node); (IAttributes, deserialize_node_attributes)]). rewrite std_matching by done.
  cbn [iterM]. pose proof (gw_wf _ _ _ G1) as W1.
  (* children *)
  assert (exists t2 es, deserialize_node (decode f (std_env others)) x (node_data (c_name cls) n attrs kids) t1 = (Ret tt, t2) /\
      grew (fun y => y = x) t1 t2 /\ views t2 !! x = Some (vw_ent es (fresh_view cls n parent i u x)) /\
      Forall2 (entry_in (made t1 t2) t2 x) es (flat_map (fun k => if is_leaf k then [] else [pruned k]) kids)) as (t2 & es & E2 & G2 & X2 & F2).
  { unfold deserialize_node. rewrite data_children.
    destruct (decode_kids others f x kids IH) with (t := t1) (w := fresh_view cls n parent i u x) as (t2 & es & E2 & G2 & X2 & F2); try done.
    - apply Forall_forall. intros kid Hin. specialize (Hkids kid Hin). lia.
    - pose proof (gw_next _ _ _ G1). lia.
    - by rewrite (imp_grew _ _ _ _ G1), (gw_classes _ _ _ G1).
    - rewrite (gw_classes _ _ _ G1). rewrite Forall_forall in *. intros kid Hin _. destruct (Hkd kid Hin) as (K1 & K2 & K3). split; [by apply new_tree|]. done.
    - exists t2, es. split; [|done]. destruct kids as [|kid0 kids0]; [done|]. exact E2. }
  rewrite !bind_assoc, (bind_Ret _ _ _ _ _ E2).
  pose proof (gw_wf _ _ _ G2) as W2.
  assert (Hu2 : (0 < next_uuid t2)%N) by (pose proof (gw_next _ _ _ G1); pose proof (gw_next _ _ _ G2); lia).
  assert (Hc2 : classes t2 = classes t) by (by rewrite (gw_classes _ _ _ G2), (gw_classes _ _ _ G1)).
  assert (Hx1 : exists_node t1 x) by (apply views_live; eauto).
  (* attributes *)
  assert (exists t3 w3, iterM (fun cb : desercb => cb (decode f (std_env others)) x (node_data (c_name cls) n attrs kids))
      (if bool_decide (Attributes ∈ c_behs cls) then [deserialize_node_attributes] else []) t2 = (Ret tt, t3) /\ grew (fun y => y = x) t2 t3 /\
      views t3 !! x = Some w3 /\ w_cls w3 = cls /\ w_name w3 = n /\ w_parent w3 = parent /\ w_ent w3 = es /\ attrs_in (made t2 t3) t3 x cls (match attrs with Some al => Some (map pruned al) | None => None end)) as (t3 & w3 & E3 & G3 & X3 & K1 & K2 & K3 & K4 & K5).
  { destruct attrs as [al|].
    - destruct Hats as (Ha & Hsp & ca & Hca & Hcan & Hcv & Hnda & Hal). rewrite bool_decide_eq_true_2 by done. cbn [iterM].
      unfold deserialize_node_attributes. rewrite data_attrs.
      destruct al as [|e al].
      + exists t2. eexists. split; [done|]. split; [by apply grew_refl|]. split; [exact X2|]. do 4 (split; [done|]). apply attrs_unasked; [done|].
        rewrite value_at_spec, (view_spaces _ _ _ X2). done.
      + destruct (decode_attrs others f t2 x (vw_ent es (fresh_view cls n parent i u x)) ca (e :: al)) with (pre := @nil shape) (s := t2) as (t3 & E3 & G3 & S3); try done.
        { by apply with_attrs_spec. }
        * by rewrite Hc2.
        * by rewrite (imp_grew _ _ _ _ G2), (imp_grew _ _ _ _ G1), Hc2.
        * apply Forall_forall. intros e' Hin. specialize (Hattrs _ e' eq_refl Hin). lia.
        * split; [by apply grew_refl|by left].
        * destruct S3 as [[? _]|(a & wa & Fa & Xa & Va & A1 & A2 & A3 & A4)]; [done|].
          exists t3. eexists. split; [|split; [done|split; [exact Xa|]]].
          { cbn [truthy map]. cbn [map] in E3. rewrite (bind_Ret _ _ _ _ _ E3). done. }
          do 4 (split; [done|]). apply (attrs_there _ _ x cls a ca); [done| | | | |].
          -- rewrite value_at_spec, (view_spaces _ _ _ Xa). apply dget_dset_eq.
          -- split; [intros [? ?]%views_live; congruence|by rewrite (view_parent _ _ _ Va)].
          -- by rewrite (view_class _ _ _ Va), A1.
          -- by rewrite (gw_classes _ _ _ G3), Hc2.
          -- rewrite (view_entries _ _ _ Va). eapply keep_entries; [reflexivity| |exact A4]. intros h y wy [Hm _] Hy. done.
    - rewrite bool_decide_eq_false_2 by done. exists t2. eexists. split; [done|]. split; [by apply grew_refl|]. split; [exact X2|]. do 4 (split; [done|]). by constructor. }
  rewrite (bind_Ret _ _ _ _ _ E3). exists x, t3. split; [done|]. split; [done|].
  assert (G23 : grew (fun y => y = x) t1 t3) by (eapply grew_trans; [exact W2|done..]).
  assert (G13 : grew (fun y => parent = Some y) t t3).
  { eapply (grew_weaken (fun y => parent = Some y \/ y = x)); [simpl; intros y [? ?] [?| ->]; congruence|].
    eapply grew_trans; [exact W1|eapply grew_weaken; [|exact G1]; simpl; auto|eapply grew_weaken; [|exact G23]; simpl; auto]. }
  split; [done|]. split.
  - cbn [pruned]. constructor.
    + split; [intros [? ?]%views_live; congruence|]. by rewrite (view_parent _ _ _ X3).
    + by rewrite (view_class _ _ _ X3), K1.
    + by rewrite (gw_classes _ _ _ G13).
    + by rewrite (view_name _ _ _ X3), K2.
    + assert (Hm : forall h y, made t2 t3 h y -> made t t3 h y). { intros h y Hm. eapply made_later; [exact G1|]. eapply made_later; [exact G2|]. done. }
      destruct K5 as [| |x0 cls0 a ca al0 B1 B2 B3 B4 B5 B6]; [by constructor|by constructor|]. eapply attrs_there; [done|exact B2|by apply Hm|exact B4|done|].
      eapply keep_entries; [reflexivity| |exact B6]. intros h y wy Hy Hwy. split; [done|by apply Hm].
    + rewrite (view_entries _ _ _ X3), K4. eapply keep_entries; [..|exact F2]; [apply G3|]. intros h.
      eapply (made_keep (fun y => parent = Some y) t t1 t2 t3); [exact G1| |exact G3|]; [|by intros y ->].
      intros q ->. destruct (Hp q eq_refl) as (w & Hw & _). apply views_live. rewrite (Q1 q w eq_refl Hw). eauto.
  - intros q w -> Hw. pose proof (Q1 q w eq_refl Hw) as K. destruct (gw_old _ _ _ G23 q _ K) as (w' & Hw' & _ & Eq). rewrite Hw', Eq; [done|]. congruence.
Qed.

(** * Reading the text *)
Lemma loads_tree simple incl cs imp sh : storable cs imp sh -> loads (json_tree simple incl sh) = json_tree simple incl sh.
Proof.
  induction sh as [k v|cn n attrs kids IH IHa] using shape_nested; intros Hst.
  - inversion Hst; subst. by eapply loads_plain.
  - inversion Hst as [|cls ? ? ? Hcs Hnew Hnod Hhash Hats Hast Hkd Hnd Hks]; subst.
    set (d := (if negb simple || incl then [("class", JStr (c_name cls))] else []) ++ [("name", json_name n)] ++
                        match kids with [] => [] | _ => [("children", JList (map (json_tree simple incl) kids))] end ++
                        match attrs with None => [] | Some al => [("attrs", JObj (map (fun e => (attr_name e, json_tree simple incl e)) al))] end).
    assert (K : loads (JObj d) = JObj d).
    { rewrite loads_obj.
      - f_equal. unfold d. rewrite !map_app. f_equal; [by destruct (negb simple || incl)|]. f_equal; [by destruct n|]. f_equal.
        + assert (K : map loads (map (json_tree simple incl) kids) = map (json_tree simple incl) kids).
          { rewrite map_map. apply map_ext_in. intros kid Hin%elem_of_list_In. rewrite Forall_forall in *. auto. }
          destruct kids; [done|]. cbn [map fst snd loads]. cbn [map] in K. by rewrite K.
        + destruct attrs as [al|]; [|done]. cbn [map fst snd]. do 2 f_equal. destruct Hats as (_ & _ & ca & _ & _ & _ & Hna & Hal). simpl in IHa, Hast. rewrite loads_obj.
          * rewrite map_map. f_equal. apply map_ext_in. intros e Hin%elem_of_list_In. cbn [fst snd]. rewrite Forall_forall in *. rewrite IHa; auto.
          * rewrite map_map. cbn [fst snd]. clear - Hna Hal. induction al as [|e al IH]; simpl; [constructor|]. apply Forall_cons in Hal as [[[m Hm] _] Hal]. apply NoDup_cons in Hna as [H1 H2].
            constructor; [|by apply IH]. intros (e' & He & Hin)%elem_of_list_fmap. apply H1, elem_of_list_fmap. exists e'. split; [|done].
            rewrite Forall_forall in Hal. destruct (Hal e' Hin) as [[m' Hm'] _]. unfold attr_name in He. rewrite Hm, Hm' in *. by subst.
      - unfold d. destruct (negb simple || incl), kids, attrs; cbn; apply (bool_decide_unpack _); by vm_compute. }
    change (json_tree simple incl (Shape (c_name cls) n attrs kids)) with (if simple then JObj d else JObj [("__node__", JObj d)]). destruct simple; [done|].
    rewrite loads_obj by (apply NoDup_singleton). cbn [map fst snd]. by rewrite K.
Qed.
Lemma deserialize_tree others sh t root : wf t -> (0 < next_uuid t)%N -> storable (classes t) (importable (std_env others) t) sh -> is_leaf sh = false ->
  (forall q, root = Some q -> takes t q sh) -> forall f, height sh <= f ->
  exists x t', deserialize f (std_env others) (json_tree false true sh) root t = (Ret (VNode x), t') /\ rebuilt t t' root x (pruned sh).
Proof.
  intros W Hu Hst Hl Hr f Hf. unfold deserialize. rewrite (loads_tree _ _ _ _ _ Hst).
  destruct (decode_tree others sh f t root) as (x & t' & E & Fr & G & T & Q); try done.
  { intros q ->. destruct (Hr q eq_refl) as (cls & Hc & H1 & H2 & H3 & H4 & H5). destruct (class_view _ _ _ Hc) as (w & Hw & <-). exists w. split; [done|].
    split; [done|]. split; [done|]. split; [done|]. split; [done|]. intros H. destruct (H5 H) as [j Hj]. rewrite (view_index _ _ _ Hw) in Hj. eauto. }
  exists x, t'. split; [done|]. constructor.
  - exact T.
  - intros y [w Hw]%views_live Hy. apply same_node_views. destruct (gw_old _ _ _ G y w Hw) as (w' & Hw' & _ & Eq). rewrite Hw', Eq; done.
  - intros q ->. destruct (Hr q eq_refl) as (cls & Hc & _). destruct (class_view _ _ _ Hc) as (w & Hw & _). pose proof (Q q w eq_refl Hw) as K.
    rewrite (view_entries _ _ _ K). simpl. rewrite pruned_key, <- (view_entries _ _ _ Hw). by apply wf_dset_put.
  - intros q ->. destruct (Hr q eq_refl) as (cls & Hc & _). destruct (class_view _ _ _ Hc) as (w & Hw & _). pose proof (Q q w eq_refl Hw) as K.
    rewrite (view_class _ _ _ Hw), (view_class _ _ _ K), (view_name _ _ _ Hw), (view_name _ _ _ K), (view_parent _ _ _ Hw), (view_parent _ _ _ K),
      (view_spaces _ _ _ Hw), (view_spaces _ _ _ K), (view_uuid _ _ _ Hw), (view_uuid _ _ _ K), (view_index _ _ _ Hw), (view_index _ _ _ K). done.
  - intros y u Hn Hy z [w Hz]%views_live. destruct (views t' !! y) as [wy|] eqn:Ey.
    + rewrite (view_uuid _ _ _ Ey) in Hy. assert (views t !! y = None) as Hny. { destruct (views t !! y) eqn:E'; [|done]. destruct Hn. apply views_live. eauto. }
      pose proof (gw_uuid _ _ _ G y wy u Hny Ey Hy). rewrite (view_uuid _ _ _ Hz). intros Hzu. destruct (view_obj _ _ _ Hz) as (o & Ho & Ew).
      pose proof (ok_uuid _ _ (proj2 (wf_nodes _ W _ _ Ho)) u ltac:(by subst w)). lia.
    + rewrite ob_uuid in Hy. unfold fld in Hy. by rewrite Ey in Hy.
  - intros y z u Hny Hnz Hy Hz.
    assert (K : forall y, ~ exists_node t y -> views t !! y = None). { intros y0 H0. destruct (views t !! y0) eqn:E'; [|done]. destruct H0. apply views_live. eauto. }
    destruct (views t' !! y) as [wy|] eqn:Ey; [|rewrite ob_uuid in Hy; unfold fld in Hy; by rewrite Ey in Hy].
    destruct (views t' !! z) as [wz|] eqn:Ez; [|rewrite ob_uuid in Hz; unfold fld in Hz; by rewrite Ez in Hz].
    rewrite (view_uuid _ _ _ Ey) in Hy. rewrite (view_uuid _ _ _ Ez) in Hz. eapply (gw_uuids _ _ _ G); eauto.
Qed.
