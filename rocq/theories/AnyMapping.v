(** Nodes of any class of the tree behaviors without Reference are ordered mappings. *)
From Verif Require Import Py Odict OdictFacts Aliaser Heap Model Classes MonadFacts WF WFOps Views SpecMapping MappingProofs StorageProofs
  Observe TreeOps SetEff DelEff DetachEff NewEff ObserveFacts SpecTree SpecOrder SpecUtils MappingProps OrderProofs SpecPlace PlaceProofs OpLift Reach
  SpecReference RefTree RefSteps RefHistory SpecAny NodeMapping ValidateProofs.

(** [s0]: where the calls begin *)
Record anyR (x : nat) (cls : classdef) (a : bool) (s0 : st) (l : list (key * val)) (s : st) (d : entries) : Prop := AnyR {
  ar_wf : wf s;
  ar_class : class_of s x = Some cls;
  ar_allow : allows s x = a;
  ar_known : forall v, known s0 v -> known s v;
  ar_todo : Forall (fun kv => usable cls (fst kv) /\ known s0 (snd kv)) l;
  ar_keys : Forall (usable cls) (dkeys d);
  ar_entries : entries_at s x = d
}.
Lemma same_class_node s s' c : class_of s' c = class_of s c -> exists_node s c -> exists_node s' c.
Proof. unfold class_of. intros H [o Ho]. rewrite Ho in H. destruct (nodes s' !! c) eqn:E; [by eexists|done]. Qed.
Lemma nskey_tail b bs k : nskey (b :: bs) k = false -> nskey bs k = false.
Proof.
  unfold nskey. destruct (res_key k); [|by rewrite !andb_false_r]. rewrite !andb_true_r. unfold hasc. rewrite !bool_decide_eq_false. intros H Hi. apply H. by right.
Qed.
Section any.
Context (x : nat) (cls : classdef) (a : bool) (s0 : st).
Hypothesis Ht : tree_class (c_behs cls) = true.
Hypothesis Hr : Reference ∉ c_behs cls.
Let R := anyR x cls a s0.
Let G := usable cls.
Let p := class_policy cls a.

Lemma no_ref : hasc Reference (c_behs cls) = false.
Proof. destruct (hasc Reference (c_behs cls)) eqn:E; [|done]. by apply hasc_in in E. Qed.
Lemma usable_nskey k : usable cls k -> nskey (c_behs cls) k = false.
Proof.
  intros H. unfold nskey. destruct (hasc Nodespaces (c_behs cls)) eqn:E; [|done]. apply hasc_in in E as E'. destruct (H E') as [[t ->] Hd].
  simpl. destruct (reserved t) eqn:Er; [|done]. destruct Hd. apply (nskey_dunder [Nodespaces]). unfold nskey. simpl. by rewrite Er.
Qed.
Lemma ar_view l s d : R l s d -> exists w, views s !! x = Some w /\ w_cls w = cls /\ w_ent w = d /\ w_allow w = a.
Proof.
  intros [W Hc Ha _ _ _ He]. destruct (class_view _ _ _ Hc) as (w & Hw & Hwc). exists w. split; [done|]. split; [done|].
  split; [by rewrite <- (view_entries _ _ _ Hw)|]. rewrite ob_allows in Ha. unfold fld in Ha. by rewrite Hw in Ha.
Qed.
Lemma ar_eqv l s s' d : eqv s s' -> wf s' -> R l s d -> R l s' d.
Proof.
  intros Q W' [W Hc Ha Hk Hl Hd He]. destruct (eqv_obs s s' Q) as (H1 & H2 & H3 & H4 & H5). constructor; try done.
  - by rewrite H1.
  - rewrite <- Ha, !ob_allows. by rewrite (fld_eqv _ _ _ _ Q).
  - intros v Hv. apply Hk in Hv. destruct v as [| | | | | | |c| | | |]; try done. apply (same_class_node s s' c); [by rewrite H1|done].
  - by rewrite H4.
Qed.
Lemma ar_get l s d k : R l s d -> G k -> exists s', getitem x k s = (do_get p k d, s') /\ R l s' d.
Proof.
  intros HR HG. destruct (ar_view _ _ _ HR) as (w & Hw & Hwc & Hwe & _). pose proof (ar_wf _ _ _ _ _ _ _ HR) as W.
  destruct (getitem_eff s x w k W Hw) as (s' & E & Q & W'); [by rewrite Hwc|]. exists s'. split; [|by apply (ar_eqv l s)]. rewrite E. f_equal.
  unfold get_res. rewrite Hwc, (usable_nskey _ HG). unfold look, do_get, p, class_policy. rewrite value_at_spec, Hwe. by case_decide; destruct k.
Qed.
Lemma ar_iter l s d : R l s d -> exists s', Model.iter x s = (Ret (dkeys d), s') /\ R l s' d.
Proof.
  intros HR. destruct (ar_view _ _ _ HR) as (w & Hw & Hwc & Hwe & _). pose proof (ar_wf _ _ _ _ _ _ _ HR) as W.
  destruct (iter_eff s x w W Hw) as (s' & E & Q & W'); [by rewrite Hwc|]. exists s'. split; [|by apply (ar_eqv l s)]. by rewrite E, Hwe.
Qed.
Lemma any_set_res bs k v : nskey bs k = false -> (Nodespaces ∈ bs -> exists t, k = KStr t) ->
  set_res a bs k v = match p_set (if decide (NodeChildValidate ∈ bs) then validating_policy a else plain_policy) k v with None => Ret tt | Some e => Exc e end.
Proof.
  induction bs as [|b bs IH]; intros Hn Hs; [rewrite decide_False by (by intros ?%elem_of_nil); simpl; by destruct k|].
  pose proof (nskey_tail _ _ _ Hn) as Hn'.
  specialize (IH Hn' (fun H => Hs (elem_of_list_further _ _ _ H))).
  assert (Hgen : b <> NodeChildValidate -> set_res a bs k v = match p_set (if decide (NodeChildValidate ∈ b :: bs) then validating_policy a else plain_policy) k v with None => Ret tt | Some e => Exc e end).
  { intros Hb. rewrite IH. destruct (decide (NodeChildValidate ∈ bs)) as [Hi|Hi]; [rewrite decide_True by (by right); done|].
    rewrite decide_False; [done|]. intros [Hq|?]%elem_of_cons; [by destruct Hb|done]. }
  destruct b; cbn [set_res]; try (apply Hgen; done).
  - rewrite decide_True by left. destruct (negb a && is_class v) eqn:E1; [by destruct a, v|]. destruct (negb a && negb (is_node v)) eqn:E2; [by destruct a, v|].
    rewrite IH. destruct (decide (NodeChildValidate ∈ bs)); [reflexivity|]. destruct a, v; first [discriminate|reflexivity].
  - destruct (Hs (elem_of_list_here _ _)) as [t ->]. change (reserved t = false) in Hn. rewrite Hn. by apply Hgen.
Qed.
Lemma any_del_res bs w k : w_cls w = cls -> nskey (c_behs cls) k = false -> nskey bs k = false -> (Nodespaces ∈ bs -> exists t, k = KStr t) ->
  del_res bs w k = match look k (w_ent w) with Ret _ => Ret tt | Exc e => Exc e end.
Proof.
  intros Hw Hc. induction bs as [|b bs IH]; intros Hn Hs; [done|].
  pose proof (nskey_tail _ _ _ Hn) as Hn'.
  specialize (IH Hn' (fun H => Hs (elem_of_list_further _ _ _ H))).
  assert (Hg : get_res w k = look k (w_ent w)). { unfold get_res. by rewrite Hw, Hc. }
  destruct b; cbn [del_res]; try done; try (rewrite Hg; destruct (look k (w_ent w)); done).
  destruct (Hs (elem_of_list_here _ _)) as [t ->]. change (reserved t = false) in Hn. by rewrite Hn.
Qed.
Lemma usable_str k : usable cls k -> Nodespaces ∈ c_behs cls -> exists t, k = KStr t.
Proof. intros H Hi. by destruct (H Hi). Qed.
Lemma usable_apart k : usable cls k -> ~ to_spaces cls k.
Proof. intros H [Hi Hd]. by destruct (H Hi). Qed.
Lemma ar_set l s d k v : R ((k, v) :: l) s d -> exists s', setitem x k v s =
    (match fst (do_set p k v d) with None => Ret tt | Some e => Exc e end, s') /\ R l s' (snd (do_set p k v d)).
Proof.
  intros HR. pose proof HR as [W Hc Ha Hk Hl Hd He]. destruct (ar_view _ _ _ HR) as (w & Hw & Hwc & Hwe & Hwa).
  apply Forall_cons in Hl as [[HG Hv] Hl]. simpl in *. pose proof Hc as Hc'. rewrite ob_class in Hc'. pose proof (Hk v Hv) as Hvk.
  destruct (setitem_eff s x cls k v W Hc' Ht Hvk) as (r & s' & E & F & O). exists s'. rewrite E.
  assert (Hres : r = match p_set p k v with None => Ret tt | Some e => Exc e end).
  { unfold p, class_policy. rewrite <- any_set_res; [|by apply usable_nskey|by apply usable_str].
    apply O; [|unfold fld; by rewrite Hw; simpl; rewrite Hwa]. intros c _ Hrf. by rewrite no_ref in Hrf. }
  assert (Ha' : allows s' x = a).
  { rewrite <- Ha, !ob_allows. f_equal. pose proof (se_core _ _ _ _ _ _ _ _ _ _ F x) as H. unfold fld in *. destruct (views s' !! x), (views s !! x); simpl in *; try done. injection H. congruence. }
  assert (Hcl : forall y, class_of s' y = class_of s y) by (intros y; apply core_obs, F).
  assert (Hk' : forall u, known s0 u -> known s' u).
  { intros u Hu. apply Hk in Hu. destruct u as [| | | | | | |c| | | |]; try done. by apply (same_class_node s s' c (Hcl c)). }
  unfold do_set. destruct (p_set p k v) as [e|]; subst r; simpl; (split; [done|]); constructor; try done.
  - by apply se_wf in F.
  - by rewrite Hcl.
  - by rewrite (proj1 (proj1 (setitem_failed s x cls k v e s' W Hc Ht Hvk E) x)).
  - by apply se_wf in F.
  - by rewrite Hcl.
  - apply Forall_forall. intros k' Hk'2. rewrite Forall_forall in Hd. apply elem_of_dkeys in Hk'2 as [v' Hin].
    rewrite put_spec in Hin by (rewrite <- He; by apply entries_nodup). apply elem_of_dset in Hin as [[= -> _]|[Hin _]]; [done| |rewrite <- He; by apply entries_nodup]. apply Hd. apply elem_of_dkeys. by exists v'.
  - rewrite <- He. by apply (as_entries _ _ _ _ _ _ (setitem_assigned s x cls k v s' W Hc Ht Hvk E)), usable_apart.
Qed.
Lemma ar_del s d k : R [] s d -> G k -> exists s', delitem x k s =
    (match fst (do_del p k d) with None => Ret tt | Some e => Exc e end, s') /\ R [] s' (snd (do_del p k d)).
Proof.
  intros HR HG. pose proof HR as [W Hc Ha Hk Hl Hd He]. destruct (ar_view _ _ _ HR) as (w & Hw & Hwc & Hwe & Hwa).
  assert (Hno : hasc Reference (c_behs (w_cls w)) = true -> False) by (rewrite Hwc, no_ref; done).
  assert (Hno' : Reference ∈ c_behs cls -> all_tree_classes s) by done.
  destruct (delitem_eff s x w k) as (r & s' & E & F & O); try done. { by rewrite Hwc. }
  exists s'. rewrite E. specialize (O (fun H => False_ind _ (Hno H))).
  assert (Hres : r = match fst (do_del p k d) with None => Ret tt | Some e => Exc e end).
  { rewrite O, Hwc, any_del_res; [|done|by apply usable_nskey|by apply usable_nskey|by apply usable_str]. rewrite Hwe.
    unfold do_del, look, p, class_policy. rewrite held_spec.
    assert (Hh : bool_decide (k ∈ dkeys d) = match dget k d with Some _ => true | None => false end).
    { destruct (dget k d) as [v|] eqn:Ed; [apply bool_decide_eq_true_2; apply dget_Some_in in Ed; apply elem_of_dkeys; by exists v|].
      apply bool_decide_eq_false_2. by apply dget_None. }
    rewrite Hh. destruct (decide (NodeChildValidate ∈ c_behs cls)); destruct k as [t| | |]; simpl; try reflexivity.
    all: match goal with |- context [dget ?q ?e] => destruct (dget q e); reflexivity end. }
  assert (Ha' : allows s' x = a).
  { rewrite <- Ha, !ob_allows. f_equal. pose proof (de_core _ _ _ _ _ _ _ _ F x) as H. unfold fld in *. destruct (views s' !! x), (views s !! x); simpl in *; try done. injection H. congruence. }
  assert (Hcl : forall y, class_of s' y = class_of s y) by (intros y; apply core_obs, F).
  assert (Hk' : forall u, known s0 u -> known s' u).
  { intros u Hu. apply Hk in Hu. destruct u as [| | | | | | |c| | | |]; try done. by apply (same_class_node s s' c (Hcl c)). }
  clear O. split; [by rewrite Hres|].
  assert (W' : wf s') by (by apply de_wf in F). unfold do_del in *. destruct (p_del p k) as [e|]; simpl in *; [|destruct (held k d) eqn:Hh; simpl in *]; subst r; constructor; try done; rewrite ?Hcl; try done.
  - by rewrite (proj1 (proj1 (delitem_failed s x cls k e s' W Hc Ht Hno' E) x)).
  - apply Forall_forall. intros k' Hk2. rewrite Forall_forall in Hd. apply Hd. assert (ND : NoDup (dkeys d)) by (rewrite <- He; by apply entries_nodup). rewrite remove_spec in Hk2 by done. by apply elem_of_dkeys_ddel in Hk2 as [? _].
  - rewrite <- He. by apply (rm_entries _ _ _ _ _ (delitem_removed s x cls k s' W Hc Ht Hno' E)), usable_apart.
  - by rewrite (proj1 (proj1 (delitem_failed s x cls k _ s' W Hc Ht Hno' E) x)).
Qed.
Lemma ar_calls l : forall s d, R [] s d -> Forall (fun c => Forall G (call_keys c) /\ Forall (known s0) (call_values c)) l ->
  exists s', run_calls x l s = (fst (calls_spec p l d), s') /\ R [] s' (snd (calls_spec p l d)).
Proof.
  induction l as [|c l IH]; intros s d HR HC; simpl in *; [by exists s|]. apply Forall_cons in HC as [[HC1 HC2] HC].
  destruct (limited_call x p R G) with (s := s) (d := d) (c := c) as (s1 & E1 & HR1); try done.
  - intros l0 s1 d0 [W _ _ _ _ _ <-]. by apply entries_nodup.
  - intros l0 s1 d0 k [_ _ _ _ _ Hk _] Hin. by apply (proj1 (Forall_forall _ _) Hk).
  - intros l0 s1 d0 []. by constructor.
  - intros l0 s1 d0. apply ar_iter.
  - intros l0 s1 d0 k. apply ar_get.
  - intros l0 s1 d0 k v. apply ar_set.
  - intros s1 d0 k. apply ar_del.
  - intros k k'. unfold p, class_policy. by case_decide; destruct k.
  - pose proof HR as [W Hc Ha Hk Hl Hd He]. destruct c; simpl in *; try done; rewrite ?Forall_singleton in HC1; rewrite ?Forall_singleton in HC2; try (split; [done|]); try done.
    + constructor; try done. by apply Forall_singleton.
    + destruct (value_at k d); [done|]. constructor; try done. by apply Forall_singleton.
    + constructor; try done. exact (List.Forall_and (proj1 (List.Forall_map _ _ _) HC1) (proj1 (List.Forall_map _ _ _) HC2)).
  - rewrite E1. destruct (call_spec p c d) as [r1 d1]; simpl in *.
    destruct (IH s1 d1 HR1 HC) as (s2 & E2 & HR2). rewrite E2. destruct (calls_spec p l d1) as [rs d2]; simpl in *. by exists s2.
Qed.
End any.

Theorem any_mapping s x cls l : reach s -> class_of s x = Some cls -> tree_class (c_behs cls) = true -> Reference ∉ c_behs cls ->
  Forall (usable cls) (map fst (entries_at s x)) -> Forall (fun c => Forall (usable cls) (call_keys c) /\ Forall (known s) (call_values c)) l ->
  exists s', run_calls x l s = (fst (calls_spec (class_policy cls (allows s x)) l (entries_at s x)), s') /\
    entries_at s' x = snd (calls_spec (class_policy cls (allows s x)) l (entries_at s x)).
Proof.
  intros Rs Hc Ht Hr Hk HC. destruct (ar_calls x cls (allows s x) s Ht Hr l s (entries_at s x)) as (s' & E & [_ _ _ _ _ _ He]); [|done|].
  - constructor; try done. by apply reach_wf.
  - by exists s'.
Qed.
Lemma occ_notin b bs : b ∉ bs -> occ b bs = 0.
Proof. induction bs as [|b' bs IH]; simpl; [done|]. intros H. apply not_elem_of_cons in H as [H1 H2]. unfold occ in *. rewrite filter_cons_False by done. by apply IH. Qed.
Theorem any_fresh s cn cls name parent : reach s -> classes s !! cn = Some cls -> tree_class (c_behs cls) = true -> DefaultInit ∈ c_behs cls -> UUIDAware ∉ c_behs cls -> Reference ∉ c_behs cls ->
  (forall p, parent = Some p -> exists_node s p) ->
  exists x s1, new_node cn name parent s = (Ret x, s1) /\ ~ exists_node s x /\ entries_at s1 x = [] /\
    forall l, Forall (fun c => Forall (usable cls) (call_keys c) /\ Forall (known s1) (call_values c)) l ->
    exists s2, run_calls x l s1 = (fst (calls_spec (class_policy cls (c_allow cls)) l []), s2) /\
      entries_at s2 x = snd (calls_spec (class_policy cls (c_allow cls)) l []).
Proof.
  intros Rs Ec Ht Hd Hu Hr Hp. pose proof (reach_wf s Rs) as W.
  assert (Hn : new_class (c_behs cls) = true).
  { unfold new_class. rewrite Ht. apply hasc_in in Hd. rewrite Hd. destruct (hasc UUIDAware (c_behs cls)) eqn:E; [by apply hasc_in in E|].
    simpl. apply bool_decide_eq_true. rewrite occ_notin by done. lia. }
  destruct (new_node_eff s cn cls name parent W Ec Hn Hp (reach_uuid s Rs)) as (x & s1 & E & N). destruct (nw_self _ _ _ _ _ _ N) as (i & u & Hw & _).
  exists x, s1. split; [done|]. split; [|split; [by rewrite (view_entries _ _ _ Hw)|]].
  - intros [o Ho]. pose proof (nw_id _ _ _ _ _ _ N) as ->. destruct (wf_nodes _ W _ _ Ho). lia.
  - intros l HC. assert (R1 : reach s1). { eapply (reach_step s (ONew cn name parent) (Ret tt)); try done. simpl. unfold ignore. by rewrite (bind_Ret _ _ _ _ _ E). }
    assert (Ha : allows s1 x = c_allow cls). { rewrite ob_allows. unfold fld. by rewrite Hw. }
    pose proof (any_mapping s1 x cls l R1) as H. rewrite Ha, (view_entries _ _ _ Hw) in H. apply H; try done; [by rewrite (view_class _ _ _ Hw)|constructor].
Qed.
