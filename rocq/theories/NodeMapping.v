(** node.base.Node answers careful calls like an ordered dictionary. *)
From Verif Require Import Py Odict OdictFacts Aliaser Heap Model Classes MonadFacts WF WFOps Views SpecMapping MappingProofs StorageProofs
  Observe TreeOps SetEff DelEff DetachEff NewEff ObserveFacts SpecTree SpecOrder SpecUtils MappingProps OrderProofs SpecPlace PlaceProofs OpLift Reach
  SpecReference RefTree RefSteps RefHistory SpecNode ValidateProofs.

(** * The derived methods, when keys and assignments are limited *)
Local Arguments SpecMapping.remove : simpl never.
Local Arguments put : simpl never.
Local Arguments held : simpl never.
Section limited.
(** [R l s d]: the assignments [l] may be made in [s], where the node holds [d]; [G k]: [k] may be used *)
Context (self : nat) (p : policy) (R : list (key * val) -> st -> entries -> Prop) (G : key -> Prop).
Hypothesis R_nodup : forall l s d, R l s d -> NoDup (dkeys d).
Hypothesis R_keys : forall l s d k, R l s d -> k ∈ dkeys d -> G k.
Hypothesis R_weak : forall l s d, R l s d -> R [] s d.
Hypothesis R_iter : forall l s d, R l s d -> exists s', iter self s = (Ret (dkeys d), s') /\ R l s' d.
Hypothesis R_get : forall l s d k, R l s d -> G k -> exists s', getitem self k s = (do_get p k d, s') /\ R l s' d.
Hypothesis R_set : forall l s d k v, R ((k, v) :: l) s d -> exists s', setitem self k v s =
    (match fst (do_set p k v d) with None => Ret tt | Some e => Exc e end, s') /\ R l s' (snd (do_set p k v d)).
Hypothesis R_del : forall s d k, R [] s d -> G k -> exists s', delitem self k s =
    (match fst (do_del p k d) with None => Ret tt | Some e => Exc e end, s') /\ R [] s' (snd (do_del p k d)).

Hypothesis p_plain : forall k k', p_get p k <> Some (KeyError k').

Ltac done_ := eexists; split; [reflexivity|]; eauto.

Lemma l_values s d ks : R [] s d -> Forall G ks -> exists s', mapM_ (getitem self) ks s = (do_values p ks d, s') /\ R [] s' d.
Proof.
  revert s. induction ks as [|k ks IH]; intros s HR HG; simpl; [done_|]. apply Forall_cons in HG as [HG1 HG2].
  destruct (R_get [] s d k HR HG1) as (s1 & E1 & HR1). destruct (do_get p k d) as [v|e].
  - rewrite (bind_Ret _ _ _ _ _ E1). destruct (IH s1 HR1 HG2) as (s2 & E2 & HR2). destruct (do_values p ks d) as [vs|e].
    + rewrite (bind_Ret _ _ _ _ _ E2). done_.
    + rewrite (bind_Exc _ _ _ _ _ E2). done_.
  - rewrite (bind_Exc _ _ _ _ _ E1). done_.
Qed.
Lemma l_items s d ks : R [] s d -> Forall G ks -> exists s', mapM_ (fun k => let! v := getitem self k in ret (k, v)) ks s =
    (match do_values p ks d with Ret l => Ret (zip ks l) | Exc e => Exc e end, s') /\ R [] s' d.
Proof.
  revert s. induction ks as [|k ks IH]; intros s HR HG; simpl; [done_|]. apply Forall_cons in HG as [HG1 HG2].
  destruct (R_get [] s d k HR HG1) as (s1 & E1 & HR1). rewrite bind_assoc. destruct (do_get p k d) as [v|e].
  - rewrite (bind_Ret _ _ _ _ _ E1), bind_ret. destruct (IH s1 HR1 HG2) as (s2 & E2 & HR2). destruct (do_values p ks d) as [vs|e].
    + rewrite (bind_Ret _ _ _ _ _ E2). done_.
    + rewrite (bind_Exc _ _ _ _ _ E2). done_.
  - rewrite (bind_Exc _ _ _ _ _ E1). done_.
Qed.
Lemma l_update s d l : R l s d -> exists s', iterM (fun kv : key * val => setitem self (fst kv) (snd kv)) l s =
    (match fst (do_update p l d) with None => Ret tt | Some e => Exc e end, s') /\ R [] s' (snd (do_update p l d)).
Proof.
  revert s d. induction l as [|[k v] l IH]; intros s d HR; simpl; [done_|].
  destruct (R_set l s d k v HR) as (s1 & E1 & HR1). destruct (do_set p k v d) as [[e|] d'] eqn:Ed; simpl in *.
  - rewrite (bind_Exc _ _ _ _ _ E1). done_.
  - rewrite (bind_Ret _ _ _ _ _ E1). destruct (IH s1 d' HR1) as (s2 & E2 & HR2). rewrite E2. done_.
Qed.
Lemma l_clear s d : R [] s d -> exists s', iterM (delitem self) (dkeys d) s =
    (match fst (do_clear p d) with None => Ret tt | Some e => Exc e end, s') /\ R [] s' (snd (do_clear p d)).
Proof.
  revert s. induction d as [|[k v] d IH]; intros s HR; simpl; [done_|].
  destruct (R_del s _ k HR) as (s1 & E1 & HR1); [apply (R_keys _ _ _ _ HR); left|].
  pose proof (R_nodup _ _ _ HR) as ND. unfold do_del in *. destruct (p_del p k) as [e|] eqn:Ep; simpl in *.
  - rewrite (bind_Exc _ _ _ _ _ E1). done_.
  - rewrite held_spec, bool_decide_eq_true_2 in E1, HR1 by left. simpl in *. rewrite (bind_Ret _ _ _ _ _ E1).
    rewrite remove_first in HR1 by done. destruct (IH s1 HR1) as (s2 & E2 & HR2). rewrite E2. done_.
Qed.

(** the keys and assignments of a call *)
Definition fits (s : st) (d : entries) (c : call) : Prop :=
  match c with
  | CSet k v => R [(k, v)] s d
  | CSetdefault k v => G k /\ R (if value_at k d then [] else [(k, v)]) s d
  | CGet k | CDel k | CGetDefault k _ | CIn k | CPop k _ => G k /\ R [] s d
  | CUpdate a kw => R (concat a ++ kw) s d
  | _ => R [] s d
  end.
Theorem limited_call s d c : fits s d c -> exists s', run_call self c s = (fst (call_spec p c d), s') /\ R [] s' (snd (call_spec p c d)).
Proof.
  intros HF. destruct c; simpl in HF |- *; unfold wrap.
  - destruct (R_set [] s d k v HF) as (s1 & E1 & HR1). rewrite E1. destruct (do_set p k v d) as [[e|] d']; simpl in *; done_.
  - destruct HF as [HG HR]. destruct (R_get [] s d k HR HG) as (s1 & E1 & HR1). rewrite E1. destruct (do_get p k d); done_.
  - destruct HF as [HG HR]. destruct (R_del s d k HR HG) as (s1 & E1 & HR1). rewrite E1. destruct (do_del p k d) as [[e|] d']; simpl in *; done_.
  - destruct HF as [HG HR]. destruct (R_get [] s d k HR HG) as (s1 & E1 & HR1). unfold get. destruct (do_get p k d) as [v|e].
    + rewrite (try_catch_Ret _ _ _ _ _ _ E1). done_.
    + rewrite (try_catch_Exc _ _ _ _ _ _ E1). destruct e; simpl; done_.
  - destruct HF as [HG HR]. destruct (R_get [] s d k HR HG) as (s1 & E1 & HR1). unfold contains. destruct (do_get p k d) as [v|e].
    + erewrite (try_catch_Ret _ _ _ _ _ _); [|rewrite (bind_Ret _ _ _ _ _ E1); reflexivity]. done_.
    + erewrite (try_catch_Exc _ _ _ _ _ _); [|rewrite (bind_Exc _ _ _ _ _ E1); reflexivity]. destruct e; simpl; done_.
  - destruct (R_iter [] s d HF) as (s1 & E1 & HR1). unfold keys. rewrite E1. done_.
  - destruct (R_iter [] s d HF) as (s1 & E1 & HR1). unfold values. rewrite (bind_Ret _ _ _ _ _ E1).
    destruct (l_values s1 d (dkeys d) HR1) as (s2 & E2 & HR2). { apply Forall_forall. intros k. by apply (R_keys _ _ _ _ HR1). }
    rewrite E2. fold (dkeys d). destruct (do_values p (dkeys d) d); done_.
  - destruct (R_iter [] s d HF) as (s1 & E1 & HR1). unfold items. rewrite (bind_Ret _ _ _ _ _ E1).
    destruct (l_items s1 d (dkeys d) HR1) as (s2 & E2 & HR2). { apply Forall_forall. intros k. by apply (R_keys _ _ _ _ HR1). }
    rewrite E2. fold (dkeys d). destruct (do_values p (dkeys d) d); done_.
  - destruct (R_iter [] s d HF) as (s1 & E1 & HR1). unfold len, keys. rewrite (bind_Ret _ _ _ _ _ E1). simpl. unfold dkeys. rewrite map_length. done_.
  - rename d0 into dv. destruct HF as [HG HR]. destruct (R_get [] s d k HR HG) as (s1 & E1 & HR1). unfold pop. destruct (do_get p k d) as [v|e].
    + destruct (R_del s1 d k HR1 HG) as (s2 & E2 & HR2). destruct (do_del p k d) as [[e|] d'] eqn:Ed; simpl in *.
      * erewrite (try_catch_Exc _ _ _ _ _ _); [|rewrite (bind_Ret _ _ _ _ _ E1), (bind_Exc _ _ _ _ _ E2); reflexivity]. destruct e, dv as [[]|]; simpl; done_.
      * erewrite (try_catch_Ret _ _ _ _ _ _); [|rewrite (bind_Ret _ _ _ _ _ E1), (bind_Ret _ _ _ _ _ E2); reflexivity]. done_.
    + erewrite (try_catch_Exc _ _ _ _ _ _); [|rewrite (bind_Exc _ _ _ _ _ E1); reflexivity]. destruct e, dv as [[]|]; simpl; done_.
  - destruct (R_iter [] s d HF) as (s1 & E1 & HR1). unfold popitem, keys. rewrite (bind_Ret _ _ _ _ _ E1).
    destruct d as [|[k0 v0] d0 _] using rev_ind.
    + simpl. done_.
    + assert (HG : G k0). { apply (R_keys _ _ _ _ HR1). rewrite dkeys_app. apply elem_of_app. right. left. }
      rewrite dkeys_app. simpl. rewrite rev_app_distr. simpl. rewrite last_snoc.
      destruct (R_get [] s1 _ k0 HR1 HG) as (s2 & E2 & HR2). destruct (do_get p k0 (d0 ++ [(k0, v0)])) as [v|e].
      * rewrite (bind_Ret _ _ _ _ _ E2). destruct (R_del s2 _ k0 HR2 HG) as (s3 & E3 & HR3). destruct (do_del p k0 (d0 ++ [(k0, v0)])) as [[e|] d']; simpl in *.
        -- rewrite (bind_Exc _ _ _ _ _ E3). done_.
        -- rewrite (bind_Ret _ _ _ _ _ E3). simpl. done_.
      * rewrite (bind_Exc _ _ _ _ _ E2). done_.
  - rename d0 into dv. destruct HF as [HG HR]. destruct (R_get _ s d k HR HG) as (s1 & E1 & HR1). unfold setdefault. pose proof (R_weak _ _ _ HR1) as HR0.
    unfold do_get in *. destruct (p_get p k) as [e|] eqn:Ep.
    + rewrite (try_catch_Exc _ _ _ _ _ _ E1). destruct e; simpl; try done_. by destruct (p_plain _ _ Ep).
    + destruct (value_at k d) as [v|] eqn:Ev.
      * rewrite (try_catch_Ret _ _ _ _ _ _ E1). done_.
      * rewrite (try_catch_Exc _ _ _ _ _ _ E1). simpl. destruct (R_set [] s1 d k dv HR1) as (s2 & E2 & HR2).
        destruct (do_set p k dv d) as [[e|] d']; simpl in *; [rewrite (bind_Exc _ _ _ _ _ E2)|rewrite (bind_Ret _ _ _ _ _ E2)]; done_.
  - assert (Hm : forall args0, R (concat args0 ++ kw) s d -> exists s',
      (do! iterM (fun kv : key * val => setitem self (fst kv) (snd kv)) (concat args0) in
       iterM (fun kv : key * val => setitem self (fst kv) (snd kv)) kw) s =
      (match fst (do_update p (concat args0 ++ kw) d) with None => Ret tt | Some e => Exc e end, s') /\ R [] s' (snd (do_update p (concat args0 ++ kw) d))).
    { intros args0 Hv0. rewrite <- iterM_app. by apply l_update. }
    unfold update. destruct args as [|a1 [|a2 args]].
    + destruct (Hm [] HF) as (s1 & E1 & HR1). rewrite E1. destruct (do_update p (concat [] ++ kw) d) as [[e|] d']; simpl in *; done_.
    + destruct (Hm [a1] HF) as (s1 & E1 & HR1). rewrite E1. destruct (do_update p (concat [a1] ++ kw) d) as [[e|] d']; simpl in *; done_.
    + done_.
  - destruct (R_iter [] s d HF) as (s1 & E1 & HR1). unfold clear, keys. rewrite (bind_Ret _ _ _ _ _ E1).
    destruct (l_clear s1 d HR1) as (s2 & E2 & HR2). rewrite E2. destruct (do_clear p d) as [[e|] d']; simpl in *; done_.
Qed.
End limited.

(** * Node *)
Record nodeR (x : nat) (cls : classdef) (a : bool) (l : list (key * val)) (s : st) (d : entries) : Prop := NodeR {
  nr_world : world creatable s;
  nr_tidy : tidy_ok s;
  nr_class : class_of s x = Some cls;
  nr_allow : allows s x = a;
  nr_listed : listed s x;
  nr_todo : tidy_sets s x l;
  nr_entries : entries_at s x = d
}.
Section node.
Context (x : nat) (cls : classdef) (a : bool).
Hypothesis Hbs : c_behs cls = Node_behs.
Let R := nodeR x cls a.
Let G k := ~ to_spaces cls k.

Lemma nr_view l s d : R l s d -> exists w, views s !! x = Some w /\ w_cls w = cls /\ w_ent w = d /\ w_allow w = a /\ tree_class (c_behs (w_cls w)) = true.
Proof.
  intros [W T Hc Ha Lx _ He]. destruct (class_view _ _ _ Hc) as (w & Hw & Hwc). exists w. split; [done|]. split; [done|].
  split; [by rewrite <- (view_entries _ _ _ Hw)|]. split; [|by rewrite Hwc, Hbs]. rewrite ob_allows in Ha. unfold fld in Ha. by rewrite Hw in Ha.
Qed.
Lemma nr_eqv l s s' d : eqv s s' -> wf s' -> R l s d -> R l s' d.
Proof.
  intros Q W' [W T Hc Ha Lx Hl He]. pose proof (wd_wf _ _ W) as Wf. destruct (eqv_obs s s' Q) as (H1 & H2 & H3 & H4 & H5). destruct (tidy_eqv s s' Wf Q T) as [T' HL]. constructor.
  - by apply (world_eqv _ s).
  - done.
  - by rewrite H1.
  - rewrite <- Ha, !ob_allows. by rewrite (fld_eqv _ _ _ _ Q).
  - by apply HL.
  - destruct Hl as (N1 & N2 & N3). split; [done|]. split; [by rewrite (map_ext (uuid_at s') (uuid_at s))|].
    eapply Forall_impl; [exact N3|]. intros kv. by apply tidy_set_eqv.
  - by rewrite H4.
Qed.
Lemma nr_keys l s d k : R l s d -> k ∈ dkeys d -> G k.
Proof. intros [W T Hc _ _ _ He] Hk. rewrite <- He in Hk. apply elem_of_dkeys in Hk as [v Hv]. by apply (to_apart s T x cls k v). Qed.
Lemma nr_get l s d k : R l s d -> G k -> exists s', getitem x k s = (do_get (node_policy a) k d, s') /\ R l s' d.
Proof.
  intros HR HG. destruct (nr_view _ _ _ HR) as (w & Hw & Hwc & Hwe & _ & Ht). pose proof (wd_wf _ _ (nr_world _ _ _ _ _ _ HR)) as W.
  destruct (getitem_eff s x w k W Hw Ht) as (s' & E & Q & W'). exists s'. split; [|by apply (nr_eqv l s)]. rewrite E. f_equal.
  unfold get_res. rewrite Hwc, (proj2 (nskey_dunder_false _ _) HG). unfold look, do_get. rewrite value_at_spec, Hwe. by destruct k.
Qed.
Lemma nr_iter l s d : R l s d -> exists s', Model.iter x s = (Ret (dkeys d), s') /\ R l s' d.
Proof.
  intros HR. destruct (nr_view _ _ _ HR) as (w & Hw & Hwc & Hwe & _ & Ht). pose proof (wd_wf _ _ (nr_world _ _ _ _ _ _ HR)) as W.
  destruct (iter_eff s x w W Hw Ht) as (s' & E & Q & W'). exists s'. split; [|by apply (nr_eqv l s)]. by rewrite E, Hwe.
Qed.
Lemma node_set_res k v : G k -> set_res a (c_behs cls) k v = match p_set (node_policy a) k v with None => Ret tt | Some e => Exc e end.
Proof.
  intros HG. assert (Hns : nskey (c_behs cls) k = false) by (by apply nskey_dunder_false). rewrite Hbs in Hns |- *. destruct k as [t| | |]; cbn [set_res Node_behs];
    [|destruct a, v; reflexivity..]. change (reserved t = false) in Hns. rewrite Hns. destruct a, v; reflexivity.
Qed.
Lemma nr_set l s d k v : R ((k, v) :: l) s d -> exists s', setitem x k v s =
    (match fst (do_set (node_policy a) k v d) with None => Ret tt | Some e => Exc e end, s') /\ R l s' (snd (do_set (node_policy a) k v d)).
Proof.
  intros HR. pose proof HR as [W T Hc Ha Lx Hl He]. pose proof (wd_wf _ _ W) as Wf. destruct (nr_view _ _ _ HR) as (w & Hw & Hwc & Hwe & Hwa & Ht). rewrite Hwc in Ht.
  pose proof (proj1 (proj1 (Forall_cons _ _ _) (proj2 (proj2 Hl)))) as Hk. simpl in Hk. pose proof Hk as ((cls' & Hc2 & HG) & _ & Hkv).
  assert (cls' = cls) as -> by congruence. pose proof (set_todo s x k v l W T Hl) as Hl'.
  assert (Hvk : known s v). { destruct v as [| | | | | | |c| | | |]; try done. destruct (Hkv c eq_refl) as (_ & (Lc & _) & _). by apply listed_exists. }
  pose proof Hc as Hc'. rewrite ob_class in Hc'. destruct (setitem_eff s x cls k v Wf Hc' Ht Hvk) as (r & s' & E & F & O). exists s'. rewrite E in Hl' |- *. simpl in Hl'.
  assert (Hr : r = match p_set (node_policy a) k v with None => Ret tt | Some e => Exc e end).
  { assert (Hn : (exists c, v = VNode c) \/ forall c, v <> VNode c). { destruct v as [| | | | | | |c| | | |]; first [by right|by left; exists c]. }
    destruct Hn as [[c ->]|Hn].
    - destruct (set_child s x k c W T (proj1 Hk) Hk) as (s1 & E1 & _). rewrite E in E1. injection E1 as -> _. by destruct (Hkv c eq_refl) as (_ & _ & t & ->).
    - rewrite <- (node_set_res k v HG). apply O; [|unfold fld; by rewrite Hw; simpl; rewrite Hwa]. intros c ->. by destruct (Hn c). }
  assert (Hgen : world creatable s' /\ tidy_ok s' /\ listed s' x).
  { assert (Hn : (exists c, v = VNode c) \/ forall c, v <> VNode c). { destruct v as [| | | | | | |c| | | |]; first [by right|by left; exists c]. }
    destruct Hn as [[c ->]|Hn].
    - destruct (set_child s x k c W T (proj1 Hk) Hk) as (s1 & E1 & W1 & T1 & GF). rewrite E in E1. injection E1 as -> <-. split; [done|]. split; [done|]. by apply GF.
    - destruct (set_other s x k v W T Hk Hn) as (W1 & T1 & L1 & _). rewrite E in W1, T1, L1. simpl in *. split; [done|]. split; [done|]. by apply L1. }
  destruct Hgen as (W1 & T1 & L1). unfold do_set.
  assert (Ha' : allows s' x = a).
  { rewrite <- Ha, !ob_allows. f_equal. pose proof (se_core _ _ _ _ _ _ _ _ _ _ F x) as H. unfold fld in *. destruct (views s' !! x), (views s !! x); simpl in *; try done. injection H. congruence. }
  assert (Hc1 : class_of s' x = Some cls) by (rewrite <- Hc; apply core_obs, F).
  destruct (p_set (node_policy a) k v) as [e|]; subst r; simpl; (split; [done|]); constructor; try done.
  - by rewrite (proj1 (proj1 (setitem_failed s x cls k v e s' Wf Hc Ht Hvk E) x)).
  - rewrite <- He. by apply (as_entries _ _ _ _ _ _ (setitem_assigned s x cls k v s' Wf Hc Ht Hvk E)).
Qed.
Lemma nr_del s d k : R [] s d -> G k -> exists s', delitem x k s =
    (match fst (do_del (node_policy a) k d) with None => Ret tt | Some e => Exc e end, s') /\ R [] s' (snd (do_del (node_policy a) k d)).
Proof.
  intros HR HG. pose proof HR as [W T Hc Ha Lx Hl He]. pose proof (wd_wf _ _ W) as Wf. destruct (nr_view _ _ _ HR) as (w & Hw & Hwc & Hwe & Hwa & Ht).
  pose proof (creatable_trees s W) as Hall.
  destruct (delitem_eff s x w k) as (r & s' & E & F & O); try done. { intros _. by apply all_tree_all. }
  assert (P : pruning x cls [] s') by (pose proof (pruning_del x cls s k HG) as P; rewrite E in P; by apply P).
  destruct P as [W1 T1 L1 C1]. exists s'. rewrite E.
  assert (Hready : del_ready (c_behs (w_cls w)) s w k).
  { intros Hrf c clc Hg Hcc Hrc. assert (Hch : child s x k c).
    { unfold child. rewrite value_at_spec, (view_entries _ _ _ Hw). pose proof (get_res_dget _ _ _ Hg) as Hd. by rewrite Hwc, (proj2 (nskey_dunder_false _ _) HG) in Hd. }
    pose proof (wd_nodes _ _ W _ _ Hc) as Hn. rewrite <- Hwc in Hn.
    destruct (ref_ready s x w k c Wf T Hw Hn Lx Hch) as (_ & _ & us & i & m & _ & _ & _ & _ & _ & Hr). by apply (Hr Hrf c clc). }
  specialize (O Hready).
  assert (Hr : r = match fst (do_del (node_policy a) k d) with None => Ret tt | Some e => Exc e end).
  { rewrite O. unfold do_del. assert (Hns : nskey (c_behs cls) k = false) by (by apply nskey_dunder_false).
    rewrite Hbs in Hns. assert (Hg : get_res w k = look k d). { unfold get_res. by rewrite Hwc, Hbs, Hns, Hwe. }
    rewrite Hwc, Hbs. destruct k as [t| | |]; try reflexivity. change (reserved t = false) in Hns.
    cbn [del_res Node_behs]. rewrite Hns, Hg, Hwe. unfold look. simpl. rewrite held_spec.
    destruct (dget (KStr t) d) as [v|] eqn:Ed.
    - rewrite bool_decide_eq_true_2; [done|]. apply dget_Some_in in Ed. apply elem_of_dkeys. by exists v.
    - rewrite bool_decide_eq_false_2; [done|]. by apply dget_None. }
  clear O. split; [by rewrite Hr|]. rewrite Hwc in Ht.
  assert (Ha' : allows s' x = a).
  { rewrite <- Ha, !ob_allows. f_equal. pose proof (de_core _ _ _ _ _ _ _ _ F x) as H. unfold fld in *. destruct (views s' !! x), (views s !! x); simpl in *; try done. injection H. congruence. }
  constructor; try done; [apply tidy_sets_nil|]. unfold do_del in *. destruct (p_del (node_policy a) k) as [e|]; simpl in *.
  - subst r. by rewrite (proj1 (proj1 (delitem_failed s x cls k e s' Wf Hc Ht (fun _ => Hall) E) x)).
  - destruct (held k d); simpl in *; subst r.
    + rewrite <- He. by apply (rm_entries _ _ _ _ _ (delitem_removed s x cls k s' Wf Hc Ht (fun _ => Hall) E)).
    + by rewrite (proj1 (proj1 (delitem_failed s x cls k _ s' Wf Hc Ht (fun _ => Hall) E) x)).
Qed.
Lemma nr_calls l : forall s d, R [] s d -> careful_calls s x l ->
  exists s', run_calls x l s = (fst (calls_spec (node_policy a) l d), s') /\ R [] s' (snd (calls_spec (node_policy a) l d)).
Proof.
  induction l as [|c l IH]; intros s d HR HC; simpl in *; [by exists s|]. destruct HC as [HC HCs].
  destruct (limited_call x (node_policy a) R G) with (s := s) (d := d) (c := c) as (s1 & E1 & HR1); try done.
  - intros l0 s0 d0 [W _ _ _ _ _ <-]. apply entries_nodup. by apply wd_wf in W.
  - intros l0 s0 d0 k. apply nr_keys.
  - intros l0 s0 d0 []. constructor; try done. apply tidy_sets_nil.
  - intros l0 s0 d0. apply nr_iter.
  - intros l0 s0 d0 k. apply nr_get.
  - intros l0 s0 d0 k v. apply nr_set.
  - intros s0 d0 k. apply nr_del.
  - intros k k'. by destruct k.
  - pose proof HR as [W T Hc Ha Lx Hl He]. assert (HGk : forall k, item_key s x k -> G k). { intros k (cls' & Hc' & H). unfold G. congruence. }
    destruct c; simpl in *; try done; try (split; [by apply HGk|done]).
    + constructor; try done. by apply tidy_sets_one.
    + destruct HC as [HC1 HC2]. split; [by apply HGk|]. rewrite He in HC2. destruct (value_at k d); [done|]. constructor; try done. apply tidy_sets_one. by apply HC2.
  - rewrite E1 in HCs |- *. destruct (call_spec (node_policy a) c d) as [r1 d1]; simpl in *.
    destruct (IH s1 d1 HR1 HCs) as (s2 & E2 & HR2). rewrite E2. destruct (calls_spec (node_policy a) l d1) as [rs d2]; simpl in *. by exists s2.
Qed.
End node.

Theorem node_mapping s x cls l : grown creatable tidy s -> listed s x -> class_of s x = Some cls -> c_behs cls = Node_behs -> careful_calls s x l ->
  exists s', run_calls x l s = (fst (calls_spec (node_policy (allows s x)) l (entries_at s x)), s') /\
    entries_at s' x = snd (calls_spec (node_policy (allows s x)) l (entries_at s x)) /\ listed s' x.
Proof.
  intros G Lx Hc Hb HC. destruct (grown_tidy s G) as [W T].
  destruct (nr_calls x cls (allows s x) Hb l s (entries_at s x)) as (s' & E & [_ _ _ _ L' _ He]); [|done|].
  - constructor; try done. apply tidy_sets_nil.
  - by exists s'.
Qed.
Theorem fresh_node_mapping s cn cls name parent :
  grown creatable tidy s -> classes s !! cn = Some cls -> c_behs cls = Node_behs -> (forall p, parent = Some p -> exists_node s p) ->
  exists x s1, new_node cn name parent s = (Ret x, s1) /\ ~ exists_node s x /\ entries_at s1 x = [] /\
    forall l, careful_calls s1 x l ->
    exists s2, run_calls x l s1 = (fst (calls_spec (node_policy (c_allow cls)) l []), s2) /\
      entries_at s2 x = snd (calls_spec (node_policy (c_allow cls)) l []) /\ listed s2 x.
Proof.
  intros G Ec Hb Hp. destruct (grown_tidy s G) as [W T]. pose proof (wd_wf _ _ W) as Wf.
  destruct (created_listed s cn cls name parent W T Ec) as (x & s1 & E & Lx & Hx). { rewrite Hb. apply hasc_in. reflexivity. } { done. }
  destruct (new_node_eff s cn cls name parent Wf Ec) as (x' & s1' & E' & N). { rewrite Hb. reflexivity. } { done. } { by apply wd_uuid in W. }
  rewrite E in E'. injection E' as <- <-. destruct (nw_self _ _ _ _ _ _ N) as (i & u & Hw & _).
  exists x, s1. split; [done|]. split; [done|]. split; [by rewrite (view_entries _ _ _ Hw)|]. intros l HC.
  assert (G1 : grown creatable tidy s1). { eapply (grown_step _ _ s (ONew cn name parent) (Ret tt)); try done. simpl. unfold ignore. by rewrite (bind_Ret _ _ _ _ _ E). }
  assert (Ha : allows s1 x = c_allow cls). { rewrite ob_allows. unfold fld. by rewrite Hw. }
  pose proof (node_mapping s1 x cls l G1 Lx) as H. rewrite Ha, (view_entries _ _ _ Hw) in H. apply H; try done. by rewrite (view_class _ _ _ Hw).
Qed.
