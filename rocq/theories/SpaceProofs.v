(** Proofs about nodespaces. *)
From Verif Require Import SpecCache CacheProofs Dup InvalEff Py Odict OdictFacts Aliaser Heap Model MonadFacts WF WFOps Views SpecMapping
  MappingProofs StorageProofs Observe TreeOps SetEff DelEff DetachEff NewEff AttrsEff ObserveFacts SpecTree SpecUtils MappingProps SpecOrder OrderProofs
  Reach OpLift SpecPlace PlaceProofs SpecSpaces.
From stdpp Require Import list.

Lemma simple_trees s : world simple s -> all_tree_classes s.
Proof. intros W x cls Hc. apply new_tree. by apply (wd_nodes _ _ W x). Qed.

(** the effect of touching the keys [K] of [x], seen from [s0] *)
Record within (cls : classdef) (x : nat) (K : key -> Prop) (s0 s : st) : Prop := Within {
  wi_class : forall y, class_of s y = class_of s0 y;
  wi_others : entries_elsewhere s0 x s;
  wi_keys : forall k, ~ K k -> value_at k (spaces_at s x) = value_at k (spaces_at s0 x) /\ value_at k (entries_at s x) = value_at k (entries_at s0 x);
  wi_ent : (forall k, K k -> to_spaces cls k) -> entries_at s x = entries_at s0 x;
  wi_ns : (forall k, K k -> ~ to_spaces cls k) -> spaces_at s x = spaces_at s0 x
}.
Lemma within_refl cls x K s : within cls x K s s.
Proof. by constructor. Qed.
Lemma within_trans cls x K s1 s2 s3 : within cls x K s1 s2 -> within cls x K s2 s3 -> within cls x K s1 s3.
Proof.
  intros [A1 A2 A3 A4 A5] [B1 B2 B3 B4 B5]. constructor.
  - intros y. congruence.
  - intros y Hy. destruct (A2 y Hy), (B2 y Hy). split; congruence.
  - intros k Hk. destruct (A3 k Hk), (B3 k Hk). split; congruence.
  - intros H. by rewrite (B4 H), (A4 H).
  - intros H. by rewrite (B5 H), (A5 H).
Qed.
Lemma within_same cls x K s s' : (forall y, class_of s' y = class_of s y) -> entries_everywhere s s' -> within cls x K s s'.
Proof. intros Hc He. constructor; [done|intros y _; apply He|..]; intros; destruct (He x) as [E1 E2]; by rewrite ?E1, ?E2. Qed.
Lemma within_eqv cls x K s s' : eqv s s' -> within cls x K s s'.
Proof. intros Q. apply same_world_eqv in Q as [Hs _ _]. apply within_same; intros y; by destruct (Hs y). Qed.
Lemma within_assigned cls x (K : key -> Prop) s k v s' : wf s -> class_of s x = Some cls -> K k -> assigned cls s x k v s' -> within cls x K s s'.
Proof.
  intros W Hc Hk [A1 A2 A3 _ _ A6]. constructor; try done.
  - intros k' Hk'. assert (k' <> k) by (by intros ->). destruct (decide (to_spaces cls k)) as [Hs|Hs].
    + destruct (A3 Hs) as [-> ->]. split; [|done]. rewrite value_at_put by (by apply spaces_nodup). by rewrite decide_False.
    + destruct (A2 Hs) as [-> ->]. split; [done|]. rewrite value_at_put by (by apply entries_nodup). by rewrite decide_False.
  - intros H. by destruct (A3 (H k Hk)).
  - intros H. by destruct (A2 (H k Hk)).
Qed.
Lemma within_removed cls x (K : key -> Prop) s k s' : wf s -> class_of s x = Some cls -> K k -> removed cls s x k s' -> within cls x K s s'.
Proof.
  intros W Hc Hk [A1 A2 A3 _ _ A6]. constructor; try done.
  - intros k' Hk'. assert (k' <> k) by (by intros ->). destruct (decide (to_spaces cls k)) as [Hs|Hs].
    + destruct (A3 Hs) as (_ & -> & ->). split; [|done]. rewrite value_at_remove by (by apply spaces_nodup). by rewrite decide_False.
    + destruct (A2 Hs) as (_ & -> & ->). split; [done|]. rewrite value_at_remove by (by apply entries_nodup). by rewrite decide_False.
  - intros H. by destruct (A3 (H k Hk)) as (_ & _ & ?).
  - intros H. by destruct (A2 (H k Hk)) as (_ & _ & ?).
Qed.
Lemma apart_assigned cls s x k v s' : wf s -> class_of s x = Some cls -> assigned cls s x k v s' -> spaces_apart s -> spaces_apart s'.
Proof.
  intros Wf Hc [A1 A2 A3 _ _ Hcl]. apply (apart_step s); try done. intros y cls' k' v' Hy Hin.
  destruct (decide (y = x)) as [->|Hne]; [|left; exists v'; destruct (A1 y Hne) as [<- _]; done].
  assert (cls' = cls) as -> by congruence. destruct (decide (to_spaces cls k)) as [Hs|Hs].
  - left. exists v'. destruct (A3 Hs) as [_ <-]. done.
  - destruct (A2 Hs) as [E1 _]. rewrite E1 in Hin. rewrite put_spec in Hin by (by apply entries_nodup).
    assert (Hin' : k' ∈ dkeys (dset k v (entries_at s x))) by (apply elem_of_dkeys; eauto).
    apply elem_of_dkeys_dset in Hin' as [->|Hin']; [by right|left]. by apply elem_of_dkeys.
Qed.
Lemma apart_removed cls s x k s' : wf s -> removed cls s x k s' -> spaces_apart s -> spaces_apart s'.
Proof.
  intros W [A1 A2 A3 _ _ Hcl]. apply (apart_step s); try done. intros y cls' k' v' Hy Hin. left. exists v'.
  destruct (decide (y = x)) as [->|Hne]; [|by destruct (A1 y Hne) as [<- _]].
  destruct (decide (to_spaces cls k)) as [Hs|Hs]; [by destruct (A3 Hs) as (_ & _ & <-)|]. destruct (A2 Hs) as (_ & E1 & _). rewrite E1 in Hin.
  rewrite remove_spec in Hin by (by apply entries_nodup). apply elem_of_ddel in Hin as [? _]; [done|]. by apply entries_nodup.
Qed.
Lemma apart_same s s' : (forall y, class_of s' y = class_of s y) -> entries_everywhere s s' -> spaces_apart s -> spaces_apart s'.
Proof. intros Hc He. apply (apart_step s); [done|]. intros y cls k v _ Hin. left. exists v. by destruct (He y) as [<- _]. Qed.

(** * Mapping calls *)
Record acting (cls : classdef) (x : nat) (K : key -> Prop) (s0 : st) (l : list (key * val)) (s : st) : Prop := Acting {
  ac_world : world simple s;
  ac_apart : spaces_apart s;
  ac_class : class_of s x = Some cls;
  ac_known : Forall (known s) (map snd l);
  ac_keys : Forall K (map fst l);
  ac_within : within cls x K s0 s
}.
Lemma acting_view cls x K s0 l s : acting cls x K s0 l s -> exists w, views s !! x = Some w /\ w_cls w = cls /\ tree_class (c_behs cls) = true.
Proof.
  intros [W _ Hc _ _ _]. destruct (class_view _ _ _ Hc) as (w & Hw & Hwc). exists w. split; [done|]. split; [done|]. by apply (simple_trees s W x).
Qed.
Lemma acting_eqv cls x K s0 l s s' : eqv s s' -> wf s' -> acting cls x K s0 l s -> acting cls x K s0 l s'.
Proof.
  intros Q W [H1 H2 H3 H4 H5 H6]. pose proof (same_world_eqv _ _ Q) as [Hs _ _].
  assert (Hc : forall y, class_of s' y = class_of s y) by (intros y; by destruct (Hs y)). constructor.
  - by apply (world_eqv _ s).
  - apply (apart_same s); [done| |done]. intros y; by destruct (Hs y).
  - by rewrite Hc.
  - eapply Forall_impl; [exact H4|]. intros v. destruct v; simpl; try done. by apply exists_same.
  - done.
  - eapply within_trans; [exact H6|by apply within_eqv].
Qed.
Lemma acting_op cls x K s0 o s : op_target o = Some x -> Forall K (op_dels o) -> (op_dels_iterated o = true -> forall k, ~ to_spaces cls k -> K k) ->
  acting cls x K s0 (op_sets o) s -> acting cls x K s0 [] (snd (run_op o s)).
Proof.
  intros Ht Hd Hi. apply (lift_op x (acting cls x K s0) K); try done.
  - intros s1 k A. destruct (acting_view _ _ _ _ _ _ A) as (w & Hw & Hwc & Htc).
    destruct (getitem_eff s1 x w k (wd_wf _ _ (ac_world _ _ _ _ _ _ A)) Hw) as (s2 & E & Q & W); [by rewrite Hwc|]. rewrite E. by apply (acting_eqv cls x K s0 [] s1).
  - intros s1 k v A. destruct (acting_view _ _ _ _ _ _ A) as (w & Hw & Hwc & Htc).
    destruct (getitem_eff s1 x w k (wd_wf _ _ (ac_world _ _ _ _ _ _ A)) Hw) as (s2 & E & Q & W); [by rewrite Hwc|]. rewrite E. by apply (acting_eqv cls x K s0 [(k, v)] s1).
  - intros s1 A. destruct (acting_view _ _ _ _ _ _ A) as (w & Hw & Hwc & Htc).
    destruct (iter_eff s1 x w (wd_wf _ _ (ac_world _ _ _ _ _ _ A)) Hw) as (s2 & E & Q & W); [by rewrite Hwc|]. rewrite E. by apply (acting_eqv cls x K s0 [] s1).
  - intros l s1 k v A. destruct (acting_view _ _ _ _ _ _ A) as (w & Hw & Hwc & Htc). destruct A as [W Hap Hc Hkn Hks Hwi].
    pose proof (wd_wf _ _ W) as Wf. apply Forall_cons in Hkn as [Hv Hkn]. apply Forall_cons in Hks as [Hk Hks]. simpl in *.
    pose proof Hc as Hc'. rewrite ob_class in Hc'. destruct (setitem_eff s1 x cls k v Wf Hc' Htc Hv) as (r & s2 & E & F & _). rewrite E. simpl.
    assert (Hcl : forall y, class_of s2 y = class_of s1 y). { intros y. apply core_obs. apply F. }
    assert (Hkn' : Forall (known s2) (map snd l)). { eapply Forall_impl; [exact Hkn|]. intros u. destruct u; simpl; try done. by apply exists_same. }
    assert (W2 : world simple s2). { apply (world_same _ s1); try done; apply F. }
    destruct r as [[]|e].
    + pose proof (setitem_assigned s1 x cls k v s2 Wf Hc Htc Hv E) as A. constructor; try done; [by apply (apart_assigned cls s1 x k v)|congruence|].
      eapply within_trans; [exact Hwi|]. by apply (within_assigned cls x K s1 k v).
    + destruct (setitem_failed s1 x cls k v e s2 Wf Hc Htc Hv E) as [He _]. constructor; try done; [by apply (apart_same s1)|congruence|].
      eapply within_trans; [exact Hwi|]. by apply within_same.
  - intros s1 k Hk A. destruct (acting_view _ _ _ _ _ _ A) as (w & Hw & Hwc & Htc). destruct A as [W Hap Hc _ _ Hwi].
    pose proof (wd_wf _ _ W) as Wf. subst cls.
    destruct (delitem_eff s1 x w k Wf Hw Htc) as (r & s2 & E & F & _). { intros _. apply all_tree_all. by apply simple_trees. }
    rewrite E. simpl. assert (Hcl : forall y, class_of s2 y = class_of s1 y). { intros y. apply core_obs. apply F. }
    assert (W2 : world simple s2). { apply (world_same _ s1); try done; apply F. }
    destruct r as [[]|e].
    + assert (A : removed (w_cls w) s1 x k s2) by (eapply delitem_removed; try done; intros _; by apply simple_trees).
      constructor; try done; try (by constructor); [by apply (apart_removed (w_cls w) s1 x k)|congruence|]. eapply within_trans; [exact Hwi|]. by apply (within_removed (w_cls w) x K s1 k).
    + destruct (delitem_failed s1 x (w_cls w) k e s2 Wf Hc Htc (fun _ => simple_trees _ W) E) as [He _].
      constructor; try done; try (by constructor); [by apply (apart_same s1)|congruence|]. eapply within_trans; [exact Hwi|]. by apply within_same.
  - intros l s1 []. constructor; try done; by constructor.
  - intros Hit s1 ks A E. destruct (acting_view _ _ _ _ _ _ A) as (w & Hw & Hwc & Htc).
    destruct (iter_eff s1 x w (wd_wf _ _ (ac_world _ _ _ _ _ _ A)) Hw) as (s2 & E2 & Q & W); [by rewrite Hwc|]. rewrite E2 in E. simpl in E.
    apply Forall_forall. intros k Hk. apply (Hi Hit). injection E as <-. apply elem_of_dkeys in Hk as [v Hk].
    apply (ac_apart _ _ _ _ _ _ A x cls k v); [apply (ac_class _ _ _ _ _ _ A)|]. by rewrite (ent_obs _ _ _ Hw).
Qed.

(** * Every call *)
Lemma within_spares cls x K s s' : within cls x K s s' -> spares cls x K s s'.
Proof. intros [A1 A2 A3 A4 A5]. constructor; try done. intros k Hk. by destruct (A3 k Hk). Qed.
Lemma within_elsewhere cls cls' x y K K' s s' : within cls x K s s' -> y <> x -> spares cls' y K' s s'.
Proof. intros [A1 A2 A3 A4 A5] Hne. destruct (A2 y Hne) as [E1 E2]. constructor; intros; rewrite ?E1, ?E2; done. Qed.
Lemma spares_node cls x K s s' : Observe.same_node s s' x -> spares cls x K s s'.
Proof. intros [E1 _ _ E2 E3 _ _ _ _ _]. constructor; intros; rewrite ?E2, ?E3; done. Qed.
Lemma spares_weak cls x (K K' : key -> Prop) s s' : (forall k, K k -> K' k) -> spares cls x K s s' -> spares cls x K' s s'.
Proof. intros H [A1 A2 A3 A4]. constructor; eauto. Qed.
Lemma spares_calm cls x K s s' : calm s s' -> (forall y, entries_at s' y = entries_at s y /\ spaces_at s' y = spaces_at s y) -> spares cls x K s s'.
Proof. intros [A1 _ _ _] H. destruct (H x) as [E1 E2]. constructor; intros; rewrite ?E1, ?E2; done. Qed.
Lemma mild_entries s s' : mild s s' -> entries_everywhere s s'.
Proof.
  intros [A B] y. specialize (B y). unfold entries_at, spaces_at.
  destruct (nodes s !! y), (nodes s' !! y); simpl in *; try done. destruct B as (B1 & B2 & B3 & B4 & B5). by rewrite B4, B5, A.
Qed.

(** swap moves entries of [x] only *)
Lemma swap_keeps s x a b cls r s' : wf s -> class_of s x = Some cls -> tree_class (c_behs cls) = true -> exists_node s a -> exists_node s b ->
  swap x a b s = (r, s') -> forall y, (y <> x -> entries_at s' y = entries_at s y) /\ spaces_at s' y = spaces_at s y.
Proof.
  intros W Hc Ht [oa Hoa] [ob Hob] E y. pose proof (tree_class_inv _ Ht) as [_ Hst].
  destruct (ordering (c_behs cls)) eqn:Hor.
  2:{ destruct (swap_other s x a b cls W Hc Hst Hor) as (s1 & E1 & Q & _). rewrite E in E1. injection E1 as -> <-.
      pose proof (same_world_eqv _ _ Q) as [Sw _ _]. by destruct (Sw y). }
  assert (Ha : name_at s a = Some (o_name oa)) by (unfold name_at; by rewrite Hoa).
  assert (Hb : name_at s b = Some (o_name ob)) by (unfold name_at; by rewrite Hob).
  assert (Href : o_name oa = o_name ob \/ value_at (o_name oa) (entries_at s x) = None \/ value_at (o_name ob) (entries_at s x) = None ->
    (y <> x -> entries_at s' y = entries_at s y) /\ spaces_at s' y = spaces_at s y).
  { intros H. destruct (swap_refused s x a b cls _ _ W Hc Hst Hor Ha Hb H) as (s1 & E1 & [Sw _ _]). rewrite E in E1. injection E1 as -> <-. by destruct (Sw y). }
  destruct (decide (o_name oa = o_name ob)) as [He|Hne]; [auto|].
  destruct (value_at (o_name oa) (entries_at s x)) as [va|] eqn:Hva; [|auto]. destruct (value_at (o_name ob) (entries_at s x)) as [vb|] eqn:Hvb; [|auto]. clear Href.
  rewrite value_at_spec in Hva, Hvb. apply dget_Some_in in Hva, Hvb. apply elem_of_list_lookup in Hva as [i Hi], Hvb as [j Hj].
  destruct (swap_works s x a b cls _ _ i j va vb W Hc Hst Hor Ha Hb Hne Hi Hj) as (d & s1 & E1 & X & O). rewrite E in E1. injection E1 as -> <-.
  destruct O as [Oe Os Oo _ _ _]. destruct (decide (y = x)) as [->|Hy]; [done|]. by destruct (Oo y Hy).
Qed.

Lemma basic_plain_step s o : basic o = true -> world simple s -> spaces_apart s -> op_ok s o -> plain s o ->
  wf (snd (run_op o s)) -> ext s (snd (run_op o s)) -> (0 < next_uuid (snd (run_op o s)))%N ->
  world simple (snd (run_op o s)) /\ spaces_apart (snd (run_op o s)) /\
  forall x cls, class_of s x = Some cls -> Nodespaces ∈ c_behs cls -> spares cls x (touches cls o x) s (snd (run_op o s)).
Proof.
  intros Hb W Hap Hok HD W' X U. pose proof (wd_wf _ _ W) as Wf.
  assert (Hmild : forall s', mild s s' -> wf s' -> ext s s' -> (0 < next_uuid s')%N -> world simple s' /\ spaces_apart s' /\
    forall x cls, class_of s x = Some cls -> Nodespaces ∈ c_behs cls -> spares cls x (touches cls o x) s s').
  { intros s' Hm Ws Xs Us. pose proof (mild_calm _ _ Hm) as C. pose proof (mild_entries _ _ Hm) as He. split; [|split].
    - apply (world_old simple s); try done. apply old_nodes. apply C.
    - apply (apart_same s); [apply C|done|done].
    - intros x cls _ _. apply spares_calm; [done|apply He]. }
  assert (Hlift : forall x, op_target o = Some x -> exists_node s x -> Forall (known s) (map snd (op_sets o)) ->
     (forall cls k, touches cls o x k <-> k ∈ map fst (op_sets o) \/ k ∈ op_dels o \/ (op_dels_iterated o = true /\ ~ to_spaces cls k)) ->
    world simple (snd (run_op o s)) /\ spaces_apart (snd (run_op o s)) /\
    forall x cls, class_of s x = Some cls -> Nodespaces ∈ c_behs cls -> spares cls x (touches cls o x) s (snd (run_op o s))).
  { intros x Ht Hx Hkn Htt. apply exists_class in Hx as [cls Hc].
    assert (A : acting cls x (touches cls o x) s [] (snd (run_op o s))).
    { apply acting_op; try done.
      - apply Forall_forall. intros k Hk. apply Htt. auto.
      - intros Hi k Hk. apply Htt. auto.
      - constructor; try done. apply Forall_forall. intros k Hk. apply Htt. by left. }
    destruct A as [A1 A2 A3 _ _ A6]. split; [done|]. split; [done|]. intros y cls' Hc' _. destruct (decide (y = x)) as [->|Hne].
    - assert (cls' = cls) as -> by congruence. by apply within_spares.
    - by eapply within_elsewhere. }
  destruct o; simpl in Hok, HD; try done;
    try (by (apply (Hlift x); [done|tauto|constructor|intros cls k'; simpl; set_unfold; naive_solver])).
  - (* ONew *) simpl in *. rewrite !snd_ignore in *. destruct (classes s !! cn) as [c|] eqn:Ec.
    + destruct (new_node_eff s cn c name parent Wf Ec) as (x & s1 & E1 & N).
      { by apply (wd_table _ _ W cn). } { done. } { by apply wd_uuid in W. }
      rewrite E1 in *. simpl in *. split; [eapply world_new; [exact N|by apply (wd_table _ _ W cn)|done..]|].
      destruct N as [Nid Nw Nf No (i & u & Ns & _) _ _ _].
      assert (Hsame : forall y, y <> x -> Observe.same_node s s1 y) by (intros y Hy; by apply same_node_views, No). split.
      * intros y cls k v Hc Hin. destruct (decide (y = x)) as [->|Hne].
        -- rewrite ob_entries in Hin. unfold fld in Hin. rewrite Ns in Hin. simpl in Hin. by apply elem_of_nil in Hin.
        -- destruct (Hsame y Hne) as [E2 _ _ E3 _ _ _ _ _ _]. rewrite E2 in Hc. rewrite E3 in Hin. by apply (Hap y cls k v).
      * intros y cls Hc _. apply spares_node, Hsame. intros ->. rewrite ob_class in Hc. unfold fld in Hc. by rewrite Nf in Hc.
    + assert (E : snd (new_node cn name parent s) = s) by (unfold new_node; cbn [instantiate]; unfold bind at 1, get_class; by rewrite Ec).
      rewrite E. apply Hmild; [apply mild_refl|done|apply ext_refl|by apply wd_uuid in W].
  - (* OSet *) destruct Hok as [H1 H2]. apply (Hlift x); [done|done|by constructor|]. intros cls k'; simpl; set_unfold; naive_solver.
  - (* ODetach *) simpl in *. rewrite snd_ignore in *. apply exists_class in Hok as [cls Hc]. destruct (class_view _ _ _ Hc) as (w & Hw & Hwc). subst cls.
    assert (Ht : tree_class (c_behs (w_cls w)) = true) by (by apply (simple_trees s W x)).
    destruct (detach_eff s x w k Wf Hw Ht) as (r & s' & d & ix & E & F). { intros _. apply all_tree_all. by apply simple_trees. }
    rewrite E in *. simpl in *. assert (Hcl : forall y, class_of s' y = class_of s y). { intros y. apply core2_obs. apply F. }
    split; [apply (world_same _ s); try done; apply F|].
    assert (Hlive : live s x) by (apply views_live; eauto).
    assert (He : forall y, entries_at s' y = if decide (y = x) then if d && negb (nskey (c_behs (w_cls w)) k) then ddel k (entries_at s y) else entries_at s y else entries_at s y).
    { intros y. rewrite (ob_entries s'), (dt_ent _ _ _ _ _ _ _ _ _ _ F). case_decide; [|by rewrite ob_entries]. subst. destruct (d && _); [by rewrite ent_fmap|by rewrite ob_entries]. }
    assert (Hn : forall y, spaces_at s' y = if decide (y = x) then if d && nskey (c_behs (w_cls w)) k then ddel k (spaces_at s y) else spaces_at s y else spaces_at s y).
    { intros y. rewrite (ob_spaces s'), (dt_ns _ _ _ _ _ _ _ _ _ _ F). case_decide; [|by rewrite ob_spaces]. subst. destruct (d && nskey (c_behs (w_cls w)) k); [by apply ns_fmap|by rewrite ob_spaces]. }
    split.
    + apply (apart_step s); try done. intros y cls' k' v' Hy Hin. left. exists v'. rewrite He in Hin. case_decide; [|done]. destruct (d && negb (nskey (c_behs (w_cls w)) k)); [|done].
      apply elem_of_ddel in Hin as [? _]; [done|]. by apply entries_nodup.
    + intros y cls Hcy _. destruct (decide (y = x)) as [->|Hne].
      2:{ constructor; rewrite ?He, ?Hn, ?decide_False by done; done. }
      assert (cls = w_cls w) as -> by congruence. constructor; try done.
      * intros k' Hk'. assert (k' <> k) by (intros ->; by apply Hk'). rewrite He, Hn, !decide_True by done. rewrite !value_at_spec. split.
        -- destruct (d && negb (nskey (c_behs (w_cls w)) k)); [|done]. by rewrite dget_ddel_ne.
        -- destruct (d && nskey (c_behs (w_cls w)) k); [|done]. by rewrite dget_ddel_ne.
      * intros HK. assert (Hk : nskey (c_behs (w_cls w)) k = true) by (by apply nskey_dunder, HK). by rewrite He, decide_True, Hk, andb_false_r by done.
      * intros HK. assert (Hk : nskey (c_behs (w_cls w)) k = false) by (by apply nskey_dunder_false, HK). by rewrite Hn, decide_True, Hk, andb_false_r by done.
  - (* OUpdate *) destruct Hok as (H1 & H2 & H3). apply (Hlift x); [done|done| |]. { simpl. rewrite map_app. by apply Forall_app. }
    intros cls k'. simpl. set_unfold. naive_solver.
  - (* OSetdefault *) destruct Hok as [H1 H2]. apply (Hlift x); [done|done|by constructor|]. intros cls k'; simpl; set_unfold; naive_solver.
  - (* OAttrs *) simpl in *. rewrite !snd_ignore in *. apply views_live in Hok as [w Hw].
    assert (Heqv : forall s1, eqv s s1 -> wf s1 -> world simple s1 /\ spaces_apart s1 /\
       forall y cls, class_of s y = Some cls -> Nodespaces ∈ c_behs cls -> spares cls y (touches cls (OAttrs x) y) s s1).
    { intros s1 Q W1. pose proof (same_world_eqv _ _ Q) as [Hs _ _]. split; [by apply (world_eqv _ s)|]. split.
      - apply (apart_same s); [..|done]; intros y; by destruct (Hs y).
      - intros y cls _ _. apply spares_node, Hs. }
    destruct (with_attrs (c_behs (w_cls w))) eqn:Ea.
    2:{ destruct (attrs_refused s x w Wf Hw Ea) as (e & s1 & E & Q & W1). rewrite E in *. by apply Heqv. }
    destruct (dget attrs_key (w_ns w)) as [v|] eqn:Ev.
    + destruct (attrs_found s x w v Wf Hw Ea Ev) as (s1 & E & Q & W1). rewrite E in *. by apply Heqv.
    + destruct (classes s !! c_attrs_factory (w_cls w)) as [c|] eqn:Ec.
      * pose proof (wd_table _ _ W _ _ Ec) as Hc. destruct (attrs_missing s x w c Wf Hw Ea Ev Ec) as (a & s1 & E & A); [apply Hc|by apply wd_uuid in W|].
        rewrite E in *. simpl in *. split; [by eapply world_attrs|]. destruct A as [Nw Nf No (w0 & Hw0 & Hw') (i & u & Ns & _) _ _ _].
        assert (w0 = w) as -> by congruence. assert (Hax : x <> a) by congruence.
        assert (Hsame : forall y, y <> a -> y <> x -> Observe.same_node s s1 y) by (intros y Hy1 Hy2; apply same_node_views; by apply No).
        assert (Hx : class_of s1 x = class_of s x /\ entries_at s1 x = entries_at s x /\ spaces_at s1 x = dset attrs_key (VNode a) (spaces_at s x)).
        { rewrite !ob_class, !ob_entries, !ob_spaces. unfold fld. rewrite Hw', Hw. done. }
        split.
        -- intros y cls k v Hcy Hin. destruct (decide (y = a)) as [->|Hne].
           { rewrite ob_entries in Hin. unfold fld in Hin. rewrite Ns in Hin. simpl in Hin. by apply elem_of_nil in Hin. }
           destruct (decide (y = x)) as [->|Hne'].
           { destruct Hx as (E1 & E2 & _). rewrite E1 in Hcy. rewrite E2 in Hin. by apply (Hap x cls k v). }
           destruct (Hsame y Hne Hne') as [E2 _ _ E3 _ _ _ _ _ _]. rewrite E2 in Hcy. rewrite E3 in Hin. by apply (Hap y cls k v).
        -- intros y cls Hcy Hns. destruct (decide (y = x)) as [->|Hne].
           2:{ apply spares_node, Hsame; [|done]. intros ->. rewrite ob_class in Hcy. unfold fld in Hcy. by rewrite Nf in Hcy. }
           destruct Hx as (E1 & E2 & E3). constructor; try done.
           ++ intros k Hk. rewrite E2, E3. split; [done|]. rewrite !value_at_spec. rewrite dget_dset_ne; [done|]. intros ->. by apply Hk.
           ++ intros HK. exfalso. apply (HK attrs_key); [by split|]. split; [done|]. by apply (nskey_dunder [Nodespaces]).
      * destruct (attrs_no_class s x w Wf Hw Ea Ev Ec) as (e & s1 & E & Q & W1). rewrite E in *. by apply Heqv.
  - (* OSwap *) destruct Hok as (H1 & H2 & H3). apply exists_class in H1 as [cls Hc]. simpl in *. destruct (swap x a b s) as [r s'] eqn:E. simpl in *.
    pose proof (swap_calm s x a b cls r s' Wf W' Hc (simple_trees s W x cls Hc) H2 H3 E) as C. split; [|split].
    + apply (world_old simple s); try done. apply old_nodes. apply C.
    + apply (apart_step s); [apply C|..|done]. intros y cls' k v _ Hin. left.
      assert (Hv : value_at k (entries_at s' y) = Some v) by (rewrite value_at_spec; apply in_dget; [by apply entries_nodup|done]).
      rewrite (cm_ent _ _ C), value_at_spec in Hv. exists v. by apply dget_Some_in.
    + intros y cls' Hcy _. constructor; [apply C|intros k _; split; apply C|..].
      * intros HK. destruct (decide (y = x)) as [->|Hne].
        -- exfalso. assert (cls' = cls) as -> by congruence. assert (Hn : ~ to_spaces cls (KInt 0)) by (intros [_ (t & a0 & b0 & H & _)]; discriminate). apply Hn. by apply HK.
        -- by apply (swap_keeps s x a b cls r s' Wf Hc (simple_trees s W x cls Hc) H2 H3 E y).
      * intros HK. by apply (swap_keeps s x a b cls r s' Wf Hc (simple_trees s W x cls Hc) H2 H3 E y).
  - (* OSetUuid *) by apply Hmild; [apply mild_assign_uuid|..].
  - (* OSetAllow *) by apply Hmild; [apply mild_modify|..].
  - (* OSetFallback *) by apply Hmild; [apply mild_modify|..].
  - (* OPath *) assert (E : snd (run_op (OPath x) s) = s) by (simpl; rewrite snd_ignore; apply ro_path). rewrite E. apply Hmild; [apply mild_refl|done|apply ext_refl|by apply wd_uuid in W].
  - (* ORoot *) assert (E : snd (run_op (ORoot x) s) = s) by (simpl; rewrite snd_ignore; apply ro_root). rewrite E. apply Hmild; [apply mild_refl|done|apply ext_refl|by apply wd_uuid in W].
Qed.
Lemma plain_step s o : world simple s -> spaces_apart s -> op_ok s o -> plain s o ->
  wf (snd (run_op o s)) -> ext s (snd (run_op o s)) -> (0 < next_uuid (snd (run_op o s)))%N ->
  world simple (snd (run_op o s)) /\ spaces_apart (snd (run_op o s)) /\
  forall x cls, class_of s x = Some cls -> Nodespaces ∈ c_behs cls -> spares cls x (touches cls o x) s (snd (run_op o s)).
Proof.
  intros W Hap Hok HD W' X U. destruct (basic o) eqn:Hb; [by apply basic_plain_step|]. pose proof (wd_wf _ _ W) as Wf. destruct o; try done.
  - (* OInvalidate *) simpl in Hok. pose proof Hok as Hx. apply exists_class in Hx as [cls Hc].
    pose proof (inval_eff s x cls k Wf Hc (simple_trees s W x cls Hc)) as E. destruct (invalidator (c_behs cls)) as [[|]|].
    + assert (E' : run_op (OInvalidate x k) s = run_op (stands_for x k) s) by exact E. rewrite E' in *.
      destruct (basic_plain_step s (stands_for x k)) as (S1 & S2 & S3); try done; [apply stands_basic|unfold stands_for; by case_decide..|].
      split; [done|]. split; [done|]. intros y cls' Hcy Hns. eapply spares_weak; [|by apply S3]. intros k'. unfold stands_for. simpl. case_decide as Hk; simpl.
      * intros [-> ?]. split; [done|]. by right.
      * intros [-> ->]. split; [done|]. by left.
    + destruct E as (r & s1 & s' & E & Q & W1 & Hs). cbn [run_op] in *. rewrite E in *. cbn [snd] in *. destruct Hs as [->|Hwr].
      { split; [by apply (world_eqv _ s)|]. pose proof (same_world_eqv _ _ Q) as [Hs _ _]. split; [|intros y cls' _ _; by apply spares_node].
        intros y cls' k' v Hcy Hin. destruct (Hs y) as [E1 _ _ E2 _ _ _ _ _ _]. rewrite E1 in Hcy. rewrite E2 in Hin. by apply (Hap y cls' k' v). }
      destruct (wrote_within s x _ s1 s' Wf Q Hwr) as (H1 & H2 & H3 & H4 & H5 & _ & _ & H8 & H6 & H7 & _). split; [by apply (world_same _ s)|].
      destruct (below_sub s x k _ Wf H5) as [B1 B2]. split.
      * apply (apart_step s); try done. intros y cls' k' v _ Hin. left. exists v. destruct (decide (y = x)) as [->|Hy]; [by apply B1|by rewrite <- H4].
      * intros y cls' Hcy _. destruct (decide (y = x)) as [->|Hne]; [|apply spares_node, same_node_views; by apply H8].
        assert (cls' = cls) as -> by congruence. assert (Hrem : forall k', touches cls (OInvalidate x k) x k' \/ value_at k' (entries_at s' x) = value_at k' (entries_at s x)).
        { intros k'. rewrite H5, !value_at_spec. case_decide as Hk.
          - destruct (dget k' (entries_at s x)) as [v|] eqn:Ev; [|by right]. left. split; [done|]. right. split; [done|]. apply (Hap x cls k' v Hc). by apply dget_Some_in.
          - destruct (decide (k' = k)) as [->|Hne]; [left; split; [done|by left]|]. right. by apply dget_ddel_ne. }
        constructor; [done|..].
        -- intros k' Hk'. split; [|by rewrite H3]. by destruct (Hrem k').
        -- intros HK. rewrite H5. case_decide as Hk.
           ++ destruct (HK KNone) as [_ (t & a & b & Ht & _)]; [split; [done|by left]|discriminate Ht].
           ++ apply ddel_notin. intros Hin. apply elem_of_dkeys in Hin as [v Hv]. apply (Hap x cls k v Hc Hv). apply HK. split; [done|by left].
        -- intros _. apply H3.
    + cbn [run_op]. rewrite E. split; [done|]. split; [done|]. intros y cls' _ _. by apply spares_node.
  - (* ODeepcopy *) simpl in Hok. pose proof Hok as Hx. apply exists_class in Hx as [cls Hc]. pose proof (wd_nodes _ _ W _ _ Hc) as Hn.
    destruct (deep_eff s x Wf) as (s' & E & D & _).
    assert (E' : run_op (ODeepcopy x) s = (Ret tt, s')).
    { cbn [run_op]. unfold ignore. erewrite bind_Ret; [|by eapply deepcopy_is_deep, new_no_uuid]. done. }
    rewrite E' in *. cbn [snd] in *. split; [by apply (world_dup _ s)|]. split; [by apply (dup_apart s)|].
    intros y cls' Hcy _. apply spares_node. apply (dup_same s s' Wf D). apply exists_class. by eexists.
  - (* OPlace *) destruct Hok as [Hx Hp]. destruct (place_eff s x k p Hx) as (s' & E & [H1 H2 H3 _ _ _ _ _ H6 H7 _]). rewrite E in *. cbn [snd] in *.
    split; [by apply (world_same _ s)|]. split.
    + apply (apart_step s); try done. intros y cls k' v _ Hin. left. exists v. by rewrite <- H2.
    + intros y cls _ _. constructor; intros; rewrite ?H1, ?H2, ?H3; done.
Qed.

(** * Histories *)
Lemma run_step s o r s' : wf s -> op_ok s o -> run_op o s = (r, s') -> (0 < next_uuid s)%N ->
  wf (snd (run_op o s)) /\ ext s (snd (run_op o s)) /\ (0 < next_uuid (snd (run_op o s)))%N.
Proof.
  intros W Hok E U. destruct (safe_run_op s o Hok W) as (W' & X & _). split; [done|]. split; [done|]. pose proof (ext_uuid _ _ X). lia.
Qed.
Theorem plain_ok s : grown simple plain s -> world simple s /\ spaces_apart s.
Proof.
  induction 1 as [cs Hcs|s o r s' G [W T] Hok HD E].
  - split; [constructor; try done; apply wf_empty|]. intros x cls k v Hc. unfold class_of in Hc. simpl in Hc. by rewrite lookup_empty in Hc.
  - destruct (run_step s o r s' (wd_wf _ _ W) Hok E (wd_uuid _ _ W)) as (W1 & X & U).
    destruct (plain_step s o W T Hok HD W1 X U) as (H1 & H2 & _). by rewrite E in H1, H2.
Qed.
Lemma later_grown (H : classdef -> Prop) (D D' : st -> op -> Prop) s s' : (forall s o, D' s o -> D s o) -> grown H D s -> later D' s s' -> grown H D s'.
Proof. intros HD G L. induction L; [done|]. eapply grown_step; eauto. Qed.
Lemma later_spares cls x (K : key -> Prop) s s' : grown simple plain s -> class_of s x = Some cls -> Nodespaces ∈ c_behs cls ->
  later (fun s o => plain s o /\ forall k, touches cls o x k -> K k) s s' -> spares cls x K s s'.
Proof.
  intros G Hc Hn L. induction L as [|s1 o r s2 L IH Hok [HD HK] E]; [by constructor|].
  assert (G1 : grown simple plain s1) by (eapply (later_grown simple plain); [|exact G|exact L]; by intros ? ? [? _]).
  destruct (plain_ok s1 G1) as [W T]. destruct (run_step s1 o r s2 (wd_wf _ _ W) Hok E (wd_uuid _ _ W)) as (W1 & X & U).
  destruct (plain_step s1 o W T Hok HD W1 X U) as (_ & _ & H). rewrite E in H. simpl in H.
  destruct IH as [A1 A2 A3 A4]. destruct (H x cls) as [B1 B2 B3 B4]; [congruence|done|]. constructor.
  - congruence.
  - intros k Hk. destruct (B2 k) as [-> ->]; [naive_solver|]. by apply A2.
  - intros HS. rewrite B3 by naive_solver. by apply A3.
  - intros HS. rewrite B4 by naive_solver. by apply A4.
Qed.
Lemma getitem_looks s x cls k : wf s -> class_of s x = Some cls -> tree_class (c_behs cls) = true ->
  exists s', same_world s s' /\ getitem x k s =
    (if hashable k then match value_at k (if decide (to_spaces cls k) then spaces_at s x else entries_at s x) with Some v => Ret v | None => Exc (KeyError k) end
     else Exc TypeError, s').
Proof.
  intros W Hc Ht. destruct (class_view _ _ _ Hc) as (w & Hw & <-). destruct (getitem_eff s x w k W Hw Ht) as (s' & E & Q & _).
  exists s'. split; [by apply same_world_eqv|]. rewrite E. unfold get_res, look. rewrite value_at_spec.
  destruct (decide (to_spaces (w_cls w) k)) as [Hs|Hs].
  - assert (nskey (c_behs (w_cls w)) k = true) as -> by (by apply nskey_dunder).
    assert (spaces_at s x = w_ns w) as -> by (rewrite ob_spaces; unfold fld; by rewrite Hw). done.
  - assert (nskey (c_behs (w_cls w)) k = false) as -> by (by apply nskey_dunder_false). by rewrite (ent_obs _ _ _ Hw).
Qed.
Lemma iter_keys s x cls : wf s -> class_of s x = Some cls -> tree_class (c_behs cls) = true ->
  exists s', Model.iter x s = (Ret (map fst (entries_at s x)), s') /\ same_world s s'.
Proof.
  intros W Hc Ht. destruct (class_view _ _ _ Hc) as (w & Hw & <-). destruct (iter_eff s x w W Hw Ht) as (s' & E & Q & _).
  exists s'. split; [by rewrite E, (ent_obs _ _ _ Hw)|by apply same_world_eqv].
Qed.
Lemma no_space_iterated s x cls : grown simple plain s -> class_of s x = Some cls ->
  exists ks s', Model.iter x s = (Ret ks, s') /\ Forall (fun k => ~ to_spaces cls k) ks.
Proof.
  intros G Hc. destruct (plain_ok s G) as [W T]. destruct (iter_keys s x cls (wd_wf _ _ W) Hc (simple_trees s W x cls Hc)) as (s' & E & _).
  exists (map fst (entries_at s x)), s'. split; [done|]. apply Forall_forall. intros k Hk. apply elem_of_list_fmap in Hk as ([k' v] & -> & Hin). by apply (T x cls k' v).
Qed.
Lemma new_children s cn c name parent : world simple s -> classes s !! cn = Some c -> (forall p, parent = Some p -> exists_node s p) ->
  exists x s', new_node cn name parent s = (Ret x, s') /\ value_at (KStr "__children__") (spaces_at s' x) = Some (VNode x) /\ class_of s' x = Some c.
Proof.
  intros W Ec Hp. destruct (new_node_eff s cn c name parent (wd_wf _ _ W) Ec) as (x & s1 & E1 & N); [by apply (wd_table _ _ W cn)|done|by apply wd_uuid in W|].
  exists x, s1. split; [done|]. destruct N as [_ _ _ _ (i & u & Ns & _) _ _ _]. rewrite ob_spaces, ob_class. unfold fld. rewrite Ns. done.
Qed.

(** * attrs *)
Lemma dunder_attrs cls : Nodespaces ∈ c_behs cls -> to_spaces cls attrs_key.
Proof. intros H. split; [done|]. by apply (nskey_dunder [Nodespaces]). Qed.
Lemma attrs_held s x cls v : wf s -> class_of s x = Some cls -> with_attrs (c_behs cls) = true -> value_at attrs_key (spaces_at s x) = Some v -> exists s', attrs_of x s = (Ret v, s') /\ same_world s s'.
Proof.
  intros W Hc Ha Hv. destruct (class_view _ _ _ Hc) as (w & Hw & Hwc). rewrite <- Hwc in Ha. rewrite value_at_spec in Hv.
  assert (Hs : spaces_at s x = w_ns w) by (rewrite ob_spaces; unfold fld; by rewrite Hw). rewrite Hs in Hv.
  destruct (attrs_found s x w v W Hw Ha Hv) as (s' & E & Q & _). exists s'. split; [done|by apply same_world_eqv].
Qed.
Lemma attrs_result s x v s' : world simple s -> exists_node s x -> attrs_of x s = (Ret v, s') -> value_at attrs_key (spaces_at s' x) = Some v.
Proof.
  intros W Hx E. apply views_live in Hx as [w Hw]. pose proof (wd_wf _ _ W) as Wf.
  assert (Hs : spaces_at s x = w_ns w) by (rewrite ob_spaces; unfold fld; by rewrite Hw).
  destruct (with_attrs (c_behs (w_cls w))) eqn:Ea; [|by rewrite (attrs_none s x w Hw Ea) in E].
  destruct (dget attrs_key (w_ns w)) as [u|] eqn:Ev.
  - destruct (attrs_found s x w u Wf Hw Ea Ev) as (s1 & E1 & Q & W1). rewrite E in E1. injection E1 as -> <-.
    apply same_world_eqv in Q as [Q _ _]. destruct (Q x) as [_ _ _ _ -> _ _ _ _ _]. by rewrite Hs, value_at_spec.
  - destruct (classes s !! c_attrs_factory (w_cls w)) as [c|] eqn:Ec.
    + pose proof (wd_table _ _ W _ _ Ec) as Hc. destruct (attrs_missing s x w c Wf Hw Ea Ev Ec) as (a & s1 & E1 & A); [apply Hc|by apply wd_uuid in W|].
      rewrite E in E1. injection E1 as -> <-. destruct A as [_ _ _ (w0 & Hw0 & Hw') _ _ _ _]. rewrite ob_spaces. unfold fld. rewrite Hw'. simpl.
      by rewrite value_at_spec, dget_dset_eq.
    + destruct (attrs_no_class s x w Wf Hw Ea Ev Ec) as (e & s1 & E1 & _). rewrite E in E1. done.
Qed.
Lemma attrs_created s x cls c : world simple s -> class_of s x = Some cls -> with_attrs (c_behs cls) = true -> classes s !! c_attrs_factory cls = Some c ->
  exists v s', attrs_of x s = (Ret v, s').
Proof.
  intros W Hc Ea Ec. destruct (class_view _ _ _ Hc) as (w & Hw & <-). destruct (dget attrs_key (w_ns w)) as [u|] eqn:Ev.
  - destruct (attrs_found s x w u (wd_wf _ _ W) Hw Ea Ev) as (s1 & E1 & _). eauto.
  - destruct (attrs_missing s x w c (wd_wf _ _ W) Hw Ea Ev Ec) as (a & s1 & E1 & A); [by apply (wd_table _ _ W _ _ Ec)|by apply wd_uuid in W|]. eauto.
Qed.
Lemma attrs_with s x cls v s' : class_of s x = Some cls -> attrs_of x s = (Ret v, s') -> with_attrs (c_behs cls) = true.
Proof.
  intros Hc E. destruct (class_view _ _ _ Hc) as (w & Hw & <-). destruct (with_attrs (c_behs (w_cls w))) eqn:Ea; [done|]. by rewrite (attrs_none s x w Hw Ea) in E.
Qed.
Lemma attrs_stay s x cls v s' : grown simple plain s -> class_of s x = Some cls -> Nodespaces ∈ c_behs cls -> value_at attrs_key (spaces_at s x) = Some v ->
  later (fun s o => plain s o /\ (touches cls o x attrs_key -> o = OAttrs x)) s s' ->
  class_of s' x = Some cls /\ value_at attrs_key (spaces_at s' x) = Some v.
Proof.
  intros G Hc Hn Hv L. induction L as [|s1 o r s2 L [IHc IHv] Hok [HD HK] E]; [done|].
  assert (G1 : grown simple plain s1) by (eapply (later_grown simple plain); [|exact G|exact L]; by intros ? ? [? _]).
  destruct (plain_ok s1 G1) as [W T]. destruct (run_step s1 o r s2 (wd_wf _ _ W) Hok E (wd_uuid _ _ W)) as (W1 & X & U).
  destruct (plain_step s1 o W T Hok HD W1 X U) as (_ & _ & H). rewrite E in H. simpl in H.
  destruct (H x cls IHc Hn) as [B1 B2 B3 B4].
  assert (Hd : o = OAttrs x \/ ~ touches cls o x attrs_key).
  { destruct o; simpl in *; try (by right; tauto); first
      [ destruct (decide (x0 = x)) as [->|]; [destruct (decide (k = attrs_key)) as [->|]|]; [left; by apply HK|right; tauto..]
      | destruct (decide (x0 = x)) as [->|]; [|right; tauto]; right; intros [_ Hns]; by apply Hns, dunder_attrs
      | destruct (decide (x0 = x)) as [->|]; [by left|right; tauto]
      | destruct (decide (x0 = x)) as [->|]; [|right; tauto]; destruct (decide (attrs_key ∈ map fst (concat args ++ kw))); [left; by apply HK|right; tauto]
      | destruct (decide (x0 = x)) as [->|]; [destruct (decide (k = attrs_key)) as [->|Hka]|]; [left; apply HK; split; [done|by left]|right; intros [_ [Ek|[_ Hns]]]; [done|by apply Hns, dunder_attrs]|right; tauto] ]. }
  destruct Hd as [->|Hd]; [|split; [congruence|]; destruct (B2 _ Hd) as [_ ->]; done].
  destruct (with_attrs (c_behs cls)) eqn:Ea.
  2:{ destruct (class_view _ _ _ IHc) as (w & Hw & Hwc). rewrite <- Hwc in Ea. simpl in E. unfold ignore, bind in E. rewrite (attrs_none s1 x w Hw Ea) in E. injection E as <- <-. done. }
  destruct (attrs_held s1 x cls v (wd_wf _ _ W) IHc Ea IHv) as (s3 & E3 & [Q _ _]). simpl in E. unfold ignore, bind in E. rewrite E3 in E. injection E as <- <-.
  destruct (Q x) as [-> _ _ _ -> _ _ _ _ _]. done.
Qed.
