(** Proofs about lifecycle events. *)
From Verif Require Import Py Odict Aliaser Heap Model WF WFOps Views SpecMapping MappingProofs StorageProofs TreeOps SetEff DelEff DetachEff NewEff
  OdictFacts MonadFacts Observe ObserveFacts SpecTree Reach MappingProps CacheProofs2 Quiet SpecLifecycle.

Lemma once_occ b bs : once b bs -> occ b bs = 1 /\ hasc b bs = true.
Proof.
  intros (pre & post & -> & H1 & H2). assert (Z : forall l, b ∉ l -> filter (eq b) l = []).
  { induction l as [|c l IH]; [done|]. intros H. apply not_elem_of_cons in H as [Hn H]. rewrite filter_cons, decide_False by done. by apply IH. }
  unfold occ, hasc. rewrite filter_app, filter_cons, decide_True, !Z by done. split; [done|]. apply bool_decide_eq_true. set_solver.
Qed.
Lemma sup_fld s x b : suppressed s x = b -> live s x -> fld w_suppress s x = Some b.
Proof. intros H L. rewrite ob_suppressed in H. destruct (fld w_suppress s x) eqn:E; [by subst|]. apply (fld_live w_suppress) in L. rewrite E in L. by destruct L. Qed.
Lemma fld_sup s x b : fld w_suppress s x = Some b -> suppressed s x = b.
Proof. intros H. by rewrite ob_suppressed, H. Qed.

(** * Events of the item operations *)
Lemma set_told s x cls k v r s' : wf s -> class_of s x = Some cls -> tree_class (c_behs cls) = true -> once Lifecycle (c_behs cls) -> known s v ->
  ~ to_spaces cls k -> setitem x k v s = (r, s') ->
  wf s' /\ class_of s' x = Some cls /\ suppressed s' x = suppressed s x /\
  match r with Ret _ => told x [EvAdded v x k] s s' /\ entries_at s' x = put k v (entries_at s x) | Exc _ => untold s s' /\ entries_at s' x = entries_at s x end.
Proof.
  intros W Hc Ht Ho Hv Hn E. apply once_occ in Ho as [Ho _]. pose proof Hc as Hc0. rewrite ob_class in Hc. pose proof (live_cls _ _ _ Hc) as Hl.
  destruct (setitem_eff s x cls k v W Hc Ht Hv) as (r1 & s1 & E1 & F & _). rewrite E in E1. injection E1 as <- <-.
  apply nskey_dunder_false in Hn as Hns. assert (Hcore := se_core _ _ _ _ _ _ _ _ _ _ F x). apply core_obs in Hcore as (_ & Hcl & _ & _ & Hsu).
  split; [by destruct F|]. split; [by rewrite Hcl|]. split; [done|]. destruct r as [[]|e].
  - split.
    + unfold told. destruct F. rewrite (se_log (suppressed s x)); [|done..|by apply sup_fld]. rewrite Ho. done.
    + by apply (setitem_assigned s x cls k v s').
  - split; [by destruct F; apply se_log_exc|]. by apply (setitem_failed s x cls k v e s').
Qed.
Lemma del_told s x cls k r s' : wf s -> class_of s x = Some cls -> tree_class (c_behs cls) = true -> once Lifecycle (c_behs cls) ->
  (Reference ∈ c_behs cls -> all_tree_classes s) -> ~ to_spaces cls k -> delitem x k s = (r, s') ->
  wf s' /\ (forall y, class_of s' y = class_of s y) /\ suppressed s' x = suppressed s x /\
  match r with Ret _ => exists v, value_at k (entries_at s x) = Some v /\ told x [EvRemoved v x k] s s' /\ entries_at s' x = remove k (entries_at s x)
  | Exc _ => untold s s' /\ entries_at s' x = entries_at s x end.
Proof.
  intros W Hc Ht Ho Ha Hn E. apply once_occ in Ho as [Ho _]. destruct (class_view _ _ _ Hc) as (w & Hw & <-).
  destruct (delitem_eff s x w k) as (r1 & s1 & E1 & F & _); try done.
  { intros Hr. apply all_tree_all, Ha. by apply hasc_in. }
  rewrite E in E1. injection E1 as <- <-. assert (Hl : live s x) by (apply views_live; eauto).
  assert (Hcore := fun y => core_obs _ _ y (de_core _ _ _ _ _ _ _ _ F y)).
  split; [by destruct F|]. split; [apply Hcore|]. split; [apply Hcore|]. apply nskey_dunder_false in Hn as Hns. destruct r as [[]|e].
  - destruct F. rewrite Hns in *. destruct (de_val eq_refl) as (v & Hv). exists v. split.
    { rewrite value_at_spec, ob_entries. by destruct (fld w_ent s x). }
    split; [|by apply (delitem_removed s x (w_cls w) k s')]. unfold told.
    rewrite (de_log (suppressed s x) v) by (done || by apply sup_fld). rewrite Ho. done.
  - split; [by destruct F; apply de_log_exc|]. by apply (delitem_failed s x (w_cls w) k e s').
Qed.
Lemma detach_told s x cls k v s' : wf s -> class_of s x = Some cls -> tree_class (c_behs cls) = true -> once Lifecycle (c_behs cls) ->
  (Reference ∈ c_behs cls -> all_tree_classes s) -> detach x k s = (Ret v, s') -> log s' = log s ++ [EvDetached v x k].
Proof.
  intros W Hc Ht Ho Ha E. apply once_occ in Ho as [Ho _]. destruct (class_view _ _ _ Hc) as (w & Hw & <-).
  destruct (detach_eff s x w k) as (r & s1 & d & ix & E1 & F); try done.
  { intros Hr. apply all_tree_all, Ha. by apply hasc_in. }
  rewrite E in E1. injection E1 as <- <-. destruct F. rewrite (dt_log v eq_refl), Ho. done.
Qed.
Lemma detach_untold s x cls k e s' : wf s -> class_of s x = Some cls -> tree_class (c_behs cls) = true -> Reference ∉ c_behs cls ->
  detach x k s = (Exc e, s') -> untold s s'.
Proof.
  intros W Hc Ht Hr E. destruct (class_view _ _ _ Hc) as (w & Hw & <-).
  assert (Hr' : hasc Reference (c_behs (w_cls w)) = false) by (by apply bool_decide_eq_false).
  destruct (detach_eff s x w k) as (r & s1 & d & ix & E1 & F); try done. { by rewrite Hr'. }
  rewrite E in E1. injection E1 as <- <-. destruct F. by apply dt_log_exc.
Qed.
Lemma new_told s cn cls n p : wf s -> (0 < next_uuid s)%N -> classes s !! cn = Some cls -> new_class (c_behs cls) = true -> once Lifecycle (c_behs cls) ->
  (forall q, p = Some q -> exists_node s q) ->
  exists x s', new_node cn n p s = (Ret x, s') /\ log s' = log s ++ [EvCreated x] /\ suppressed s' x = false.
Proof.
  intros W Hu Hc Hn Ho Hp. apply once_occ in Ho as [Ho _]. destruct (new_node_eff s cn cls n p) as (x & s' & E & F); try done.
  exists x, s'. split; [done|]. destruct F. rewrite nw_log, Ho. split; [done|]. destruct nw_self as (i & u & Hv & _).
  apply fld_sup. unfold fld. by rewrite Hv.
Qed.

(** * Several at once *)
Lemma told_nil x s s' : log s' = log s -> told x [] s s'.
Proof. unfold told. intros ->. by destruct (suppressed s x); rewrite app_nil_r. Qed.
Lemma told_app x l1 l2 s s1 s' : told x l1 s s1 -> suppressed s1 x = suppressed s x -> told x l2 s1 s' -> told x (l1 ++ l2) s s'.
Proof. unfold told. intros -> H ->. rewrite H. destruct (suppressed s x); by rewrite ?app_nil_r, ?app_assoc. Qed.
Lemma sets_told x cls l : forall s r s', wf s -> class_of s x = Some cls -> tree_class (c_behs cls) = true -> once Lifecycle (c_behs cls) ->
  Forall (fun e => known s (snd e) /\ ~ to_spaces cls (fst e)) l ->
  iterM (fun kv : key * val => setitem x (fst kv) (snd kv)) l s = (r, s') ->
  wf s' /\ class_of s' x = Some cls /\ suppressed s' x = suppressed s x /\ ext s s' /\
  exists n, n <= length l /\ told x (map (added x) (take n l)) s s' /\ entries_at s' x = put_all (take n l) (entries_at s x) /\ (is_ret r = true <-> n = length l).
Proof.
  induction l as [|[k v] l IH]; intros s r s' W Hc Ht Ho Hl E.
  - injection E as <- <-. split; [done|]. split; [done|]. split; [done|]. split; [apply ext_refl|]. exists 0. split; [done|]. split; [by apply told_nil|]. done.
  - apply Forall_cons in Hl as [[Hk Hs] Hl]. cbn [iterM fst snd] in *.
    assert (Hx : live s x) by (unfold class_of in Hc; destruct (nodes s !! x) eqn:?; [by eexists|done]).
    destruct (safe_setitem s x k v) as (_ & X & _); [done..|].
    destruct (setitem x k v s) as [r1 s1] eqn:E1. cbn [snd] in X.
    destruct (set_told s x cls k v r1 s1) as (W1 & C1 & S1 & H1); try done. destruct r1 as [[]|e].
    + rewrite (bind_Ret _ _ _ _ _ E1) in E. destruct (IH s1 r s') as (W2 & C2 & S2 & X2 & n & Hn & T2 & En & Hr); try done.
      { eapply Forall_impl; [exact Hl|]. intros [k' v'] [Hk' ?]. split; [|done]. cbn [snd] in *. destruct v'; try done; simpl in *; destruct Hk' as [oo Ho']; destruct (ext_nodes _ _ X _ _ Ho') as (o' & ? & _); by exists o'. }
      split; [done|]. split; [done|]. split; [congruence|]. split; [by eapply ext_trans|]. exists (S n). simpl. split; [lia|]. split; [|split; [|rewrite Hr; lia]].
      * change (added x (k, v) :: map (added x) (take n l)) with ([added x (k, v)] ++ map (added x) (take n l)). eapply told_app; [apply H1|done|done].
      * destruct H1 as [_ <-]. done.
    + rewrite (bind_Exc _ _ _ _ _ E1) in E. injection E as <- <-. split; [done|]. split; [done|]. split; [done|]. split; [done|]. exists 0. split; [lia|].
      split; [by apply told_nil; destruct H1|]. split; [by destruct H1|]. done.
Qed.
Lemma update_told s x cls a kw r s' : wf s -> class_of s x = Some cls -> tree_class (c_behs cls) = true -> once Lifecycle (c_behs cls) ->
  length a <= 1 -> Forall (fun e => known s (snd e) /\ ~ to_spaces cls (fst e)) (concat a ++ kw) -> update x a kw s = (r, s') ->
  exists n, n <= length (concat a ++ kw) /\ told x (map (added x) (take n (concat a ++ kw))) s s' /\
    entries_at s' x = put_all (take n (concat a ++ kw)) (entries_at s x) /\ (is_ret r = true <-> n = length (concat a ++ kw)).
Proof.
  intros W Hc Ht Ho La Hl E. set (f := fun kv : key * val => setitem x (fst kv) (snd kv)) in *.
  assert (E' : iterM f (concat a ++ kw) s = (r, s')).
  { assert (G : forall l1 l2 s, iterM f (l1 ++ l2) s = bind (iterM f l1) (fun _ => iterM f l2) s).
    { clear. induction l1 as [|e l1 IH]; intros l2 s; [done|]. simpl. unfold bind. destruct (f e s) as [[u|e'] s1]; [|done]. rewrite IH. done. }
    rewrite G, <- E. unfold update. fold f. destruct a as [|? [|? ?]]; [done|done|simpl in La; lia]. }
  destruct (sets_told x cls _ s r s' W Hc Ht Ho Hl E') as (_ & _ & _ & _ & H). exact H.
Qed.
Lemma dels_told x cls d : forall s r s', wf s -> class_of s x = Some cls -> tree_class (c_behs cls) = true -> once Lifecycle (c_behs cls) ->
  (Reference ∈ c_behs cls -> all_tree_classes s) -> entries_at s x = d -> (forall k, k ∈ map fst d -> ~ to_spaces cls k) ->
  iterM (delitem x) (map fst d) s = (r, s') ->
  exists n, n <= length d /\ told x (map (dropped x) (take n d)) s s' /\ entries_at s' x = drop n d /\ (is_ret r = true <-> n = length d).
Proof.
  induction d as [|[k v] d IH]; intros s r s' W Hc Ht Ho Ha He Hn E.
  - injection E as <- <-. exists 0. split; [done|]. split; [by apply told_nil|]. done.
  - simpl map in E. cbn [iterM] in E. destruct (delitem x k s) as [r1 s1] eqn:E1. pose proof (entries_nodup s x W) as ND. rewrite He in ND.
    destruct (del_told s x cls k r1 s1) as (W1 & C1 & S1 & H1); try done. { apply Hn. by left. } destruct r1 as [[]|e].
    + rewrite (bind_Ret _ _ _ _ _ E1) in E. destruct H1 as (v' & Hv' & T1 & En1). rewrite He, remove_cons in En1 by done.
      rewrite He in Hv'. unfold value_at in Hv'. simpl in Hv'. rewrite bool_decide_eq_true_2 in Hv' by done. injection Hv' as <-.
      destruct (IH s1 r s') as (n & Hle & T2 & En & Hr); try done.
      { by rewrite C1. } { intros Hr y c Hy. rewrite C1 in Hy. by apply (Ha Hr y). } { intros k' Hk'. apply Hn. by right. }
      exists (S n). simpl. split; [lia|]. split; [|split; [done|rewrite Hr; lia]].
      change (dropped x (k, v) :: map (dropped x) (take n d)) with ([dropped x (k, v)] ++ map (dropped x) (take n d)). eapply told_app; [apply T1|done|done].
    + rewrite (bind_Exc _ _ _ _ _ E1) in E. injection E as <- <-. exists 0. split; [simpl; lia|]. split; [by apply told_nil; destruct H1|].
      split; [by destruct H1 as [_ ->]|]. done.
Qed.
Lemma eqv_told s s1 x l s' : eqv s s1 -> told x l s1 s' -> told x l s s'.
Proof. intros Q. apply same_world_eqv in Q as [Q1 _ Q3]. unfold told. rewrite Q3. by rewrite (sn_suppressed _ _ _ (Q1 x)). Qed.
Lemma eqv_all_tree s s1 : eqv s s1 -> all_tree_classes s -> all_tree_classes s1.
Proof. intros Q H y c Hy. apply same_world_eqv in Q as [Q1 _ _]. rewrite (sn_class _ _ _ (Q1 y)) in Hy. by apply (H y). Qed.
Lemma known_eqv s s1 v : eqv s s1 -> known s v -> known s1 v.
Proof.
  intros Q. apply same_world_eqv in Q as [Q1 _ _]. unfold known. destruct v; try done. unfold exists_node. intros [oo Ho].
  assert (H : class_of s1 o = Some (o_cls oo)). { rewrite (sn_class _ _ _ (Q1 o)). unfold class_of. by rewrite Ho. }
  unfold class_of in H. by destruct (nodes s1 !! o).
Qed.
Lemma clear_told s x cls r s' : wf s -> class_of s x = Some cls -> tree_class (c_behs cls) = true -> once Lifecycle (c_behs cls) ->
  (Reference ∈ c_behs cls -> all_tree_classes s) -> (forall k, held k (entries_at s x) = true -> ~ to_spaces cls k) -> clear x s = (r, s') ->
  exists n, n <= length (entries_at s x) /\ told x (map (dropped x) (take n (entries_at s x))) s s' /\ entries_at s' x = drop n (entries_at s x) /\
    (is_ret r = true <-> n = length (entries_at s x)).
Proof.
  intros W Hc Ht Ho Ha Hn E. destruct (class_view _ _ _ Hc) as (w & Hw & Ew).
  destruct (iter_eff s x w W Hw) as (s1 & E1 & Q & W1); [by rewrite Ew|].
  unfold clear, keys, iterkeys in E. rewrite (bind_Ret _ _ _ _ _ E1) in E.
  assert (He : entries_at s x = w_ent w) by (rewrite ob_entries; unfold fld; by rewrite Hw).
  pose proof Q as Q0. apply same_world_eqv in Q0 as [Q1 _ _].
  destruct (dels_told x cls (w_ent w) s1 r s') as (n & H1 & H2 & H3 & H4); try done.
  { by rewrite (sn_class _ _ _ (Q1 x)). } { intros Hr. eapply eqv_all_tree; eauto. } { by rewrite (sn_entries _ _ _ (Q1 x)). }
  { intros k Hk. apply Hn. rewrite held_spec. apply bool_decide_eq_true. by rewrite He. }
  rewrite He. exists n. split; [done|]. split; [by eapply eqv_told|]. done.
Qed.
Lemma pop_told s x cls k d r s' : wf s -> class_of s x = Some cls -> tree_class (c_behs cls) = true -> once Lifecycle (c_behs cls) ->
  (Reference ∈ c_behs cls -> all_tree_classes s) -> ~ to_spaces cls k -> pop x k d s = (r, s') ->
  untold s s' /\ entries_at s' x = entries_at s x \/
  exists v, r = Ret v /\ value_at k (entries_at s x) = Some v /\ told x [EvRemoved v x k] s s' /\ entries_at s' x = remove k (entries_at s x).
Proof.
  intros W Hc Ht Ho Ha Hn E. destruct (class_view _ _ _ Hc) as (w & Hw & Ew).
  destruct (getitem_eff s x w k) as (s1 & E1 & Q & W1); [done|done|by rewrite Ew|].
  pose proof Q as Q0. apply same_world_eqv in Q0 as [Q1 _ Q3]. unfold pop, try_catch in E.
  assert (Hfin : forall e s2, log s2 = log s -> entries_at s2 x = entries_at s x ->
    (if is_key_error e then (match d with None => raise e | Some VUnset => raise e | Some d => ret d end) s2 else (Exc e, s2)) = (r, s') ->
    untold s s' /\ entries_at s' x = entries_at s x).
  { intros e s2 Hl He. destruct (is_key_error e); [destruct d as [[]|]|]; intros [= <- <-]; done. }
  destruct (get_res w k) as [v|e] eqn:Hg.
  - rewrite (bind_Ret _ _ _ _ _ E1) in E. destruct (delitem x k s1) as [r2 s2] eqn:E2.
    destruct (del_told s1 x cls k r2 s2) as (W2 & C2 & S2 & H2); try done.
    { by rewrite (sn_class _ _ _ (Q1 x)). } { intros Hr. eapply eqv_all_tree; eauto. }
    rewrite (sn_entries _ _ _ (Q1 x)) in H2. destruct r2 as [[]|e].
    + rewrite (bind_Ret _ _ _ _ _ E2) in E. injection E as <- <-. right. destruct H2 as (v' & Hv' & T & He).
      assert (v' = v) as ->. { apply (get_res_held s x) in Hg; [|done]. rewrite Ew in Hg. apply nskey_dunder_false in Hn. rewrite Hn in Hg. congruence. }
      exists v. split; [done|]. split; [done|]. split; [by eapply eqv_told|done].
    + rewrite (bind_Exc _ _ _ _ _ E2) in E. left. destruct H2 as [T He]. eapply (Hfin e s2); [|done|done]. unfold untold in T. congruence.
  - rewrite (bind_Exc _ _ _ _ _ E1) in E. left. eapply (Hfin e s1); [done|by rewrite (sn_entries _ _ _ (Q1 x))|done].
Qed.
Lemma setdefault_told s x cls k v r s' : wf s -> class_of s x = Some cls -> tree_class (c_behs cls) = true -> once Lifecycle (c_behs cls) -> known s v ->
  ~ to_spaces cls k -> setdefault x k v s = (r, s') ->
  untold s s' /\ entries_at s' x = entries_at s x \/
  r = Ret v /\ value_at k (entries_at s x) = None /\ told x [EvAdded v x k] s s' /\ entries_at s' x = put k v (entries_at s x).
Proof.
  intros W Hc Ht Ho Hv Hn E. destruct (class_view _ _ _ Hc) as (w & Hw & Ew).
  destruct (getitem_eff s x w k) as (s1 & E1 & Q & W1); [done|done|by rewrite Ew|].
  pose proof Q as Q0. apply same_world_eqv in Q0 as [Q1 _ Q3]. unfold setdefault, try_catch in E. rewrite E1 in E.
  destruct (get_res w k) as [v0|e] eqn:Hg.
  { injection E as <- <-. left. split; [done|by rewrite (sn_entries _ _ _ (Q1 x))]. }
  destruct (is_key_error e) eqn:He.
  2: { injection E as <- <-. left. split; [done|by rewrite (sn_entries _ _ _ (Q1 x))]. }
  destruct (setitem x k v s1) as [r2 s2] eqn:E2.
  destruct (set_told s1 x cls k v r2 s2) as (W2 & C2 & S2 & H2); try done.
  { by rewrite (sn_class _ _ _ (Q1 x)). } { by eapply known_eqv. }
  rewrite (sn_entries _ _ _ (Q1 x)) in H2. destruct r2 as [[]|e2].
  - rewrite (bind_Ret _ _ _ _ _ E2) in E. injection E as <- <-. right. destruct H2 as [T Hen]. split; [done|]. split; [|split; [by eapply eqv_told|done]].
    apply nskey_dunder_false in Hn. unfold get_res in Hg. rewrite Ew, Hn in Hg. unfold look in Hg. rewrite value_at_spec, ob_entries. unfold fld. rewrite Hw. simpl.
    destruct (hashable k); [by destruct (dget k (w_ent w))|injection Hg as <-; done].
  - rewrite (bind_Exc _ _ _ _ _ E2) in E. injection E as <- <-. left. destruct H2 as [T Hen]. split; [|done]. unfold untold in *. congruence.
Qed.
Lemma popitem_told s x cls r s' : wf s -> class_of s x = Some cls -> tree_class (c_behs cls) = true -> once Lifecycle (c_behs cls) ->
  (Reference ∈ c_behs cls -> all_tree_classes s) -> (forall k, held k (entries_at s x) = true -> ~ to_spaces cls k) -> popitem x s = (r, s') ->
  match r with
  | Ret (k, v) => value_at k (entries_at s x) = Some v /\ told x [EvRemoved v x k] s s' /\ entries_at s' x = remove k (entries_at s x)
  | Exc _ => untold s s' /\ entries_at s' x = entries_at s x
  end.
Proof.
  intros W Hc Ht Ho Ha Hn E. destruct (class_view _ _ _ Hc) as (w & Hw & Ew).
  destruct (iter_eff s x w W Hw) as (s1 & E1 & Q & W1); [by rewrite Ew|].
  unfold popitem, keys, iterkeys in E. rewrite (bind_Ret _ _ _ _ _ E1) in E.
  assert (He : entries_at s x = w_ent w) by (rewrite ob_entries; unfold fld; by rewrite Hw).
  pose proof Q as Q0. apply same_world_eqv in Q0 as [Q1 _ Q3].
  destruct (rev (dkeys (w_ent w))) as [|k ks] eqn:Ek.
  { injection E as <- <-. split; [done|]. by rewrite (sn_entries _ _ _ (Q1 x)). }
  assert (Hk : ~ to_spaces cls k).
  { apply Hn. rewrite held_spec. apply bool_decide_eq_true. rewrite He. apply elem_of_list_In, in_rev. fold (dkeys (w_ent w)). rewrite Ek. by left. }
  assert (Hc1 : class_of s1 x = Some cls) by (by rewrite (sn_class _ _ _ (Q1 x))). destruct (class_view _ _ _ Hc1) as (w1 & Hw1 & Ew1).
  destruct (getitem_eff s1 x w1 k) as (s2 & E2 & Qb & W2); [done|done|by rewrite Ew1|].
  pose proof Qb as Qb0. apply same_world_eqv in Qb0 as [Qb1 _ Qb3].
  destruct (get_res w1 k) as [v|e] eqn:Hg.
  2: { rewrite (bind_Exc _ _ _ _ _ E2) in E. injection E as <- <-. split; [unfold untold; congruence|]. by rewrite (sn_entries _ _ _ (Qb1 x)), (sn_entries _ _ _ (Q1 x)). }
  rewrite (bind_Ret _ _ _ _ _ E2) in E. destruct (delitem x k s2) as [r3 s3] eqn:E3.
  destruct (del_told s2 x cls k r3 s3) as (W3 & C3 & S3 & H3); try done.
  { by rewrite (sn_class _ _ _ (Qb1 x)). } { intros Hr. eapply eqv_all_tree; [done|]. eapply eqv_all_tree; eauto. }
  rewrite (sn_entries _ _ _ (Qb1 x)), (sn_entries _ _ _ (Q1 x)) in H3. destruct r3 as [[]|e].
  - rewrite (bind_Ret _ _ _ _ _ E3) in E. injection E as <- <-. destruct H3 as (v' & Hv' & T & Hen).
    assert (v' = v) as ->. { apply (get_res_held s1 x) in Hg; [|done]. rewrite Ew1 in Hg. apply nskey_dunder_false in Hk. rewrite Hk, (sn_entries _ _ _ (Q1 x)) in Hg. congruence. }
    split; [done|]. split; [|done]. eapply eqv_told; [exact Q|]. eapply eqv_told; [exact Qb|done].
  - rewrite (bind_Exc _ _ _ _ _ E3) in E. injection E as <- <-. destruct H3 as [T Hen]. split; [|done]. unfold untold in *. congruence.
Qed.
