(** C58: subscribers of the lifecycle events. *)
From Verif Require Import Py Odict Aliaser Heap Model Classes MonadFacts WF WFOps Views SpecMapping MappingProofs OdictFacts StorageProofs TreeOps SetEff NewEff Observe ObserveFacts SpecTree
  Reach MappingProps Play Quiet SpecLifecycle LifecycleProofs SilenceProofs AttrEvents P_Lifecycle Handlers SpecHandlers HandlerProofs.

(** Subscribers that do nothing: the calls are the ones all other properties are about. *)
Theorem C58_no_subscriber : forall s,
  (forall cn n p, new_node_h (fun _ => ret tt) cn n p s = new_node cn n p s) /\
  (forall x k v, setitem_h (fun _ => ret tt) x k v s = setitem x k v s) /\
  (forall x k, delitem_h (fun _ => ret tt) x k s = delitem x k s) /\
  (forall x k, detach_h (fun _ => ret tt) x k s = detach x k s).
Proof.
  intros s. split; [intros; apply instantiate_silent|]. split; [intros; apply setitem_silent|]. split; intros; [apply delitem_silent|apply detach_silent].
Qed.
Lemma once_at pre post : Lifecycle ∉ pre -> Lifecycle ∉ post -> once Lifecycle (pre ++ Lifecycle :: post).
Proof. intros H1 H2. by exists pre, post. Qed.
Lemma tree_parts pre b post : tree_class (pre ++ b :: post) = true -> forallb tree_beh (pre ++ post) = true /\ AttributesLifecycle ∉ pre /\ AttributesLifecycle ∉ post.
Proof.
  unfold tree_class. rewrite !andb_true_iff. intros H. assert (forallb tree_beh (pre ++ b :: post) = true) as Ht by tauto. rewrite forallb_app in *. simpl in Ht.
  rewrite !andb_true_iff in *. destruct Ht as [Ha [_ Hb]]. split; [done|]. rewrite forallb_forall in Ha, Hb.
  split; intros Hi; apply elem_of_list_In in Hi; [by apply Ha in Hi|by apply Hb in Hi].
Qed.
Lemma spaces_key cls k (bs : list behavior) : ~ to_spaces cls k -> (forall b, b ∈ bs -> b ∈ c_behs cls) -> Nodespaces ∈ bs -> res_key k = false.
Proof.
  intros Hn Hi H. apply nskey_dunder_false in Hn. unfold nskey in Hn. apply Hi, hasc_in in H. by rewrite H in Hn.
Qed.

(** * Items *)
(** An assignment hands the subscribers one added event, in the state in which the entry is there
    already; what they raise the call raises, and nothing is undone. (Lifecycle not behind Adopt.) *)
Theorem C58_added : forall h s x cls pre post k v,
  reach s -> class_of s x = Some cls -> tree_class (c_behs cls) = true -> c_behs cls = pre ++ Lifecycle :: post -> Lifecycle ∉ pre -> Lifecycle ∉ post ->
  (Adopt ∈ pre -> forall c, v <> VNode c) -> known s v -> ~ to_spaces cls k ->
  match setitem x k v s with
  | (Ret _, s1) => entries_at s1 x = put k v (entries_at s x) /\ told x [EvAdded v x k] s s1 /\
      setitem_h h x k v s = if suppressed s x then (Ret tt, s1) else then_returns (h (EvAdded v x k)) tt s1
  | (Exc e, s1) => entries_at s1 x = entries_at s x /\ untold s s1 /\ setitem_h h x k v s = (Exc e, s1)
  end.
Proof.
  intros h s x cls pre post k v R Hc Ht Hb H1 H2 Ha Hv Hn. pose proof (once_at pre post H1 H2) as Ho. rewrite <- Hb in Ho.
  pose proof Ht as Ht0. rewrite Hb in Ht0. apply tree_parts in Ht0 as (Hp & A1 & A2).
  assert (E : setitem_h h x k v s = (do! setitem x k v in tell h x (EvAdded v x k)) s).
  { pose proof Hc as Hc0. unfold class_of in Hc0. destruct (nodes s !! x) as [o|] eqn:Hx; [|done]. injection Hc0 as Hc0.
    unfold setitem_h, setitem. rewrite bind_assoc, !(bind_load _ _ _ _ Hx), Hc0. generalize (c_behs cls) at 1 3 as all. intros all. rewrite Hb.
    apply set_through; try done.
    - rewrite forallb_app, andb_true_iff in Hp. tauto.
    - intros Hi. specialize (Ha Hi). destruct v as [| | | | | | |c| | | |]; try done. by destruct (Ha c).
    - apply (spaces_key cls); [done|]. intros b Hi. rewrite Hb. set_solver. }
  destruct (setitem x k v s) as [r s1] eqn:Es. destruct (set_told s x cls k v r s1 (reach_wf s R) Hc Ht Ho Hv Hn Es) as (W & Hc1 & Hs & T).
  rewrite E. unfold bind. rewrite Es. destruct r as [[]|e]; [|tauto]. destruct T as [T1 T2]. split; [done|]. split; [done|].
  unfold tell, bind, load, then_returns. unfold suppressed, class_of in *. destruct (nodes s1 !! x) as [o1|]; [|done]. simpl in *. rewrite Hs.
  destruct (match nodes s !! x with Some o => o_suppress o | None => false end); [done|]. destruct (h _ s1) as [[[]|e] s2]; done.
Qed.

(** Adopt before Lifecycle: the subscribers run inside the adoption. When they raise AttributeError,
    KeyError or ValueError, the child gets its old name and parent back, but stays stored. *)
Lemma take_back_eff c n p e s : exists_node s c -> adopt_catches e = true ->
  exists s', take_back c n p e s = (Exc e, s') /\ renamed c (Some n) p s s'.
Proof.
  intros [o Ho] He. unfold take_back. rewrite He, (bind_modify _ _ _ _ _ Ho).
  rewrite (bind_modify c _ _ (with_name n o)) by (simpl; by rewrite lookup_insert).
  eexists. split; [reflexivity|]. constructor; try done;
    unfold name_at, parent_at, class_of, entries_at, spaces_at, cache_at, fixed_at, uuid_at, index_id, suppressed; simpl; rewrite ?lookup_insert, ?Ho; try done.
  intros y Hy. constructor; unfold name_at, parent_at, class_of, entries_at, spaces_at, cache_at, fixed_at, uuid_at, index_id, suppressed; simpl; by rewrite !lookup_insert_ne by done.
Qed.
Lemma answered_caught e : answered e <-> adopt_catches e = true.
Proof.
  split.
  - by intros [->|[[k ->]|[[m ->]| ->]]].
  - destruct e; try done; intros _; unfold answered; eauto 6.
Qed.
Theorem C58_adopted : forall h s x cls pre mid post k c,
  reach s -> class_of s x = Some cls -> tree_class (c_behs cls) = true -> c_behs cls = pre ++ Adopt :: mid ++ Lifecycle :: post ->
  Lifecycle ∉ pre ++ mid -> Lifecycle ∉ post -> Adopt ∉ pre ++ mid -> exists_node s c -> ~ to_spaces cls k ->
  match setitem x k (VNode c) s with
  | (Ret _, s1) => entries_at s1 x = put k (VNode c) (entries_at s x) /\ told x [EvAdded (VNode c) x k] s s1 /\
      if suppressed s x then setitem_h h x k (VNode c) s = (Ret tt, s1)
      else match h (EvAdded (VNode c) x k) s1 with
           | (Ret _, s2) => setitem_h h x k (VNode c) s = (Ret tt, s2)
           | (Exc e, s2) => (~ answered e -> setitem_h h x k (VNode c) s = (Exc e, s2)) /\
               (answered e -> exists_node s2 c -> exists s3, setitem_h h x k (VNode c) s = (Exc e, s3) /\ renamed c (name_at s c) (parent_at s c) s2 s3)
           end
  | (Exc e, s1) => entries_at s1 x = entries_at s x /\ untold s s1 /\ setitem_h h x k (VNode c) s = (Exc e, s1)
  end.
Proof.
  intros h s x cls pre mid post k c R Hc Ht Hb H1 H2 Had [oc Hoc] Hn.
  assert (Hb2 : c_behs cls = (pre ++ Adopt :: mid) ++ Lifecycle :: post) by (by rewrite Hb, <- app_assoc).
  assert (H1' : Lifecycle ∉ pre ++ Adopt :: mid) by (rewrite elem_of_app, elem_of_cons in *; intuition done).
  pose proof (once_at _ post H1' H2) as Ho. rewrite <- Hb2 in Ho.
  pose proof Ht as Ht0. rewrite Hb2 in Ht0. apply tree_parts in Ht0 as (Hp & A1 & A2).
  assert (E : setitem_h h x k (VNode c) s = (do! setitem x k (VNode c) in
    try_catch (tell h x (EvAdded (VNode c) x k)) (fun _ => true) (take_back c (o_name oc) (o_parent oc))) s).
  { pose proof Hc as Hc0. unfold class_of in Hc0. destruct (nodes s !! x) as [o|] eqn:Hx; [|done]. injection Hc0 as Hc0.
    unfold setitem_h, setitem. rewrite bind_assoc, !(bind_load _ _ _ _ Hx), Hc0. generalize (c_behs cls) at 1 3 as all. intros all. rewrite Hb.
    apply (set_back h all pre mid post x k c oc); try done.
    - rewrite <- app_assoc, !forallb_app in Hp. simpl in Hp. rewrite !andb_true_iff in Hp. rewrite forallb_app, andb_true_iff. tauto.
    - split; [done|]. rewrite elem_of_app, elem_of_cons in *. intuition done.
    - apply (spaces_key cls); [done|]. intros b Hi. rewrite Hb. set_solver. }
  destruct (setitem x k (VNode c) s) as [r s1] eqn:Es.
  destruct (set_told s x cls k (VNode c) r s1 (reach_wf s R) Hc Ht Ho ltac:(by exists oc) Hn Es) as (W & Hc1 & Hs & T).
  rewrite E. unfold bind. rewrite Es. destruct r as [[]|e]; [|tauto]. destruct T as [T1 T2]. split; [done|]. split; [done|].
  assert (Et : tell h x (EvAdded (VNode c) x k) s1 = if suppressed s x then (Ret tt, s1) else h (EvAdded (VNode c) x k) s1).
  { unfold tell, bind, load. unfold suppressed, class_of in *. destruct (nodes s1 !! x) as [o1|]; [|done]. simpl in *. rewrite Hs.
    by destruct (match nodes s !! x with Some o => o_suppress o | None => false end). }
  unfold try_catch. rewrite Et. destruct (suppressed s x); [done|]. destruct (h _ s1) as [[[]|e] s2]; [done|]. rewrite answered_caught. split.
  - intros Hne. unfold take_back. by destruct (adopt_catches e).
  - intros He Hx2. destruct (take_back_eff c (o_name oc) (o_parent oc) e s2 Hx2 He) as (s3 & E3 & Rn). exists s3. split; [done|].
    unfold name_at, parent_at. by rewrite Hoc.
Qed.
(** A deletion hands the subscribers one removed event with the value that was held, after it is gone. *)
Theorem C58_removed : forall h s x cls pre post k,
  reach s -> class_of s x = Some cls -> tree_class (c_behs cls) = true -> c_behs cls = pre ++ Lifecycle :: post -> Lifecycle ∉ pre -> Lifecycle ∉ post ->
  (Reference ∈ c_behs cls -> all_tree_classes s) -> ~ to_spaces cls k ->
  match delitem x k s with
  | (Ret _, s1) => exists v, value_at k (entries_at s x) = Some v /\ entries_at s1 x = SpecMapping.remove k (entries_at s x) /\ told x [EvRemoved v x k] s s1 /\
      delitem_h h x k s = if suppressed s x then (Ret tt, s1) else then_returns (h (EvRemoved v x k)) tt s1
  | (Exc e, s1) => entries_at s1 x = entries_at s x /\ untold s s1 /\ delitem_h h x k s = (Exc e, s1)
  end.
Proof.
  intros h s x cls pre post k R Hc Ht Hb H1 H2 Ha Hn. pose proof (once_at pre post H1 H2) as Ho. rewrite <- Hb in Ho.
  pose proof Ht as Ht0. rewrite Hb in Ht0. apply tree_parts in Ht0 as (Hp & A1 & A2).
  assert (E : exists v, (forall s1, delitem x k s = (Ret tt, s1) -> suppressed s1 x = false -> exists l, log s1 = l ++ [EvRemoved v x k]) /\
     delitem_h h x k s = (do! delitem x k in tell h x (EvRemoved v x k)) s).
  { pose proof Hc as Hc0. unfold class_of in Hc0. destruct (nodes s !! x) as [o|] eqn:Hx; [|done]. injection Hc0 as Hc0.
    assert (Ed : delitem x k s = del_stack (c_behs cls) (pre ++ Lifecycle :: post) x k s) by (unfold delitem; by rewrite (bind_load _ _ _ _ Hx), Hc0, <- Hb).
    destruct (del_through h (c_behs cls) pre post x k) with (s := s) as (v & V & P); try done.
    - rewrite forallb_app, andb_true_iff in Hp. tauto.
    - apply (spaces_key cls); [done|]. intros b Hi. rewrite Hb. set_solver.
    - exists v. rewrite Ed. split; [done|]. unfold delitem_h. rewrite (bind_load _ _ _ _ Hx), Hc0.
      assert (Eh : del_stack_h h (c_behs cls) (c_behs cls) x k s = del_stack_h h (c_behs cls) (pre ++ Lifecycle :: post) x k s) by (by rewrite <- Hb).
      rewrite Eh, P. unfold bind. by rewrite Ed. }
  destruct E as (v & V & E).
  destruct (delitem x k s) as [r s1] eqn:Es. destruct (del_told s x cls k r s1 (reach_wf s R) Hc Ht Ho Ha Hn Es) as (W & Hc1 & Hs & T).
  rewrite E. unfold bind. rewrite Es. destruct r as [[]|e]; [|tauto]. destruct T as (v' & T1 & T2 & T3). exists v'. split; [done|]. split; [done|]. split; [done|].
  specialize (Hc1 x). rewrite Hc in Hc1. specialize (V s1 eq_refl). rewrite Hs in V. unfold told in T2.
  assert (Et : tell h x (EvRemoved v x k) s1 = if suppressed s x then (Ret tt, s1) else h (EvRemoved v x k) s1).
  { unfold tell, bind, load. unfold suppressed, class_of in *. destruct (nodes s1 !! x) as [o1|]; [|done]. simpl in *. rewrite Hs.
    by destruct (match nodes s !! x with Some o => o_suppress o | None => false end). }
  rewrite Et. destruct (suppressed s x); [done|]. destruct (V eq_refl) as [l El]. rewrite T2 in El. apply app_inj_tail in El as [_ [= ->]].
  unfold then_returns. by destruct (h _ s1) as [[[]|e] s2].
Qed.
(** Detaching hands them one detached event, after the child is out; the node is not silent then. *)
Theorem C58_detached : forall h s x cls pre post k,
  reach s -> class_of s x = Some cls -> tree_class (c_behs cls) = true -> c_behs cls = pre ++ Lifecycle :: post -> Lifecycle ∉ pre -> Lifecycle ∉ post ->
  Reference ∉ c_behs cls -> ~ to_spaces cls k ->
  match detach x k s with
  | (Ret v, s1) => log s1 = log s ++ [EvDetached v x k] /\ suppressed s1 x = false /\ detach_h h x k s = then_returns (h (EvDetached v x k)) v s1
  | (Exc e, s1) => untold s s1 /\ detach_h h x k s = (Exc e, s1)
  end.
Proof.
  intros h s x cls pre post k R Hc Ht Hb H1 H2 Hr Hn. pose proof (once_at pre post H1 H2) as Ho. rewrite <- Hb in Ho.
  pose proof Ht as Ht0. rewrite Hb in Ht0. apply tree_parts in Ht0 as (Hp & A1 & A2). destruct (reach_loud s x cls R Hc) as [_ Hx].
  assert (Hrp : Reference ∉ pre) by (rewrite Hb in Hr; set_solver).
  assert (E : detach_h h x k s = (let! v := detach x k in do! h (EvDetached v x k) in ret v) s).
  { apply (detach_through h x k cls pre post); try done.
    - rewrite forallb_app, andb_true_iff in Hp. tauto.
    - apply (spaces_key cls); [done|]. intros b Hi. rewrite Hb. set_solver. }
  rewrite E. unfold bind. destruct (detach x k s) as [[v|e] s1] eqn:Es.
  - split; [by apply (detach_told s x cls k v s1 (reach_wf s R))|]. split; [|unfold then_returns; by destruct (h _ s1) as [[[]|e] s2]].
    pose proof (C19_detach_ends_silence s x k cls v R Hc Ho) as Q. rewrite Es in Q. by apply Q.
  - split; [|done]. by apply (detach_untold s x cls k e s1 (reach_wf s R)).
Qed.
(** Creating hands them one created event, with the node complete; when they raise, the call raises. *)
Theorem C58_created : forall h s cn cls pre post n p,
  reach s -> classes s !! cn = Some cls -> new_class (c_behs cls) = true -> c_behs cls = pre ++ Lifecycle :: post -> Lifecycle ∉ pre -> Lifecycle ∉ post ->
  (forall q, p = Some q -> exists_node s q) ->
  exists x s1, new_node cn n p s = (Ret x, s1) /\ log s1 = log s ++ [EvCreated x] /\ new_node_h h cn n p s = then_returns (h (EvCreated x)) x s1.
Proof.
  intros h s cn cls pre post n p R Hc Hn Hb H1 H2 Hp. pose proof (once_at pre post H1 H2) as Ho. rewrite <- Hb in Ho.
  destruct (new_told s cn cls n p (reach_wf s R) (reach_uuid s R) Hc Hn Ho Hp) as (x & s1 & E & L & _). exists x, s1. split; [done|]. split; [done|].
  unfold new_class, tree_class in Hn. rewrite !andb_true_iff, negb_true_iff in Hn. destruct Hn as (((Ht & Hd) & Hu) & _).
  rewrite (new_through h cn n p s cls pre post Hc Hb (proj1 Ht)); try done.
  - unfold bind at 1. rewrite E. unfold bind, then_returns. by destruct (h _ s1) as [[[]|e] s2].
  - intros Hi. assert (hasc UUIDAware (c_behs cls) = true) by (apply hasc_in; rewrite Hb; set_solver). congruence.
Qed.

(** * Attributes *)
(** A change of the attributes hands the subscribers one modified event for the owning node. *)
Lemma modified_end h x p clsp s s1 : x < next_id s -> p < next_id s -> parent_at s x = Some p -> class_of s p = Some clsp -> Lifecycle ∈ c_behs clsp ->
  quiet s s1 -> (x < next_id s -> (o_parent <$> nodes s1 !! x) = (o_parent <$> nodes s !! x)) ->
  tell_modified h x s1 = if suppressed s p then (Ret tt, s1) else then_returns (h (EvModified p)) tt s1.
Proof.
  intros Hx Hp Hpa Hcp Hl Q P. specialize (P Hx). destruct (quiet_sup _ _ p Q Hp) as [Hs Hcl]. unfold parent_at in Hpa. rewrite Hcp in Hcl.
  destruct (nodes s !! x) as [o|]; [|done]. simpl in Hpa. unfold tell_modified. destruct (nodes s1 !! x) as [o1|] eqn:Ho1; [|done]. injection P as P.
  rewrite (bind_load _ _ _ _ Ho1), P, Hpa. unfold class_of in Hcl. destruct (nodes s1 !! p) as [po|] eqn:Hpo; [|done]. injection Hcl as Hcl.
  rewrite (bind_load _ _ _ _ Hpo). assert (Ha : has Lifecycle po = true) by (unfold has; rewrite Hcl; by apply bool_decide_eq_true_2).
  rewrite Ha, <- Hs. unfold suppressed. rewrite Hpo. destruct (o_suppress po); [done|]. unfold then_returns. by destruct (h _ s1) as [[[]|e] s2].
Qed.
Theorem C58_set_modified : forall h s x cls p clsp pre post k v,
  reach s -> class_of s x = Some cls -> c_behs cls = pre ++ AttributesLifecycle :: post -> forallb plain_beh (pre ++ post) = true ->
  (Adopt ∈ pre -> forall c, v <> VNode c) -> parent_at s x = Some p -> class_of s p = Some clsp -> v <> VNode x ->
  match setitem x k v s with
  | (Ret _, s1) => told p [EvModified p] s s1 /\ setitem_h h x k v s = if suppressed s p then (Ret tt, s1) else then_returns (h (EvModified p)) tt s1
  | (Exc e, s1) => untold s s1 /\ setitem_h h x k v s = (Exc e, s1)
  end.
Proof.
  intros h s x cls p clsp pre post k v R Hc Hb Hpp Ha Hpa Hcp Hv. destruct (reach_loud s x cls R Hc) as [_ Hx]. destruct (reach_loud s p clsp R Hcp) as [_ Hpx].
  rewrite forallb_app, andb_true_iff in Hpp. destruct Hpp as [Hpre Hpost]. pose proof Hc as Hc0. unfold class_of in Hc0. destruct (nodes s !! x) as [o|] eqn:Ho; [|done]. injection Hc0 as Hc0.
  assert (Es : setitem x k v s = set_stack (c_behs cls) (pre ++ AttributesLifecycle :: post) x k v s) by (unfold setitem; by rewrite (bind_load _ _ _ _ Ho), Hc0, <- Hb).
  assert (Eh : setitem_h h x k v s = set_stack_h h (c_behs cls) (pre ++ AttributesLifecycle :: post) x k v s) by (unfold setitem_h; by rewrite (bind_load _ _ _ _ Ho), Hc0, <- Hb).
  pose proof Hcp as Hcp0. unfold class_of in Hcp0. destruct (nodes s !! p) as [po|] eqn:Hpo; [|done]. injection Hcp0 as Hcp0.
  pose proof (set_tells (c_behs cls) pre post x k v p clsp _ Hpre Hpost Hv eq_refl s Hx Hpx) as T.
  rewrite Eh, (set_modified h (c_behs cls) pre post x k v Hpre Hpost), Es; [|intros Hi; specialize (Ha Hi); destruct v as [| | | | | | |c| | | |]; try done; by destruct (Ha c)].
  unfold bind. destruct (set_stack (c_behs cls) (pre ++ AttributesLifecycle :: post) x k v s) as [r s1]. simpl in T. destruct T as (T1 & T2 & T3).
  { exists o. split; [done|]. unfold parent_at in Hpa. by rewrite Ho in Hpa. }
  { by exists po. }
  destruct r as [[]|e]; [|done]. destruct T1 as [T0 T1]. apply bool_decide_eq_true in T0. split; [done|]. by apply (modified_end h x p clsp).
Qed.
Theorem C58_del_modified : forall h s x cls p clsp pre post k,
  reach s -> class_of s x = Some cls -> c_behs cls = pre ++ AttributesLifecycle :: post -> forallb plain_beh (pre ++ post) = true ->
  parent_at s x = Some p -> class_of s p = Some clsp ->
  match delitem x k s with
  | (Ret _, s1) => told p [EvModified p] s s1 /\ delitem_h h x k s = if suppressed s p then (Ret tt, s1) else then_returns (h (EvModified p)) tt s1
  | (Exc e, s1) => untold s s1 /\ delitem_h h x k s = (Exc e, s1)
  end.
Proof.
  intros h s x cls p clsp pre post k R Hc Hb Hpp Hpa Hcp. destruct (reach_loud s x cls R Hc) as [_ Hx]. destruct (reach_loud s p clsp R Hcp) as [_ Hpx].
  rewrite forallb_app, andb_true_iff in Hpp. destruct Hpp as [Hpre Hpost]. pose proof Hc as Hc0. unfold class_of in Hc0. destruct (nodes s !! x) as [o|] eqn:Ho; [|done]. injection Hc0 as Hc0.
  assert (Es : delitem x k s = del_stack (c_behs cls) (pre ++ AttributesLifecycle :: post) x k s) by (unfold delitem; by rewrite (bind_load _ _ _ _ Ho), Hc0, <- Hb).
  assert (Eh : delitem_h h x k s = del_stack_h h (c_behs cls) (pre ++ AttributesLifecycle :: post) x k s) by (unfold delitem_h; by rewrite (bind_load _ _ _ _ Ho), Hc0, <- Hb).
  pose proof Hcp as Hcp0. unfold class_of in Hcp0. destruct (nodes s !! p) as [po|] eqn:Hpo; [|done]. injection Hcp0 as Hcp0.
  pose proof (del_tells (c_behs cls) pre post x k p clsp _ Hpre Hpost eq_refl s Hx Hpx) as T.
  rewrite Eh, (del_modified h (c_behs cls) pre post x k Hpre Hpost), Es.
  unfold bind. destruct (del_stack (c_behs cls) (pre ++ AttributesLifecycle :: post) x k s) as [r s1]. simpl in T. destruct T as (T1 & T2 & T3).
  { exists o. split; [done|]. unfold parent_at in Hpa. by rewrite Ho in Hpa. }
  { by exists po. }
  destruct r as [[]|e]; [|done]. destruct T1 as [T0 T1]. apply bool_decide_eq_true in T0. split; [done|]. by apply (modified_end h x p clsp).
Qed.

(** * Histories *)
Lemma live_iff s x : live s x <-> exists_node s x.
Proof. done. Qed.
Lemma then_reach {A} h e (a : A) s1 : api_only h -> reach s1 -> mentions s1 e -> reach (snd (then_returns (h e) a s1)).
Proof. intros Hh R1 Hm. specialize (Hh e s1 R1 Hm). unfold then_returns. by destruct (h e s1) as [[[]|e'] s2]. Qed.
Lemma known_ext s s' v : ext s s' -> known s v -> known s' v.
Proof. intros E. destruct v as [| | | | | | |c| | | |]; try done. simpl. intros [o Ho]. destruct (ext_nodes _ _ E _ _ Ho) as (o' & H & _). by exists o'. Qed.
Lemma exists_ext s s' x : ext s s' -> exists_node s x -> exists_node s' x.
Proof. intros E [o Ho]. destruct (ext_nodes _ _ E _ _ Ho) as (o' & H & _). by exists o'. Qed.
Lemma snd_ignore {A} (m : M A) s : snd (ignore m s) = snd (m s).
Proof. unfold ignore, bind. by destruct (m s) as [[a|e] s1]. Qed.
Lemma call_reach h s c : api_only h -> reach s -> op_ok s (call_of c) -> attended s c -> reach (snd (run_h h c s)).
Proof.
  intros Hh R Hk Ha. pose proof (reach_wf s R) as W. assert (N : reach (snd (run_op (call_of c) s))) by (destruct (run_op (call_of c) s) eqn:E; by eapply reach_step).
  destruct c as [cn n p|x k v|x k|x k]; simpl in *.
  - destruct Ha as (cls & Hc & Hn & Ht & pre & post & Hb & H1 & H2 & _).
    destruct (C58_created h s cn cls pre post n p R Hc Hn Hb H1 H2 Hk) as (x & s1 & E & L & Eh). rewrite snd_ignore in *. rewrite Eh. rewrite E in N.
    apply then_reach; try done. simpl. destruct (safe_new_node s cn n p) as (_ & _ & Hl); try done. by rewrite E in Hl.
  - destruct Ha as (cls & Hc & (Ht & pre & post & Hb & H1 & H2 & Ha) & Hn). destruct Hk as [Hx Hv].
    pose proof (C58_added h s x cls pre post k v R Hc Ht Hb H1 H2 Ha Hv Hn) as T. destruct (safe_setitem s x k v) as (_ & E & _); try done.
    destruct (setitem x k v s) as [[[]|e] s1]; simpl in *; [|by destruct T as (_ & _ & ->)]. destruct T as (_ & _ & ->). destruct (suppressed s x); [done|].
    apply then_reach; try done. split; [by eapply known_ext|by eapply exists_ext].
  - destruct Ha as (cls & Hc & (Ht & pre & post & Hb & H1 & H2 & _) & Hn & Hr).
    pose proof (C58_removed h s x cls pre post k R Hc Ht Hb H1 H2 Hr Hn) as T. destruct (safe_delitem s x k) as (_ & E & _); try done.
    destruct (delitem x k s) as [[[]|e] s1]; simpl in *; [|by destruct T as (_ & _ & ->)]. destruct T as (v & Hv & _ & _ & ->). destruct (suppressed s x); [done|].
    apply then_reach; try done. split; [|by eapply exists_ext]. eapply known_ext; [exact E|]. pose proof (entries_known s x W) as K.
    rewrite value_at_spec in Hv. apply dget_Some_in in Hv. rewrite Forall_forall in K. exact (proj2 (K _ Hv)).
  - destruct Ha as (cls & Hc & (Ht & pre & post & Hb & H1 & H2 & _) & Hn & Hr).
    pose proof (C58_detached h s x cls pre post k R Hc Ht Hb H1 H2 Hr Hn) as T. destruct (safe_detach s x k) as (_ & E & Q); try done. rewrite snd_ignore in *.
    destruct (detach x k s) as [[v|e] s1]; simpl in *; [|by destruct T as (_ & ->)]. destruct T as (_ & _ & ->).
    apply then_reach; try done. split; [|by eapply exists_ext]. by destruct v.
Qed.
(** Everything proved of the reachable states holds in programs with subscribers, as long as these
    only use the API. *)
Theorem C58_histories : forall h s, api_only h -> reach_h h s -> reach s.
Proof.
  intros h s Hh R. induction R as [cs|s o r s' R IH Hk E|s c r s' R IH Hk Ha E]; [apply reach_init|by eapply reach_step|].
  pose proof (call_reach h s c Hh IH Hk Ha) as H. by rewrite E in H.
Qed.

(** Subscribers that refuse added nodes and count the removed ones on the parent. *)
Definition picky (e : event) : M unit :=
  match e with
  | EvAdded (VNode _) _ _ => raise (ValueError "no")
  | EvRemoved _ x k => setitem x (KStr "last") (match k with KStr t => VStr t | _ => VNone end)
  | EvModified x => setitem x (KStr "touched") (VBool true)
  | EvDetached _ _ _ => raise RuntimeError
  | _ => ret tt
  end.
Example C58_example : reach C18_s /\ class_of C18_s 0 = Some LifecycleNode /\ tree_class (c_behs LifecycleNode) = true /\ new_class (c_behs LifecycleNode) = true /\
  c_behs LifecycleNode = [Nodespaces; Attributes] ++ Lifecycle :: [DefaultInit; Nodify; DictStorage] /\ Adopt ∉ [Nodespaces; Attributes] /\
  known C18_s (VNode 2) /\ ~ to_spaces LifecycleNode (KStr "c") /\
  fst (setitem_h picky 0 (KStr "c") (VNode 2) C18_s) = Exc (ValueError "no") /\
  entries_at (snd (setitem_h picky 0 (KStr "c") (VNode 2) C18_s)) 0 = [(KStr "a", VNode 1); (KStr "b", VNode 2); (KStr "c", VNode 2)] /\
  fst (delitem_h picky 0 (KStr "a") C18_s) = Ret tt /\
  entries_at (snd (delitem_h picky 0 (KStr "a") C18_s)) 0 = [(KStr "b", VNode 2); (KStr "last", VStr "a")] /\
  log (snd (delitem_h picky 0 (KStr "a") C18_s)) = log C18_s ++ [EvRemoved (VNode 1) 0 (KStr "a"); EvAdded (VStr "a") 0 (KStr "last")] /\
  fst (detach_h picky 0 (KStr "b") C18_s) = Exc RuntimeError /\ entries_at (snd (detach_h picky 0 (KStr "b") C18_s)) 0 = [(KStr "a", VNode 1)] /\
  (let s := snd (detach_h picky 0 (KStr "b") C18_s) in log (snd (setitem_h picky 0 (KStr "d") (VInt 1) s)) = log s ++ [EvAdded (VInt 1) 0 (KStr "d")]) /\
  fst (new_node_h (fun _ => raise TypeError) LN KNone None C18_s) = Exc TypeError.
Proof.
  split; [apply after_reach|]. split; [done|]. split; [done|]. split; [done|]. split; [done|]. split; [set_solver|].
  split; [vm_compute; by eexists|]. split; [by apply LN_plain|]. vm_compute. done.
Qed.
Example C58_attributes_example : reach C20_s /\ class_of C20_s 2 = Some LifecycleNodeAttributes /\ parent_at C20_s 2 = Some 0 /\ class_of C20_s 0 = Some LifecycleNode /\
  c_behs LifecycleNodeAttributes = [] ++ AttributesLifecycle :: [NodeChildValidate; Adopt; DefaultInit; Nodify; OdictStorage] /\
  fst (setitem_h picky 2 (KStr "x") (VInt 1) C20_s) = Ret tt /\ entries_at (snd (setitem_h picky 2 (KStr "x") (VInt 1) C20_s)) 0 = [(KStr "touched", VBool true)] /\
  log (snd (delitem_h picky 2 (KStr "title") C20_s)) = log C20_s ++ [EvModified 0; EvAdded (VBool true) 0 (KStr "touched")].
Proof. split; [apply after_reach|]. vm_compute. done. Qed.
Lemma reach_quiet h s : reach s -> reach_h h s.
Proof. intros R. induction R; [apply rh_init|by eapply rh_plain]. Qed.
Example C58_histories_example : api_only picky /\ reach_h picky (snd (delitem_h picky 0 (KStr "a") C18_s)) /\
  entries_at (snd (delitem_h picky 0 (KStr "a") C18_s)) 0 = [(KStr "b", VNode 2); (KStr "last", VStr "a")].
Proof.
  assert (S : forall s x k v, reach s -> exists_node s x -> known s v -> reach (snd (setitem x k v s))).
  { intros s x k v R Hx Hv. destruct (setitem x k v s) as [r s'] eqn:E. by apply (reach_step s (OSet x k v) r s' R). }
  split; [|split; [|vm_compute; reflexivity]].
  - intros e s R Hm. destruct e as [x|v x k|v x k|v x k|x]; simpl in *; try done; try (by destruct v); apply S; try done; try (by destruct Hm). by destruct k.
  - refine (rh_call picky C18_s (HDel 0 (KStr "a")) _ _ (reach_quiet _ _ (after_reach _)) _ _ (surjective_pairing _)); [vm_compute; by eexists|].
    exists LifecycleNode. split; [done|]. split; [|split; [by apply LN_plain|set_solver]]. split; [done|].
    exists [Nodespaces; Attributes], [DefaultInit; Nodify; DictStorage]. split; [done|]. split; [set_solver|]. split; [set_solver|done].
Qed.
(** A subscriber's refusal is no veto: the child stays stored; and with Adopt before Lifecycle the
    node that holds it is not the one it names as its parent. *)
Definition AL := mkclass "AL" [Adopt; Lifecycle; DefaultInit; Nodify; OdictStorage].
Definition C58_s := after_in [AL] [ONew "AL" (KStr "root") None; ONew "AL" (KStr "other") None; ONew "AL" KNone None; OSet 1 (KStr "c") (VNode 2)].
Example C58_adopted_example : reach C58_s /\ class_of C58_s 0 = Some AL /\ tree_class (c_behs AL) = true /\
  c_behs AL = [] ++ Adopt :: [] ++ Lifecycle :: [DefaultInit; Nodify; OdictStorage] /\ exists_node C58_s 2 /\ ~ to_spaces AL (KStr "k") /\ suppressed C58_s 0 = false /\
  name_at C58_s 2 = Some (KStr "c") /\ parent_at C58_s 2 = Some 1 /\ answered (ValueError "no") /\ ~ answered RuntimeError /\
  parent_at (snd (setitem_h (fun _ => raise RuntimeError) 0 (KStr "k") (VNode 2) C58_s)) 2 = Some 0.
Proof.
  split; [apply after_in_reach|]. split; [vm_compute; done|]. split; [done|]. split; [done|]. split; [vm_compute; by eexists|].
  split; [intros [H _]; set_solver|]. split; [vm_compute; done|]. split; [vm_compute; done|]. split; [vm_compute; done|].
  split; [unfold answered; eauto|]. split; [rewrite answered_caught; done|vm_compute; done].
Qed.
Theorem C58_refusal_undoes_refuted : exists h s x k c e s', reach s /\ class_of s x = Some AL /\ value_at k (entries_at s x) = None /\
  setitem_h h x k (VNode c) s = (Exc e, s') /\ value_at k (entries_at s' x) = Some (VNode c) /\ name_at s' c = name_at s c /\ parent_at s' c = parent_at s c /\ parent_at s' c <> Some x.
Proof.
  exists picky, C58_s, 0, (KStr "k"), 2, (ValueError "no"), (snd (setitem_h picky 0 (KStr "k") (VNode 2) C58_s)).
  split; [apply after_in_reach|]. split; [vm_compute; done|]. split; [vm_compute; done|]. split; [exact (outcome _ _ ltac:(vm_compute; reflexivity))|].
  split; [vm_compute; done|]. split; [vm_compute; done|]. split; [vm_compute; done|]. vm_compute. by intros [=].
Qed.

Print Assumptions C58_no_subscriber.
Print Assumptions C58_added.
Print Assumptions C58_adopted.
Print Assumptions C58_removed.
Print Assumptions C58_detached.
Print Assumptions C58_created.
Print Assumptions C58_set_modified.
Print Assumptions C58_del_modified.
Print Assumptions C58_histories.
Print Assumptions C58_refusal_undoes_refuted.
