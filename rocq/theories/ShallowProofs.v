(** Proofs about copy. *)
From Verif Require Import Py Odict Aliaser Heap Model Classes MonadFacts WF WFOps Views StrFacts SpecMapping MappingProofs StorageProofs TreeOps
  Observe ObserveFacts SpecTree SetEff DelEff DetachEff Reach MappingProps Slots SpecCopy.

Lemma copy_stack_uuid bs s x : UUIDAware ∈ bs -> copy_stack bs x s = (Exc RuntimeError, s).
Proof.
  induction bs as [|b bs IH]; intros Hu; [by apply elem_of_nil in Hu|]. simpl.
  destruct (decide (b = UUIDAware)) as [->|Hb]; [done|]. assert (IH' := IH ltac:(set_solver)).
  destruct b; try exact IH'; try done. simpl. unfold bind at 1. by rewrite IH'.
Qed.
Theorem copy_uuid_aware s x cls : class_of s x = Some cls -> UUIDAware ∈ c_behs cls -> copy x s = (Exc RuntimeError, s).
Proof.
  intros Hc Hu. unfold class_of in Hc. destruct (nodes s !! x) as [o|] eqn:Ho; [|done]. injection Hc as <-.
  unfold copy. rewrite (bind_load _ _ _ _ Ho). by apply copy_stack_uuid.
Qed.
Lemma with_same o : with_parent (o_parent o) (with_name (o_name o) o) = o.
Proof. by destruct o. Qed.
Lemma insert_same (m : gmap nat obj) c o : m !! c = Some o -> <[c := o]> m = m.
Proof. apply insert_id. Qed.
(** Setting the name and the parent again changes nothing. *)
Lemma copy_stack_eff bs s x o : UUIDAware ∉ bs -> nodes s !! x = Some o -> x < next_id s ->
  copy_stack bs x s = (Ret (next_id s), set_next_id S (set_nodes <[next_id s := o]> s)).
Proof.
  intros Hu Ho Hx. induction bs as [|b bs IH]; simpl.
  { unfold shallow. by rewrite (bind_load _ _ _ _ Ho). }
  assert (IH' := IH ltac:(set_solver)). clear IH.
  destruct b; try exact IH'; [set_solver|]. simpl. rewrite (bind_Ret _ _ _ _ _ IH').
  assert (E0 : nodes (set_next_id S (set_nodes <[next_id s := o]> s)) !! x = Some o) by (simpl; by rewrite lookup_insert_ne by lia).
  rewrite (bind_load _ _ _ _ E0).
  assert (E1 : modify (next_id s) (with_name (o_name o)) (set_next_id S (set_nodes <[next_id s := o]> s)) = (Ret tt, set_next_id S (set_nodes <[next_id s := o]> s))).
  { unfold modify. simpl. rewrite lookup_insert. f_equal. unfold set_nodes, set_next_id. simpl. rewrite insert_insert. do 2 f_equal. by destruct o. }
  assert (E2 : modify (next_id s) (with_parent (o_parent o)) (set_next_id S (set_nodes <[next_id s := o]> s)) = (Ret tt, set_next_id S (set_nodes <[next_id s := o]> s))).
  { unfold modify. simpl. rewrite lookup_insert. f_equal. unfold set_nodes, set_next_id. simpl. rewrite insert_insert. do 2 f_equal. by destruct o. }
  by rewrite (bind_Ret _ _ _ _ _ E1), (bind_Ret _ _ _ _ _ E2).
Qed.
Definition copied (s : st) (o : obj) : st := set_next_id S (set_nodes <[next_id s := o]> s).
Lemma copy_eff s x o : wf s -> nodes s !! x = Some o -> UUIDAware ∉ c_behs (o_cls o) -> copy x s = (Ret (next_id s), copied s o).
Proof.
  intros W Ho Hu. unfold copy. rewrite (bind_load _ _ _ _ Ho). apply copy_stack_eff; try done. by destruct (wf_nodes _ W _ _ Ho).
Qed.
Lemma next_free s : wf s -> nodes s !! next_id s = None.
Proof. intros W. destruct (nodes s !! next_id s) eqn:E; [|done]. destruct (wf_nodes _ W _ _ E). lia. Qed.

Theorem copy_looks s x cls : wf s -> class_of s x = Some cls -> UUIDAware ∉ c_behs cls ->
  exists c s', copy x s = (Ret c, s') /\ ~ exists_node s c /\ looks_like s x s' c /\
    (forall y, exists_node s y -> same_node s s' y) /\ idxs s' = idxs s /\ log s' = log s.
Proof.
  intros W Hc Hu. unfold class_of in Hc. destruct (nodes s !! x) as [o|] eqn:Ho; [|done]. simpl in Hc. injection Hc as <-.
  exists (next_id s), (copied s o). split; [by apply copy_eff|]. split. { intros [? H]. rewrite next_free in H by done. done. }
  split; [|split; [|done]].
  - assert (E : nodes (copied s o) !! next_id s = Some o) by (simpl; apply lookup_insert).
    constructor; unfold class_of, name_at, parent_at, entries_at, cache_at, fixed_at, uuid_at, index_id, allows, suppressed; by rewrite E, Ho.
  - intros y [oy Hy]. assert (next_id s <> y) by (intros <-; by rewrite next_free in Hy).
    assert (E : nodes (copied s o) !! y = Some oy) by (simpl; by rewrite lookup_insert_ne).
    constructor; unfold class_of, name_at, parent_at, entries_at, spaces_at, cache_at, fixed_at, uuid_at, index_id, suppressed; by rewrite E, Hy.
Qed.

(** * Shared storage *)
Definition sharing (s : st) (x c : nat) (l : nat) : Prop := x < next_id s /\ c < next_id s /\
  exists o o', nodes s !! x = Some o /\ nodes s !! c = Some o' /\ o_cls o' = o_cls o /\ o_storage o = Some l /\ o_storage o' = Some l.
Lemma sharing_stays s s' x c l : stays s s' -> sharing s x c l -> sharing s' x c l.
Proof.
  intros (A & B & C) (Lx & Lc & o & o' & Ho & Ho' & E & F & F'). destruct (C x o Lx Ho) as (o1 & Ho1 & E1 & F1). destruct (C c o' Lc Ho') as (o2 & Ho2 & E2 & F2).
  split; [lia|]. split; [lia|]. exists o1, o2. split; [done|]. split; [done|]. split; [congruence|]. split; [by apply F1|by apply F2].
Qed.
Lemma sharing_entries s x c l : sharing s x c l -> entries_at s x = entries_at s c.
Proof. intros (_ & _ & o & o' & Ho & Ho' & E & F & F'). unfold entries_at. rewrite Ho, Ho'. simpl. by rewrite F, F'. Qed.
Lemma sharing_ops ops : forall s x c l, sharing s x c l -> sharing (after_ops ops s) x c l.
Proof.
  induction ops as [|o ops IH]; intros s x c l H; [done|]. unfold after_ops in *. simpl. apply IH. eapply sharing_stays; [apply stays_run|done].
Qed.
Lemma copy_sharing s x cls c s' : wf s -> class_of s x = Some cls -> touched s x -> copy x s = (Ret c, s') -> exists l, sharing s' x c l.
Proof.
  intros W Hc (o & l & Ho & Hl) E. unfold class_of in Hc. rewrite Ho in Hc. injection Hc as <-.
  destruct (decide (UUIDAware ∈ c_behs (o_cls o))) as [Hu|Hu].
  - exfalso. rewrite (copy_uuid_aware s x (o_cls o)) in E; [done| |done]. unfold class_of. by rewrite Ho.
  - rewrite (copy_eff s x o W Ho Hu) in E. injection E as <- <-. exists l. destruct (wf_nodes _ W _ _ Ho) as [Hx _].
    split; [simpl; lia|]. split; [simpl; lia|]. exists o, o. simpl. rewrite lookup_insert_ne by lia. by rewrite lookup_insert.
Qed.
Theorem shared_entries s x cls c s' ops : wf s -> class_of s x = Some cls -> touched s x -> copy x s = (Ret c, s') ->
  entries_at (after_ops ops s') x = entries_at (after_ops ops s') c.
Proof. intros W Hc Ht E. destruct (copy_sharing s x cls c s' W Hc Ht E) as [l H]. apply (sharing_entries _ _ _ l). by apply sharing_ops. Qed.

Definition Rshare (x c : nat) (a : bool) (s : st) (d : list (key * val)) : Prop :=
  (exists l, sharing s x c l) /\ Rplain x a s d /\ Rplain c a s d.
Lemma share_sym s x c l : sharing s x c l -> sharing s c x l.
Proof. intros (? & ? & o & o' & ? & ? & ? & ? & ?). split; [done|]. split; [done|]. by exists o', o. Qed.
Lemma Rshare_sym x c a s d : Rshare x c a s d -> Rshare c x a s d.
Proof. intros ([l H] & R & R'). split; [exists l; by apply share_sym|]. done. Qed.
(** A call on one of the two keeps what they share. *)
Lemma share_step x c a s d s' d' : kept s s' -> Rshare x c a s d -> Rplain x a s' d' -> Rshare x c a s' d'.
Proof.
  intros K ([l S] & Rx & Rc) Rx'. pose proof (sharing_stays _ _ _ _ _ (kept_stays _ _ K) S) as S'. split; [by exists l|]. split; [done|].
  destruct S as (_ & Lc & _ & o' & _ & Ho' & _ & _ & _). destruct S' as (_ & _ & o1 & o2 & Ho1 & Ho2 & E & F1 & F2).
  destruct K as (_ & _ & K). destruct (K c o' Lc Ho') as (o2' & Ho2' & Ec & Ea & _). assert (o2' = o2) as -> by congruence.
  destruct Rx' as [(o1' & Ho1' & Hs & ND & Hd) _]. assert (o1' = o1) as -> by congruence. rewrite F1 in Hd.
  destruct Rc as [_ (o'' & Ho'' & Hp & Hv)]. assert (o'' = o') as -> by congruence.
  split.
  - exists o2. split; [done|]. split; [by rewrite E|]. split; [done|]. by rewrite F2.
  - exists o2. split; [done|]. rewrite Ec, Ea. done.
Qed.
Lemma share_call x c a s d k : Rshare x c a s d -> Forall (valid_val s) (call_values k) ->
  exists s', run_call x k s = (fst (call_spec (validating_policy a) k d), s') /\ Rshare x c a s' (snd (call_spec (validating_policy a) k d)) /\ grows s s'.
Proof.
  intros R Hv. apply (run_call_sim x (validating_policy a) (Rshare x c a)); [..|done|done].
  - intros s0 d0 (_ & [(_ & _ & _ & ND & _) _] & _). done.
  - intros s0 d0 R0. destruct R0 as (S0 & Rx0 & Rc0). destruct (plain_iter x a s0 d0 Rx0) as (s1 & E & R1 & G). exists s1. split; [done|]. split; [|done].
    eapply share_step; [|split; [exact S0|split; [exact Rx0|exact Rc0]]|done]. pose proof (kp_iter_of x s0) as K. by rewrite E in K.
  - intros s0 d0 k0 R0. destruct R0 as (S0 & Rx0 & Rc0). destruct (plain_get x a s0 d0 k0 Rx0) as (s1 & E & R1 & G). exists s1. split; [done|]. split; [|done].
    eapply share_step; [|split; [exact S0|split; [exact Rx0|exact Rc0]]|done]. pose proof (kp_getitem x k0 s0) as K. by rewrite E in K.
  - intros s0 d0 k0 v0 R0 Hv0. destruct R0 as (S0 & Rx0 & Rc0). destruct (plain_set x a s0 d0 k0 v0 Rx0 Hv0) as (s1 & E & R1 & G). exists s1. split; [done|]. split; [|done].
    eapply share_step; [|split; [exact S0|split; [exact Rx0|exact Rc0]]|done]. pose proof (kp_setitem x k0 v0 s0) as K. by rewrite E in K.
  - intros s0 d0 k0 R0. destruct R0 as (S0 & Rx0 & Rc0). destruct (plain_del x a s0 d0 k0 Rx0) as (s1 & E & R1 & G). exists s1. split; [done|]. split; [|done].
    eapply share_step; [|split; [exact S0|split; [exact Rx0|exact Rc0]]|done]. pose proof (kp_delitem x k0 s0) as K. by rewrite E in K.
Qed.
Lemma share_both x c a l : forall s d, Rshare x c a s d -> Forall (fun bc : bool * call => Forall (valid_val s) (call_values (snd bc))) l ->
  exists s', run_both x c l s = (fst (calls_spec (validating_policy a) (map snd l) d), s') /\ Rshare x c a s' (snd (calls_spec (validating_policy a) (map snd l) d)).
Proof.
  induction l as [|[b k] l IH]; intros s d R Hl; [by exists s|]. apply Forall_cons in Hl as [Hk Hl]. simpl in Hk.
  assert (H : exists s1, run_call (if b then x else c) k s = (fst (call_spec (validating_policy a) k d), s1) /\
    Rshare x c a s1 (snd (call_spec (validating_policy a) k d)) /\ grows s s1).
  { destruct b; [by apply share_call|]. destruct (share_call c x a s d k) as (s1 & E & R1 & G); [by apply Rshare_sym|done|].
    exists s1. split; [done|]. split; [by apply Rshare_sym|done]. }
  destruct H as (s1 & E & R1 & G). simpl. rewrite E. destruct (call_spec (validating_policy a) k d) as [an d1]. simpl in R1 |- *.
  destruct (IH s1 d1 R1) as (s2 & E2 & R2). { eapply Forall_impl; [exact Hl|]. intros bc H. eapply Forall_impl; [exact H|]. intros v. by apply valid_val_grows. }
  rewrite E2. destruct (calls_spec (validating_policy a) (map snd l) d1) as [ans d2]. simpl in *. by exists s2.
Qed.
Lemma Rplain_copied s o x : wf s -> nodes s !! x = Some o -> plain_class (c_behs (o_cls o)) = true ->
  let a := negb (hasc NodeChildValidate (c_behs (o_cls o))) || o_allow o in
  Rplain x a (copied s o) (entries_at s x) /\ Rplain (next_id s) a (copied s o) (entries_at s x).
Proof.
  intros W Ho Hp a. destruct (wf_Rplain _ _ _ W Ho Hp) as [(o1 & Ho1 & Hs & ND & Hd) (o2 & Ho2 & Hp2 & Ha)].
  destruct (wf_nodes _ W _ _ Ho) as [Hx _]. assert (o1 = o) as -> by congruence. assert (o2 = o) as -> by congruence.
  assert (E1 : nodes (copied s o) !! x = Some o) by (simpl; by rewrite lookup_insert_ne by lia).
  assert (E2 : nodes (copied s o) !! next_id s = Some o) by (simpl; by rewrite lookup_insert).
  split; split; exists o; done.
Qed.
Theorem shared_calls s x cls c s' l : wf s -> class_of s x = Some cls -> plain_class (c_behs cls) = true -> touched s x -> copy x s = (Ret c, s') ->
  Forall (fun bc : bool * call => Forall (known s') (call_values (snd bc))) l ->
  exists s2, run_both x c l s' = (fst (calls_spec (validating_policy (accepts_all s x)) (map snd l) (entries_at s x)), s2) /\
    entries_at s2 x = snd (calls_spec (validating_policy (accepts_all s x)) (map snd l) (entries_at s x)) /\ entries_at s2 c = entries_at s2 x.
Proof.
  intros W Hc Hp Ht E Hl. destruct (copy_sharing s x cls c s' W Hc Ht E) as [l0 S]. pose proof S as (_ & _ & _ & o' & _ & Ho' & _).
  destruct Ht as (o & lx & Ho & _). pose proof Hc as Hc'. unfold class_of in Hc. rewrite Ho in Hc. injection Hc as <-.
  assert (Hu : UUIDAware ∉ c_behs (o_cls o)).
  { intros Hu. rewrite (copy_uuid_aware s x (o_cls o)) in E; [done| |done]. unfold class_of. by rewrite Ho. }
  rewrite (copy_eff s x o W Ho Hu) in E. injection E as <- <-.
  unfold accepts_all. rewrite Ho. destruct (Rplain_copied s o x W Ho Hp) as [Rx Rc].
  destruct (share_both x (next_id s) (negb (hasc NodeChildValidate (c_behs (o_cls o))) || o_allow o) l (copied s o) (entries_at s x)) as (s2 & E2 & _ & Rx2 & Rc2); [split; [by exists l0|split; [exact Rx|exact Rc]]|done|].
  exists s2. split; [exact E2|]. rewrite (Rplain_entries _ _ _ _ Rx2), (Rplain_entries _ _ _ _ Rc2). done.
Qed.

(** * Separate storage *)
Lemma plain_tree bs : plain_class bs = true -> tree_class bs = true.
Proof.
  intros [H1 H2]%plain_class_inv. unfold tree_class. apply andb_true_iff. split; [|exact H2].
  rewrite forallb_forall in H1 |- *. intros b Hb. unfold tree_beh. by rewrite (H1 b Hb).
Qed.
Lemma plain_no_reference bs : plain_class bs = true -> Reference ∉ bs.
Proof. intros [H1 _]%plain_class_inv Hin. rewrite forallb_forall in H1. apply elem_of_list_In in Hin. by apply H1 in Hin. Qed.
Lemma copied_wf s x o : wf s -> nodes s !! x = Some o -> (forall a, get_slot a o = None) -> wf (copied s o).
Proof.
  intros W Ho Hn. destruct (wf_nodes _ W _ _ Ho) as [Hx [K1 K2 K3 K4]].
  assert (L : forall y, live s y -> live (copied s o) y).
  { intros y [oy Hy]. unfold live. simpl. destruct (decide (y = next_id s)) as [->|]; [by rewrite lookup_insert|]. rewrite lookup_insert_ne by done. by exists oy. }
  constructor; simpl.
  - intros y oy. destruct (decide (y = next_id s)) as [->|Hne].
    + rewrite lookup_insert. intros [= <-]. split; [lia|]. constructor; simpl; auto.
    + rewrite lookup_insert_ne by done. intros Hy. destruct (wf_nodes _ W _ _ Hy) as [Hl [J1 J2 J3 J4]]. split; [lia|]. constructor; simpl; auto.
  - intros l d Hd. destruct (wf_dicts _ W _ _ Hd) as (A & B & C). split; [lia|]. split; [done|]. eapply Forall_impl; [exact C|].
    intros [k v] [Hk Hv]. split; [done|]. destruct v; try done. by apply L.
  - intros i m Hi. destruct (wf_idxs _ W _ _ Hi) as (A & B). split; [lia|]. intros u y Hu. apply L. by eapply B.
  - intros y z oy oz a b l. destruct (decide (y = next_id s)) as [->|Hy].
    + rewrite lookup_insert. intros [= <-] _ H. by rewrite Hn in H.
    + rewrite lookup_insert_ne by done. destruct (decide (z = next_id s)) as [->|Hz].
      * rewrite lookup_insert. intros _ [= <-] _ H. by rewrite Hn in H.
      * rewrite lookup_insert_ne by done. apply (wf_own _ W).
Qed.
Definition Rsep (x c : nat) (a b : bool) (e : list (key * val)) (s : st) (d : list (key * val)) : Prop :=
  wf s /\ x <> c /\ x < next_id s /\ c < next_id s /\ Rplain x a s d /\ Rplain c b s e.
Lemma Rsep_sym x c a b e s d : Rsep x c a b e s d -> Rsep c x b a d s e.
Proof. intros (? & H & ? & ? & ? & ?). split; [done|]. split; [by intros ->; apply H|]. done. Qed.
Lemma sep_step x c a b e s d s' d' : kept s s' -> wf s' -> entries_at s' c = entries_at s c -> Rsep x c a b e s d -> Rplain x a s' d' -> Rsep x c a b e s' d'.
Proof.
  intros (Kn & _ & K) W' He (W & Hne & Lx & Lc & Rx & Rc) Rx'. split; [done|]. split; [done|]. split; [lia|]. split; [lia|]. split; [done|].
  pose proof Rc as [_ (o & Ho & Hp & Ha)]. destruct (K c o Lc Ho) as (o' & Ho' & Ec & Ea & _).
  pose proof (wf_Rplain s' c o' W' Ho') as R. rewrite Ec, Ea in R. specialize (R Hp). rewrite Ha, He, (Rplain_entries _ _ _ _ Rc) in R. done.
Qed.
Lemma Rsep_class x c a b e s d : Rsep x c a b e s d -> exists cls, class_of s x = Some cls /\ plain_class (c_behs cls) = true /\ live s x.
Proof. intros (_ & _ & _ & _ & [_ (o & Ho & Hp & _)] & _). exists (o_cls o). unfold class_of, live. rewrite Ho. split; [done|]. split; [done|]. by exists o. Qed.
Lemma sep_call x c a b e s d k : Rsep x c a b e s d -> Forall (valid_val s) (call_values k) ->
  exists s', run_call x k s = (fst (call_spec (validating_policy a) k d), s') /\ Rsep x c a b e s' (snd (call_spec (validating_policy a) k d)) /\ grows s s'.
Proof.
  intros R Hv. apply (run_call_sim x (validating_policy a) (Rsep x c a b e)); [..|done|done].
  - intros s0 d0 (_ & _ & _ & _ & [(_ & _ & _ & ND & _) _] & _). done.
  - intros s0 d0 R0. destruct (Rsep_class _ _ _ _ _ _ _ R0) as (cls & Hc & Hp & Hl). pose proof R0 as (W & Hne & _ & _ & Rx0 & _).
    destruct (plain_iter x a s0 d0 Rx0) as (s1 & E & R1 & G). exists s1. split; [done|]. split; [|done].
    destruct (class_view _ _ _ Hc) as (w & Hw & <-). destruct (iter_eff s0 x w W Hw (plain_tree _ Hp)) as (s2 & E2 & Q & W2).
    rewrite E in E2. injection E2 as _ <-. eapply (sep_step x c a b e s0 d0); [pose proof (kp_iter_of x s0) as K; by rewrite E in K|done| |done|done].
    apply (sn_entries _ _ c). by apply (sw_nodes _ _ (same_world_eqv _ _ Q)).
  - intros s0 d0 k0 R0. destruct (Rsep_class _ _ _ _ _ _ _ R0) as (cls & Hc & Hp & Hl). pose proof R0 as (W & Hne & _ & _ & Rx0 & _).
    destruct (plain_get x a s0 d0 k0 Rx0) as (s1 & E & R1 & G). exists s1. split; [done|]. split; [|done].
    destruct (class_view _ _ _ Hc) as (w & Hw & <-). destruct (getitem_eff s0 x w k0 W Hw (plain_tree _ Hp)) as (s2 & E2 & Q & W2).
    rewrite E in E2. injection E2 as _ <-. eapply (sep_step x c a b e s0 d0); [pose proof (kp_getitem x k0 s0) as K; by rewrite E in K|done| |done|done].
    apply (sn_entries _ _ c). by apply (sw_nodes _ _ (same_world_eqv _ _ Q)).
  - intros s0 d0 k0 v0 R0 Hv0. destruct (Rsep_class _ _ _ _ _ _ _ R0) as (cls & Hc & Hp & Hl). pose proof R0 as (W & Hne & _ & _ & Rx0 & _).
    destruct (plain_set x a s0 d0 k0 v0 Rx0 Hv0) as (s1 & E & R1 & G). exists s1. split; [done|]. split; [|done].
    assert (Hvk : known s0 v0) by (by destruct v0). assert (Hvo : vok s0 v0) by (by destruct v0).
    pose proof (safe_setitem s0 x k0 v0 Hl Hvo W) as [W1 _]. rewrite E in W1. simpl in W1.
    eapply (sep_step x c a b e s0 d0); [pose proof (kp_setitem x k0 v0 s0) as K; by rewrite E in K|done| |done|done].
    destruct (fst (do_set (validating_policy a) k0 v0 d0)).
    + apply (proj1 (setitem_failed s0 x cls k0 v0 _ s1 W Hc (plain_tree _ Hp) Hvk E) c).
    + apply (as_others _ _ _ _ _ _ (setitem_assigned s0 x cls k0 v0 s1 W Hc (plain_tree _ Hp) Hvk E) c). done.
  - intros s0 d0 k0 R0. destruct (Rsep_class _ _ _ _ _ _ _ R0) as (cls & Hc & Hp & Hl). pose proof R0 as (W & Hne & _ & _ & Rx0 & _).
    destruct (plain_del x a s0 d0 k0 Rx0) as (s1 & E & R1 & G). exists s1. split; [done|]. split; [|done].
    pose proof (safe_delitem s0 x k0 Hl W) as [W1 _]. rewrite E in W1. simpl in W1.
    assert (Hr : Reference ∈ c_behs cls -> all_tree_classes s0) by (intros Hr; by apply plain_no_reference in Hr).
    eapply (sep_step x c a b e s0 d0); [pose proof (kp_delitem x k0 s0) as K; by rewrite E in K|done| |done|done].
    destruct (fst (do_del (validating_policy a) k0 d0)).
    + apply (proj1 (delitem_failed s0 x cls k0 _ s1 W Hc (plain_tree _ Hp) Hr E) c).
    + apply (rm_others _ _ _ _ _ (delitem_removed s0 x cls k0 s1 W Hc (plain_tree _ Hp) Hr E) c). done.
Qed.
Lemma sep_both x c a b l : forall s d e, Rsep x c a b e s d -> Forall (fun bc : bool * call => Forall (valid_val s) (call_values (snd bc))) l ->
  exists s', run_both x c l s = (fst (two_dicts (validating_policy a) (validating_policy b) l d e), s') /\
    Rsep x c a b (snd (snd (two_dicts (validating_policy a) (validating_policy b) l d e))) s' (fst (snd (two_dicts (validating_policy a) (validating_policy b) l d e))).
Proof.
  induction l as [|[w k] l IH]; intros s d e R Hl; [by exists s|]. apply Forall_cons in Hl as [Hk Hl]. simpl in Hk. simpl. destruct w.
  - destruct (sep_call x c a b e s d k R Hk) as (s1 & E & R1 & G). rewrite E. destruct (call_spec (validating_policy a) k d) as [an d1]. simpl in R1 |- *.
    destruct (IH s1 d1 e R1) as (s2 & E2 & R2). { eapply Forall_impl; [exact Hl|]. intros bc H. eapply Forall_impl; [exact H|]. intros v. by apply valid_val_grows. }
    rewrite E2. destruct (two_dicts _ _ l d1 e) as [ans de]. simpl in *. by exists s2.
  - apply Rsep_sym in R. destruct (sep_call c x b a d s e k R Hk) as (s1 & E & R1 & G). rewrite E. destruct (call_spec (validating_policy b) k e) as [an e1]. simpl in R1 |- *.
    apply Rsep_sym in R1.
    destruct (IH s1 d e1 R1) as (s2 & E2 & R2). { eapply Forall_impl; [exact Hl|]. intros bc H. eapply Forall_impl; [exact H|]. intros v. by apply valid_val_grows. }
    rewrite E2. destruct (two_dicts _ _ l d e1) as [ans de]. simpl in *. by exists s2.
Qed.
Theorem separate_calls s x cls c s' l : wf s -> class_of s x = Some cls -> plain_class (c_behs cls) = true -> untouched s x -> copy x s = (Ret c, s') ->
  Forall (fun bc : bool * call => Forall (known s') (call_values (snd bc))) l ->
  let p := validating_policy (accepts_all s x) in
  exists s2, run_both x c l s' = (fst (two_dicts p p l [] []), s2) /\ (entries_at s2 x, entries_at s2 c) = snd (two_dicts p p l [] []).
Proof.
  intros W Hc Hp Hn E Hl p. destruct Hn as (o & Ho & N1 & N2 & N3 & N4). unfold class_of in Hc. rewrite Ho in Hc. injection Hc as <-.
  assert (Hs : forall a, get_slot a o = None) by (by intros []).
  assert (Hu : UUIDAware ∉ c_behs (o_cls o)).
  { intros Hu. rewrite (copy_uuid_aware s x (o_cls o)) in E; [done| |done]. unfold class_of. by rewrite Ho. }
  rewrite (copy_eff s x o W Ho Hu) in E. injection E as <- <-. destruct (wf_nodes _ W _ _ Ho) as [Hx _].
  destruct (Rplain_copied s o x W Ho Hp) as [Rx Rc]. assert (He : entries_at s x = []) by (unfold entries_at; rewrite Ho; simpl; by rewrite N1).
  rewrite He in Rx, Rc. unfold p, accepts_all. rewrite Ho.
  destruct (sep_both x (next_id s) (negb (hasc NodeChildValidate (c_behs (o_cls o))) || o_allow o) (negb (hasc NodeChildValidate (c_behs (o_cls o))) || o_allow o) l (copied s o) [] []) as (s2 & E2 & R2); [|done|].
  { split; [by eapply copied_wf|]. split; [lia|]. split; [simpl; lia|]. split; [simpl; lia|]. split; [exact Rx|exact Rc]. }
  exists s2. split; [exact E2|]. destruct R2 as (_ & _ & _ & _ & Rx2 & Rc2). rewrite (Rplain_entries _ _ _ _ Rx2), (Rplain_entries _ _ _ _ Rc2).
  by rewrite <- surjective_pairing.
Qed.
