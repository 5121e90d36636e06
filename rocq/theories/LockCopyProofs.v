(** Proofs about tree locks and copies. *)
From Verif Require Import Py Odict OdictFacts Aliaser Heap Model MonadFacts WF WFOps Observe Reach SpecRegion Refs RefsProofs RegionDeep Utils SpecMapping SpecCopy ShallowProofs MappingProps LockCopy SpecLockCopy.

Lemma loc_reaches f : forall x l s s1, location_iterator f (Some x) s = (Ret l, s1) -> s1 = s /\ (exists r, l = x :: r) /\ forall y, y ∈ l -> reaches s x y.
Proof.
  induction f as [|f IH]; intros x l s s1; cbn [location_iterator]; [done|].
  unfold bind, load. destruct (nodes s !! x) as [o|] eqn:Ho; [|done].
  destruct (o_parent o) as [q|] eqn:Ep.
  - destruct (location_iterator f (Some q) s) as [[l1|e] s2] eqn:E; [|done]. intros [= <- <-].
    destruct (IH q l1 s s2 E) as (-> & _ & H). split; [done|]. split; [by eexists|]. intros y [->|Hy]%elem_of_cons; [apply rtc_refl|].
    eapply rtc_l; [by eapply to_parent|]. by apply H.
  - assert (location_iterator f None s = (Ret [], s)) as -> by (by destruct f). intros [= <- <-]. split; [done|]. split; [by eexists|].
    intros y [->|Hy]%elem_of_cons; [apply rtc_refl|by apply elem_of_nil in Hy].
Qed.
Lemma root_reaches x s r s1 : root_of x s = (Ret r, s1) -> s1 = s /\ exists q, r = Some q /\ reaches s x q.
Proof.
  unfold root_of, bind, with_fuel. destruct (location_iterator (fuel_of s) (Some x) s) as [[l|e] s2] eqn:E; [|done]. intros [= <- <-].
  destruct (loc_reaches _ _ _ _ _ E) as (-> & (t & ->) & H). split; [done|].
  destruct (last (x :: t)) as [q|] eqn:El; [|by apply last_None in El]. exists q. split; [done|]. apply H. by apply last_Some_elem_of.
Qed.
Lemma root_exc x s e s1 : root_of x s = (Exc e, s1) -> s1 = s.
Proof.
  assert (K : forall f o s r s1, location_iterator f o s = (r, s1) -> s1 = s).
  { clear. induction f as [|f IH]; intros [x|] s r s1; cbn [location_iterator]; try (by intros [= _ <-]).
    unfold bind, load. destruct (nodes s !! x) as [o|]; [|by intros [= _ <-]].
    destruct (location_iterator f (o_parent o) s) as [[l1|e] s2] eqn:E; apply IH in E as ->; by intros [= _ <-]. }
  unfold root_of, bind, with_fuel. destruct (location_iterator (fuel_of s) (Some x) s) as [[l|e0] s2] eqn:E; apply K in E as ->; by intros [= _ <-].
Qed.

(** * Steps *)
(** what a step keeps: nodes stay, locks stay, and are on nodes that exist *)
Definition lock_ok (w : lst) : Prop := reach (l_st w) /\ forall y, has_lock w y -> exists_node (l_st w) y.
Lemma step_exists s o r s' y : reach s -> op_ok s o -> run_op o s = (r, s') -> exists_node s y -> exists_node s' y.
Proof.
  intros R Hok E Hy. destruct (safe_run_op s o Hok (reach_wf s R)) as (_ & X & _). rewrite E in X. destruct Hy as [ob Ho].
  destruct (ext_nodes _ _ X _ _ Ho) as (o' & Ho' & _). by exists o'.
Qed.
Lemma node_getattr_run own r n s :
  match nodes s !! r with
  | None => node_getattr own r n s = (Exc Dangling, s)
  | Some o => node_getattr own r n s =
      if own n then (Ret (OwnAttribute n), s)
      else if has GetattrChildren o then
        match getitem r (KStr n) s with (Ret v, s') => (Ret (FromContext v), s') | (Exc e, s') => (Exc e, s') end
      else (Exc AttributeError, s)
  end.
Proof.
  unfold node_getattr, bind, load. destruct (nodes s !! r) as [o|]; [|done]. destruct (own n); [done|].
  destruct (has GetattrChildren o); [|done]. by destruct (getitem r (KStr n) s) as [[v|e] s'].
Qed.
(** TreeLock(node): what happens *)
Inductive lock_result (w : lst) (r : nat) : res lock_ref -> lst -> Prop :=
| lres_own l : l_lock w !! r = Some l -> lock_result w r (Ret (TheLock l)) w
| lres_new : l_lock w !! r = None -> (forall o, nodes (l_st w) !! r = Some o -> has GetattrChildren o = false) ->
    lock_result w r (Ret (TheLock (l_made w))) (Lst (l_st w) (<[r := l_made w]> (l_lock w)) (S (l_made w)))
| lres_child v s' : l_lock w !! r = None -> getitem r (KStr "_treelock") (l_st w) = (Ret v, s') -> v <> VNone ->
    (exists o, nodes (l_st w) !! r = Some o /\ has GetattrChildren o = true) ->
    lock_result w r (Ret (NoLock v)) (Lst s' (l_lock w) (l_made w))
| lres_none s' : l_lock w !! r = None -> (getitem r (KStr "_treelock") (l_st w) = (Ret VNone, s') \/ getitem r (KStr "_treelock") (l_st w) = (Exc AttributeError, s')) ->
    (exists o, nodes (l_st w) !! r = Some o /\ has GetattrChildren o = true) ->
    lock_result w r (Ret (TheLock (l_made w))) (Lst s' (<[r := l_made w]> (l_lock w)) (S (l_made w)))
| lres_exc e s' : l_lock w !! r = None -> getitem r (KStr "_treelock") (l_st w) = (Exc e, s') -> e <> AttributeError ->
    (exists o, nodes (l_st w) !! r = Some o /\ has GetattrChildren o = true) ->
    lock_result w r (Exc e) (Lst s' (l_lock w) (l_made w)).
Lemma lst_eta w : Lst (l_st w) (l_lock w) (l_made w) = w.
Proof. by destruct w. Qed.
Lemma tree_lock_run x w res w' : tree_lock x w = (res, w') ->
  (exists e, root_of x (l_st w) = (Exc e, l_st w) /\ res = Exc e /\ w' = w) \/
  exists r, root_of x (l_st w) = (Ret (Some r), l_st w) /\ reaches (l_st w) x r /\ exists_node (l_st w) r /\ lock_result w r res w'.
Proof.
  unfold tree_lock, elsewhere. destruct (root_of x (l_st w)) as [[q|e] s1] eqn:E.
  2:{ pose proof (root_exc _ _ _ _ E) as ->. rewrite lst_eta. intros [= <- <-]. left. by exists e. }
  destruct (root_reaches _ _ _ _ E) as (-> & r & -> & Hr). rewrite lst_eta. intros H. right. exists r. split; [done|]. split; [done|].
  assert (Hn : exists_node (l_st w) r).
  { clear -E.
    unfold root_of, bind, with_fuel in E. destruct (location_iterator _ (Some x) (l_st w)) as [[l|e] s2] eqn:El; [|done]. injection E as E _.
    assert (L : forall f o l s s1, location_iterator f o s = (Ret l, s1) -> Forall (fun y => exists_node s y) l).
    { clear. induction f as [|f IH]; intros [x|] l s s1; cbn [location_iterator]; try done; try (intros [= <- _]; constructor).
      unfold bind, load. destruct (nodes s !! x) as [o|] eqn:Ho; [|done].
      destruct (location_iterator f (o_parent o) s) as [[l1|e] s2] eqn:E; [|done]. intros [= <- _]. constructor; [by exists o|by eapply IH]. }
    apply L in El. rewrite Forall_forall in El. apply El. by apply last_Some_elem_of. }
  split; [done|]. destruct Hn as [o Ho]. unfold py_getattr, try_catch in H. unfold bind in H.
  pose proof (node_getattr_run (own_names w r) r "_treelock" (l_st w)) as G. rewrite Ho in G. rewrite G in H.
  assert (Eo : own_names w r "_treelock" = bool_decide (is_Some (l_lock w !! r))) by done. rewrite Eo in H.
  destruct (l_lock w !! r) as [l|] eqn:El.
  - rewrite bool_decide_true in H by (by eexists). simpl in H. rewrite lst_eta in H. rewrite El in H. injection H as <- <-. by apply lres_own.
  - rewrite bool_decide_false in H by (by intros [? ?]). destruct (has GetattrChildren o) eqn:Hg.
    + assert (Hh : exists o, nodes (l_st w) !! r = Some o /\ has GetattrChildren o = true) by (by exists o).
      destruct (getitem r (KStr "_treelock") (l_st w)) as [[v|e] s'] eqn:Eg.
      * simpl in H. destruct v; simpl in H; injection H as <- <-; first [by apply lres_child|by apply lres_none; [|left|]].
      * simpl in H. destruct (is_attribute_error e) eqn:Ea.
        -- destruct e; try discriminate Ea. simpl in H. injection H as <- <-. apply lres_none; [done|by right|done].
        -- injection H as <- <-. apply lres_exc; [done|done|by intros ->|done].
    + simpl in H. rewrite lst_eta in H. injection H as <- <-. apply lres_new; [done|]. intros o' Ho'. congruence.
Qed.
Lemma getitem_step s x k r s' : reach s -> exists_node s x -> getitem x k s = (r, s') -> reach s' /\ forall y, exists_node s y -> exists_node s' y.
Proof.
  intros R Hx E. assert (E2 : run_op (OGet x k) s = (match r with Ret _ => Ret tt | Exc e => Exc e end, s')).
  { simpl. unfold ignore, bind. rewrite E. by destruct r. }
  split; [by eapply (reach_step s (OGet x k))|]. intros y. by eapply (step_exists s (OGet x k)).
Qed.
Lemma lock_step_ok w w' : lock_ok w -> lock_step w w' ->
  lock_ok w' /\ (forall y, exists_node (l_st w) y -> exists_node (l_st w') y) /\ forall y l, l_lock w !! y = Some l -> l_lock w' !! y = Some l.
Proof.
  intros [R L] H. destruct H as [o r w' Hok Ho E|x r w' Hx E|x r w' Hx E].
  - unfold elsewhere in E. destruct (run_op o (l_st w)) as [r1 s1] eqn:Eo. injection E as <- <-. unfold lock_ok, has_lock. simpl.
    assert (K : forall y, exists_node (l_st w) y -> exists_node s1 y) by (intros y; by eapply step_exists).
    split; [|by split]. split; [exact (reach_step _ _ _ _ R Hok Eo)|]. intros y Hy. by apply K, L.
  - unfold deepcopy_l in E. destruct (existsb _ _); [injection E as _ <-; split; [by split|by split]|].
    unfold elsewhere in E. destruct (deepcopy x (l_st w)) as [r1 s1] eqn:Eo. injection E as _ <-. unfold lock_ok, has_lock. simpl.
    assert (Eo' : run_op (ODeepcopy x) (l_st w) = (match r1 with Ret _ => Ret tt | Exc e => Exc e end, s1)).
    { simpl. unfold ignore, bind. rewrite Eo. by destruct r1. }
    assert (K : forall y, exists_node (l_st w) y -> exists_node s1 y) by (intros y; by eapply (step_exists _ (ODeepcopy x))).
    split; [|by split]. split; [by eapply (reach_step _ (ODeepcopy x))|]. intros y Hy. by apply K, L.
  - destruct (tree_lock_run x w r w' E) as [(e & _ & _ & ->)|(q & _ & _ & Hq & Hres)]; [split; [by split|by split]|].
    destruct Hres as [l El|El Hg|v s' El Eg Hv Hh|s' El Eg Hh|e s' El Eg Hv Hh]; unfold lock_ok, has_lock; simpl.
    + split; [by split|by split].
    + split; [split; [done|]|split; [done|]].
      * intros y Hy. destruct (decide (y = q)) as [->|Hne]; [done|]. apply L. rewrite lookup_insert_ne in Hy by done. done.
      * intros y l Hl. rewrite lookup_insert_ne; [done|]. intros ->. congruence.
    + destruct (getitem_step _ _ _ _ _ R Hq Eg) as [R' K]. split; [|by split]. split; [done|]. intros y Hy. by apply K, L.
    + assert (R' : reach s' /\ forall y, exists_node (l_st w) y -> exists_node s' y) by (destruct Eg as [Eg|Eg]; by eapply getitem_step).
      destruct R' as [R' K]. split; [split; [done|]|split; [done|]].
      * intros y Hy. apply K. destruct (decide (y = q)) as [->|Hne]; [done|]. apply L. rewrite lookup_insert_ne in Hy by done. done.
      * intros y l Hl. rewrite lookup_insert_ne; [done|]. intros ->. congruence.
    + destruct (getitem_step _ _ _ _ _ R Hq Eg) as [R' K]. split; [|by split]. split; [done|]. intros y Hy. by apply K, L.
Qed.
Lemma lock_steps_ok w w' : lock_ok w -> rtc lock_step w w' ->
  lock_ok w' /\ (forall y, exists_node (l_st w) y -> exists_node (l_st w') y) /\ forall y l, l_lock w !! y = Some l -> l_lock w' !! y = Some l.
Proof.
  intros K H. revert K. induction H as [w|w w1 w2 S _ IH]; intros K; [split; [exact K|by split]|].
  destruct (lock_step_ok _ _ K S) as (K1 & N1 & L1). destruct (IH K1) as (K2 & N2 & L2). split; [done|]. split; [eauto|eauto].
Qed.
Lemma lock_reach_ok w : lock_reach w -> lock_ok w.
Proof.
  intros [cs H]. eapply lock_steps_ok; [|exact H]. split; [apply reach_init|]. intros y [l Hl]. simpl in Hl. by rewrite lookup_empty in Hl.
Qed.

(** * Deep copies *)
Lemma in_sight w x : lock_ok w -> exists_node (l_st w) x ->
  existsb (fun i => bool_decide (is_Some (l_lock w !! i))) (reached (l_st w) x) = true <-> lock_in_sight w x.
Proof.
  intros [R L] Hx. pose proof (reach_wf _ R) as W. rewrite existsb_exists. split.
  - intros (y & Hy & Hl). apply bool_decide_eq_true in Hl. exists y. split; [|done]. apply reached_reaches. by apply elem_of_list_In.
  - intros (y & Hy & Hl). exists y. split; [|by apply bool_decide_eq_true]. apply elem_of_list_In, reaches_reached; [done| | |done].
    + by apply live_lt.
    + apply live_lt; [done|]. by apply L.
Qed.
Lemma deepcopy_refused w x : lock_ok w -> exists_node (l_st w) x -> lock_in_sight w x -> deepcopy_l x w = (Exc TypeError, w).
Proof. intros K Hx H. apply in_sight in H; [|done..]. unfold deepcopy_l. by rewrite H. Qed.
Lemma deepcopy_free w x r s' : lock_ok w -> exists_node (l_st w) x -> ~ lock_in_sight w x -> deepcopy x (l_st w) = (r, s') ->
  deepcopy_l x w = (r, Lst s' (l_lock w) (l_made w)).
Proof.
  intros K Hx H E. unfold deepcopy_l. destruct (existsb _ _) eqn:Eb; [by apply in_sight in Eb|]. unfold elsewhere. by rewrite E.
Qed.
(** a lock that was got is on the root *)
Lemma lock_on_root w x l w1 : tree_lock x w = (Ret (TheLock l), w1) ->
  exists r, root_of x (l_st w) = (Ret (Some r), l_st w) /\ exists_node (l_st w) r /\ l_lock w1 !! r = Some l.
Proof.
  intros E. destruct (tree_lock_run x w _ w1 E) as [(e & _ & ? & _)|(r & Er & _ & Hr & Hres)]; [done|]. exists r. split; [done|].
  split; [done|]. remember (Ret (TheLock l)) as res eqn:Eres. destruct Hres as [l' El'|El' Hg|v s' El' Eg Hv Hh|s' El' Eg Hh|e s' El' Eg Hv Hh]; try discriminate Eres.
  - by injection Eres as ->.
  - injection Eres as <-. simpl. by rewrite lookup_insert.
  - injection Eres as <-. simpl. by rewrite lookup_insert.
Qed.
Lemma same_lock w x r l : root_of x (l_st w) = (Ret (Some r), l_st w) -> l_lock w !! r = Some l ->
  tree_lock x w = (Ret (TheLock l), w).
Proof.
  intros Er El. destruct (tree_lock x w) as [res w'] eqn:E.
  destruct (tree_lock_run x w _ w' E) as [(e & Er' & _)|(r' & Er' & _ & Hr & Hres)]; [congruence|]. rewrite Er in Er'. injection Er' as <-.
  destruct Hres as [l' El'| | | |]; [|congruence..]. by assert (l' = l) as -> by congruence.
Qed.

(** * Shallow copies *)
Lemma copy_lock w x cls : lock_ok w -> class_of (l_st w) x = Some cls -> UUIDAware ∉ c_behs cls ->
  exists c w', copy_l x w = (Ret c, w') /\ l_lock w' !! c = l_lock w !! x /\ (forall y, exists_node (l_st w) y -> l_lock w' !! y = l_lock w !! y) /\
    looks_like (l_st w) x (l_st w') c.
Proof.
  intros [R L] Hc Hu. destruct (copy_looks (l_st w) x cls (reach_wf _ R) Hc Hu) as (c & s' & E & Hn & LL & _).
  unfold copy_l. rewrite E. exists c. eexists. split; [reflexivity|]. simpl. split; [|split; [|done]].
  - destruct (l_lock w !! x) as [l|]; [by rewrite lookup_insert|]. destruct (l_lock w !! c) as [l|] eqn:El; [|done].
    exfalso. apply Hn, L. by exists l.
  - intros y Hy. destruct (l_lock w !! x) as [l|]; [|done]. rewrite lookup_insert_ne; [done|]. intros ->. done.
Qed.
Lemma root_alone s c : exists_node s c -> parent_at s c = None -> root_of c s = (Ret (Some c), s).
Proof.
  intros [o Ho] Hp. unfold root_of, bind, with_fuel. unfold parent_at in Hp. rewrite Ho in Hp. simpl in Hp.
  assert (F : exists f, fuel_of s = S f) by (unfold fuel_of; eexists; reflexivity). destruct F as [f ->].
  cbn [location_iterator]. unfold bind, load. rewrite Ho, Hp. by destruct f.
Qed.
Lemma copy_lock_same w x cls l : lock_ok w -> class_of (l_st w) x = Some cls -> UUIDAware ∉ c_behs cls ->
  l_lock w !! x = Some l -> parent_at (l_st w) x = None ->
  exists c w', copy_l x w = (Ret c, w') /\ looks_like (l_st w) x (l_st w') c /\
    tree_lock c w' = (Ret (TheLock l), w') /\ tree_lock x w = (Ret (TheLock l), w).
Proof.
  intros K Hc Hu Hl Hp. destruct (copy_lock w x cls K Hc Hu) as (c & w' & E & El & _ & LL). exists c, w'. split; [done|]. split; [done|].
  assert (Hx : exists_node (l_st w) x). { unfold class_of in Hc. destruct (nodes (l_st w) !! x) as [o|] eqn:Ho; [|done]. by exists o. }
  assert (Hcn : exists_node (l_st w') c).
  { pose proof (ll_class _ _ _ _ LL) as H. rewrite Hc in H. unfold class_of in H. destruct (nodes (l_st w') !! c) as [o|] eqn:Ho; [|done]. by exists o. }
  split.
  - apply (same_lock w' c c l); [|by rewrite El]. apply root_alone; [done|]. by rewrite (ll_parent _ _ _ _ LL).
  - apply (same_lock w x x l); [|done]. by apply root_alone.
Qed.

(** * Different roots, different locks *)
Definition made_ok (w : lst) : Prop :=
  (forall y l, l_lock w !! y = Some l -> l < l_made w) /\ forall y z l, l_lock w !! y = Some l -> l_lock w !! z = Some l -> y = z.
Lemma made_insert w s r : made_ok w -> l_lock w !! r = None -> made_ok (Lst s (<[r := l_made w]> (l_lock w)) (S (l_made w))).
Proof.
  intros [M I] Hr. split; simpl.
  - intros y l. destruct (decide (y = r)) as [->|Hne]; [rewrite lookup_insert; intros [= <-]; lia|]. rewrite lookup_insert_ne by done. intros H%M. lia.
  - intros y z l. destruct (decide (y = r)) as [->|Hy]; destruct (decide (z = r)) as [->|Hz]; [done| | |].
    + rewrite lookup_insert, lookup_insert_ne by done. intros [= <-] H%M. lia.
    + rewrite lookup_insert_ne by done. rewrite lookup_insert. intros H%M [= <-]. lia.
    + rewrite !lookup_insert_ne by done. apply I.
Qed.
Lemma lock_step_made w w' : made_ok w -> lock_step w w' -> made_ok w'.
Proof.
  intros M H. destruct H as [o r w' Hok Ho E|x r w' Hx E|x r w' Hx E].
  - unfold elsewhere in E. destruct (run_op o (l_st w)) as [r1 s1]. by injection E as _ <-.
  - unfold deepcopy_l in E. destruct (existsb _ _); [by injection E as _ <-|].
    unfold elsewhere in E. destruct (deepcopy x (l_st w)) as [r1 s1]. by injection E as _ <-.
  - destruct (tree_lock_run x w r w' E) as [(e & _ & _ & ->)|(q & _ & _ & Hq & Hres)]; [done|].
    destruct Hres; try done; by apply made_insert.
Qed.
Lemma lock_reach_made w : lock_reach w -> made_ok w.
Proof.
  intros [cs H]. assert (M : made_ok (Lst (St ∅ ∅ ∅ 0 1 [] (-1) cs) ∅ 0)) by (split; simpl; intros *; by rewrite lookup_empty).
  revert M. induction H as [w|w w1 w2 S _ IH]; [done|]. intros M. apply IH. by eapply lock_step_made.
Qed.
Lemma own_lock w x r : made_ok w -> root_of x (l_st w) = (Ret (Some r), l_st w) ->
  (forall cls, class_of (l_st w) r = Some cls -> GetattrChildren ∉ c_behs cls) ->
  exists l w1, tree_lock x w = (Ret (TheLock l), w1) /\ l_st w1 = l_st w /\ forall y, y <> r -> l_lock w !! y <> Some l.
Proof.
  intros [M I] Er Hg. destruct (tree_lock x w) as [res w1] eqn:E.
  assert (G : (exists o, nodes (l_st w) !! r = Some o /\ has GetattrChildren o = true) -> False).
  { intros (o & Ho & H). apply (Hg (o_cls o)); [by unfold class_of; rewrite Ho|]. unfold has in H. by apply bool_decide_eq_true in H. }
  destruct (tree_lock_run x w _ w1 E) as [(e & Er' & _)|(r' & Er' & _ & Hr & Hres)]; [congruence|]. rewrite Er in Er'. injection Er' as <-.
  destruct Hres as [l El|El _|v s' El Eg Hv Hh|s' El Eg Hh|e s' El Eg Hv Hh]; try (by destruct (G Hh)).
  - exists l, w. split; [done|]. split; [done|]. intros y Hy H. apply Hy. by eapply I.
  - eexists _, _. split; [reflexivity|]. split; [done|]. intros y _ H%M. lia.
Qed.
Lemma getattr_lock w x r cls : root_of x (l_st w) = (Ret (Some r), l_st w) ->
  class_of (l_st w) r = Some cls -> GetattrChildren ∈ c_behs cls -> ~ has_lock w r ->
  (forall e s', getitem r (KStr "_treelock") (l_st w) = (Exc e, s') -> e <> AttributeError ->
     tree_lock x w = (Exc e, Lst s' (l_lock w) (l_made w))) /\
  (forall v s', getitem r (KStr "_treelock") (l_st w) = (Ret v, s') -> v <> VNone ->
     tree_lock x w = (Ret (NoLock v), Lst s' (l_lock w) (l_made w))).
Proof.
  intros Er Hc Hg Hl. destruct (tree_lock x w) as [res w1] eqn:E.
  assert (G : (forall o, nodes (l_st w) !! r = Some o -> has GetattrChildren o = false) -> False).
  { unfold class_of in Hc. destruct (nodes (l_st w) !! r) as [o|]; [|done]. injection Hc as <-. intros H. specialize (H o eq_refl).
    unfold has in H. apply bool_decide_eq_false in H. done. }
  destruct (tree_lock_run x w _ w1 E) as [(e & Er' & _)|(r' & Er' & _ & Hr & Hres)]; [congruence|]. rewrite Er in Er'. injection Er' as <-.
  destruct Hres as [l El|El Hg'|v s' El Eg Hv Hh|s' El Eg Hh|e s' El Eg Hv Hh].
  - exfalso. apply Hl. by exists l.
  - by destruct (G Hg').
  - split; [intros e s2 H; congruence|]. intros v2 s2 H _. by assert ((v2, s2) = (v, s')) as [= -> ->] by congruence.
  - split; [intros e s2 H He; destruct Eg; congruence|]. intros v2 s2 H Hv. destruct Eg; congruence.
  - split; [|intros v2 s2 H; congruence]. intros e2 s2 H _. by assert ((e2, s2) = (e, s')) as [= -> ->] by congruence.
Qed.
