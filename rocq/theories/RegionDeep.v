(** Deep copies and whole programs stay in a closed region. *)
From Verif Require Import Py Odict OdictFacts Aliaser Heap Model MonadFacts WF Reach SpecRegion Region RegionOps.

Lemma holds_shift n v x : holds (shift_val n v) x -> n <= x.
Proof.
  intros H. remember (shift_val n v) as w eqn:E. revert v E.
  induction H as [x|l w x Hw H IH|l k w x Hw H IH]; intros v E.
  - destruct v; try discriminate E. injection E as ->. lia.
  - destruct v; try discriminate E. injection E as ->. apply elem_of_list_fmap in Hw as (v0 & -> & _). by eapply IH.
  - destruct v; try discriminate E. injection E as ->. apply elem_of_list_fmap in Hw as ([k0 v0] & E & _).
    injection E as _ ->. by eapply IH.
Qed.
Lemma kmap_add {B} (n : nat) (m : gmap nat B) i :
  kmap (M2 := gmap nat) (Nat.add n) m !! i = (if decide (n <= i) then m !! (i - n) else None).
Proof.
  destruct (decide (n <= i)) as [H|H].
  - replace i with (n + (i - n)) at 1 by lia. apply lookup_kmap. intros a b. lia.
  - apply lookup_kmap_None; [intros a b; lia|]. intros j E. lia.
Qed.

Section deep.
  Context (A : nat -> Prop).
  Notation nn := (fun _ => True).

  Lemma fmap_shift n (o : option nat) j : Nat.add n <$> o = Some j -> n <= j.
  Proof. destruct o; simpl; [|done]. intros [= <-]. lia. Qed.
  Lemma w_deep x : within A (deep x) A.
  Proof.
    intros s C. simpl. assert (F : forall i, next_id s <= i -> A i) by apply C. split; [|split].
    - apply closed_intro; simpl.
      + intros i o Hi E. apply lookup_union_Some_raw in E as [E|[_ E]]; [exact (oin_closed A s i o C Hi E)|].
        rewrite kmap_add in E. destruct (decide (next_id s <= i)); [|done].
        rewrite lookup_fmap in E. destruct (nodes s !! (i - next_id s)) as [o'|]; [|done]. injection E as <-.
        repeat split; simpl; intros j Hj; apply F; by eapply fmap_shift.
      + intros i d Hi E. apply lookup_union_Some_raw in E as [E|[_ E]]; [exact (din_closed A s i d C Hi E)|].
        rewrite kmap_add in E. destruct (decide (next_id s <= i)); [|done].
        rewrite lookup_fmap in E. destruct (dicts s !! (i - next_id s)) as [d'|]; [|done]. injection E as <-.
        intros k v Hk y Hy. apply elem_of_list_fmap in Hk as ([k0 v0] & Ek & _). injection Ek as _ ->.
        apply F. by eapply holds_shift.
      + intros i d Hi E. apply lookup_union_Some_raw in E as [E|[_ E]]; [exact (iin_closed A s i d C Hi E)|].
        rewrite kmap_add in E. destruct (decide (next_id s <= i)); [|done].
        rewrite lookup_fmap in E. destruct (idxs s !! (i - next_id s)) as [d'|]; [|done]. injection E as <-.
        intros u j Hj. rewrite lookup_fmap in Hj. apply F. by eapply fmap_shift.
      + intros i Hi. apply F. lia.
    - intros i Hi. assert (~ next_id s <= i) by auto.
      assert (G : forall B (m m' : gmap nat B), (m ∪ kmap (M2 := gmap nat) (Nat.add (next_id s)) m') !! i = m !! i).
      { intros B m m'. destruct (m !! i) as [b|] eqn:E; [by apply lookup_union_Some_l|].
        apply lookup_union_None. split; [done|]. rewrite kmap_add. by destruct (decide _). }
      split; [apply G|split; apply G].
    - intros b [= <-]. apply F. lia.
  Qed.
  Lemma w_set_uuid_for f rec : forall v, in_val A v -> within A (set_uuid_for f rec v) nn.
  Proof.
    induction f as [|f IH]; intros v Hv; simpl; [apply w_raise|].
    destruct v as [| | | | | | |c| | | |]; try (destruct rec; [apply w_raise|by apply w_ret]).
    pose proof (vin_elim A _ Hv) as Hc. eapply w_bind; [by apply w_load|]. intros o Ho.
    eapply (w_bind A _ _ (fun _ => True)).
    { destruct (has UUIDAware o); [|by apply w_ret]. eapply w_bind; [apply w_uuid4|]. intros u _. by apply w_assign_uuid. }
    intros _ _. destruct rec; [|by apply w_ret]. eapply w_bind; [by apply w_values|]. intros vs Hvs.
    apply w_iterM. intros w Hw. apply IH. rewrite Forall_forall in Hvs. by apply Hvs.
  Qed.
  Lemma w_deepcopy x : A x -> within A (deepcopy x) A.
  Proof.
    intros Hx. unfold deepcopy. eapply w_bind; [by apply w_load|]. intros o Ho. generalize (c_behs (o_cls o)). intros bs.
    induction bs as [|b bs IH]; simpl; [apply w_deep|]. destruct b; simpl; try exact IH.
    eapply w_bind; [exact IH|]. intros c Hc. eapply w_bind; [by apply w_load|]. intros o' Ho'.
    eapply w_bind; [apply w_with_fuel; intros; apply w_set_uuid_for; by apply vin_node|]. intros _ _. by apply w_ret.
  Qed.

  Lemma w_ignore {B} (m : M B) Q : within A m Q -> within A (ignore m) nn.
  Proof. intros H. eapply w_bind; [exact H|]. intros. by apply w_ret. Qed.
  Lemma w_run_op o : given A o -> within A (run_op o) nn.
  Proof.
    destruct o; simpl; intros H; repeat (let H' := fresh "G" in destruct H as [H' H]);
      eauto using w_new_node, w_getitem, w_setitem, w_delitem, w_detach, w_update, w_setdefault, w_pop, w_popitem, w_clear, w_iter,
        w_values, w_items, w_attrs, w_invalidate, w_swap, w_insert_at, w_insert_end, w_path, w_root, w_deepcopy, w_store, w_unstore,
        w_ignore, w_assign_uuid.
    - apply w_modify; [done|]. intros o. apply oin_allow.
    - apply w_modify; [done|]. intros o. apply oin_fallback.
    - eapply w_bind; [apply w_modify; [done|]; intros o; apply oin_name|]. intros _ _. apply w_modify; [done|]. intros o. by apply oin_parent.
  Qed.
  Lemma w_run_ops l s : closed A s -> Forall (given A) l -> closed A (run_ops l s) /\ outside A s (run_ops l s).
  Proof.
    intros C H. revert s C. induction H as [|o l Ho _ IH]; intros s C; simpl; [split; [done|apply out_refl]|].
    destruct (w_run_op o Ho s C) as (C1 & O1 & _). destruct (IH _ C1) as [C2 O2]. split; [done|]. by eapply out_trans.
  Qed.

  (** the copied node need not be in the region, nor the class read from it *)
  Lemma w_load_any x : within A (load x) nn.
  Proof. apply w_same; [|done]. intros s. unfold load. by destruct (nodes s !! x). Qed.
  Lemma w_deepcopy_any x : within A (deepcopy x) A.
  Proof.
    unfold deepcopy. eapply w_bind; [apply w_load_any|]. intros o _. generalize (c_behs (o_cls o)). intros bs.
    induction bs as [|b bs IH]; simpl; [apply w_deep|]. destruct b; simpl; try exact IH.
    eapply w_bind; [exact IH|]. intros c Hc. eapply w_bind; [apply w_load_any|]. intros o' _.
    eapply w_bind; [apply w_with_fuel; intros; apply w_set_uuid_for; by apply vin_node|]. intros _ _. by apply w_ret.
  Qed.

  Lemma closed_reaches s x i : closed A s -> A x -> reaches s x i -> A i.
  Proof. intros [H _] Hx Hr. induction Hr as [|x y z Hp _ IH]; [done|]. apply IH. by eapply H. Qed.
End deep.

(** * Regions of reachable states *)
Lemma points_exists s i j : wf s -> points s i j -> i < next_id s.
Proof.
  intros W H. destruct H as [i o j Ho _|i o j Ho _|i o j Ho _|i o j Ho _|i o j Ho _|i o j Ho _|i d k v j Hd _ _|i m u j Hm _].
  1-6: by destruct (wf_nodes _ W _ _ Ho).
  - by destruct (wf_dicts _ W _ _ Hd).
  - by destruct (wf_idxs _ W _ _ Hm).
Qed.
Lemma live_lt s x : wf s -> live s x -> x < next_id s.
Proof. intros W [o Ho]. by destruct (wf_nodes _ W _ _ Ho). Qed.
Lemma points_lt s i j : wf s -> sound s -> points s i j -> j < next_id s.
Proof.
  intros W S H. destruct H as [i o j Ho E|i o j Ho E|i o j Ho E|i o j Ho E|i o j Ho E|i o j Ho E|i d k v j Hd Hk Hj|i m u j Hm E].
  1-6: destruct (wf_nodes _ W _ _ Ho) as [_ K].
  - apply live_lt; [done|]. by eapply ok_parent.
  - destruct (ok_slot _ _ K SStorage _ E) as [d Hd]. by destruct (wf_dicts _ W _ _ Hd).
  - destruct (ok_slot _ _ K SCache _ E) as [d Hd]. by destruct (wf_dicts _ W _ _ Hd).
  - destruct (ok_slot _ _ K SChildren _ E) as [d Hd]. by destruct (wf_dicts _ W _ _ Hd).
  - destruct (ok_slot _ _ K SNodespaces _ E) as [d Hd]. by destruct (wf_dicts _ W _ _ Hd).
  - destruct (ok_index _ _ K _ E) as [d Hd]. by destruct (wf_idxs _ W _ _ Hd).
  - apply live_lt; [done|]. exact (S i d k v j Hd Hk Hj).
  - destruct (wf_idxs _ W _ _ Hm) as [_ K]. apply live_lt; [done|]. by eapply K.
Qed.
Lemma reaches_lt s x i : wf s -> sound s -> x < next_id s -> reaches s x i -> i < next_id s.
Proof. intros W S Hx Hr. induction Hr as [|x y z Hp _ IH]; [done|]. apply IH. by eapply points_lt. Qed.

Lemma of_closed s ws : wf s -> closed (of s ws) s.
Proof.
  intros W. split; [|by left]. intros i j [Hi|(w & Hw & Hr)] Hp.
  - apply points_exists in Hp; [|done]. lia.
  - right. exists w. split; [done|]. by eapply rtc_r.
Qed.
Lemma new_closed s : wf s -> closed (fun i => next_id s <= i) s.
Proof. intros W. split; [|done]. intros i j Hi Hp. apply points_exists in Hp; [|done]. lia. Qed.

Lemma points_same s s' i j : untouched s s' i -> points s i j -> points s' i j.
Proof.
  intros U H. revert U.
  destruct H as [i o j Ho E|i o j Ho E|i o j Ho E|i o j Ho E|i o j Ho E|i o j Ho E|i d k v j Hd Hk Hj|i m u j Hm E];
    intros (h1 & h2 & h3).
  - eapply to_parent; [by rewrite h1|done].
  - eapply to_storage; [by rewrite h1|done].
  - eapply to_cache; [by rewrite h1|done].
  - eapply to_children; [by rewrite h1|done].
  - eapply to_nodespaces; [by rewrite h1|done].
  - eapply to_index; [by rewrite h1|done].
  - eapply to_value; [by rewrite h2|done|done].
  - eapply to_indexed; [by rewrite h3|done].
Qed.
Lemma untouched_sym s s' i : untouched s s' i -> untouched s' s i.
Proof. intros (h1 & h2 & h3). by split. Qed.
Lemma reaches_same s s' x : (forall i, reaches s x i -> untouched s s' i) -> forall i, reaches s' x i <-> reaches s x i.
Proof.
  intros H i. split; revert i.
  - apply (rtc_ind_r (fun i => reaches s x i)); [apply rtc_refl|]. intros y z Hr Hp IH.
    eapply rtc_r; [exact IH|]. eapply points_same; [apply untouched_sym, H, IH|exact Hp].
  - apply (rtc_ind_r (fun i => reaches s' x i)); [apply rtc_refl|]. intros y z Hr Hp IH.
    eapply rtc_r; [exact IH|]. eapply points_same; [apply H, Hr|exact Hp].
Qed.

Lemma separate_untouched s ws x l :
  wf s -> sound s -> x < next_id s -> (forall w, w ∈ ws -> separate s x w) -> Forall (given (of s ws)) l ->
  (forall i, reaches s x i -> untouched s (run_ops l s) i) /\
  (forall i, reaches (run_ops l s) x i <-> reaches s x i) /\
  (forall w i, w ∈ ws -> reaches (run_ops l s) x i -> reaches (run_ops l s) w i -> False).
Proof.
  intros W S Hx Hs Hl. destruct (w_run_ops _ l s (of_closed s ws W) Hl) as [C O].
  assert (N : forall i, reaches s x i -> ~ of s ws i).
  { intros i Hr [Hi|(w & Hw & Hr')]; [|exact (Hs w Hw i Hr Hr')]. pose proof (reaches_lt s x i W S Hx Hr). lia. }
  assert (U : forall i, reaches s x i -> untouched s (run_ops l s) i) by (intros i Hr; apply O, N, Hr).
  split; [exact U|]. pose proof (reaches_same _ _ _ U) as R. split; [exact R|].
  intros w i Hw H1 H2. apply R in H1. apply (N i H1). eapply closed_reaches; [exact C| |exact H2].
  right. exists w. split; [done|apply rtc_refl].
Qed.
