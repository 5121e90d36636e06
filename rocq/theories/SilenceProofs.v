(** Proofs about the suppression of lifecycle events. *)
From Verif Require Import Py Odict Aliaser Heap Model WF Observe SpecTree Reach MonadFacts Quiet SpecLifecycle.

Lemma quiet_sup s s' x : quiet s s' -> x < next_id s -> suppressed s' x = suppressed s x /\ class_of s' x = class_of s x.
Proof.
  intros [_ H] Hx. destruct (H x Hx) as [H1 H2]. split; [|exact H2]. unfold suppressed.
  destruct (nodes s' !! x), (nodes s !! x); simpl in *; congruence.
Qed.
Lemma ks_detach_stack bs : Lifecycle ∉ bs -> forall x k, ks (detach_stack bs x k).
Proof.
  induction bs as [|b bs IH]; intros H x k; simpl; [ksu detach_endpoint|]. apply not_elem_of_cons in H as [H1 H2].
  destruct b; simpl; try (by apply IH); [|done]. pose proof (IH H2). ks.
Qed.
(** The suppressions of the other nodes stay. *)
Definition quiet_but (x : nat) (s s' : st) : Prop :=
  next_id s <= next_id s' /\ forall y, y < next_id s ->
    (o_cls <$> nodes s' !! y) = (o_cls <$> nodes s !! y) /\ (y <> x -> (o_suppress <$> nodes s' !! y) = (o_suppress <$> nodes s !! y)).
Lemma quiet_but_of x s s' : quiet s s' -> quiet_but x s s'.
Proof. intros [L H]. split; [done|]. intros y Hy. by destruct (H y Hy). Qed.
Lemma quiet_but_trans x s s1 s2 : quiet_but x s s1 -> quiet_but x s1 s2 -> quiet_but x s s2.
Proof.
  intros [L1 H1] [L2 H2]. split; [lia|]. intros y Hy. destruct (H1 y Hy) as [A B]. destruct (H2 y) as [C D]; [lia|].
  split; [congruence|]. intros Hn. rewrite D, B; done.
Qed.
Definition kb {A} (x : nat) (m : M A) : Prop := forall s, quiet_but x s (snd (m s)).
Lemma kb_ks {A} x (m : M A) : ks m -> kb x m.
Proof. intros H s. by apply quiet_but_of, H. Qed.
Lemma kb_bind {A B} x (m : M A) (f : A -> M B) : kb x m -> (forall a, kb x (f a)) -> kb x (bind m f).
Proof. intros Hm Hf s. specialize (Hm s). unfold bind. destruct (m s) as [[a|e] s1]; simpl in *; [|done]. eapply quiet_but_trans; [exact Hm|apply Hf]. Qed.
Lemma kb_sup x b : kb x (modify x (with_suppress b)).
Proof.
  intros s. unfold modify. destruct (nodes s !! x) as [o|] eqn:E; [|apply quiet_but_of, quiet_refl]. split; [done|]. intros y Hy. simpl.
  destruct (decide (x = y)) as [->|]; [|by rewrite lookup_insert_ne]. rewrite lookup_insert, E. by split.
Qed.
Lemma kb_detach_stack bs : forall x k, kb x (detach_stack bs x k).
Proof.
  induction bs as [|b bs IH]; intros x k; simpl; [apply kb_ks; ksu detach_endpoint|].
  destruct b; simpl; try (by apply IH).
  - apply kb_bind; [apply IH|]. intros v. apply kb_ks. ks.
  - apply kb_bind; [apply kb_sup|]. intros _. apply kb_bind; [apply IH|]. intros v. apply kb_bind; [apply kb_sup|]. intros _. apply kb_ks. ks.
Qed.
Lemma kb_detach x k : kb x (detach x k).
Proof. unfold detach. apply kb_bind; [apply kb_ks; ks|]. intros o. apply kb_detach_stack. Qed.

(** A Lifecycle that no Reference wraps leaves its node suppressed exactly if the detach fails. *)
Lemma detach_sup s x k o pre post : nodes s !! x = Some o -> x < next_id s -> c_behs (o_cls o) = pre ++ Lifecycle :: post ->
  Reference ∉ pre -> Lifecycle ∉ pre -> Lifecycle ∉ post ->
  suppressed (snd (detach x k s)) x = match fst (detach x k s) with Ret _ => false | Exc _ => true end.
Proof.
  intros Ho Hx Hb R1 L1 L2. unfold detach. rewrite (bind_load _ _ _ _ Ho), Hb. clear Hb.
  induction pre as [|b pre IH]; simpl app.
  - cbn [detach_stack detach_stage]. assert (E1 : modify x (with_suppress true) s = (Ret tt, set_nodes <[x := with_suppress true o]> s)).
    { unfold modify. by rewrite Ho. }
    rewrite (bind_Ret _ _ _ _ _ E1). set (s1 := set_nodes _ s). assert (Hs1 : nodes s1 !! x = Some (with_suppress true o)) by (unfold s1; simpl; by rewrite lookup_insert).
    pose proof (ks_detach_stack post L2 x k s1) as Q. assert (Hx1 : x < next_id s1) by done. clearbody s1. unfold bind. destruct (detach_stack post x k s1) as [[v|e] s2]; simpl in *.
    + apply quiet_sup with (x := x) in Q as [_ Q2]; [|done]. unfold class_of in Q2. rewrite Hs1 in Q2.
      unfold modify. destruct (nodes s2 !! x) as [o2|]; [|done]. simpl. unfold suppressed. simpl. by rewrite lookup_insert.
    + apply quiet_sup with (x := x) in Q as [Q1 _]; [|done]. rewrite Q1. unfold suppressed. by rewrite Hs1.
  - apply not_elem_of_cons in R1 as [R1 R2]. apply not_elem_of_cons in L1 as [L1 L3].
    destruct b; simpl; try (by apply IH); done.
Qed.
Lemma detach_sup_ret s x k o v : nodes s !! x = Some o -> x < next_id s -> 
  once Lifecycle (c_behs (o_cls o)) -> fst (detach x k s) = Ret v -> suppressed (snd (detach x k s)) x = false.
Proof.
  intros Ho Hx (pre & post & Hb & L1 & L2). unfold detach. rewrite (bind_load _ _ _ _ Ho), Hb. clear Hb.
  revert v. induction pre as [|b pre IH]; simpl app.
  - intros v. cbn [detach_stack detach_stage]. assert (E1 : modify x (with_suppress true) s = (Ret tt, set_nodes <[x := with_suppress true o]> s)).
    { unfold modify. by rewrite Ho. }
    rewrite (bind_Ret _ _ _ _ _ E1). set (s1 := set_nodes _ s). unfold bind. destruct (detach_stack post x k s1) as [[v'|e] s2]; simpl in *; [|done].
    unfold modify. destruct (nodes s2 !! x) as [o2|]; [|done]. simpl. intros _. unfold suppressed. simpl. by rewrite lookup_insert.
  - apply not_elem_of_cons in L1 as [L1 L3]. specialize (IH L3). intros v.
    destruct b; simpl; try (by apply IH); [|done].
    intros Hr. unfold bind at 1. unfold bind at 1 in Hr. pose proof (kb_detach_stack (pre ++ Lifecycle :: post) x k s) as Kb.
    destruct (detach_stack (pre ++ Lifecycle :: post) x k s) as [[v'|e] s2]; [|done]. specialize (IH v' eq_refl). simpl in IH, Kb.
    match type of Hr with fst (?m s2) = _ => assert (K : ks m) by ks end. specialize (K s2). apply quiet_sup with (x := x) in K as [K _]; [|destruct Kb; lia]. cbv beta in K. by rewrite K.
Qed.

(** * Histories *)
Definition loud (x : nat) (cls : classdef) (s : st) : Prop := class_of s x = Some cls /\ x < next_id s.
Lemma step_loud x cls o s : loud x cls s -> loud x cls (snd (run_op o s)).
Proof.
  intros [Hc Hx]. assert (D : (exists y k, o = ODetach y k) \/ forall y k, o <> ODetach y k) by (destruct o; (by left; eauto) || (by right)).
  destruct D as [(y & k & ->)|D].
  - simpl. unfold ignore. pose proof (kb_detach y k s) as [L H]. unfold bind. destruct (detach y k s) as [[v|e] s1]; simpl in *;
      (destruct (H x Hx) as [H1 _]; split; [by unfold class_of in *; rewrite H1|lia]).
  - pose proof (ks_run o D s) as Q. destruct (quiet_sup _ _ x Q Hx) as [_ Q2]. split; [by rewrite Q2|]. destruct Q; lia.
Qed.
Lemma step_other x cls o s : loud x cls s -> not_detach x o -> suppressed (snd (run_op o s)) x = suppressed s x.
Proof.
  intros [Hc Hx] Hn. assert (D : (exists y k, o = ODetach y k) \/ forall y k, o <> ODetach y k) by (destruct o; (by left; eauto) || (by right)).
  destruct D as [(y & k & ->)|D].
  - assert (y <> x) as Hy by (intros ->; by apply (Hn k)). simpl. unfold ignore. pose proof (kb_detach y k s) as [_ H]. unfold bind.
    destruct (H x Hx) as [_ H2]. specialize (H2 (not_eq_sym Hy)). unfold suppressed.
    destruct (detach y k s) as [[v|e] s1]; simpl in *; destruct (nodes s1 !! x), (nodes s !! x); simpl in *; congruence.
  - apply quiet_sup; [|done]. by apply ks_run.
Qed.
Lemma step_detach x cls k s pre post : loud x cls s -> c_behs cls = pre ++ Lifecycle :: post -> Reference ∉ pre -> Lifecycle ∉ pre -> Lifecycle ∉ post ->
  suppressed (snd (run_op (ODetach x k) s)) x = match fst (run_op (ODetach x k) s) with Ret _ => false | Exc _ => true end.
Proof.
  intros [Hc Hx] Hb R L1 L2. unfold class_of in Hc. destruct (nodes s !! x) as [o|] eqn:Ho; [|done]. injection Hc as Hc. subst cls.
  pose proof (detach_sup s x k o pre post Ho Hx Hb R L1 L2) as H. simpl. unfold ignore, bind. destruct (detach x k s) as [[v|e] s1]; done.
Qed.
Lemma run_all_app l1 l2 : forall s, run_all (l1 ++ l2) s = run_all l2 (run_all l1 s).
Proof. induction l1 as [|o l1 IH]; intros s; [done|]. apply IH. Qed.
Lemma run_all_loud x cls l : forall s, loud x cls s -> loud x cls (run_all l s).
Proof. induction l as [|o l IH]; intros s H; [done|]. by apply IH, step_loud. Qed.
Lemma history_sup x cls s l pre post : loud x cls s -> c_behs cls = pre ++ Lifecycle :: post -> Reference ∉ pre -> Lifecycle ∉ pre -> Lifecycle ∉ post ->
  suppressed (run_all l s) x = true <-> detach_failed_last x l s \/ Forall (not_detach x) l /\ suppressed s x = true.
Proof.
  intros Hl Hb R L1 L2. induction l as [|o l IH] using rev_ind.
  - simpl. split; [intros H; right; by split|]. intros [(l1 & k & l2 & e & H & _)|[_ H]]; [by destruct l1|done].
  - rewrite run_all_app. cbn [run_all]. pose proof (run_all_loud x cls l s Hl) as Hl'.
    assert (D : (exists k, o = ODetach x k) \/ not_detach x o).
    { destruct o; try (by right). destruct (decide (x0 = x)) as [->|]; [by left; eexists|]. right. intros k' [=]. done. }
    destruct D as [(k & ->)|Hn].
    + pose proof (step_detach x cls k _ pre post Hl' Hb R L1 L2) as Hs. rewrite Hs. split.
      * intros H. left. exists l, k, []. destruct (fst _) as [u|e] eqn:E; [done|]. exists e. split; [done|]. split; [by constructor|done].
      * intros [(l1 & k' & l2 & e & He & Hf & Hr)|[Hf _]].
        -- destruct l2 as [|o2 l2 _] using rev_ind.
           ++ apply app_inj_tail in He as [-> [= ->]]. by rewrite Hr.
           ++ rewrite app_comm_cons, app_assoc in He. apply app_inj_tail in He as [-> <-]. apply Forall_app in Hf as [_ Hf]. apply Forall_cons in Hf as [Hf _]. by destruct (Hf k).
        -- apply Forall_app in Hf as [_ Hf]. apply Forall_cons in Hf as [Hf _]. by destruct (Hf k).
    + rewrite (step_other x cls o _ Hl' Hn), IH. split.
      * intros [(l1 & k' & l2 & e & -> & Hf & Hr)|[Hf Hs]].
        -- left. exists l1, k', (l2 ++ [o]), e. split; [by rewrite <- app_assoc|]. split; [|done]. apply Forall_app. split; [done|]. by constructor.
        -- right. split; [|done]. apply Forall_app. split; [done|]. by constructor.
      * intros [(l1 & k' & l2 & e & He & Hf & Hr)|[Hf Hs]].
        -- left. destruct l2 as [|o2 l2 _] using rev_ind.
           ++ apply app_inj_tail in He as [_ ->]. by destruct (Hn k').
           ++ rewrite app_comm_cons, app_assoc in He. apply app_inj_tail in He as [-> <-]. apply Forall_app in Hf as [Hf _]. by exists l1, k', l2, e.
        -- right. apply Forall_app in Hf as [Hf _]. done.
Qed.
Lemma reach_loud s x cls : reach s -> class_of s x = Some cls -> loud x cls s.
Proof.
  intros R Hc. split; [done|]. unfold class_of in Hc. destruct (nodes s !! x) as [o|] eqn:E; [|done]. apply reach_wf in R. by destruct (wf_nodes _ R _ _ E).
Qed.
