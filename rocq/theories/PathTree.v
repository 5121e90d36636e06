(** Proofs about path and root. *)
From Verif Require Import Py Odict OdictFacts Heap Model MonadFacts WF WFOps Views SpecMapping MappingProofs Observe TreeOps SetEff DelEff
  ObserveFacts SpecTree MappingProps Reach SpecPlace Utils SpecUtils OrderProofs PlaceProofs.
From stdpp Require Import list.

Lemma ns_obs s x w : views s !! x = Some w -> spaces_at s x = w_ns w.
Proof. intros Hw. rewrite ob_spaces. unfold fld. by rewrite Hw. Qed.

(** * Holding *)
Lemma held_once s : tree_ok s -> forall p pl k p' pl' k' c, holds_at s p pl k c -> holds_at s p' pl' k' c -> p = p' /\ pl = pl' /\ k = k'.
Proof.
  intros [T1 _ _ T4] p pl k p' pl' k' c H H'. destruct (T1 _ _ _ _ H) as [A B], (T1 _ _ _ _ H') as [A' B'].
  rewrite A in A'. rewrite B in B'. injection A' as <-. injection B' as <-. split; [done|]. split; [|done].
  destruct pl, pl'; try done; exfalso; by apply (T4 p k c).
Qed.

(** * Chains *)
Lemma chain_short s x l : wf s -> chain s x l -> length l <= size (nodes s).
Proof.
  intros W C. rewrite <- size_dom. rewrite <- (size_list_to_set (C := gset nat) l) by (by apply (chain_nodup s x)).
  apply subseteq_size. intros y Hy. apply elem_of_list_to_set in Hy. apply elem_of_dom. by apply (chain_known s x l).
Qed.
Lemma loc_chain s x l : wf s -> chain s x l -> forall f, length l <= f -> location_iterator f (Some x) s = (Ret l, s).
Proof.
  intros W C. induction C as [x Hx Hp|x p l Hp C IH]; intros f Hf; (destruct f as [|f]; [simpl in Hf; lia|]); simpl.
  - destruct Hx as [o Ho]. rewrite (bind_load _ _ _ _ Ho). unfold parent_at in Hp. rewrite Ho in Hp. simpl in Hp. rewrite Hp.
    assert (E : location_iterator f None s = (Ret [], s)) by (by destruct f). by rewrite (bind_Ret _ _ _ _ _ E).
  - unfold parent_at in Hp. destruct (nodes s !! x) as [o|] eqn:Ho; [|done]. simpl in Hp. rewrite (bind_load _ _ _ _ Ho), Hp.
    rewrite (bind_Ret _ _ _ _ _ (IH f ltac:(simpl in Hf; lia))). done.
Qed.
Definition names_of (s : st) (l : list nat) : list key := map (fun y => default KNone (name_at s y)) l.
Lemma path_chain s x l : wf s -> chain s x l -> path_of x s = (Ret (rev (names_of s l)), s).
Proof.
  intros W C. unfold path_of, with_fuel.
  assert (E : (fun s0 : st => location_iterator (fuel_of s0) (Some x) s0) s = (Ret l, s)).
  { apply loc_chain; try done. unfold fuel_of. pose proof (chain_short s x l W C). lia. }
  rewrite (bind_Ret _ _ _ _ _ E).
  assert (En : mapM_ (fun o => let! x := load o in ret (o_name x)) l s = (Ret (names_of s l), s)).
  { assert (Hl : Forall (exists_node s) l) by (apply Forall_forall; by apply (chain_known s x l)). clear E C.
    induction l as [|y l IH]; [done|]. apply Forall_cons in Hl as [[o Ho] Hl]. simpl.
    assert (E1 : (let! x := load y in ret (o_name x)) s = (Ret (o_name o), s)) by (by rewrite (bind_load _ _ _ _ Ho)).
    rewrite (bind_Ret _ _ _ _ _ E1), (bind_Ret _ _ _ _ _ (IH Hl)). unfold name_at. by rewrite Ho. }
  by rewrite (bind_Ret _ _ _ _ _ En).
Qed.
Lemma root_chain s x l : wf s -> chain s x l -> root_of x s = (Ret (last l), s).
Proof.
  intros W C. unfold root_of, with_fuel.
  assert (E : (fun s0 : st => location_iterator (fuel_of s0) (Some x) s0) s = (Ret l, s)).
  { apply loc_chain; try done. unfold fuel_of. pose proof (chain_short s x l W C). lia. }
  by rewrite (bind_Ret _ _ _ _ _ E).
Qed.
Lemma chain_last s x l : chain s x l -> exists r, last l = Some r /\ exists_node s r /\ parent_at s r = None.
Proof.
  induction 1 as [x Hx Hp|x p l Hp C (r & IH & H)]; [by exists x|]. exists r. split; [|done]. by destruct l.
Qed.
Lemma names_name s x l : wf s -> chain s x l -> Forall2 (fun y k => name_at s y = Some k) l (names_of s l).
Proof.
  intros W C. assert (Hl : Forall (exists_node s) l) by (apply Forall_forall; by apply (chain_known s x l)). clear C.
  induction Hl as [|y l [o Ho] Hl IH]; [constructor|]. constructor; [|done]. unfold name_at. by rewrite Ho.
Qed.
Lemma root_found s x : wf s -> tree_ok s -> exists_node s x -> exists r, root_of x s = (Ret (Some r), s) /\ exists_node s r /\ parent_at s r = None.
Proof.
  intros W T Hx. destruct (tk_acyc _ T x Hx) as [l C]. destruct (chain_last _ _ _ C) as (r & El & H). exists r. split; [|done]. by rewrite (root_chain s x l W C), El.
Qed.
Lemma child_path s p pl k c : wf s -> tree_ok s -> holds_at s p pl k c ->
  exists kp r, path_of p s = (Ret kp, s) /\ path_of c s = (Ret (kp ++ [k]), s) /\ root_of p s = (Ret (Some r), s) /\ root_of c s = (Ret (Some r), s).
Proof.
  intros W T H. destruct (tk_cons _ T _ _ _ _ H) as [Hn Hp]. pose proof (holds_known s p pl k c W H) as Hc.
  assert (Hpe : exists_node s p) by (by eapply holds_holder). destruct (tk_acyc _ T p Hpe) as [l C].
  assert (C' : chain s c (c :: l)) by (by apply chain_up with p).
  destruct (chain_last _ _ _ C) as (r & El & _). exists (rev (names_of s l)), r.
  rewrite (path_chain s p l W C), (path_chain s c _ W C'), (root_chain s p l W C), (root_chain s c _ W C').
  split; [done|]. split; [simpl; by rewrite Hn|]. split; [by rewrite El|]. by destruct l; simpl in *; rewrite ?El.
Qed.

(** * Going down *)
Lemma descends_path s p ks d : wf s -> tree_ok s -> descends s p ks d ->
  exists kp r, path_of p s = (Ret kp, s) /\ path_of d s = (Ret (kp ++ ks), s) /\ root_of p s = (Ret (Some r), s) /\ root_of d s = (Ret (Some r), s).
Proof.
  intros W T. induction 1 as [x Hx|p pl k c ks d H _ D IH].
  - destruct (tk_acyc _ T x Hx) as [l C]. destruct (root_found s x W T Hx) as (r & E & _). exists (rev (names_of s l)), r.
    rewrite app_nil_r. by rewrite (path_chain s x l W C).
  - destruct (child_path s p pl k c W T H) as (kp & r & E1 & E2 & E3 & E4). destruct IH as (kc & r' & F1 & F2 & F3 & F4).
    exists kp, r. rewrite E2 in F1. injection F1 as <-. rewrite E4 in F3. injection F3 as <-. rewrite <- app_assoc in F2. done.
Qed.
Lemma descends_found s p ks d : wf s -> all_tree_classes s -> spaces_apart s -> descends s p ks d ->
  forall s1, wf s1 -> eqv s s1 -> exists s2, subscripts (VNode p) ks s1 = (Ret (VNode d), s2) /\ eqv s s2.
Proof.
  intros W Ha Hap. induction 1 as [x Hx|p pl k c ks d H Hpl D IH]; intros s1 W1 Q1; [by exists s1|].
  assert (Hpe : exists_node s p) by (by eapply holds_holder). apply views_live in Hpe as [w Hw].
  assert (Hc : class_of s p = Some (w_cls w)) by (rewrite ob_class; unfold fld; by rewrite Hw).
  destruct (getitem_eff s1 p w k) as (s2 & E & Q2 & W2); [done|by eapply eqv_view|by apply (Ha p)|].
  assert (Hg : get_res w k = Ret (VNode c)).
  { unfold get_res, look. destruct pl; simpl in H.
    - pose proof H as H'. rewrite value_at_spec in H'. apply dget_Some_in in H'.
      pose proof (entries_known s p W) as F. rewrite Forall_forall in F. destruct (F _ H') as [Hh _]. simpl in Hh.
      assert (nskey (c_behs (w_cls w)) k = false) as ->. { apply nskey_dunder_false. by apply (Hap p _ k (VNode c)). }
      rewrite Hh. rewrite value_at_spec, (ent_obs _ _ _ Hw) in H. by rewrite H.
    - destruct H as [H _]. pose proof H as H'. rewrite value_at_spec in H'. apply dget_Some_in in H'.
      pose proof (spaces_known s p W) as F. rewrite Forall_forall in F. destruct (F _ H') as [Hh _]. simpl in Hh.
      destruct (Hpl eq_refl) as (cls & Hcls & Hs). assert (cls = w_cls w) as -> by congruence.
      assert (nskey (c_behs (w_cls w)) k = true) as -> by (by apply nskey_dunder).
      rewrite Hh. rewrite value_at_spec, (ns_obs _ _ _ Hw) in H. by rewrite H. }
  rewrite Hg in E. destruct (IH s2 W2) as (s3 & E3 & Q3); [by eapply eqv_trans|]. exists s3. split; [|done].
  simpl. by rewrite (bind_Ret _ _ _ _ _ E).
Qed.
Lemma found_descends s ks : wf s -> all_tree_classes s -> Forall (fun k => k <> KStr "__children__") ks ->
  forall p d s1 s2, exists_node s p -> wf s1 -> eqv s s1 -> subscripts (VNode p) ks s1 = (Ret (VNode d), s2) -> descends s p ks d.
Proof.
  intros W Ha Hks. induction Hks as [|k ks Hk Hks IH]; intros p d s1 s2 Hp W1 Q1 E; simpl in E.
  - injection E as <- _. by constructor.
  - pose proof Hp as Hp0. apply views_live in Hp as [w Hw]. assert (Hc : class_of s p = Some (w_cls w)) by (rewrite ob_class; unfold fld; by rewrite Hw).
    destruct (getitem_eff s1 p w k) as (s3 & E3 & Q3 & W3); [done|by eapply eqv_view|by apply (Ha p)|].
    destruct (get_res w k) as [v|e] eqn:Hg; [|by rewrite (bind_Exc _ _ _ _ _ E3) in E]. rewrite (bind_Ret _ _ _ _ _ E3) in E.
    assert (Q3' : eqv s s3) by (by eapply eqv_trans).
    assert (Hv : exists c, v = VNode c) by (destruct v, ks; simpl in E; try done; by eexists). destruct Hv as [c ->].
    unfold get_res, look in Hg. destruct (nskey (c_behs (w_cls w)) k) eqn:En; (destruct (hashable k); [|done]).
    + destruct (dget k (w_ns w)) as [v|] eqn:Ed; [|done]. injection Hg as ->.
      assert (Hh : holds_at s p InSpaces k c). { split; [by rewrite value_at_spec, (ns_obs _ _ _ Hw)|]. naive_solver. }
      eapply (desc_step s p InSpaces k c); [done| |].
      * intros _. exists (w_cls w). split; [done|]. by apply nskey_dunder in En.
      * eapply IH; [|exact W3|done|exact E]. by apply (holds_known s p InSpaces k).
    + destruct (dget k (w_ent w)) as [v|] eqn:Ed; [|done]. injection Hg as ->.
      assert (Hh : holds_at s p InEntries k c). { simpl. by rewrite value_at_spec, (ent_obs _ _ _ Hw). }
      eapply (desc_step s p InEntries k c); [done|done|]. eapply IH; [|exact W3|done|exact E]. by apply (holds_known s p InEntries k).
Qed.
