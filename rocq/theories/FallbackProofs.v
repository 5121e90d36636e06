(** Proofs about fallback lookups. *)
From Verif Require Import Py Odict OdictFacts Heap Model MonadFacts WF WFOps Views SpecMapping MappingProofs StorageProofs Observe TreeOps
  ObserveFacts SpecTree MappingProps Reach SpecPlace OrderProofs PlaceProofs PathTree FbCount FbSearch SpecFallback.
From stdpp Require Import list.

Lemma wf_fb f s : wf s -> wf (set_fbcount f s).
Proof.
  intros W. assert (H : safe s (fun s => (Ret tt, set_fbcount f s)) (fun _ _ => True)) by (by eapply safe_misc). apply (H W).
Qed.
Lemma fb_no_fixed bs : forallb fb_beh bs = true -> hasc FixedChildren bs = false.
Proof.
  intros H. unfold hasc. apply bool_decide_eq_false. intros Hin. rewrite forallb_forall in H. apply elem_of_list_In in Hin. by apply H in Hin.
Qed.
(** The state of a running search: everything observable but the counter as in [s]. *)
Record during (s s1 : st) : Prop := During {
  du_views : views s1 = views s;
  du_wf : wf s1;
  du_fb : (0 <= fbcount s1)%Z;
  du_idxs : idxs s1 = idxs s; du_uuid : next_uuid s1 = next_uuid s; du_log : log s1 = log s; du_classes : classes s1 = classes s;
  du_next : next_id s <= next_id s1
}.
Lemma during_eqv s s1 s2 : during s s1 -> eqv s1 s2 -> wf s2 -> during s s2.
Proof. intros [] []. intros. constructor; try congruence; try lia. Qed.

Definition rests (s : st) (bs : list behavior) (k : key) (w : view) : Prop :=
  (0 <= fbcount s)%Z \/ Fallback ∉ bs \/ forall k', (if nskey bs k then look k (w_ns w) else look k (w_ent w)) <> Exc (KeyError k').
Lemma nested_stack_eff fb bs s x w k :
  wf s -> rests s bs k w -> views s !! x = Some w -> forallb fb_beh bs = true -> fb_class (c_behs (w_cls w)) = true ->
  exists s', get_stack fb (c_behs (w_cls w)) bs x k s = (if nskey bs k then look k (w_ns w) else look k (w_ent w), s') /\ eqv s s' /\ wf s'.
Proof.
  intros W Hfb Hw Hb (Hall & Hst)%andb_prop. induction bs as [|b bs IH]; simpl in *.
  - unfold get_endpoint. rewrite fb_no_fixed by done. unfold storage_class in Hst. rewrite Hst.
    apply (slot_get s x w SStorage); [done..|]. by apply storage_slot.
  - apply andb_prop in Hb as [Hb1 Hb2].
    assert (Hpass : b <> Nodespaces \/ res_key k = false -> nskey (b :: bs) k = nskey bs k).
    { intros [Hne|Hne]; unfold nskey; [|by rewrite Hne, !andb_false_r]. rewrite hasc_cons. rewrite bool_decide_eq_false_2 by done. done. }
    assert (IH' : b <> Nodespaces \/ res_key k = false -> exists s', get_stack fb (c_behs (w_cls w)) bs x k s = (if nskey bs k then look k (w_ns w) else look k (w_ent w), s') /\ eqv s s' /\ wf s').
    { intros Hor. apply IH; [|done]. destruct Hfb as [H|[H|H]]; [by left|right; left; set_solver|]. right. right. by rewrite (Hpass Hor) in H. }
    clear IH. destruct b; try discriminate Hb1; simpl; try (rewrite Hpass by (by left); apply IH'; by left).
    + destruct (res_key k) eqn:Er.
      * assert (nskey (Nodespaces :: bs) k = true) as -> by (unfold nskey; by rewrite hasc_cons, Er).
        destruct k; simpl in *; try done. rewrite Er. apply (slot_get s x w SNodespaces); [done..|]. by apply ns_slot.
      * rewrite (Hpass (or_intror eq_refl)). specialize (IH' (or_intror eq_refl)). destruct k; simpl in *; try done. by rewrite Er.
    + rewrite Hpass in * by (by left). destruct IH' as (s1 & E & Q & W1); [by left|]. unfold try_catch. rewrite E.
      destruct Hfb as [Hfb|[Hfb|Hfb]]; [|set_solver|].
      2: { rewrite Hpass in Hfb by (by left). destruct (if nskey bs k then look k (w_ns w) else look k (w_ent w)) as [v|e] eqn:Er; [by exists s1|].
           destruct e; simpl; try (by exists s1). exfalso. by eapply Hfb. }
      destruct (if nskey bs k then look k (w_ns w) else look k (w_ent w)) as [v|e] eqn:Er; [by exists s1|].
      destruct (is_key_error e); [|by exists s1]. unfold bind, fb_enter, try_finally. rewrite (e_fb _ _ Q).
      assert ((0 <? fbcount s + 1)%Z = true) as -> by (apply Z.ltb_lt; lia). simpl. eexists. split; [done|].
      split; [|by apply wf_fb, wf_fb]. destruct Q. constructor; simpl; try done. rewrite e_fb. lia.
Qed.
Lemma nested_eff s x w k : wf s -> (0 <= fbcount s)%Z -> views s !! x = Some w -> fb_class (c_behs (w_cls w)) = true ->
  exists s', getitem_nested x k s = (get_res w k, s') /\ eqv s s' /\ wf s'.
Proof.
  intros W Hfb Hw Hc. destruct (view_obj _ _ _ Hw) as (o & Ho & Ew). unfold getitem_nested.
  rewrite (bind_load _ _ _ _ Ho). replace (o_cls o) with (w_cls w) by (by subst).
  apply nested_stack_eff; try done; [by left|]. by apply andb_prop in Hc as [? _].
Qed.

Section tree.
Context (s : st) (T : fallback_tree s).
Lemma T_wf : wf s. Proof. apply reach_wf, T. Qed.
Definition item (p : nat) (k : key) : res val := match views s !! p with Some w => get_res w k | None => Exc Dangling end.
Definition fkey (p : nat) : option key :=
  match views s !! p with Some w => match w_fallback w with Some fk => if key_truthy fk then Some fk else None | None => None end | None => None end.
Definition depth (p : nat) : nat := match path_of p s with (Ret l, _) => length l | _ => 0 end.

Lemma depth_chain x l : chain s x l -> depth x = length l.
Proof. intros C. unfold depth. rewrite (path_chain s x l T_wf C), rev_length. unfold names_of. by rewrite map_length. Qed.
Lemma du_live s1 x : during s s1 -> live s x <-> live s1 x.
Proof. intros D. rewrite !views_live, (du_views _ _ D). done. Qed.
Lemma du_chain s1 x l : during s s1 -> chain s x l -> chain s1 x l.
Proof.
  intros D C. eapply chain_keep; [exact C| |].
  - intros y _. rewrite !ob_parent. unfold fld. by rewrite (du_views _ _ D).
  - intros y _. apply (du_live s1 y D).
Qed.
Lemma du_depth s1 x : during s s1 -> live s x -> exists l, path_of x s1 = (Ret l, s1) /\ length l = depth x.
Proof.
  intros D Hx. destruct (ft_acyclic _ T x Hx) as [l C]. pose proof (du_chain _ _ _ D C) as C'.
  rewrite (path_chain s1 x l (du_wf _ _ D) C'). eexists. split; [done|]. rewrite (depth_chain x l C), rev_length. unfold names_of. by rewrite map_length.
Qed.
Lemma nested_item s1 x k : during s s1 -> live s x -> exists s2, getitem_nested x k s1 = (item x k, s2) /\ during s s2.
Proof.
  intros D Hx. apply views_live in Hx as [w Hw]. unfold item. rewrite Hw.
  assert (Hc : fb_class (c_behs (w_cls w)) = true). { apply (ft_classes _ T x). rewrite ob_class. unfold fld. by rewrite Hw. }
  destruct (nested_eff s1 x w k (du_wf _ _ D) (du_fb _ _ D)) as (s2 & E & Q & W2); [by rewrite (du_views _ _ D)|done|].
  exists s2. split; [done|]. by eapply during_eqv.
Qed.
Lemma item_live x k c : item x k = Ret (VNode c) -> live s c.
Proof.
  unfold item. destruct (views s !! x) as [w|] eqn:Hw; [|done]. intros E.
  assert (Hin : exists d, (d = w_ent w \/ d = w_ns w) /\ (k, VNode c) ∈ d).
  { unfold get_res, look in E. destruct (nskey _ k), (hashable k); try done.
    - destruct (dget k (w_ns w)) eqn:Ed; [|done]. injection E as ->. exists (w_ns w). split; [by right|]. by apply elem_of_list_In, dget_Some_in || apply dget_Some_in.
    - destruct (dget k (w_ent w)) eqn:Ed; [|done]. injection E as ->. exists (w_ent w). split; [by left|]. by apply elem_of_list_In, dget_Some_in || apply dget_Some_in. }
  destruct Hin as (d & [->| ->] & Hin).
  - rewrite <- (ent_obs _ _ _ Hw) in Hin. pose proof (entries_known s x T_wf) as F. rewrite Forall_forall in F. apply F in Hin. apply Hin.
  - rewrite <- (ns_obs _ _ _ Hw) in Hin. pose proof (spaces_known s x T_wf) as F. rewrite Forall_forall in F. apply F in Hin. apply Hin.
Qed.
Lemma item_own x k v : live s x -> item x k = Ret v <-> hashable k = true /\ own s x k v.
Proof.
  intros Hx. apply views_live in Hx as [w Hw]. unfold item, own. rewrite Hw. unfold get_res, look.
  assert (Hc : class_of s x = Some (w_cls w)) by (rewrite ob_class; unfold fld; by rewrite Hw).
  rewrite Hc. rewrite !value_at_spec, (ent_obs _ _ _ Hw), (ns_obs _ _ _ Hw).
  destruct (nskey (c_behs (w_cls w)) k) eqn:En.
  - apply nskey_dunder in En. fold (to_spaces (w_cls w) k) in En. destruct (hashable k); [|naive_solver]. destruct (dget k (w_ns w)); naive_solver.
  - apply nskey_dunder_false in En. fold (to_spaces (w_cls w) k) in En. destruct (hashable k); [|naive_solver]. destruct (dget k (w_ent w)); naive_solver.
Qed.
Lemma own_hashable x k v : own s x k v -> hashable k = true.
Proof.
  intros (cls & _ & [[_ H]|[_ H]]); rewrite value_at_spec in H; apply dget_Some_in in H.
  - pose proof (spaces_known s x T_wf) as F. rewrite Forall_forall in F. apply F in H. apply H.
  - pose proof (entries_known s x T_wf) as F. rewrite Forall_forall in F. apply F in H. apply H.
Qed.
Lemma own_exists x k v : own s x k v -> live s x.
Proof. intros (cls & H & _). unfold class_of in H. destruct (nodes s !! x) eqn:E; [|done]. by exists c || (unfold live; rewrite E; eauto). Qed.
Lemma own_item x k v : own s x k v -> item x k = Ret v.
Proof. intros H. apply item_own; [by eapply own_exists|]. split; [by eapply own_hashable|done]. Qed.
Lemma item_exc x k e : live s x -> item x k = Exc e -> if hashable k then e = KeyError k /\ lacks s x k else e = TypeError.
Proof.
  intros Hx E. assert (Hl : lacks s x k). { intros v Ho. apply own_item in Ho. congruence. }
  apply views_live in Hx as [w Hw]. unfold item in E. rewrite Hw in E. unfold get_res, look in E.
  destruct (hashable k); destruct (nskey _ k); try (by injection E).
  - destruct (dget k (w_ns w)); [done|]. by injection E.
  - destruct (dget k (w_ent w)); [done|]. by injection E.
Qed.
Lemma item_lacks x k : live s x -> hashable k = true -> lacks s x k -> item x k = Exc (KeyError k).
Proof.
  intros Hx Hh Hl. destruct (item x k) as [v|e] eqn:E.
  - apply item_own in E as [_ E]; [|done]. by apply Hl in E.
  - pose proof (item_exc x k e Hx E) as H. rewrite Hh in H. by destruct H as [-> _].
Qed.
Lemma fkey_falls p fk : fkey p = Some fk <-> falls s p fk.
Proof.
  unfold fkey, falls. rewrite views_lookup. destruct (nodes s !! p) as [o|] eqn:Ho; simpl.
  2: { split; [done|]. intros [(o & H & _) _]. done. }
  destruct (o_fallback o) as [fk'|] eqn:Ef.
  2: { split; [done|]. intros [(o' & H & H') _]. injection H as <-. congruence. }
  assert (Ht : key_truthy fk' = true <-> fk' <> KStr "" /\ fk' <> KNone /\ fk' <> KInt 0).
  { destruct fk' as [t| |z|u]; simpl.
    - rewrite negb_true_iff. destruct (String.eqb_spec t ""); naive_solver.
    - naive_solver.
    - rewrite negb_true_iff. destruct (Z.eqb_spec z 0); naive_solver.
    - naive_solver. }
  destruct (key_truthy fk').
  - split; [intros [= <-]; split; [by exists o|by apply Ht]|]. intros [(o' & H & H') _]. injection H as <-. by rewrite Ef in H'.
  - split; [done|]. intros [(o' & H & H') Hn]. injection H as <-. rewrite Ef in H'. injection H' as <-. apply Ht in Hn. done.
Qed.
Lemma own_holds p k c : k <> KStr "__children__" -> own s p k (VNode c) -> exists pl, holds_at s p pl k c.
Proof. intros Hk (cls & _ & [[_ H]|[_ H]]); [exists InSpaces; split; [done|naive_solver]|by exists InEntries]. Qed.
Lemma item_par p k c : k <> KStr "__children__" -> item p k = Ret (VNode c) -> parent_at s c = Some p /\ live s c.
Proof.
  intros Hk E. pose proof (item_live _ _ _ E) as Hc. split; [|done].
  assert (Hp : live s p). { unfold item in E. destruct (views s !! p) eqn:H; [|done]. apply views_live. by eexists. }
  apply item_own in E as [_ E]; [|done]. apply own_holds in E as [pl H]; [|done]. by apply (ft_consistent _ T _ _ _ _ H).
Qed.
Lemma par_depth n p : parent_at s n = Some p -> depth n = S (depth p).
Proof.
  intros Hp. assert (Hn : live s n). { unfold parent_at in Hp. destruct (nodes s !! n) eqn:E; [|done]. by eexists. }
  destruct (ft_acyclic _ T n Hn) as [l C]. rewrite (depth_chain n l C). inversion C as [x Hx Hx2|x q l' Hq C']; subst; [congruence|].
  assert (q = p) as -> by congruence. by rewrite (depth_chain p l' C').
Qed.

(** * The loops of the model are the pure ones *)
Lemma to_leaf_eff P : forall v s1, during s s1 -> (forall c, v = VNode c -> live s c) -> exists s2, to_leaf_loop v P s1 = (leaf item v P, s2) /\ during s s2.
Proof.
  induction P as [|n P IH]; intros v s1 D Hv; simpl; [by exists s1|]. destruct v; try (by exists s1).
  destruct (nested_item s1 o n D (Hv _ eq_refl)) as (s2 & E & D2).
  unfold bind at 1. unfold try_catch at 1. unfold bind at 1. rewrite E. destruct (item o n) as [v|e] eqn:Ei; simpl.
  - apply IH; [done|]. intros c ->. by eapply item_live.
  - destruct (is_key_error e); simpl; by exists s2.
Qed.
Lemma leaf_live P : forall v cur, (forall c, v = VNode c -> live s c) -> leaf item v P = Ret (inl cur) -> live s cur.
Proof.
  induction P as [|n P IH]; intros v cur Hv E; simpl in E; [done|]. destruct v; try done. destruct (item o n) as [v|e] eqn:Ei.
  - eapply IH; [|exact E]. intros c ->. by eapply item_live.
  - destruct (is_key_error e); [|done]. injection E as <-. by apply Hv.
Qed.
Lemma to_root_eff nr ks k f : forall n vis s1, during s s1 -> live s n ->
  exists s2, to_root f n (nr :: ks ++ [k]) vis s1 = (up item (parent_at s) fkey depth nr ks k f n vis, s2) /\ during s s2.
Proof.
  induction f as [|f IH]; intros n vis s1 D Hn; simpl; [by exists s1|].
  assert (Hn1 : live s1 n) by (by apply (du_live s1 n D)). destruct Hn1 as [o Ho]. rewrite (bind_load _ _ _ _ Ho).
  assert (Hp : o_parent o = parent_at s n).
  { assert (parent_at s1 n = parent_at s n) as <- by (rewrite !ob_parent; unfold fld; by rewrite (du_views _ _ D)). unfold parent_at. by rewrite Ho. }
  rewrite Hp. destruct (parent_at s n) as [p|] eqn:Epar; [|by exists s1].
  assert (Hlp : live s p). { destruct (ft_acyclic _ T n Hn) as [l C]. apply (chain_known s n l T_wf C). inversion C as [|? q l' Hq C']; subst; [congruence|]. assert (q = p) as -> by congruence. right. by eapply chain_self. }
  assert (Hlp1 : live s1 p) by (by apply (du_live s1 p D)). destruct Hlp1 as [po Hpo]. rewrite (bind_load _ _ _ _ Hpo).
  assert (Hfk : fkey p = match o_fallback po with Some fk => if key_truthy fk then Some fk else None | None => None end).
  { unfold fkey. rewrite <- (du_views _ _ D), (nodes_views _ _ _ Hpo). done. }
  rewrite Hfk. destruct (o_fallback po) as [fk|]; [|by apply IH]. destruct (key_truthy fk); simpl; [|by apply IH].
  case_bool_decide as Hv; [|by apply IH]. destruct (nested_item s1 p fk D Hlp) as (s2 & E2 & D2).
  unfold bind at 1. rewrite E2. destruct (item p fk) as [v|e] eqn:Ei; [|by exists s2]. destruct v; try (by exists s2).
  pose proof (item_live _ _ _ Ei) as Hlo. destruct (du_depth s2 o0 D2 Hlo) as (lp & Elp & Hlen). unfold bind at 1. rewrite Elp. rewrite Hlen.
  destruct (to_leaf_eff (drop (depth o0) (nr :: ks ++ [k])) (VNode o0) s2 D2) as (s3 & E3 & D3); [by intros c [= <-]|].
  unfold bind at 1. rewrite E3. destruct (leaf item (VNode o0) (drop (depth o0) (nr :: ks ++ [k]))) as [[cur|v]|e] eqn:El; try (by exists s3).
  apply IH; [done|]. eapply leaf_live; [|exact El]. by intros c [= <-].
Qed.

(** * Spec and search agree *)
Lemma strays_live r pre n b : live s r -> strays s r pre n b -> live s n.
Proof.
  intros Hr. induction 1 as [|pre p b k c Hs IH Ho|pre p b k c0 fk c Hs IH Ho Hf Ho2]; [done|..].
  - apply own_item in Ho. by eapply item_live.
  - apply own_item in Ho2. by eapply item_live.
Qed.
Lemma wander_strays r pre n b : live s r -> wander item fkey r pre n b <-> strays s r pre n b.
Proof.
  intros Hr. split.
  - assert (Hit : forall p k v, item p k = Ret v -> own s p k v).
    { intros p k v E. assert (Hp : live s p) by (unfold item in E; destruct (views s !! p) eqn:H; [|done]; apply views_live; by eexists). by apply item_own in E as [_ E]. }
    induction 1 as [|pre p b k c Hs IH Ho|pre p b k c0 fk c Hs IH Ho Hf Ho2]; [constructor|by eapply sy_on; eauto|].
    eapply sy_fall; eauto. by apply fkey_falls.
  - induction 1 as [|pre p b k c Hs IH Ho|pre p b k c0 fk c Hs IH Ho Hf Ho2]; [constructor|eapply wd_on; eauto; by apply own_item|].
    eapply wd_fall; eauto; try (by apply own_item). by apply fkey_falls.
Qed.


(** * The start of a search *)
Context (r : nat) (ks : list key) (x : nat) (k : key).
Context (Hpath : path_to s r ks x) (Hhash : hashable k = true) (Hlacks : lacks s x k).
Let nok (c : key) := c <> KStr "__children__".
Lemma ks_ok : Forall nok ks.
Proof. destruct Hpath as (_ & _ & _ & H). apply Forall_forall. intros c Hc ->. done. Qed.
Lemma leads_wander pre n : leads s r pre n -> wander item fkey r pre n false.
Proof. induction 1 as [|pre p n c Hl IH Ho]; [constructor|]. eapply wd_on; [exact IH|]. by apply own_item. Qed.
Lemma leads_fun pre n : leads s r pre n -> forall n', leads s r pre n' -> n = n'.
Proof.
  induction 1 as [|pre p nm c Hl IH Ho]; intros n' H'.
  - inversion H' as [|a b c d H1 H2 H3]; [done|]. by destruct a.
  - inversion H' as [H1|a b c' d H1 H2 H3]; [by destruct pre|]. apply app_inj_tail in H3 as [-> ->]. pose proof (IH _ H1) as ->. apply own_item in Ho, H2. congruence.
Qed.
Lemma leads_snoc pre nm c : leads s r (pre ++ [nm]) c -> exists p, leads s r pre p /\ own s p nm (VNode c).
Proof.
  intros H. inversion H as [H1|a b c' d H1 H2 H3]; [by destruct pre|]. apply app_inj_tail in H3 as [-> ->]. by exists b.
Qed.
Lemma leads_hash pre n : leads s r pre n -> Forall (fun c => hashable c = true) pre.
Proof. induction 1 as [|pre p nm c Hl IH Ho]; [constructor|]. apply Forall_app. split; [done|]. constructor; [|constructor]. by eapply own_hashable. Qed.
Lemma leads_chain pre n : Forall nok pre -> leads s r pre n -> exists l, chain s n l /\ rev (names_of s l) = default KNone (name_at s r) :: pre.
Proof.
  intros Hf. destruct Hpath as (Hr & Hrp & _). induction 1 as [|pre p nm c Hl IH Ho].
  - exists [r]. split; [by constructor|done].
  - apply Forall_app in Hf as [Hf Hn]. apply Forall_cons in Hn as [Hn _]. destruct (IH Hf) as (l & C & E).
    destruct (own_holds p nm c Hn Ho) as [pl Hh]. destruct (ft_consistent _ T _ _ _ _ Hh) as [Hna Hpa]. exists (c :: l). split; [by apply chain_up with p|].
    simpl. rewrite E, Hna. done.
Qed.
Lemma root_facts : depth r = 1 /\ parent_at s r = None /\ live s r.
Proof.
  destruct Hpath as (Hr & Hrp & _). split; [|done]. rewrite (depth_chain r [r]); [done|]. by constructor.
Qed.
Lemma size_bound l : NoDup l -> Forall (live s) l -> length l <= size (nodes s).
Proof.
  intros Hn Hl. rewrite <- size_dom. rewrite <- (size_list_to_set (C := gset nat) l) by done.
  apply subseteq_size. intros y Hy. apply elem_of_list_to_set in Hy. apply elem_of_dom. rewrite Forall_forall in Hl. by apply Hl.
Qed.
Lemma depth_bound n : live s n -> depth n <= size (nodes s).
Proof. intros Hn. destruct (ft_acyclic _ T n Hn) as [l C]. rewrite (depth_chain n l C). by apply (chain_short s n l T_wf). Qed.
Lemma item_err p n e : live s p -> hashable n = true -> item p n = Exc e -> e = KeyError n.
Proof. intros Hp Hh E. pose proof (item_exc p n e Hp E) as H. rewrite Hh in H. apply H. Qed.
Lemma fkey_ok p fk : fkey p = Some fk -> nok fk.
Proof. intros H ->. apply fkey_falls in H. by apply (ft_children _ T p). Qed.
Lemma leads_depth pre n : Forall nok pre -> leads s r pre n -> depth n = S (length pre) /\ live s n.
Proof.
  intros Hf Hl. apply leads_wander in Hl. eapply (wander_depth item (parent_at s) fkey depth (live s) r); eauto.
  - intros p nm c Hn. by apply item_par.
  - apply fkey_ok.
  - apply par_depth.
  - apply root_facts.
Qed.
Definition started (m : nat) : Prop := exists i, i <= length ks /\ leads s r (take i ks) m.
Lemma started_pos i m : i <= length ks -> leads s r (take i ks) m -> pos depth m = i.
Proof. intros Hi Hl. destruct (leads_depth (take i ks) m) as [Hd _]; [apply Forall_take, ks_ok|done|]. unfold pos. rewrite Hd, take_length. lia. Qed.
Lemma anc_leads pre y : leads s r pre y -> Forall nok pre -> forall i m, leads s r (take i pre) m -> anc (parent_at s) y m.
Proof.
  induction 1 as [|pre p nm c Hl IH Ho]; intros Hf i m Hm.
  - rewrite take_nil in Hm. inversion Hm as [|a b c d H1 H2 H3]; [apply rtc_refl|by destruct a].
  - apply Forall_app in Hf as [Hf Hn]. apply Forall_cons in Hn as [Hn _]. destruct (decide (i <= length pre)) as [Hi|Hi].
    + rewrite take_app_le in Hm by done. apply rtc_l with p; [|by eapply IH]. apply (item_par p nm c Hn). by apply own_item.
    + rewrite take_ge in Hm by (rewrite app_length; simpl; lia). assert (m = c) as ->; [|apply rtc_refl]. eapply leads_fun; [exact Hm|]. by eapply ld_step.
Qed.
Lemma inv_start : inv item (parent_at s) fkey depth r ks k started [] x.
Proof.
  destruct Hpath as (Hr & Hrp & Hx & _). assert (Hfull : forall m, leads s r ks m -> m = x) by (intros m Hm; by apply (leads_fun ks)).
  constructor.
  - exists (length ks). split; [done|]. by rewrite take_ge.
  - exists 0. split; [lia|]. constructor.
  - intros m (i & Hi & Hm). exists false. rewrite (started_pos i m Hi Hm). split; [done|]. by apply leads_wander.
  - intros m p (i & Hi & Hm) Hp. destruct i as [|i].
    + inversion Hm as [H1|a b c d H1 H2 H3]; [congruence|by destruct a].
    + destruct (lookup_lt_is_Some_2 ks i ltac:(lia)) as [nm Hnm]. rewrite (take_S_r _ _ _ Hnm) in Hm. apply leads_snoc in Hm as (q & Hq & Ho).
      assert (nok nm) as Hn by (by apply (Forall_lookup_1 _ _ _ _ ks_ok Hnm)). destruct (item_par q nm m Hn) as [Hq' _]; [by apply own_item|].
      exists i. split; [lia|]. congruence.
  - intros m (i & Hi & Hm). left. by eapply (anc_leads ks x Hx ks_ok).
  - intros m (i & Hi & Hm) nm c Hk Hc. rewrite (started_pos i m Hi Hm) in Hk. exists (S i). apply lookup_lt_Some in Hk as Hlt. split; [lia|].
    rewrite (take_S_r _ _ _ Hk). eapply ld_step; [exact Hm|]. apply item_own in Hc as [_ Hc]; [done|]. eapply (leads_depth (take i ks)); [apply Forall_take, ks_ok|done].
  - intros m (i & Hi & Hm) Hp. rewrite (started_pos i m Hi Hm) in Hp. subst i. rewrite take_ge in Hm by done. rewrite (Hfull m Hm).
    apply item_lacks; [|done..]. by eapply (leads_depth ks); [apply ks_ok|].
  - intros m Hm. by apply elem_of_nil in Hm.
  - intros m p (i & Hi & Hm) Hp. destruct i as [|i].
    + inversion Hm as [H1|a b c d H1 H2 H3]; [congruence|by destruct a].
    + destruct (lookup_lt_is_Some_2 ks i ltac:(lia)) as [nm Hnm]. rewrite (take_S_r _ _ _ Hnm) in Hm. apply leads_snoc in Hm as (q & Hq & Ho).
      assert (nok nm) as Hn by (by apply (Forall_lookup_1 _ _ _ _ ks_ok Hnm)). destruct (item_par q nm m Hn) as [Hq' _]; [by apply own_item|].
      assert (q = p) as -> by congruence. exists nm, m. split; [|by apply own_item]. by rewrite (started_pos i p ltac:(lia) Hq).
  - constructor.
Qed.
Lemma x_live : live s x.
Proof. destruct Hpath as (_ & _ & H & _). by eapply (leads_depth ks); [apply ks_ok|]. Qed.
Definition answer (o : res (option val)) : Prop := outcome item fkey r ks k o.
Definition goes (o : res (option val)) : Prop :=
  exists f, size (nodes s) <= f /\ o = up item (parent_at s) fkey depth (default KNone (name_at s r)) ks k (S f) x [].
Lemma search_ok s1 : during s s1 -> exists o s2, fb_search x k s1 = (o, s2) /\ during s s2 /\ answer o /\ goes o.
Proof.
  intros D. destruct Hpath as (Hr & Hrp & Hx & _). destruct (leads_chain ks x ks_ok Hx) as (l & C & El).
  unfold fb_search. assert (Ep : path_of x s1 = (Ret (default KNone (name_at s r) :: ks), s1)).
  { rewrite (path_chain s1 x l (du_wf _ _ D) (du_chain _ _ _ D C)). rewrite <- El. f_equal. f_equal. f_equal. unfold names_of. apply map_ext. intros y.
    rewrite !ob_name. unfold fld. by rewrite (du_views _ _ D). }
  rewrite (bind_Ret _ _ _ _ _ Ep). destruct (to_root_eff (default KNone (name_at s r)) ks k (fb_fuel s1) x [] s1 D x_live) as (s2 & E & D2).
  assert (Hsz : size (nodes s1) = size (nodes s)).
  { rewrite <- !size_dom. f_equal. apply set_eq. intros y. rewrite !elem_of_dom. fold (live s1 y) (live s y). symmetry. by apply du_live. }
  eexists _, s2. split; [exact E|]. split; [done|]. split; [|exists (pred (fb_fuel s1)); unfold fb_fuel, fuel_of; rewrite Hsz; split; [simpl; lia|done]].
  unfold answer. eapply (up_ok item (parent_at s) fkey depth (live s) (size (nodes s))).
  - intros p nm c Hn. by apply item_par.
  - apply item_err.
  - apply fkey_ok.
  - apply par_depth.
  - apply root_facts.
  - apply size_bound.
  - apply depth_bound.
  - apply ks_ok.
  - apply Forall_app. split; [by eapply leads_hash|by constructor].
  - apply inv_start.
  - simpl. rewrite Nat.sub_0_r. pose proof (depth_bound x x_live) as Hd. unfold fb_fuel, fuel_of.
    rewrite Hsz. nia.
Qed.
End tree.

Lemma pass_eff fb all pre rest x k s : forallb fb_beh pre = true -> Fallback ∉ pre -> ~ (Nodespaces ∈ pre /\ dunder k) ->
  get_stack fb all (pre ++ rest) x k s = get_stack fb all rest x k s.
Proof.
  intros Hb Hf Hn. induction pre as [|b pre IH]; [done|]. simpl in *. apply andb_prop in Hb as [Hb1 Hb2].
  assert (IH' : get_stack fb all (pre ++ rest) x k s = get_stack fb all rest x k s) by (apply IH; [done|set_solver|]; intros [A B]; apply Hn; split; [by right|done]).
  destruct b; try discriminate Hb1; simpl; try exact IH'.
  - destruct k as [t| | |]; try exact IH'. destruct (reserved t) eqn:Er; [|exact IH']. exfalso. apply Hn. split; [by left|]. by apply dunder_reserved.
  - exfalso. apply Hf. by left.
Qed.

Lemma own_found s x cls k v : fallback_tree s -> class_of s x = Some cls -> own s x k v -> exists s', getitem x k s = (Ret v, s') /\ same_world s s'.
Proof.
  intros T Hc Ho. pose proof (own_item s T _ _ _ Ho) as Hi. pose proof (own_exists _ _ _ _ Ho) as Hx. pose proof Hx as Hx'. apply views_live in Hx' as [w Hw]. unfold item in Hi. rewrite Hw in Hi.
  destruct (view_obj _ _ _ Hw) as (o & Hob & Ew). assert (Hf : fb_class (c_behs (w_cls w)) = true). { apply (ft_classes _ T x). rewrite ob_class. unfold fld. by rewrite Hw. }
  unfold getitem. rewrite (bind_load _ _ _ _ Hob). replace (o_cls o) with (w_cls w) by (by subst).
  destruct (nested_stack_eff fb_search (c_behs (w_cls w)) s x w k) as (s1 & E & Q & _); try done.
  - by apply T_wf.
  - right. right. intros k'. unfold get_res in Hi. by rewrite Hi.
  - by apply andb_prop in Hf as [? _].
  - exists s1. rewrite E. unfold get_res in Hi. rewrite Hi. split; [done|]. by apply same_world_eqv.
Qed.
Lemma unhashable_key s x cls k : fallback_tree s -> class_of s x = Some cls -> hashable k = false -> exists s', getitem x k s = (Exc TypeError, s') /\ same_world s s'.
Proof.
  intros T Hc Hh. assert (Hx : live s x). { unfold class_of in Hc. destruct (nodes s !! x) eqn:E; [|done]. by eexists. } apply views_live in Hx as [w Hw].
  destruct (view_obj _ _ _ Hw) as (o & Hob & Ew). assert (Hf : fb_class (c_behs (w_cls w)) = true). { apply (ft_classes _ T x). rewrite ob_class. unfold fld. by rewrite Hw. }
  unfold getitem. rewrite (bind_load _ _ _ _ Hob). replace (o_cls o) with (w_cls w) by (by subst).
  assert (Hr : forall d, look k d = Exc TypeError) by (intros d; unfold look; by rewrite Hh).
  destruct (nested_stack_eff fb_search (c_behs (w_cls w)) s x w k) as (s1 & E & Q & _); try done.
  - by apply T_wf.
  - right. right. intros k'. rewrite !Hr. by destruct (nskey _ _).
  - by apply andb_prop in Hf as [? _].
  - exists s1. rewrite E, !Hr. split; [by destruct (nskey _ _)|]. by apply same_world_eqv.
Qed.

(** The lookup that starts the search. *)
Lemma lookup_search s r ks x cls k : fallback_tree s -> path_to s r ks x -> class_of s x = Some cls -> searches cls k -> hashable k = true -> lacks s x k ->
  exists o s', getitem x k s = (match o with Ret (Some v) => Ret v | Ret None => Exc (KeyError k) | Exc e => Exc e end, s') /\ same_world s s' /\ fbcount s' = fbcount s /\ answer s r ks k o /\ goes s r ks x k o.
Proof.
  intros T Hp Hc (pre & post & Eb & H1 & H2 & H3) Hh Hl. pose proof (x_live s T r ks x Hp) as Hx. pose proof Hx as Hx'. apply views_live in Hx' as [w Hw].
  destruct (view_obj _ _ _ Hw) as (o & Hob & Ew). assert (Hcw : class_of s x = Some (w_cls w)) by (rewrite ob_class; unfold fld; by rewrite Hw). assert (cls = w_cls w) as -> by congruence.
  pose proof (ft_classes _ T x _ Hc) as Hf. unfold getitem. rewrite (bind_load _ _ _ _ Hob). replace (o_cls o) with (w_cls w) by (by subst).
  assert (Hbs : forallb fb_beh pre = true /\ forallb fb_beh post = true).
  { pose proof Hf as Hf'. apply andb_prop in Hf' as [Hf' _]. rewrite Eb, forallb_app in Hf'. simpl in Hf'. by apply andb_prop in Hf' as [? Hf']. }
  destruct Hbs as [Hb1 Hb2]. assert (Eg : get_stack fb_search (c_behs (w_cls w)) (c_behs (w_cls w)) x k s = get_stack fb_search (c_behs (w_cls w)) (pre ++ Fallback :: post) x k s) by (by rewrite <- Eb).
  rewrite Eg, pass_eff by done. clear Eg. simpl.
  assert (Hns : (if nskey post k then look k (w_ns w) else look k (w_ent w)) = get_res w k).
  { unfold get_res. assert (nskey post k = nskey (c_behs (w_cls w)) k) as ->; [|done]. apply eq_true_iff_eq. rewrite !nskey_dunder, Eb, elem_of_app, elem_of_cons. naive_solver. }
  assert (Hit : get_res w k = Exc (KeyError k)). { pose proof (item_lacks s T x k Hx Hh Hl) as Hi. unfold item in Hi. by rewrite Hw in Hi. }
  destruct (nested_stack_eff fb_search post s x w k) as (s1 & E & Q & W1); try done; [by apply T_wf|right; by left|].
  rewrite Hns, Hit in E. unfold try_catch. rewrite E. simpl. unfold bind at 1. unfold fb_enter, try_finally.
  pose proof (reach_fbcount s (ft_reach _ T)) as Hz. rewrite (e_fb _ _ Q), Hz. simpl.
  set (s2 := set_fbcount (fun z => (z + 1)%Z) s1). assert (D : during s s2).
  { destruct Q. constructor; simpl; try done; [by apply wf_fb|]. rewrite e_fb, Hz. done. }
  destruct (search_ok s T r ks x k Hp Hh Hl s2 D) as (a & s3 & E3 & D3 & Ha & Hgo). exists a, (set_fbcount (fun z => (z - 1)%Z) s3).
  unfold bind. rewrite E3. assert (Hfb3 : fbcount s3 = fbcount s2). { pose proof (kf_fb_search x k s2) as Kf. by rewrite E3 in Kf. }
  split; [destruct a as [[v|]|e]; done|]. assert (Hfin : (fbcount s3 - 1)%Z = fbcount s). { rewrite Hfb3. unfold s2. simpl. rewrite (e_fb _ _ Q), Hz. done. }
  split; [|split; [simpl; lia|by split]]. apply same_world_eqv. destruct D3. constructor; simpl; try done.
Qed.

(** * What the outcome says *)
Lemma path_nok s r ks x : path_to s r ks x -> Forall (fun c => c <> KStr "__children__") ks.
Proof. intros (_ & _ & _ & H). apply Forall_forall. intros c Hc ->. done. Qed.
Lemma found_inv s r ks k v : fallback_tree s -> exists_node s r -> answer s r ks k (Ret (Some v)) -> exists w, strays s r ks w true /\ own s w k v.
Proof.
  intros T Hr (w & Hw & Hi). apply (wander_strays s T) in Hw; [|done]. exists w. split; [done|]. apply (item_own s) in Hi as [_ Hi]; [done|]. by eapply strays_live.
Qed.
Lemma none_inv s r ks k : fallback_tree s -> exists_node s r -> answer s r ks k (Ret None) -> forall w b, strays s r ks w b -> lacks s w k.
Proof.
  intros T Hr H w b Hw. assert (Hi : item s w k = Exc (KeyError k)) by (eapply H; by apply (wander_strays s T)).
  intros v Ho. apply (own_item s T) in Ho. congruence.
Qed.
Lemma stuck_inv s r ks k e : fallback_tree s -> exists_node s r -> answer s r ks k (Exc e) -> stuck s r ks e.
Proof.
  intros T Hr (pre & n & post & p & b & E & Hw & H). apply (wander_strays s T) in Hw; [|done]. pose proof (strays_live s T _ _ _ _ Hr Hw) as Hp.
  exists pre, n, post, p, b. split; [done|]. split; [done|].
  assert (Hnn : forall v, ~ node_val v -> not_a_node v) by (intros v Hv c ->; apply Hv; by exists c).
  destruct H as [(fk & Hf & [Hi|(v & Hi & Hv & ->)])|(v & Hi & Hv & ->)].
  - apply fkey_falls in Hf. pose proof (item_exc s T p fk e Hp Hi) as Hx. destruct (hashable fk) eqn:Hh.
    + left. destruct Hx as [-> Hl]. by exists fk.
    + right. left. by exists fk.
  - right. right. left. apply fkey_falls in Hf. exists fk, v. apply (item_own s) in Hi as [_ Hi]; [|done]. repeat split; auto. apply Hf. apply Hf. apply Hf. apply Hf.
  - right. right. right. exists v. apply (item_own s) in Hi as [_ Hi]; [|done]. auto.
Qed.
Lemma lookup_cases s r ks x cls k : fallback_tree s -> path_to s r ks x -> class_of s x = Some cls -> searches cls k -> hashable k = true -> lacks s x k ->
  exists res s', getitem x k s = (res, s') /\ same_world s s' /\
    ((exists v w, res = Ret v /\ strays s r ks w true /\ own s w k v) \/
     (res = Exc (KeyError k) /\ forall w b, strays s r ks w b -> lacks s w k) \/
     (exists e, res = Exc e /\ stuck s r ks e)).
Proof.
  intros T Hp Hc Hs Hh Hl. destruct (lookup_search s r ks x cls k T Hp Hc Hs Hh Hl) as (o & s' & E & W & _ & Ha & _). eexists _, s'. split; [exact E|]. split; [done|].
  assert (Hr : exists_node s r) by apply Hp. destruct o as [[v|]|e].
  - left. destruct (found_inv s r ks k v T Hr Ha) as (w & A & B). by exists v, w.
  - right. left. split; [done|]. intros w b. by apply (none_inv s r ks k T Hr Ha).
  - right. right. exists e. split; [done|]. by eapply stuck_inv.
Qed.
(** The parent declares a key it has no child for. *)
Lemma missing_key s r ks n p x cls k fk : fallback_tree s -> path_to s r (ks ++ [n]) x -> leads s r ks p -> class_of s x = Some cls -> searches cls k -> hashable k = true -> lacks s x k ->
  falls s p fk -> hashable fk = true -> lacks s p fk -> exists s', getitem x k s = (Exc (KeyError fk), s') /\ same_world s s'.
Proof.
  intros T Hp Hlp Hc Hs Hh Hl Hf Hhf Hlf. destruct (lookup_search s r _ x cls k T Hp Hc Hs Hh Hl) as (o & s' & E & W & _ & Ha & (f & _ & Ho)).
  exists s'. split; [|done]. rewrite E. pose proof (path_nok _ _ _ _ Hp) as Hnok. destruct Hp as (Hr & Hrp & Hx & Hn).
  apply leads_snoc in Hx as (q & Hq & Hown). pose proof (leads_fun s T r ks q Hq p Hlp) as ->.
  assert (Hnn : n <> KStr "__children__") by set_solver.
  destruct (item_par s T p n x Hnn (own_item s T _ _ _ Hown)) as [Hpar _]. rewrite Ho. simpl. rewrite Hpar. apply fkey_falls in Hf. rewrite Hf.
  rewrite (item_lacks s T p fk); [done| |done|done]. by eapply own_exists.
Qed.
Lemma up_skip s : fallback_tree s -> forall r nr ks0 k post y x, leads s y post x -> Forall (fun c => c <> KStr "__children__") post ->
  (forall pre n rest q fk, post = pre ++ n :: rest -> leads s y pre q -> ~ falls s q fk) ->
  forall f, up (item s) (parent_at s) (fkey s) r nr ks0 k (f + length post) x [] = up (item s) (parent_at s) (fkey s) r nr ks0 k f y [].
Proof.
  intros T r nr ks0 k post y x Hl. induction Hl as [|post p n c Hl IH Ho]; intros Hf Hno f; [by rewrite Nat.add_0_r|].
  apply Forall_app in Hf as [Hf Hn]. apply Forall_cons in Hn as [Hn _].
  destruct (item_par s T p n c Hn (own_item s T _ _ _ Ho)) as [Hpar _]. rewrite app_length. simpl. replace (f + (length post + 1)) with (S (f + length post)) by lia.
  simpl. rewrite Hpar. assert (fkey s p = None) as ->.
  { destruct (fkey s p) as [fk|] eqn:E; [|done]. apply fkey_falls in E. exfalso. eapply (Hno post n [] p fk); eauto. }
  apply IH; [done|]. intros pre n' rest q fk E Hq. subst post. eapply (Hno pre n' (rest ++ [n])); [|exact Hq]. by rewrite <- app_assoc.
Qed.
Lemma leaf_leads s c post w k v : fallback_tree s -> leads s c post w -> own s w k v -> leaf (item s) (VNode c) (post ++ [k]) = Ret (inr v).
Proof.
  intros T Hl. revert k v. induction Hl as [|post p n w Hl IH Ho]; intros k v Hk; simpl.
  - by rewrite (own_item s T _ _ _ Hk).
  - assert (G : forall names l1, leaf (item s) (VNode c) l1 = Ret (inr (VNode w)) -> leaf (item s) (VNode c) (l1 ++ names) = leaf (item s) (VNode w) names).
    { clear. intros names l1. generalize (VNode c). induction l1 as [|a l1 IH]; intros v E; simpl in *; [by injection E as ->|]. destruct v; try done.
      destruct (item s o a); [by apply IH|]. by destruct (is_key_error _). }
    rewrite (G [k] _ (IH n (VNode w) Ho)). simpl. by rewrite (own_item s T _ _ _ Hk).
Qed.
Lemma leads_app s r pre p post x : leads s r pre p -> leads s p post x -> leads s r (pre ++ post) x.
Proof. intros H. induction 1 as [|post q n c Hl IH Ho]; [by rewrite app_nil_r|]. rewrite app_assoc. by eapply ld_step. Qed.
(** The nearest ancestor with a fallback key is tried first. *)
Lemma nearest s r pre p n y post x cls k fk c w v : fallback_tree s -> path_to s r (pre ++ n :: post) x -> class_of s x = Some cls -> searches cls k -> hashable k = true -> lacks s x k ->
  leads s r pre p -> own s p n (VNode y) -> leads s y post x -> (forall l m rest q f, post = l ++ m :: rest -> leads s y l q -> ~ falls s q f) ->
  falls s p fk -> own s p fk (VNode c) -> leads s c post w -> own s w k v ->
  exists s', getitem x k s = (Ret v, s') /\ same_world s s'.
Proof.
  intros T Hp Hc Hs Hh Hl Hlp Hown Hpost Hno Hf Hfo Hcw Hwv. destruct (lookup_search s r _ x cls k T Hp Hc Hs Hh Hl) as (o & s' & E & W & _ & Ha & (f & Hsz & Ho)).
  exists s'. split; [|done]. rewrite E. pose proof (path_nok _ _ _ _ Hp) as Hnok. apply Forall_app in Hnok as [Hn1 Hn2]. apply Forall_cons in Hn2 as [Hn2 Hn3].
  assert (Hpy : leads s r (pre ++ [n]) y) by (by eapply ld_step).
  assert (Hlen : length post <= f).
  { etrans; [|exact Hsz]. pose proof (depth_bound s T x (x_live s T _ _ _ Hp)) as Hd. destruct (leads_depth s T r _ x Hp (pre ++ n :: post) x) as [Hd2 _].
    - by apply path_nok in Hp.
    - apply Hp.
    - rewrite Hd2, app_length in Hd. simpl in Hd. lia. }
  rewrite Ho. replace (S f) with (S (f - length post) + length post) by lia. rewrite (up_skip s T _ _ _ _ post y x Hpost Hn3 Hno). simpl.
  destruct (item_par s T p n y Hn2 (own_item s T _ _ _ Hown)) as [Hpar _]. rewrite Hpar. pose proof Hf as Hf'. apply fkey_falls in Hf'. rewrite Hf'.
  rewrite (own_item s T _ _ _ Hfo).
  assert (Hdc : depth s c = S (length (pre ++ [n]))).
  { assert (Hfk : fk <> KStr "__children__") by (intros ->; by apply (ft_children _ T p)).
    destruct (item_par s T p fk c Hfk (own_item s T _ _ _ Hfo)) as [Hpc _]. rewrite (par_depth s T _ _ Hpc).
    destruct (leads_depth s T r _ x Hp pre p Hn1 Hlp) as [-> _]. rewrite app_length. simpl. lia. }
  rewrite Hdc. simpl. assert (Hdr : drop (length (pre ++ [n])) ((pre ++ n :: post) ++ [k]) = post ++ [k]).
  { replace ((pre ++ n :: post) ++ [k]) with ((pre ++ [n]) ++ post ++ [k]) by (by rewrite <- !app_assoc). by rewrite drop_app. }
  rewrite Hdr, (leaf_leads s c post w k v T Hcw Hwv). done.
Qed.
Lemma lookup_complete s r ks x cls k : fallback_tree s -> path_to s r ks x -> class_of s x = Some cls -> searches cls k -> hashable k = true -> lacks s x k -> sound_keys s ks ->
  exists res s', getitem x k s = (res, s') /\
    ((exists v w, res = Ret v /\ strays s r ks w true /\ own s w k v) \/ (res = Exc (KeyError k) /\ forall w b v, strays s r ks w b -> ~ own s w k v)).
Proof.
  intros T Hp Hc Hs Hh Hl [S1 S2]. destruct (lookup_cases s r ks x cls k T Hp Hc Hs Hh Hl) as (res & s' & E & _ & [H|[[H1 H2]|(e & _ & H)]]); exists res, s'; (split; [done|]).
  - by left.
  - right. split; [done|]. intros w b v Hw. by apply (H2 w b).
  - exfalso. destruct H as (pre & n & post & p & b & Ek & Hy & [(fk & Hf & _ & Hla & _)|[(fk & Hf & Hha & _)|[(fk & v & Hf & Ho & Hn & _)|(v & Ho & Hn & _)]]]).
    + destruct (S1 _ _ Hf) as [c Hoc]. by apply Hla in Hoc.
    + destruct (S1 _ _ Hf) as [c Hoc]. apply (own_hashable s T) in Hoc. congruence.
    + destruct (S1 _ _ Hf) as [c Hoc]. apply (own_item s T) in Ho, Hoc. rewrite Ho in Hoc. injection Hoc as ->. by apply (Hn c).
    + destruct (S2 p n v) as [c ->]; [subst ks; set_solver|done|]. by apply (Hn c).
Qed.
