(** Proofs about child validation. *)
From Verif Require Import SpecCache CacheProofs Dup InvalEff Py Odict OdictFacts Aliaser Heap Model MonadFacts WF WFOps Views SpecMapping
  MappingProofs StorageProofs Observe TreeOps SetEff DelEff DetachEff NewEff AttrsEff ObserveFacts SpecTree SpecUtils MappingProps SpecOrder OrderProofs
  Reach OpLift SpecPlace PlaceProofs SpecSpaces SpaceProofs SpecValidate.
From stdpp Require Import list.

(** * What a step may do to the values of [x] *)
Definition val_at (s : st) (x : nat) (v : val) : Prop := exists k, (k, v) ∈ entries_at s x \/ (k, v) ∈ spaces_at s x.
Definition guarded (s : st) (x : nat) : Prop := exists cls bs, class_of s x = Some cls /\ c_behs cls = NodeChildValidate :: bs /\ allows s x = false.
Record tamed (x : nat) (s s' : st) : Prop := Tamed {
  tm_class : class_of s' x = class_of s x;
  tm_allow : allows s' x = allows s x;
  tm_vals : forall v, val_at s' x v -> val_at s x v \/ exists c, v = VNode c
}.
Definition tame (x : nat) (s s' : st) : Prop := guarded s x -> tamed x s s'.
Lemma guarded_tamed x s s' : tamed x s s' -> guarded s x -> guarded s' x.
Proof. intros [A1 A2 _] (cls & bs & H1 & H2 & H3). exists cls, bs. split; [by rewrite A1|]. split; [done|]. by rewrite A2. Qed.
Lemma tame_trans x s1 s2 s3 : tame x s1 s2 -> tame x s2 s3 -> tame x s1 s3.
Proof.
  intros T1 T2 G. pose proof (T1 G) as T. specialize (T2 (guarded_tamed _ _ _ T G)). destruct T as [A1 A2 A3], T2 as [B1 B2 B3]. constructor; [congruence|congruence|]. intros v H. destruct (B3 v H) as [H'|?]; [by apply A3|by right].
Qed.
Lemma tame_refl x s : tame x s s.
Proof. intros _. constructor; try done. auto. Qed.
Lemma tamed_refl x s : tamed x s s.
Proof. constructor; try done. auto. Qed.
Lemma tamed_only x s s' : tamed x s s' -> only_nodes s x -> only_nodes s' x.
Proof. intros [_ _ H] O k v Hin. destruct (H v) as [[k' H']|?]; [by exists k|by apply (O k')|done]. Qed.
Lemma ob_allows s x : allows s x = default false (fld w_allow s x).
Proof. unfold allows, fld, views. rewrite map_lookup_imap. by destruct (nodes s !! x). Qed.
Lemma tame_view x s s' : views s' !! x = views s !! x -> tame x s s'.
Proof.
  intros H _. constructor.
  - rewrite !ob_class. unfold fld. by rewrite H.
  - rewrite !ob_allows. unfold fld. by rewrite H.
  - intros v [k Hk]. left. exists k. revert Hk. rewrite !ob_entries, !ob_spaces. unfold fld. by rewrite H.
Qed.
Lemma tame_eqv x s s' : eqv s s' -> tame x s s'.
Proof. intros Q. apply tame_view. by rewrite (e_views _ _ Q). Qed.
Lemma tame_ent x s s' w d : views s !! x = Some w -> views s' !! x = Some (vw_ent d w) ->
  (forall k v, (k, v) ∈ d -> (exists k', (k', v) ∈ w_ent w) \/ exists c, v = VNode c) -> tame x s s'.
Proof.
  intros Hw Hw' Hd _. constructor.
  - rewrite !ob_class. unfold fld. by rewrite Hw, Hw'.
  - rewrite !ob_allows. unfold fld. by rewrite Hw, Hw'.
  - intros v [k Hk]. unfold val_at. revert Hk. rewrite !ob_entries, !ob_spaces. unfold fld. rewrite Hw, Hw'. simpl. intros [Hk|Hk].
    + destruct (Hd k v Hk) as [[k' H]|H]; [left; exists k'; by left|by right].
    + left. exists k. by right.
Qed.
Lemma in_dset (k : key) (v : val) k' v' d : (k', v') ∈ dset k v d -> (k', v') ∈ d \/ v' = v.
Proof.
  induction d as [|[k0 v0] d IH]; simpl; [rewrite elem_of_list_singleton; intros [= -> ->]; by right|]. case_decide as E.
  - rewrite !elem_of_cons. intros [[= -> ->]|?]; auto.
  - rewrite !elem_of_cons. intros [[= -> ->]|H]; [auto|]. destruct (IH H); auto.
Qed.
Lemma in_ddel (k : key) k' (v' : val) d : (k', v') ∈ ddel k d -> (k', v') ∈ d.
Proof. induction d as [|[k0 v0] d IH]; simpl; [done|]. case_decide; rewrite !elem_of_cons; naive_solver. Qed.

(** * The primitives *)
Lemma tame_set x s y k v : world simple s -> exists_node s y -> known s v ->
  world simple (snd (setitem y k v s)) /\ tame x s (snd (setitem y k v s)) /\ forall z, class_of (snd (setitem y k v s)) z = class_of s z.
Proof.
  intros W Hy Hv. apply exists_class in Hy as [cy Hcy]. pose proof (simple_trees s W y cy Hcy) as Ht. pose proof (wd_wf _ _ W) as Wf.
  pose proof Hcy as Hcy'. rewrite ob_class in Hcy'. destruct (setitem_eff s y cy k v Wf Hcy' Ht Hv) as (r & s2 & E & F & _). rewrite E. simpl.
  assert (Hcl : forall z, class_of s2 z = class_of s z) by (intros z; apply core_obs; apply F).
  split; [apply (world_same _ s); try done; apply F|]. split; [|done]. intros (cls & bs & Hc & Hb & Ha).
  destruct (decide (y = x /\ is_node v = false)) as [[-> Hn]|Hd].
  { unfold class_of, allows in Hc, Ha. destruct (nodes s !! x) as [o|] eqn:Ho; [|done]. simpl in Hc. injection Hc as Hc. subst cls.
    destruct (validate_refuses s x o bs k v Ho Hb Ha) as [msg E']; [destruct v; done|]. rewrite E in E'. injection E' as -> ->. by apply tamed_refl. }
  constructor; [done|..].
  - rewrite !ob_allows. f_equal. apply fld_core_allow. apply F.
  - intros u [k' Hu]. revert Hu. rewrite ob_entries, ob_spaces, (se_ent _ _ _ _ _ _ _ _ _ _ F), (se_ns _ _ _ _ _ _ _ _ _ _ F). case_decide as Ex.
    + subst y. assert (Hlive : live s x) by (apply exists_class; by eexists).
      assert (Hcase : forall u, (k', u) ∈ dset k v (entries_at s x) \/ (k', u) ∈ dset k v (spaces_at s x) \/ (k', u) ∈ entries_at s x \/ (k', u) ∈ spaces_at s x ->
        val_at s x u \/ exists c, u = VNode c).
      { intros u' [H|[H|H]]; [apply in_dset in H as [H| ->]..|].
        - left. exists k'. by left.
        - right. destruct v; try (exfalso; apply Hd; done). by eexists.
        - left. exists k'. by right.
        - right. destruct v; try (exfalso; apply Hd; done). by eexists.
        - left. by exists k'. }
      intros H. apply Hcase. destruct (is_ret r && negb _), (is_ret r && _); rewrite ?ent_fmap, ?ns_fmap, <- ?ob_entries, <- ?ob_spaces in H by done; tauto.
    + rewrite <- ob_entries, <- ob_spaces. intros H. left. by exists k'.
Qed.
Lemma tame_del x s y k : world simple s -> exists_node s y ->
  world simple (snd (delitem y k s)) /\ tame x s (snd (delitem y k s)) /\ forall z, class_of (snd (delitem y k s)) z = class_of s z.
Proof.
  intros W Hy. pose proof (wd_wf _ _ W) as Wf. pose proof Hy as Hy'. apply views_live in Hy' as [w Hw].
  assert (Hcy : class_of s y = Some (w_cls w)) by (rewrite ob_class; unfold fld; by rewrite Hw).
  destruct (delitem_eff s y w k Wf Hw (simple_trees s W y _ Hcy)) as (r & s2 & E & F & _). { intros _. apply all_tree_all. by apply simple_trees. }
  rewrite E. simpl. assert (Hcl : forall z, class_of s2 z = class_of s z) by (intros z; apply core_obs; apply F).
  split; [apply (world_same _ s); try done; apply F|]. split; [|done]. intros _. constructor; [done|..].
  - rewrite !ob_allows. f_equal. apply fld_core_allow. apply F.
  - intros u [k' Hu]. left. exists k'. revert Hu. rewrite (ob_entries s2), (ob_spaces s2), (de_ent _ _ _ _ _ _ _ _ F), (de_ns _ _ _ _ _ _ _ _ F). case_decide as Ex.
    + subst y. intros H. destruct (is_ret r && negb _), (is_ret r && _); rewrite ?ent_fmap, ?ns_fmap, <- ?ob_entries, <- ?ob_spaces in H by done;
        destruct H as [H|H]; try apply in_ddel in H; auto.
    + by rewrite <- ob_entries, <- ob_spaces.
Qed.
Lemma tame_get x s y k : world simple s -> exists_node s y -> world simple (snd (getitem y k s)) /\ tame x s (snd (getitem y k s)) /\ forall z, class_of (snd (getitem y k s)) z = class_of s z.
Proof.
  intros W Hy. pose proof (wd_wf _ _ W) as Wf. pose proof Hy as Hy'. apply views_live in Hy' as [w Hw].
  assert (Hcy : class_of s y = Some (w_cls w)) by (rewrite ob_class; unfold fld; by rewrite Hw).
  destruct (getitem_eff s y w k Wf Hw (simple_trees s W y _ Hcy)) as (s2 & E & Q & W2). rewrite E. simpl. split; [by apply (world_eqv _ s)|].
  split; [by apply tame_eqv|]. intros z. rewrite !ob_class. by apply fld_eqv.
Qed.
Lemma tame_iter x s y : world simple s -> exists_node s y -> world simple (snd (Model.iter y s)) /\ tame x s (snd (Model.iter y s)) /\ forall z, class_of (snd (Model.iter y s)) z = class_of s z.
Proof.
  intros W Hy. pose proof (wd_wf _ _ W) as Wf. pose proof Hy as Hy'. apply views_live in Hy' as [w Hw].
  assert (Hcy : class_of s y = Some (w_cls w)) by (rewrite ob_class; unfold fld; by rewrite Hw).
  destruct (iter_eff s y w Wf Hw (simple_trees s W y _ Hcy)) as (s2 & E & Q & W2). rewrite E. simpl. split; [by apply (world_eqv _ s)|].
  split; [by apply tame_eqv|]. intros z. rewrite !ob_class. by apply fld_eqv.
Qed.

(** * Mapping calls on [y], seen from [x] *)
Record guards (x y : nat) (s0 : st) (l : list (key * val)) (s : st) : Prop := Guards {
  gu_world : world simple s;
  gu_node : exists_node s y;
  gu_known : Forall (known s) (map snd l);
  gu_tame : tame x s0 s
}.
Lemma guards_next x y s0 l l' s s' : guards x y s0 l s -> (forall e, e ∈ l' -> e ∈ l) ->
  world simple s' /\ tame x s s' /\ (forall z, class_of s' z = class_of s z) -> guards x y s0 l' s'.
Proof.
  intros [W Hy Hkn T] Hl (W' & T' & Hcl). constructor; [done| | |by eapply tame_trans].
  - by apply (exists_same s s').
  - rewrite Forall_forall in *. intros v Hv. apply elem_of_list_fmap in Hv as (e & -> & He).
    specialize (Hkn (snd e)). destruct (snd e) eqn:Es; try done. apply (exists_same s s'); [done|]. apply Hkn. apply elem_of_list_fmap. exists e. eauto.
Qed.
Lemma guards_op x y s0 o s : op_target o = Some y -> guards x y s0 (op_sets o) s -> guards x y s0 [] (snd (run_op o s)).
Proof.
  intros Ht. apply (lift_op y (guards x y s0) (fun _ => True)); try done.
  - intros s1 k G. eapply guards_next; [exact G|done|]. apply tame_get; apply G.
  - intros s1 k v G. eapply guards_next; [exact G|done|]. apply tame_get; apply G.
  - intros s1 G. eapply guards_next; [exact G|done|]. apply tame_iter; apply G.
  - intros l s1 k v G. eapply guards_next; [exact G|intros e He; by right|]. pose proof (gu_known _ _ _ _ _ G) as Hk. apply Forall_cons in Hk as [Hk _].
    eapply tame_set; try done; apply G.
  - intros s1 k _ G. eapply guards_next; [exact G|done|]. apply tame_del; apply G.
  - intros l s1 G. eapply guards_next; [exact G|intros e He; by apply elem_of_nil in He|]. split; [apply G|]. split; [apply tame_refl|done].
  - apply Forall_forall. done.
  - intros _ s1 ks _ _. by apply Forall_forall.
Qed.

(** * Ordered insertion of any node next to any node *)
Lemma insert_any before s x n r cls r0 s' : wf s -> class_of s x = Some cls -> storage_class (c_behs cls) = true -> exists_node s n -> exists_node s r ->
  insert_at before x n r s = (r0, s') ->
  (eqv s s' /\ wf s') \/
  exists s1 d k w, (forall e, e ∈ d -> e ∈ entries_at s x \/ snd e = VNode n) /\ wf s1 /\ (forall y, y <> x -> views s1 !! y = views s !! y) /\
    views s !! x = Some w /\ views s1 !! x = Some (vw_ent d w) /\ classes s1 = classes s /\ next_uuid s1 = next_uuid s /\ setitem x k (VNode n) s1 = (r0, s').
Proof.
  intros W Hc Hst Hn Hr. destruct (class_view _ _ _ Hc) as (w & Hw & Hwc). pose proof Hn as Hex. apply views_live in Hn as [wn Hwn]. apply views_live in Hr as [wr Hwr].
  destruct (ordering (c_behs cls)) eqn:Hod.
  2:{ destruct (insert_at_other before s x n r cls W Hc Hst Hod) as (e & s1 & E1 & _ & Q1 & W1). rewrite E1. intros [= <- <-]. by left. }
  apply ordering_inv in Hod as [Hor Hko]. rewrite <- Hwc in Hor, Hko.
  unfold insert_at. rewrite (order_yes s x w) by done. pose proof (ro_validate x n s) as Hro. unfold bind at 1. destruct (validateinsertion x n s) as [[u|e] s0]; simpl in Hro; subst s0.
  2:{ intros [= <- <-]. left. split; [apply eqv_refl|done]. }
  destruct (odict_slot s x w W Hw) as (l & s1 & E1 & Q1 & W1 & o1 & Ho1 & Hs1 & Ho1c); [by rewrite Hwc|done|].
  rewrite (bind_Ret _ _ _ _ _ E1). rewrite (bind_Ret _ _ _ _ _ (name_of_eff s1 r wr (eqv_view _ _ _ _ Q1 Hwr))).
  rewrite (bind_Ret _ _ _ _ _ (name_of_eff s1 n wn (eqv_view _ _ _ _ Q1 Hwn))).
  assert (Hd : dicts s1 !! l = Some (entries_at s x)).
  { rewrite (slot_dict s1 x o1 SStorage l W1 Ho1 Hs1). pose proof (nodes_views _ _ _ Ho1) as Hv. rewrite (eqv_view _ _ _ _ Q1 Hw) in Hv.
    injection Hv as <-. by rewrite (ent_obs _ _ _ Hw). }
  unfold odict_insert. case_decide as Ek; [unfold bind, try_catch; simpl; intros [= <- <-]; by left|].
  unfold bind at 1, try_catch. unfold bind at 1. unfold read_dict at 1. rewrite Hd.
  destruct (dget (w_name wr) (entries_at s x)) as [vr|] eqn:Evr; [|simpl; intros [= <- <-]; by left].
  destruct (dget (w_name wn) (entries_at s x)) as [vn|] eqn:Evn; [simpl; intros [= <- <-]; by left|].
  destruct (hashable (w_name wn)) eqn:Hh; [|simpl; intros [= <- <-]; by left].
  set (d := if before then dinsert_before (w_name wr) (w_name wn) (VNode n) (entries_at s x) else dinsert_after (w_name wr) (w_name wn) (VNode n) (entries_at s x)).
  pose proof (entries_nodup s x W) as ND. destruct (wf_dicts _ W1 _ _ Hd) as (_ & _ & F).
  destruct (write_slot s1 x o1 SStorage l d W1 Ho1 Hs1 (mk_is_Some _ _ Hd)) as (s2 & E2 & W2 & Wr).
  - apply NoDup_dinsert; [apply dget_is_Some; eauto|by apply dget_None|done].
  - apply Forall_dinsert; [done|]. split; [done|]. by eapply eqv_live.
  - assert (Hb : beside before (w_name wr) (w_name wn, VNode n) (entries_at s x) d) by (apply dinsert_beside; eauto).
    rewrite E2. intros E. right. destruct Wr as [(w1 & Hw1 & Hv2) Hi2 Hu2 _ _ Hc2]. rewrite (eqv_view _ _ _ _ Q1 Hw) in Hw1. injection Hw1 as <-. rewrite (e_views _ _ Q1) in Hv2.
    assert (Hn2 : exists wn2, views s2 !! n = Some wn2).
    { rewrite Hv2. destruct (decide (x = n)) as [->|Hxn]; [rewrite lookup_insert; by eexists|]. rewrite lookup_insert_ne by done. by exists wn. }
    destruct Hn2 as (wn2 & Hwn2). rewrite (bind_Ret _ _ _ _ _ (name_of_eff s2 n wn2 Hwn2)) in E.
    exists s2, d, (w_name wn2), w. split; [|split; [done|split; [intros y Hy; by rewrite Hv2, lookup_insert_ne|split; [done|split; [by rewrite Hv2, lookup_insert|]]]]].
    + destruct Hb as (l1 & v0 & l2 & E0 & Ed). rewrite Ed, E0. intros e. destruct before; rewrite !elem_of_app, !elem_of_cons; naive_solver.
    + split; [rewrite Hc2; by apply e_classes|]. split; [rewrite Hu2; by apply e_uuid|done].
Qed.

(** Any call that keeps the world and is tame. *)
Definition mostly (x : nat) (s s' : st) : Prop := world simple s' /\ tame x s s'.
Lemma tame_insert_at x s before y n r : world simple s -> exists_node s y -> exists_node s n -> exists_node s r ->
  mostly x s (snd (insert_at before y n r s)).
Proof.
  intros W Hy Hn Hr. pose proof (wd_wf _ _ W) as Wf. apply exists_class in Hy as [cy Hcy]. pose proof (simple_trees s W y cy Hcy) as Ht.
  destruct (insert_at before y n r s) as [r0 s'] eqn:E. simpl.
  destruct (insert_any before s y n r cy r0 s' Wf Hcy (proj2 (tree_class_inv _ Ht)) Hn Hr E) as [[Q W']|(s1 & d & k & w & Hd & W1 & Ho & Hw & Hw1 & Hcs & Hu & E1)].
  { split; [by apply (world_eqv _ s)|by apply tame_eqv]. }
  assert (Hcl : forall z, class_of s1 z = class_of s z).
  { intros z. rewrite !ob_class. unfold fld. destruct (decide (z = y)) as [->|Hne]; [by rewrite Hw, Hw1|by rewrite Ho]. }
  assert (T1 : tame x s s1).
  { destruct (decide (x = y)) as [<-|Hne]; [|apply tame_view; by apply Ho]. apply (tame_ent x s s1 w d Hw Hw1). intros k' v Hin.
    destruct (Hd _ Hin) as [H|H]; [left; exists k'; by rewrite <- (ent_obs _ _ _ Hw)|right; by eexists]. }
  assert (W1' : world simple s1) by (by apply (world_same _ s)).
  destruct (tame_set x s1 y k (VNode n) W1') as (W2 & T2 & _); try done.
  - apply exists_class. rewrite Hcl. by eexists.
  - by apply (exists_same s s1).
  - rewrite E1 in W2, T2. split; [done|by eapply tame_trans].
Qed.
Lemma tame_insert_end x s first y n : world simple s -> exists_node s y -> exists_node s n ->
  mostly x s (snd (insert_end first y n s)).
Proof.
  intros W Hy Hn. pose proof (wd_wf _ _ W) as Wf. pose proof Hy as Hy'. apply exists_class in Hy' as [cy Hcy]. pose proof (simple_trees s W y cy Hcy) as Ht.
  destruct (hasc Order (c_behs cy)) eqn:Hor.
  2:{ rewrite (insert_end_other first s y n cy Hcy Hor). split; [done|apply tame_refl]. }
  destruct (insert_end_eff first s y n cy Wf Hcy Ht Hor) as (s1 & Q1 & W1 & E1). rewrite E1.
  assert (Hcl : forall z, class_of s1 z = class_of s z) by (intros z; rewrite !ob_class; by apply fld_eqv).
  assert (T1 : tame x s s1) by (by apply tame_eqv). assert (Ww1 : world simple s1) by (by apply (world_eqv _ s)).
  assert (Hy1 : exists_node s1 y) by (by apply (exists_same s s1)). assert (Hn1 : exists_node s1 n) by (by apply (exists_same s s1)).
  destruct (end_of first (entries_at s y)) as [[rk v]|].
  - destruct (tame_get x s1 y rk Ww1 Hy1) as (W2 & T2 & Hcl2). unfold bind.
    assert (Hkn : forall v, fst (getitem y rk s1) = Ret v -> known s1 v).
    { intros u Eu. destruct (getitem_looks s1 y cy rk W1) as (s3 & _ & E3); [by rewrite Hcl|done|]. rewrite E3 in Eu. simpl in Eu.
      destruct (hashable rk); [|done]. destruct (value_at rk _) as [v1|] eqn:Ev; [|done]. injection Eu as <-. rewrite value_at_spec in Ev. apply dget_Some_in in Ev.
      destruct (decide (to_spaces cy rk)).
      - pose proof (spaces_known s1 y W1) as F. rewrite Forall_forall in F. by apply (F _ Ev).
      - pose proof (entries_known s1 y W1) as F. rewrite Forall_forall in F. by apply (F _ Ev). }
    destruct (getitem y rk s1) as [[u|e] s2]; simpl in *; [|split; [done|by eapply tame_trans]].
    destruct u as [| | | | | | |rr| | | |]; simpl; try (split; [done|by eapply tame_trans]).
    destruct (tame_insert_at x s2 first y n rr W2) as [W3 T3]; [by apply (exists_same s1 s2)..|apply (exists_same s1 s2); [done|by apply (Hkn (VNode rr))]|].
    split; [done|]. eapply tame_trans; [exact T1|]. by eapply tame_trans.
  - apply views_live in Hn1 as Hn2. destruct Hn2 as [wn Hwn]. rewrite (bind_Ret _ _ _ _ _ (name_of_eff s1 n wn Hwn)).
    destruct (tame_set x s1 y (w_name wn) (VNode n) Ww1 Hy1 Hn1) as (W2 & T2 & _). split; [done|by eapply tame_trans].
Qed.

(** * Setters *)
Definition keeps_allow {A} (m : M A) : Prop := forall s y, allows (snd (m s)) y = allows s y.
Lemma ka_bind {A B} (m : M A) (f : A -> M B) : keeps_allow m -> (forall a, keeps_allow (f a)) -> keeps_allow (bind m f).
Proof. intros Hm Hf s y. specialize (Hm s y). unfold bind. destruct (m s) as [[a|e] s1]; simpl in *; [by rewrite Hf|done]. Qed.
Lemma ka_ro {A} (m : M A) : read_only m -> keeps_allow m.
Proof. intros H s y. by rewrite H. Qed.
Lemma ka_modify x f : (forall o, o_allow (f o) = o_allow o) -> keeps_allow (modify x f).
Proof.
  intros Hf s y. unfold modify. destruct (nodes s !! x) as [o|] eqn:Ho; [|done]. unfold allows. simpl.
  destruct (decide (x = y)) as [<-|Hne]; [by rewrite lookup_insert, Ho, Hf|by rewrite lookup_insert_ne].
Qed.
Lemma ka_assign_uuid x u : keeps_allow (assign_uuid x u).
Proof.
  assert (Hl : forall y, keeps_allow (load y)) by (intros y; apply ka_ro, ro_load).
  assert (Hs : keeps_allow (saw_uuid u)) by (intros s y; by destruct u).
  unfold assign_uuid. apply ka_bind; [done|]. intros o. destruct (has Reference o).
  - unfold set_uuid, index_of. apply ka_bind; [apply ka_bind; [done|]; intros o'; by destruct (o_index o')|]. intros i.
    apply ka_bind; [apply ka_ro; intros s; unfold read_idx; by destruct (idxs s !! i)|]. intros m.
    destruct (match m !! iuuid u with Some o => _ | None => _ end); [by intros s y|].
    apply ka_bind; [done|]. intros o'. apply ka_bind; [by intros s y|]. intros _. apply ka_bind; [done|]. intros _. by apply ka_modify.
  - apply ka_bind; [done|]. intros _. by apply ka_modify.
Qed.
Lemma tame_mild x s s' : mild s s' -> allows s' x = allows s x -> tame x s s'.
Proof.
  intros Hm Ha _. pose proof (mild_calm _ _ Hm) as C. pose proof (mild_entries _ _ Hm x) as [E1 E2]. constructor; [apply C|done|].
  intros v [k Hk]. left. exists k. by rewrite <- E1, <- E2.
Qed.

(** * Every call *)
Lemma basic_tame_step x s o : basic o = true -> world simple s -> op_ok s o -> calls s o -> o <> OSetAllow x true ->
  wf (snd (run_op o s)) -> ext s (snd (run_op o s)) -> (0 < next_uuid (snd (run_op o s)))%N ->
  mostly x s (snd (run_op o s)).
Proof.
  intros Hb W Hok HD Hal W' X U. pose proof (wd_wf _ _ W) as Wf.
  assert (Hmild : mild s (snd (run_op o s)) -> (guarded s x -> allows (snd (run_op o s)) x = allows s x) -> mostly x s (snd (run_op o s))).
  { intros Hm Ha. split; [|intros G; by apply tame_mild; [|apply Ha|]]. apply (world_old simple s); try done. apply old_nodes. apply (mild_calm _ _ Hm). }
  assert (Hlift : forall y, op_target o = Some y -> exists_node s y -> Forall (known s) (map snd (op_sets o)) -> mostly x s (snd (run_op o s))).
  { intros y Ht Hy Hkn. destruct (guards_op x y s o s Ht) as [G1 _ _ G5]; [|by split]. constructor; try done. apply tame_refl. }
  destruct o as [cn name parent|y k|y k v|y k|y k|y a kw|y k v|y k d|y|y|y|y|y|y|y k|y a b|before y n r|first y n|y u|y b|y k|y|y|y|y k v|y k|y k p]; simpl in Hok, HD; try done;
    try (by (apply (Hlift y); [done|tauto|constructor])).
  - (* ONew *) simpl in *. rewrite !snd_ignore in *. destruct (classes s !! cn) as [c|] eqn:Ec.
    + destruct (new_node_eff s cn c name parent Wf Ec) as (z & s1 & E1 & N).
      { by apply (wd_table _ _ W cn). } { done. } { by apply wd_uuid in W. }
      rewrite E1 in *. simpl in *. split; [eapply world_new; [exact N|by apply (wd_table _ _ W cn)|done..]|].
      destruct N as [Nid Nw Nf No _ _ _ _]. intros G. apply tame_view; [|done]. destruct G as (cx & bs & Hc & _). apply No. intros ->. rewrite ob_class in Hc. unfold fld in Hc. by rewrite Nf in Hc.
    + assert (E : snd (new_node cn name parent s) = s) by (unfold new_node; cbn [instantiate]; unfold bind at 1, get_class; by rewrite Ec).
      rewrite E. split; [done|apply tame_refl].
  - (* OSet *) destruct Hok as [H1 H2]. apply (Hlift y); [done|done|by constructor].
  - (* ODetach *) simpl in *. rewrite snd_ignore in *. pose proof Hok as Hlive. apply exists_class in Hok as [cy Hc]. destruct (class_view _ _ _ Hc) as (w & Hw & Hwc). subst cy.
    destruct (detach_eff s y w k Wf Hw (simple_trees s W y _ Hc)) as (r & s' & d & ix & E & F). { intros _. apply all_tree_all. by apply simple_trees. }
    rewrite E in *. simpl in *. assert (Hcl : forall z, class_of s' z = class_of s z). { intros z. apply core2_obs. apply F. }
    split; [apply (world_same _ s); try done; apply F|]. intros _. constructor; [done|..].
    + rewrite !ob_allows. f_equal. apply fld_core2_view; [apply F|]. by intros w1 w2 [= _ _ _ _ -> _].
    + intros v [k' Hv]. left. exists k'. revert Hv. rewrite (ob_entries s'), (ob_spaces s'), (dt_ent _ _ _ _ _ _ _ _ _ _ F), (dt_ns _ _ _ _ _ _ _ _ _ _ F). case_decide as Ex.
      * subst y. intros H. destruct (d && negb _), (d && _); rewrite ?ent_fmap, ?ns_fmap, <- ?ob_entries, <- ?ob_spaces in H by done;
          destruct H as [H|H]; try apply in_ddel in H; auto.
      * by rewrite <- ob_entries, <- ob_spaces.
  - (* OUpdate *) destruct Hok as (H1 & H2 & H3). apply (Hlift y); [done|done|]. simpl. rewrite map_app. by apply Forall_app.
  - (* OSetdefault *) destruct Hok as [H1 H2]. apply (Hlift y); [done|done|by constructor].
  - (* OAttrs *) simpl in *. rewrite !snd_ignore in *. apply views_live in Hok as [w Hw]. destruct (with_attrs (c_behs (w_cls w))) eqn:Ea.
    2:{ destruct (attrs_refused s y w Wf Hw Ea) as (e & s1 & E & Q & W1). rewrite E in *. split; [by apply (world_eqv _ s)|by apply tame_eqv]. }
    destruct (dget attrs_key (w_ns w)) as [v|] eqn:Ev.
    + destruct (attrs_found s y w v Wf Hw Ea Ev) as (s1 & E & Q & W1). rewrite E in *. split; [by apply (world_eqv _ s)|by apply tame_eqv].
    + destruct (classes s !! c_attrs_factory (w_cls w)) as [c|] eqn:Ec.
      * pose proof (wd_table _ _ W _ _ Ec) as Hc. destruct (attrs_missing s y w c Wf Hw Ea Ev Ec) as (a & s1 & E & A); [apply Hc|by apply wd_uuid in W|].
        rewrite E in *. simpl in *. split; [by eapply world_attrs|]. destruct A as [Nw Nf No (w0 & Hw0 & Hw') _ _ _ _].
        intros G. assert (Hxa : x <> a). { intros ->. destruct G as (? & ? & Hcx & _). rewrite ob_class in Hcx. unfold fld in Hcx. by rewrite Nf in Hcx. }
        destruct (decide (x = y)) as [<-|Hne]; [|apply tame_view; [by apply No|done]]. constructor.
        -- rewrite !ob_class. unfold fld. by rewrite Hw', Hw0.
        -- rewrite !ob_allows. unfold fld. by rewrite Hw', Hw0.
        -- intros v [k Hk]. unfold val_at. revert Hk. rewrite !ob_entries, !ob_spaces. unfold fld. rewrite Hw', Hw0. simpl. intros [Hk|Hk]; [left; exists k; by left|].
           apply in_dset in Hk as [Hk| ->]; [left; exists k; by right|right; by eexists].
      * destruct (attrs_no_class s y w Wf Hw Ea Ev Ec) as (e & s1 & E & Q & W1). rewrite E in *. split; [by apply (world_eqv _ s)|by apply tame_eqv].
  - (* OSwap *) destruct Hok as (H1 & [oa Hoa] & [ob Hob]). apply exists_class in H1 as [cy Hc]. simpl in *. pose proof (simple_trees s W y cy Hc) as Ht.
    destruct (ordering (c_behs cy)) eqn:Hod.
    2:{ destruct (swap_other s y a b cy Wf Hc (proj2 (tree_class_inv _ Ht)) Hod) as (s1 & E & Q & W1). rewrite E in *. simpl in *.
        split; [by apply (world_eqv _ s)|by apply tame_eqv]. }
    destruct (swap_eff s y a b cy (o_name oa) (o_name ob) Wf Hc (proj2 (tree_class_inv _ Ht)) Hod) as (r & s' & E & W1 & H);
      [unfold name_at; by rewrite Hoa|unfold name_at; by rewrite Hob|]. rewrite E in *. simpl in *.
    assert (Hq : eqv s s' -> mostly x s s') by (intros Q; split; [by apply (world_eqv _ s)|by apply tame_eqv]).
    rewrite !value_at_spec in H. destruct (dget (o_name oa) (entries_at s y)) as [va|] eqn:Ea; [|apply Hq, H].
    destruct (dget (o_name ob) (entries_at s y)) as [vb|] eqn:Eb; [|apply Hq, H]. case_decide; [apply Hq, H|].
    destruct H as (_ & s1 & Q & Wr). destruct Wr as [(w & Hw & Hv) _ Hu _ _ Hcs]. rewrite (e_views _ _ Q) in Hw, Hv.
    assert (Hcl : forall z, class_of s' z = class_of s z).
    { intros z. rewrite !ob_class. unfold fld. rewrite Hv. destruct (decide (y = z)) as [<-|Hne]; [by rewrite lookup_insert, Hw|by rewrite lookup_insert_ne]. }
    split; [apply (world_same _ s); try done; [rewrite Hu; by apply e_uuid|rewrite Hcs; by apply e_classes]|].
    destruct (decide (y = x)) as [->|Hne]; [|apply tame_view; by rewrite Hv, lookup_insert_ne].
    eapply tame_ent; [exact Hw|by rewrite Hv, lookup_insert|]. intros k v Hin. left. rewrite <- (ent_obs _ _ _ Hw).
    unfold dswap in Hin. rewrite Ea, Eb in Hin. apply elem_of_list_In, in_map_iff in Hin as ([k0 v0] & E0 & Hin). apply elem_of_list_In in Hin. simpl in E0.
    apply dget_Some_in in Ea, Eb. case_decide; [injection E0 as <- <-; eauto|]. case_decide; injection E0 as <- <-; eauto.
  - (* OInsertAt *) destruct Hok as (H1 & H2 & H3). by eapply tame_insert_at.
  - (* OInsertEnd *) destruct Hok as (H1 & H2). by eapply tame_insert_end.
  - (* OSetUuid *) apply Hmild; [apply mild_assign_uuid|intros _; apply ka_assign_uuid].
  - (* OSetAllow *) apply Hmild; [by apply mild_modify|]. simpl. unfold modify. destruct Hok as [oy Hoy]. rewrite Hoy. unfold allows. simpl.
    intros (? & ? & _ & _ & Ha). unfold allows in Ha. destruct (decide (y = x)) as [->|Hne]; [|by rewrite lookup_insert_ne].
    rewrite lookup_insert. destruct b; [done|]. by rewrite Ha.
  - (* OSetFallback *) apply Hmild; [by apply mild_modify|intros _; by apply ka_modify].
  - (* OPath *) assert (E : snd (run_op (OPath y) s) = s) by (simpl; rewrite snd_ignore; apply ro_path). rewrite E. split; [done|apply tame_refl].
  - (* ORoot *) assert (E : snd (run_op (ORoot y) s) = s) by (simpl; rewrite snd_ignore; apply ro_root). rewrite E. split; [done|apply tame_refl].
Qed.
Lemma tame_step x s o : world simple s -> op_ok s o -> calls s o -> o <> OSetAllow x true ->
  wf (snd (run_op o s)) -> ext s (snd (run_op o s)) -> (0 < next_uuid (snd (run_op o s)))%N ->
  mostly x s (snd (run_op o s)).
Proof.
  intros W Hok HD Hal W' X U. destruct (basic o) eqn:Hb; [by apply basic_tame_step|]. pose proof (wd_wf _ _ W) as Wf. destruct o as [| | | | | | | | | | | | | |y k| | | | | | | | |y| | |y k p]; try done.
  - (* OInvalidate *) simpl in Hok. pose proof Hok as Hy. apply exists_class in Hy as [cls Hc].
    pose proof (inval_eff s y cls k Wf Hc (simple_trees s W y cls Hc)) as E. destruct (invalidator (c_behs cls)) as [[|]|].
    + assert (E' : run_op (OInvalidate y k) s = run_op (stands_for y k) s) by exact E. rewrite E' in *.
      apply basic_tame_step; try done; [apply stands_basic|unfold stands_for; by case_decide..].
    + destruct E as (r & s1 & s' & E & Q & W1 & Hs). cbn [run_op] in *. rewrite E in *. cbn [snd] in *. destruct Hs as [->|Hwr]; [split; [by apply (world_eqv _ s)|by apply tame_eqv]|].
      destruct (wrote_within s y _ s1 s' Wf Q Hwr) as (H1 & H2 & H3 & H4 & H5 & _ & _ & H8 & H6 & H7 & _). split; [by apply (world_same _ s)|].
      destruct (below_sub s y k _ Wf H5) as [B1 _]. destruct (decide (y = x)) as [->|Hne]; [|apply tame_view; by apply H8].
      destruct Hwr as [(w & Hw & Hv) _ _ _ _ _]. rewrite (e_views _ _ Q) in Hw, Hv. eapply tame_ent; [exact Hw|by rewrite Hv, lookup_insert|].
      intros k' v Hin. left. exists k'. rewrite <- (ent_obs _ _ _ Hw). apply B1. by rewrite H5.
    + cbn [run_op]. rewrite E. split; [done|apply tame_refl].
  - (* ODeepcopy *) simpl in Hok. pose proof Hok as Hy. apply exists_class in Hy as [cls Hc]. pose proof (wd_nodes _ _ W _ _ Hc) as Hn.
    destruct (deep_eff s y Wf) as (s' & E & D & _).
    assert (E' : run_op (ODeepcopy y) s = (Ret tt, s')).
    { cbn [run_op]. unfold ignore. erewrite bind_Ret; [|by eapply deepcopy_is_deep, new_no_uuid]. done. }
    rewrite E' in *. cbn [snd] in *. split; [by apply (world_dup _ s)|]. intros G. apply tame_view; [|done]. apply (dup_view s s' Wf D).
    destruct G as (cx & bs & Hcx & _). apply exists_class. by eexists.
  - (* OPlace *) destruct Hok as [Hy Hp]. destruct (place_eff s y k p Hy) as (s' & E & [H1 H2 H3 _ _ H5 _ _ H6 H7 _]). rewrite E in *. cbn [snd] in *.
    split; [by apply (world_same _ s)|]. intros _. constructor; [done|done|]. intros v. unfold val_at. rewrite H2, H3. by left.
Qed.

(** * Histories *)
Lemma calls_step x s o r s' : world simple s -> op_ok s o -> calls s o -> run_op o s = (r, s') -> world simple s' /\ (o <> OSetAllow x true -> tame x s s').
Proof.
  intros W Hok HD E. destruct (run_step s o r s' (wd_wf _ _ W) Hok E (wd_uuid _ _ W)) as (W1 & X & U). split.
  - destruct (tame_step (match o with OSetAllow y _ => S y | _ => 0 end) s o) as [H _]; try done; [destruct o; try done; intros [= H]; lia|]. by rewrite E in H.
  - intros Ho. destruct (tame_step x s o) as [_ H]; try done. rewrite E in H. exact H.
Qed.
Lemma calls_world s : grown simple calls s -> world simple s.
Proof.
  induction 1 as [cs Hcs|s o r s' G W Hok HD E].
  - by constructor.
  - by destruct (calls_step 0 s o r s' W Hok HD E).
Qed.
Lemma later_only x s s' : grown simple calls s -> guarded s x -> only_nodes s x -> later (fun s o => calls s o /\ o <> OSetAllow x true) s s' ->
  guarded s' x /\ only_nodes s' x /\ class_of s' x = class_of s x.
Proof.
  intros G Hg O L. induction L as [|s1 o r s2 L (IHg & IHo & IHc) Hok [HD HK] E]; [done|].
  assert (G1 : grown simple calls s1) by (eapply (later_grown simple calls); [|exact G|exact L]; by intros ? ? [? _]).
  destruct (calls_step x s1 o r s2 (calls_world s1 G1) Hok HD E) as [_ H]. specialize (H HK IHg).
  split; [by eapply guarded_tamed|]. split; [by eapply tamed_only|]. rewrite (tm_class _ _ _ H). done.
Qed.
