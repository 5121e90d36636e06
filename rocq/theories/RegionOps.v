(** Every operation stays in a closed region. *)
From Verif Require Import Py Odict OdictFacts Aliaser Heap Model MonadFacts WF Reach SpecRegion Region.

Section ops.
  Context (A : nat -> Prop).
  Notation nn := (fun _ => True).
  Notation oin := (oin A).
  Notation din := (din A).
  Notation iin := (iin A).
  Notation vin := (in_val A).
  Notation within := (within A).

  Lemma vin_node x : A x -> vin (VNode x).
  Proof. intros H y Hy. inversion Hy; by subst. Qed.
  Lemma vin_elim x : vin (VNode x) -> A x.
  Proof. intros H. apply H. constructor. Qed.
  Lemma vin_none : vin VNone.
  Proof. intros y Hy. inversion Hy. Qed.
  Lemma din_nil : din [].
  Proof. intros k v H. by apply elem_of_nil in H. Qed.
  Lemma din_cons k v d : din ((k, v) :: d) <-> vin v /\ din d.
  Proof.
    split.
    - intros H. split; [apply (H k v); left|]. intros k' v' Hk. apply (H k' v'). by right.
    - intros [H1 H2] k' v' Hk. apply elem_of_cons in Hk. destruct Hk as [[= -> ->]|Hk]; [done|]. exact (H2 _ _ Hk).
  Qed.
  Lemma din_get d k v : din d -> dget k d = Some v -> vin v.
  Proof. intros H E. apply dget_Some_in in E. exact (H _ _ E). Qed.
  Lemma din_set d k v : din d -> vin v -> din (dset k v d).
  Proof.
    intros H Hv. induction d as [|[k' v'] d IH]; simpl; [by apply din_cons|].
    apply din_cons in H as [H1 H2]. destruct (decide (k = k')); apply din_cons; auto.
  Qed.
  Lemma din_del d k : din d -> din (ddel k d).
  Proof.
    intros H. induction d as [|[k' v'] d IH]; simpl; [done|].
    apply din_cons in H as [H1 H2]. destruct (decide (k = k')); [done|apply din_cons; auto].
  Qed.
  Lemma din_before d r k v : din d -> vin v -> din (dinsert_before r k v d).
  Proof.
    intros H Hv. induction d as [|[k' v'] d IH]; simpl; [done|].
    apply din_cons in H as [H1 H2]. destruct (decide (r = k')); repeat (apply din_cons; split); auto.
  Qed.
  Lemma din_after d r k v : din d -> vin v -> din (dinsert_after r k v d).
  Proof.
    intros H Hv. induction d as [|[k' v'] d IH]; simpl; [done|].
    apply din_cons in H as [H1 H2]. destruct (decide (r = k')); repeat (apply din_cons; split); auto.
  Qed.
  Lemma din_swap d a b : din d -> din (dswap a b d).
  Proof.
    intros H. unfold dswap. destruct (dget a d) as [va|] eqn:Ea; [|done]. destruct (dget b d) as [vb|] eqn:Eb; [|done].
    pose proof (din_get _ _ _ H Ea) as Ha. pose proof (din_get _ _ _ H Eb) as Hb.
    intros k v Hk. apply elem_of_list_fmap in Hk as ([k0 v0] & E & Hk). simpl in E.
    destruct (decide (k0 = a)); [injection E as -> ->; done|].
    destruct (decide (k0 = b)); [injection E as -> ->; done|]. injection E as -> ->. exact (H _ _ Hk).
  Qed.
  Lemma iin_insert m u x : iin m -> A x -> iin (<[u := x]> m).
  Proof.
    intros H Hx u' j. destruct (decide (u = u')) as [->|Hn]; [rewrite lookup_insert; by intros [= <-]|].
    rewrite lookup_insert_ne by done. apply H.
  Qed.
  Lemma iin_delete m u : iin m -> iin (delete u m).
  Proof. intros H u' j E. apply lookup_delete_Some in E as [_ E]. exact (H _ _ E). Qed.
  Lemma iin_union m1 m2 : iin m1 -> iin m2 -> iin (m1 ∪ m2).
  Proof.
    intros H1 H2 u j E. apply lookup_union_Some_raw in E as [E|[_ E]]; [exact (H1 _ _ E)|exact (H2 _ _ E)].
  Qed.
  Lemma iin_empty : iin ∅.
  Proof. intros u j E. by rewrite lookup_empty in E. Qed.

  Lemma oin_name o k : oin o -> oin (with_name k o).
  Proof. intros H. exact H. Qed.
  Lemma oin_uuid o k : oin o -> oin (with_uuid k o).
  Proof. intros H. exact H. Qed.
  Lemma oin_suppress o k : oin o -> oin (with_suppress k o).
  Proof. intros H. exact H. Qed.
  Lemma oin_allow o k : oin o -> oin (with_allow k o).
  Proof. intros H. exact H. Qed.
  Lemma oin_fallback o k : oin o -> oin (with_fallback k o).
  Proof. intros H. exact H. Qed.
  Lemma oin_parent o p : (forall q, p = Some q -> A q) -> oin o -> oin (with_parent p o).
  Proof. intros Hp (h1 & h2 & h3 & h4 & h5 & h6). by repeat split. Qed.
  Lemma oin_storage o l : A l -> oin o -> oin (with_storage (Some l) o).
  Proof. intros Hp (h1 & h2 & h3 & h4 & h5 & h6). repeat split; try done. by intros j [= <-]. Qed.
  Lemma oin_cache o l : A l -> oin o -> oin (with_cache (Some l) o).
  Proof. intros Hp (h1 & h2 & h3 & h4 & h5 & h6). repeat split; try done. by intros j [= <-]. Qed.
  Lemma oin_children o l : A l -> oin o -> oin (with_children (Some l) o).
  Proof. intros Hp (h1 & h2 & h3 & h4 & h5 & h6). repeat split; try done. by intros j [= <-]. Qed.
  Lemma oin_nodespaces o l : A l -> oin o -> oin (with_nodespaces (Some l) o).
  Proof. intros Hp (h1 & h2 & h3 & h4 & h5 & h6). repeat split; try done. by intros j [= <-]. Qed.
  Lemma oin_index o l : A l -> oin o -> oin (with_index (Some l) o).
  Proof. intros Hp (h1 & h2 & h3 & h4 & h5 & h6). repeat split; try done. by intros j [= <-]. Qed.
  Lemma parent_in o j : oin o -> o_parent o = Some j -> A j.
  Proof. intros (h1 & h2 & h3 & h4 & h5 & h6). auto. Qed.
  Lemma storage_in o j : oin o -> o_storage o = Some j -> A j.
  Proof. intros (h1 & h2 & h3 & h4 & h5 & h6). auto. Qed.
  Lemma cache_in o j : oin o -> o_cache o = Some j -> A j.
  Proof. intros (h1 & h2 & h3 & h4 & h5 & h6). auto. Qed.
  Lemma children_in o j : oin o -> o_children o = Some j -> A j.
  Proof. intros (h1 & h2 & h3 & h4 & h5 & h6). auto. Qed.
  Lemma nodespaces_in o j : oin o -> o_nodespaces o = Some j -> A j.
  Proof. intros (h1 & h2 & h3 & h4 & h5 & h6). auto. Qed.
  Lemma index_in o j : oin o -> o_index o = Some j -> A j.
  Proof. intros (h1 & h2 & h3 & h4 & h5 & h6). auto. Qed.
  Lemma some_in x : A x -> forall q, Some x = Some q -> A q.
  Proof. by intros H q [= <-]. Qed.
  Lemma none_in : forall q, None = Some q -> A q.
  Proof. by intros q [=]. Qed.

  Local Hint Resolve vin_node vin_elim din_nil din_set din_del iin_insert iin_delete iin_union iin_empty
    oin_name oin_uuid oin_suppress oin_allow oin_fallback oin_parent oin_storage oin_cache oin_children oin_nodespaces
    oin_index some_in none_in parent_in storage_in cache_in children_in nodespaces_in index_in din_get : core.
  Local Hint Resolve w_modify w_load w_read_dict w_read_idx w_write_dict w_write_idx w_alloc_node w_alloc_dict w_alloc_idx
    w_uuid4 w_saw w_notify w_get_class w_fb_enter w_fb_exit w_raise : wdb.

  Ltac wb := eapply w_bind; [eauto 7 with wdb|]; cbn beta.
  Ltac wl o H := eapply w_bind; [apply w_load; solve [eauto]|]; intros o H.
  Ltac wif := match goal with |- context [if ?b then _ else _] => destruct b end.
  Ltac wr := apply w_ret; eauto.

  Lemma w_dict_get l k : A l -> within (dict_get l k) vin.
  Proof.
    intros Hl. unfold dict_get. destruct (hashable k); [|apply w_raise]. wb. intros d Hd.
    destruct (dget k d) eqn:E; [wr|apply w_raise].
  Qed.
  Lemma w_dict_set l k v : A l -> vin v -> within (dict_set l k v) nn.
  Proof. intros Hl Hv. unfold dict_set. destruct (hashable k); [|apply w_raise]. wb. eauto with wdb. Qed.
  Lemma w_dict_del l k : A l -> within (dict_del l k) nn.
  Proof.
    intros Hl. unfold dict_del. destruct (hashable k); [|apply w_raise]. wb. intros d Hd.
    destruct (dget k d); [eauto with wdb|apply w_raise].
  Qed.
  Local Hint Resolve w_dict_get w_dict_set w_dict_del : wdb.

  Lemma w_storage_of x : A x -> within (storage_of x) A.
  Proof.
    intros Hx. unfold storage_of. wl o Ho. destruct (_ || _); [|apply w_raise].
    destruct (o_storage o) eqn:E; [wr|]. wb. intros l Hl. wb. intros _ _. wr.
  Qed.
  Lemma w_cache_of x : A x -> within (cache_of x) A.
  Proof.
    intros Hx. unfold cache_of. wl o Ho.
    destruct (o_cache o) eqn:E; [wr|]. wb. intros l Hl. wb. intros _ _. wr.
  Qed.
  Lemma w_nodespaces_of x : A x -> within (nodespaces_of x) A.
  Proof.
    intros Hx. unfold nodespaces_of. wl o Ho.
    destruct (o_nodespaces o) eqn:E; [wr|].
    eapply w_bind; [apply w_alloc_dict, din_cons; split; auto|]. intros l Hl. wb. intros _ _. wr.
  Qed.
  Lemma w_fixed_of x : A x -> within (fixed_of x) A.
  Proof. intros Hx. unfold fixed_of. wl o Ho. destruct (o_children o) eqn:E; [wr|apply w_raise]. Qed.
  Lemma w_index_of x : A x -> within (index_of x) A.
  Proof. intros Hx. unfold index_of. wl o Ho. destruct (o_index o) eqn:E; [wr|apply w_raise]. Qed.
  Local Hint Resolve w_storage_of w_cache_of w_nodespaces_of w_fixed_of w_index_of : wdb.
  Lemma w_own_storage x : A x -> within (own_storage x) A.
  Proof. intros Hx. unfold own_storage. wl o Ho. destruct (_ || _); [eauto with wdb|apply w_raise]. Qed.
  Local Hint Resolve w_own_storage : wdb.
  Lemma w_store x k v : A x -> vin v -> within (store x k v) nn.
  Proof. intros Hx Hv. unfold store. wb. eauto with wdb. Qed.
  Lemma w_unstore x k : A x -> within (unstore x k) nn.
  Proof. intros Hx. unfold unstore. wb. eauto with wdb. Qed.

  Lemma w_location f : forall o, (forall x, o = Some x -> A x) -> within (location_iterator f o) (Forall A).
  Proof.
    induction f as [|f IH]; intros [x|] Hx; simpl; try (by apply w_ret); [apply w_raise|].
    wl ob Ho. eapply w_bind; [apply IH; intros j Hj; by eapply parent_in|]. intros l Hl. apply w_ret. constructor; auto.
  Qed.
  Lemma w_path x : A x -> within (path_of x) nn.
  Proof.
    intros Hx. unfold path_of. eapply w_bind; [apply w_with_fuel; intros n; apply w_location; by apply some_in|]. intros l Hl.
    eapply w_bind; [apply (w_mapM A _ l (fun _ : key => True)); intros b Hb|intros; by apply w_ret].
    rewrite Forall_forall in Hl. pose proof (Hl b Hb). wl o Ho. by apply w_ret.
  Qed.
  Lemma w_root x : A x -> within (root_of x) (fun r => forall q, r = Some q -> A q).
  Proof.
    intros Hx. unfold root_of. eapply w_bind; [apply w_with_fuel; intros n; apply w_location; by apply some_in|]. intros l Hl.
    apply w_ret. intros q Hq. rewrite Forall_forall in Hl. apply Hl.
    apply last_Some in Hq as [l' ->]. apply elem_of_app. right. by left.
  Qed.

  (** * Reading *)
  Lemma w_iter_endpoint bs x : A x -> within (iter_endpoint bs x) nn.
  Proof.
    intros Hx. unfold iter_endpoint. destruct (hasc FixedChildren bs).
    - wb. intros l Hl. wb. intros. by apply w_ret.
    - induction bs as [|b bs IH]; simpl; [apply w_raise|].
      destruct b; try exact IH.
      + wl o Ho. by apply w_ret.
      + wb. intros l Hl. wb. intros. by apply w_ret.
      + wb. intros l Hl. wb. intros. by apply w_ret.
  Qed.
  Lemma w_iter_stack all bs x : A x -> within (iter_stack all bs x) nn.
  Proof.
    intros Hx. induction bs as [|b bs IH]; simpl; [by apply w_iter_endpoint|].
    destruct b; simpl; try exact IH. wb. intros ks _. wl o Ho. by apply w_of_res.
  Qed.
  Lemma w_iter x : A x -> within (iter x) nn.
  Proof. intros Hx. unfold iter. wl o Ho. by apply w_iter_stack. Qed.
  Lemma w_iterkeys x : A x -> within (iterkeys x) nn.
  Proof. intros Hx. unfold iterkeys. wl o Ho. destruct (has _ _); [by apply w_ret|by apply w_iter]. Qed.
  Lemma w_keys x : A x -> within (keys x) nn.
  Proof. apply w_iter. Qed.
  Local Hint Resolve w_iter w_iterkeys w_keys : wdb.

  Lemma w_set_uuid x u : A x -> within (set_uuid x u) nn.
  Proof.
    intros Hx. unfold set_uuid. wb. intros i Hi. wb. intros m Hm.
    match goal with |- Region.within _ (if ?b then _ else _) _ => destruct b end; [apply w_raise|].
    wl o Ho. wb. intros _ _. wb. intros _ _. eauto with wdb.
  Qed.
  Lemma w_notify_modified x : A x -> within (notify_modified x) nn.
  Proof.
    intros Hx. unfold notify_modified. wl o Ho. destruct (o_parent o) as [p|] eqn:E; [|apply w_raise].
    wl po Hpo. destruct (has _ _); [|apply w_raise]. destruct (o_suppress po); [by apply w_ret|apply w_notify].
  Qed.
  Local Hint Resolve w_set_uuid w_notify_modified : wdb.

  (** * Writing *)
  Lemma w_set_stage b next x k v :
    (forall y k v, A y -> vin v -> within (next y k v) nn) -> A x -> vin v -> within (set_stage b next x k v) nn.
  Proof.
    intros Hn Hx Hv. destruct b; simpl; try (by apply Hn).
    - (* Adopt *) destruct v as [| | | | | | |c| | | |]; try (by apply Hn).
      wl old Ho. wb. intros _ _. wb. intros _ _. apply w_try; [by apply Hn|]. intros e.
      wb. intros _ _. eapply w_bind; [|intros; apply w_raise]. apply w_modify; [auto|]. intros o Hin.
      apply oin_parent; [|done]. intros q Hq. exact (parent_in _ _ Ho Hq).
    - (* NodeChildValidate *) wl o Ho. wif; [apply w_raise|]. wif; [apply w_raise|]. by apply Hn.
    - (* Nodespaces *) destruct k as [s| | |]; try apply w_raise. destruct (reserved s); [|by apply Hn].
      destruct v as [| | | | | | |c| | | |]; try apply w_raise. wb. intros _ _. wb. intros _ _. wb. eauto with wdb.
    - (* Reference *) destruct v as [| | | | | | |c| | | |]; try (by apply Hn). pose proof (vin_elim _ Hv) as Hc.
      wb. intros ks _. eapply (w_bind A _ _ (fun _ => True)).
      { destruct ks; [by apply w_ret|]. wb. intros i Hi. wb. intros mi Hmi. wb. intros j Hj. wb. intros mj Hmj.
        wif; [by apply w_ret|apply w_raise]. }
      intros _ _. wb. intros i Hi. wb. intros mi Hmi. wb. intros j Hj. wb. intros mj Hmj. wb. intros _ _. wb. intros _ _.
      by apply Hn.
    - (* Alias *) wl o Ho. eapply w_bind; [by apply (w_of_res A _ (fun _ => True))|]. intros k' _. apply w_try; [by apply Hn|].
      intros. apply w_raise.
    - (* Cache *) wb. intros l Hl. eapply w_bind; [apply w_try; [by apply w_dict_del|intros; by apply w_ret]|].
      intros _ _. by apply Hn.
    - (* Lifecycle *) eapply w_bind; [by apply Hn|]. intros _ _. wl o Ho. wif; [by apply w_ret|apply w_notify].
    - (* AttributesLifecycle *) eapply w_bind; [by apply Hn|]. intros _ _. by apply w_notify_modified.
  Qed.
  Lemma w_set_stack all bs : forall x k v, A x -> vin v -> within (set_stack all bs x k v) nn.
  Proof.
    induction bs as [|b bs IH]; intros x k v Hx Hv; simpl.
    - unfold set_endpoint. wif; [apply w_raise|]. wif; [|apply w_raise]. wb. eauto with wdb.
    - by apply w_set_stage.
  Qed.
  Lemma w_setitem x k v : A x -> vin v -> within (setitem x k v) nn.
  Proof. intros Hx Hv. unfold setitem. wl o Ho. by apply w_set_stack. Qed.
  Local Hint Resolve w_setitem : wdb.

  Lemma w_assign_uuid x u : A x -> within (assign_uuid x u) nn.
  Proof. intros Hx. unfold assign_uuid. wl o Ho. wif; [by apply w_set_uuid|]. wb. intros _ _. eauto with wdb. Qed.
  Local Hint Resolve w_assign_uuid : wdb.
  Lemma w_init_stage mk b next x :
    (forall cn, within (mk cn) A) -> (forall y, A y -> within (next y) nn) -> A x -> within (init_stage mk b next x) nn.
  Proof.
    intros Hm Hn Hx. destruct b; simpl; try (by apply Hn).
    - (* FixedChildren *) eapply w_bind; [by apply Hn|]. intros _ _. wb. intros l Hl. wb. intros _ _. wl o Ho.
      apply w_iterM. intros [k cn] _. simpl. eapply w_bind; [apply Hm|]. intros c Hc. wb. intros _ _. wb. intros _ _. eauto with wdb.
    - (* UUIDAware *) eapply w_bind; [by apply Hn|]. intros _ _. wb. intros u _. eauto with wdb.
    - (* Reference *) wb. intros i Hi. wb. intros _ _. wb. intros u _. wb. intros _ _. by apply Hn.
    - (* Lifecycle *) eapply w_bind; [by apply Hn|]. intros _ _. apply w_notify.
  Qed.
  Lemma w_init_stack mk all bs n p : (forall cn, within (mk cn) A) -> (forall q, p = Some q -> A q) ->
    forall x, A x -> within (init_stack mk all bs n p x) nn.
  Proof.
    intros Hm Hp. induction bs as [|b bs IH]; intros x Hx; simpl.
    - unfold init_endpoint. wif; [wb; intros _ _; eauto with wdb|]. destruct n, p; try apply w_raise. by apply w_ret.
    - by apply w_init_stage.
  Qed.
  Lemma oin_blank c : oin (blank c).
  Proof. repeat split; by intros j [=]. Qed.
  Lemma w_instantiate f : forall cn n p, (forall q, p = Some q -> A q) -> within (instantiate f cn n p) A.
  Proof.
    induction f as [|f IH]; intros cn n p Hp; simpl; [apply w_raise|].
    wb. intros c _. eapply w_bind; [apply w_alloc_node, oin_blank|]. intros x Hx.
    eapply w_bind; [apply w_init_stack; [intros; apply IH; by intros q [=]|done|done]|]. intros _ _. wr.
  Qed.
  Lemma w_new_node cn n p : (forall q, p = Some q -> A q) -> within (new_node cn n p) A.
  Proof. intros Hp. apply (w_fun A (fun s => instantiate (S (size (classes s))) cn n p)). intros s. by apply w_instantiate. Qed.
  Local Hint Resolve w_new_node : wdb.

  (** * Item access *)
  Definition oval (r : option val) : Prop := forall v, r = Some v -> vin v.
  Lemma w_get_stage fb b next x k :
    (forall y k, A y -> within (fb y k) oval) ->
    (forall y k, A y -> within (next y k) vin) -> A x -> within (get_stage fb b next x k) vin.
  Proof.
    intros Hf Hn Hx. destruct b; simpl; try (by apply Hn).
    - (* ChildFactory *) apply w_try; [by apply Hn|]. intros e. wl o Ho. wif; [|apply w_raise].
      destruct (dget k _) as [cn|]; [|apply w_raise]. eapply w_bind; [apply w_new_node; by intros q [=]|]. intros c Hc. wb.
      intros _ _. wr.
    - (* Nodespaces *) destruct k as [s| | |]; try (by apply Hn). destruct (reserved s); [|by apply Hn]. wb. eauto with wdb.
    - (* Alias *) wl o Ho. eapply w_bind; [by apply (w_of_res A _ (fun _ => True))|]. intros k' _. apply w_try; [by apply Hn|].
      intros. apply w_raise.
    - (* Cache *) wb. intros l Hl. apply w_try; [by apply w_dict_get|]. intros e. eapply w_bind; [by apply Hn|]. intros v Hv.
      wb. intros _ _. by apply w_dict_get.
    - (* Fallback *) apply w_try; [by apply Hn|]. intros e. wb. intros count _. apply w_finally; [|apply w_fb_exit].
      wif; [apply w_raise|]. eapply w_bind; [by apply Hf|]. intros [v|] Hr; [|apply w_raise]. apply w_ret. by apply Hr.
  Qed.
  Lemma w_get_stack fb all bs : (forall y k, A y -> within (fb y k) oval) ->
    forall x k, A x -> within (get_stack fb all bs x k) vin.
  Proof.
    intros Hf. induction bs as [|b bs IH]; intros x k Hx; simpl.
    - unfold get_endpoint. wif; [wb; eauto with wdb|]. wif; [wb; eauto with wdb|apply w_raise].
    - by apply w_get_stage.
  Qed.
  Lemma w_getitem_nested x k : A x -> within (getitem_nested x k) vin.
  Proof. intros Hx. unfold getitem_nested. wl o Ho. apply w_get_stack; [|done]. intros; apply w_raise. Qed.
  Definition leaf (r : nat + val) : Prop := match r with inl c => A c | inr v => vin v end.
  Lemma w_to_leaf ns : forall v, vin v -> within (to_leaf_loop v ns) leaf.
  Proof.
    induction ns as [|n ns IH]; intros v Hv; simpl; [by apply w_ret|].
    destruct v as [| | | | | | |c| | | |]; try apply w_raise. pose proof (vin_elim _ Hv) as Hc.
    eapply (w_bind A _ _ oval).
    { apply w_try; [|intros; apply w_ret; by intros ? [=]]. eapply w_bind; [by apply w_getitem_nested|].
      intros v0 Hv0. apply w_ret. by intros ? [= <-]. }
    intros [v0|] Ho; [apply IH; by apply Ho|by apply w_ret].
  Qed.
  Lemma w_to_root f : forall x p vis, A x -> within (to_root f x p vis) oval.
  Proof.
    induction f as [|f IH]; intros x p vis Hx; simpl; [apply w_raise|].
    wl n Hn. destruct (o_parent n) as [q|] eqn:Eq; [|apply w_ret; by intros ? [=]].
    pose proof (parent_in _ _ Hn Eq) as Hq. wl po Hpo. destruct (o_fallback po) as [fk|]; [|by apply IH].
    wif; [|by apply IH]. eapply w_bind; [by apply w_getitem_nested|]. intros c Hc.
    destruct c as [| | | | | | |c| | | |]; try apply w_raise.
    eapply w_bind; [apply w_path; by apply vin_elim|]. intros cp _. eapply w_bind; [by apply w_to_leaf|].
    intros [cur|v] Hl; [by apply IH|]. apply w_ret. by intros ? [= <-].
  Qed.
  Lemma w_fb_search x k : A x -> within (fb_search x k) oval.
  Proof.
    intros Hx. unfold fb_search. eapply w_bind; [by apply w_path|]. intros p _.
    apply (w_fun A (fun s => to_root (fb_fuel s) x (p ++ [k]) [])). intros s. by apply w_to_root.
  Qed.
  Lemma w_getitem x k : A x -> within (getitem x k) vin.
  Proof. intros Hx. unfold getitem. wl o Ho. apply w_get_stack; [|done]. intros; by apply w_fb_search. Qed.
  Local Hint Resolve w_getitem : wdb.

  Lemma w_to_delete f : forall x, A x -> within (to_delete f x) nn.
  Proof.
    induction f as [|f IH]; intros x Hx; simpl; [apply w_raise|].
    wl o Ho. wif; [|apply w_raise]. destruct (o_uuid o); [|apply w_raise]. wb. intros ks _.
    eapply w_bind; [apply (w_mapM A _ ks (fun _ => True)); intros k _|intros; by apply w_ret].
    apply w_try; [|intros; by apply w_ret]. wb. intros c Hc. destruct c as [| | | | | | |c| | | |]; try apply w_raise.
    apply IH. by apply vin_elim.
  Qed.
  Lemma w_values x : A x -> within (values x) (Forall vin).
  Proof. intros Hx. unfold values. wb. intros ks _. apply w_mapM. intros; by apply w_getitem. Qed.
  Lemma w_items x : A x -> within (items x) (Forall (fun kv => vin (snd kv))).
  Proof.
    intros Hx. unfold items. wb. intros ks _. apply w_mapM. intros k _. wb. intros v Hv. by apply w_ret.
  Qed.
  Local Hint Resolve w_values w_items : wdb.
  Lemma w_index_nodes f : forall x, A x -> within (index_nodes f x) nn.
  Proof.
    induction f as [|f IH]; intros x Hx; simpl; [apply w_raise|].
    wl o Ho. wif; [|apply w_raise]. wb. intros vs Hvs. apply w_iterM. intros v Hv.
    rewrite Forall_forall in Hvs. specialize (Hvs v Hv). destruct v as [| | | | | | |c| | | |]; try (by apply w_ret).
    pose proof (vin_elim _ Hvs) as Hc. wl co Hco. wif; [|by apply w_ret]. destruct (o_uuid co); [|apply w_raise].
    wb. intros i Hi. wb. intros m Hm. wb. intros _ _. wb. intros _ _. by apply IH.
  Qed.
  Lemma w_idx_del i u : A i -> within (idx_del i u) nn.
  Proof. intros Hi. unfold idx_del. wb. intros m Hm. destruct (m !! u); [eauto with wdb|apply w_raise]. Qed.

  Lemma w_del_stage b next x k : (forall y k, A y -> within (next y k) nn) -> A x -> within (del_stage b next x k) nn.
  Proof.
    intros Hn Hx. destruct b; simpl; try (by apply Hn).
    - (* Nodespaces *) destruct k as [s| | |]; try apply w_raise. destruct (reserved s); [|by apply Hn]. wb. eauto with wdb.
    - (* Reference *) wb. intros v Hv. eapply (w_bind A _ _ (fun _ => True)); [|intros _ _; by apply Hn].
      destruct v as [| | | | | | |c| | | |]; try (by apply w_ret). pose proof (vin_elim _ Hv) as Hc.
      wl co Hco. wif; [|by apply w_ret]. eapply w_bind; [apply w_with_fuel; intros; by apply w_to_delete|]. intros us _.
      apply w_iterM. intros u _. wb. intros i Hi. by apply w_idx_del.
    - (* Alias *) wl o Ho. eapply w_bind; [by apply (w_of_res A _ (fun _ => True))|]. intros k' _. apply w_try; [by apply Hn|].
      intros. apply w_raise.
    - (* Cache *) wb. intros l Hl. eapply w_bind; [apply w_try; [by apply w_dict_del|intros; by apply w_ret]|].
      intros _ _. by apply Hn.
    - (* Lifecycle *) wb. intros v Hv. eapply w_bind; [by apply Hn|]. intros _ _. wl o Ho. wif; [by apply w_ret|apply w_notify].
    - (* AttributesLifecycle *) eapply w_bind; [by apply Hn|]. intros _ _. by apply w_notify_modified.
  Qed.
  Lemma w_del_stack all bs : forall x k, A x -> within (del_stack all bs x k) nn.
  Proof.
    induction bs as [|b bs IH]; intros x k Hx; simpl.
    - unfold del_endpoint. wif; [apply w_raise|]. wif; [|apply w_raise]. wb. eauto with wdb.
    - by apply w_del_stage.
  Qed.
  Lemma w_delitem x k : A x -> within (delitem x k) nn.
  Proof. intros Hx. unfold delitem. wl o Ho. by apply w_del_stack. Qed.
  Local Hint Resolve w_delitem : wdb.

  Lemma iin_single u c : A c -> iin {[ u := c ]}.
  Proof. intros Hc. apply (iin_insert ∅); auto. Qed.
  Lemma w_detach_stage b next x k : (forall y k, A y -> within (next y k) vin) -> A x -> within (detach_stage b next x k) vin.
  Proof.
    intros Hn Hx. destruct b; simpl; try (by apply Hn).
    - eapply w_bind; [by apply Hn|]. intros v Hv. destruct v as [| | | | | | |c| | | |]; try apply w_raise.
      pose proof (vin_elim _ Hv) as Hc. wl co Hco. wif; [|apply w_raise]. destruct (o_uuid co); [|apply w_raise].
      eapply w_bind; [apply w_alloc_idx; by apply iin_single|]. intros i Hi. wb. intros _ _.
      eapply w_bind; [apply w_with_fuel; intros; by apply w_index_nodes|]. intros _ _. wr.
    - wb. intros _ _. eapply w_bind; [by apply Hn|]. intros v Hv. wb. intros _ _. wb. intros _ _. wr.
  Qed.
  Lemma w_detach x k : A x -> within (detach x k) vin.
  Proof.
    intros Hx. unfold detach. wl o Ho. generalize (c_behs (o_cls o)). clear o Ho. intros bs. revert x k Hx.
    induction bs as [|b bs IH]; intros x k Hx; simpl; [|by apply w_detach_stage].
    unfold detach_endpoint. wb. intros v Hv. wb. intros _ _. wr.
  Qed.

  (** * The rest of the API *)
  Lemma w_update x a kw : A x -> (forall kv, kv ∈ concat a ++ kw -> vin (snd kv)) -> within (update x a kw) nn.
  Proof.
    intros Hx Hv. assert (H1 : within (iterM (fun kv : key * val => setitem x (fst kv) (snd kv)) (concat a)) nn).
    { apply w_iterM. intros kv Hk. apply w_setitem; [done|]. apply Hv, elem_of_app. by left. }
    assert (H2 : within (iterM (fun kv : key * val => setitem x (fst kv) (snd kv)) kw) nn).
    { apply w_iterM. intros kv Hk. apply w_setitem; [done|]. apply Hv, elem_of_app. by right. }
    unfold update. destruct a as [|a1 [|a2 a]]; try apply w_raise; (eapply w_bind; [exact H1|intros _ _; exact H2]).
  Qed.
  Lemma w_setdefault x k v : A x -> vin v -> within (setdefault x k v) vin.
  Proof. intros Hx Hv. unfold setdefault. apply w_try; [by apply w_getitem|]. intros e. wb. intros _ _. wr. Qed.
  Lemma w_pop x k d : A x -> (forall v, d = Some v -> vin v) -> within (pop x k d) vin.
  Proof.
    intros Hx Hd. unfold pop. apply w_try.
    - wb. intros v Hv. wb. intros _ _. wr.
    - intros e. destruct d as [v|]; [|apply w_raise]. destruct v; try (apply w_ret; by apply Hd). apply w_raise.
  Qed.
  Lemma w_popitem x : A x -> within (popitem x) nn.
  Proof.
    intros Hx. unfold popitem. wb. intros ks _. destruct (rev ks); [apply w_raise|]. wb. intros v Hv. wb. intros _ _. by apply w_ret.
  Qed.
  Lemma w_clear x : A x -> within (clear x) nn.
  Proof. intros Hx. unfold clear. wb. intros ks _. apply w_iterM. intros; by apply w_delitem. Qed.
  Lemma w_attrs x : A x -> within (attrs_of x) vin.
  Proof.
    intros Hx. unfold attrs_of. wl o Ho. wif; [|apply w_raise]. wb. intros l Hl. apply w_try; [by apply w_dict_get|]. intros e.
    eapply w_bind; [apply w_new_node; by apply some_in|]. intros a Ha. wb. intros l' Hl'. wb. intros _ _. wr.
  Qed.
  Lemma w_invalidate_endpoint bs x k : A x -> within (invalidate_endpoint bs x k) nn.
  Proof.
    intros Hx. induction bs as [|b bs IH]; simpl; [apply w_raise|]. destruct b; try exact IH.
    - wif; [|by apply w_delitem]. wb. intros ks _. apply w_iterM. intros; by apply w_delitem.
    - wb. intros l Hl. wif.
      + wb. intros d Hd. apply w_iterM. intros; by apply w_dict_del.
      + wb. intros ks _. wif; [|apply w_raise]. apply w_try; [by apply w_dict_del|intros; by apply w_ret].
  Qed.
  Lemma w_invalidate x k : A x -> within (invalidate x k) nn.
  Proof.
    intros Hx. unfold invalidate. wl o Ho. generalize (c_behs (o_cls o)) at 2. intros bs. revert k.
    induction bs as [|b bs IH]; intros k; simpl; [by apply w_invalidate_endpoint|]. destruct b; simpl; try apply IH.
    wb. intros l Hl. wif.
    - wb. intros d Hd. eapply w_bind; [apply w_iterM; intros; by apply w_dict_del|]. intros _ _. apply IH.
    - eapply w_bind; [apply w_try; [by apply w_dict_del|intros; by apply w_ret]|]. intros _ _. apply IH.
  Qed.

  Lemma w_name_of x : A x -> within (name_of x) nn.
  Proof. intros Hx. unfold name_of. wl o Ho. by apply w_ret. Qed.
  Lemma w_order {B} x (m : M B) Q : A x -> within m Q -> within (order_method x m) Q.
  Proof. intros Hx Hm. unfold order_method. wl o Ho. wif; [done|apply w_raise]. Qed.
  Lemma w_odict_of x : A x -> within (odict_of x) A.
  Proof. intros Hx. unfold odict_of. wl o Ho. wb. intros l Hl. wif; [wr|apply w_raise]. Qed.
  Local Hint Resolve w_name_of w_odict_of : wdb.
  Lemma w_odict_swap l a b : A l -> within (odict_swap l a b) nn.
  Proof.
    intros Hl. unfold odict_swap. wif; [apply w_raise|]. wb. intros d Hd.
    destruct (dget a d); [|apply w_raise]. destruct (dget b d); [|apply w_raise]. apply w_write_dict; [done|by apply din_swap].
  Qed.
  Lemma w_odict_insert bf l r k v : A l -> vin v -> within (odict_insert bf l r k v) nn.
  Proof.
    intros Hl Hv. unfold odict_insert. wif; [apply w_raise|]. wb. intros d Hd.
    destruct (dget r d); [|apply w_raise]. destruct (dget k d); [apply w_raise|]. destruct (hashable k); [|apply w_raise].
    apply w_write_dict; [done|]. destruct bf; [by apply din_before|by apply din_after].
  Qed.
  Lemma w_swap x a b : A x -> A a -> A b -> within (swap x a b) nn.
  Proof.
    intros Hx Ha Hb. apply w_order; [done|]. wb. intros l Hl. wb. intros ka _. wb. intros kb _. by apply w_odict_swap.
  Qed.
  Lemma w_validateinsertion x n : A x -> A n -> within (validateinsertion x n) nn.
  Proof.
    intros Hx Hn. unfold validateinsertion. wl no Hno. wif; [apply w_raise|]. wl o Ho. wif; [|by apply w_ret].
    wif; [|apply w_raise]. destruct (o_uuid no); [|apply w_raise]. wb. intros i Hi. wb. intros m Hm.
    match goal with |- context [m !! ?u] => destruct (m !! u) end; [apply w_raise|by apply w_ret].
  Qed.
  Lemma w_insert_at bf x n r : A x -> A n -> A r -> within (insert_at bf x n r) nn.
  Proof.
    intros Hx Hn Hr. apply w_order; [done|]. eapply w_bind; [by apply w_validateinsertion|]. intros _ _.
    wb. intros l Hl. wb. intros rk _. wb. intros k _.
    eapply w_bind; [apply w_try; [apply w_odict_insert; auto|intros; apply w_raise]|]. intros _ _.
    wb. intros k' _. apply w_setitem; auto.
  Qed.
  Lemma w_insert_end first x n : A x -> A n -> within (insert_end first x n) nn.
  Proof.
    intros Hx Hn. apply w_order; [done|]. wb. intros ks _.
    destruct (if first then head ks else last ks) as [rk|].
    - wb. intros r Hr. destruct r as [| | | | | | |r| | | |]; try apply w_raise. apply w_insert_at; auto.
    - wb. intros k _. apply w_setitem; auto.
  Qed.

  Lemma w_copy x : A x -> within (copy x) A.
  Proof.
    intros Hx. unfold copy. wl o Ho. generalize (c_behs (o_cls o)). intros bs.
    induction bs as [|b bs IH]; simpl; [unfold shallow; wl o' Ho'; eauto with wdb|].
    destruct b; simpl; try exact IH; [apply w_raise|].
    eapply w_bind; [exact IH|]. intros new Hnew. wl o2 Ho2. wb. intros _ _.
    eapply w_bind; [apply w_modify; [done|]; intros o3 Ho3; apply oin_parent; [|done]; intros q Hq; exact (parent_in _ _ Ho2 Hq)|].
    intros _ _. wr.
  Qed.
End ops.
