(** Every operation on every class preserves heap well-formedness and never
    runs into a dangling reference. *)
From Verif Require Import Py Odict OdictFacts Aliaser Heap Model MonadFacts WF.

Ltac sload H :=
  eapply safe_bind; [apply safe_load; first [exact H | eauto using ext_live]|];
  let o := fresh "o" in let Ho := fresh "Ho" in
  intros o ? ? _ [-> Ho].
Ltac sb lem := eapply safe_bind; [eapply lem; eauto 6 using ext_live, ext_vok, ext_trans|]; cbn beta.
Ltac lv := eauto 8 using ext_live, ext_vok, ext_trans, ext_dicts, ext_idxs.

Notation any := (fun _ _ => True).

Lemma live_lookup s x o : nodes s !! x = Some o -> live s x.
Proof. intros H. by exists o. Qed.
Global Hint Resolve live_lookup : core.

Lemma safe_modify_name s x k : live s x -> safe s (modify x (with_name k)) any.
Proof.
  intros H. eapply safe_weaken; [apply safe_modify; try done|done].
  - intros o _ [? ? ? ?]. constructor; done.
Qed.
Lemma safe_modify_parent s x p : live s x -> (forall q, p = Some q -> live s q) ->
  safe s (modify x (with_parent p)) any.
Proof.
  intros H Hp. eapply safe_weaken; [apply safe_modify; try done|done].
  - intros o _ [? ? ? ?]. constructor; try done.
Qed.
Lemma safe_modify_index s x i : live s x -> is_Some (idxs s !! i) ->
  safe s (modify x (with_index (Some i))) any.
Proof.
  intros H Hp. eapply safe_weaken; [apply safe_modify; try done|done].
  - intros o _ [? ? ? ?]. constructor; try done. simpl. by intros ? [= <-].
Qed.
Lemma safe_modify_uuid s x u : live s x -> (forall n, u = Some n -> (n < next_uuid s)%N) ->
  safe s (modify x (with_uuid u)) any.
Proof.
  intros H Hu. eapply safe_weaken; [apply safe_modify; try done|done].
  - intros o _ [? ? ? ?]. constructor; done.
Qed.
Lemma safe_modify_suppress s x u : live s x -> safe s (modify x (with_suppress u)) any.
Proof.
  intros H. eapply safe_weaken; [apply safe_modify; try done|done].
  - intros o _ [? ? ? ?]. constructor; done.
Qed.
Lemma safe_modify_fallback s x u : live s x -> safe s (modify x (with_fallback u)) any.
Proof.
  intros H. eapply safe_weaken; [apply safe_modify; try done|done].
  - intros o _ [? ? ? ?]. constructor; done.
Qed.
Lemma safe_modify_allow s x u : live s x -> safe s (modify x (with_allow u)) any.
Proof.
  intros H. eapply safe_weaken; [apply safe_modify; try done|done].
  - intros o _ [? ? ? ?]. constructor; done.
Qed.

(** * location, path, root *)
Lemma safe_location fuel : forall s o, (forall x, o = Some x -> live s x) ->
  safe s (location_iterator fuel o) (fun l s' => s' = s /\ Forall (live s') l).
Proof.
  induction fuel as [|f IH]; intros s [x|] Hl; simpl.
  - by apply safe_raise.
  - apply safe_ret. split; [done|constructor].
  - sload (Hl x eq_refl). eapply safe_bind.
    + apply IH. intros p Hp. destruct (wf_nodes _ H _ _ Ho) as [_ [K _ _]]. eauto.
    + intros l s' W' E [-> F]. apply safe_ret. split; [done|]. constructor; [|done]. lv.
  - apply safe_ret. split; [done|constructor].
Qed.

Lemma safe_path_of s self : live s self -> safe s (path_of self) any.
Proof.
  intros Hl. unfold path_of. eapply safe_bind.
  { apply safe_with_fuel. intros n. apply safe_location. intros x [= <-]. done. }
  intros l s' W E [-> F]. eapply safe_bind.
  { apply safe_mapM with (P := live) (Q := fun _ _ => True); [intros; lv|done| |done].
    intros s0 a W0 Ha. sload Ha. by apply safe_ret. }
  intros. by apply safe_ret.
Qed.
Lemma safe_root_of s self : live s self -> safe s (root_of self) any.
Proof.
  intros Hl. unfold root_of. eapply safe_bind.
  { apply safe_with_fuel. intros n. apply safe_location. intros x [= <-]. done. }
  intros. by apply safe_ret.
Qed.

(** * iter *)
Lemma safe_read_keys s l : is_Some (dicts s !! l) ->
  safe s (let! d := read_dict l in ret (dkeys d)) any.
Proof. intros H. eapply safe_bind; [by apply safe_read_dict|]. intros. by apply safe_ret. Qed.

Lemma alias_not_dangling a k : alias a k <> Exc Dangling.
Proof.
  revert k.
  refine ((fix F (a : aliaser) : forall k, alias a k <> Exc Dangling :=
     match a with
     | ADict d st => _ | APrefix p => _ | ASuffix p => _ | AChain l => _ end) a); intros k; simpl.
  - destruct (rev_lookup k d); [done|]. by destruct st.
  - by destruct k.
  - by destruct k.
  - revert k. induction l as [|a' l IH]; intros k; [done|].
    pose proof (F a' k). destruct (alias a' k) as [k'|e]; simpl; [apply IH|congruence].
Qed.
Lemma unalias_not_dangling a k : unalias a k <> Exc Dangling.
Proof.
  revert k.
  refine ((fix F (a : aliaser) : forall k, unalias a k <> Exc Dangling :=
     match a with
     | ADict d st => _ | APrefix p => _ | ASuffix p => _ | AChain l => _ end) a); intros k; simpl.
  - destruct (hashable k); [|done]. destruct (dget k d); [done|]. by destruct st.
  - destruct k; try done. by destruct (startswith _ _).
  - destruct k; try done. by destruct (endswith _ _).
  - revert k. induction l as [|a' l IH]; intros k; [done|].
    specialize (IH k).
    match goal with |- res_bind ?r _ <> _ => destruct r as [k'|e]; simpl in * end.
    + apply F.
    + congruence.
Qed.

Lemma alias_with_not_dangling f al k :
  (forall a k, f a k <> Exc Dangling) -> alias_with f al k <> Exc Dangling.
Proof. intros H. unfold alias_with. destruct al; [|done]. by destruct (aliaser_truthy _). Qed.
Lemma alias_keys_not_dangling al ks : alias_keys al ks <> Exc Dangling.
Proof.
  induction ks as [|k ks IH]; simpl; [done|].
  pose proof (alias_with_not_dangling alias al k alias_not_dangling).
  destruct (alias_with alias al k) as [k'|[]]; try congruence.
  - destruct (alias_keys al ks); congruence.
  - destruct (aliaser_enumerable al); congruence.
Qed.

Lemma safe_iter_stage b next s self :
  live s self -> (forall s, wf s -> live s self -> safe s (next self) any) ->
  safe s (iter_stage b next self) any.
Proof.
  intros Hl Hn. apply safe_intro; intros W.
  destruct b; simpl; try (by apply Hn).
  eapply safe_bind; [by apply Hn|]. intros ks s1 W1 E1 _.
  sload Hl. apply safe_of_res. pose proof (alias_keys_not_dangling (c_aliaser (o_cls o)) ks).
  destruct (alias_keys _ _); [done|congruence].
Qed.
Lemma safe_iter_override bs s self : live s self -> safe s (iter_override bs self) any.
Proof.
  intros Hl. induction bs as [|b bs IH]; simpl; [by apply safe_raise|].
  destruct b; try done.
  - sload Hl. by apply safe_ret.
  - eapply safe_bind; [by apply safe_storage_of|]. intros. by apply safe_read_keys.
  - eapply safe_bind; [by apply safe_storage_of|]. intros. by apply safe_read_keys.
Qed.
Lemma safe_iter_stack all bs s self : live s self -> safe s (iter_stack all bs self) any.
Proof.
  revert s. induction bs as [|b bs IH]; intros s Hl; simpl.
  - unfold iter_endpoint. destruct (hasc FixedChildren all).
    + eapply safe_bind; [by apply safe_fixed_of|]. intros. by apply safe_read_keys.
    + by apply safe_iter_override.
  - apply safe_iter_stage; [done|]. intros. by apply IH.
Qed.
Lemma safe_iter s self : live s self -> safe s (iter self) any.
Proof. intros Hl. unfold iter. sload Hl. by apply safe_iter_stack. Qed.
Lemma safe_iterkeys s self : live s self -> safe s (iterkeys self) any.
Proof.
  intros Hl. unfold iterkeys. sload Hl. destruct (has _ _); [by apply safe_ret|by apply safe_iter].
Qed.

(** * uuid *)
Lemma safe_set_uuid s self u : live s self -> safe s (set_uuid self u) any.
Proof.
  intros Hl. unfold set_uuid. eapply safe_bind; [by apply safe_index_of|].
  intros i s1 W1 E1 [-> Hi]. eapply safe_bind; [by apply safe_read_idx|].
  intros m s2 W2 E2 [-> Hm].
  match goal with |- safe _ (if ?b then _ else _) _ => destruct b end; [by apply safe_raise|].
  sload Hl. eapply safe_bind.
  - apply safe_write_idx; [done|]. intros k y Hy.
    destruct (decide (iuuid u = k)) as [<-|].
    + rewrite lookup_insert in Hy. injection Hy as <-. done.
    + rewrite lookup_insert_ne in Hy by done. apply lookup_delete_Some in Hy as [_ Hy].
      destruct (wf_idxs _ H _ _ Hm) as [_ F]. eauto.
  - intros _ s3 W3 E3 _. eapply safe_bind; [apply safe_saw_uuid|]. intros ? s4 W4 E4 Hu. apply safe_modify_uuid; [lv|done].
Qed.

Lemma safe_notify_modified s self : live s self -> safe s (notify_modified self) any.
Proof.
  intros Hl. unfold notify_modified. sload Hl.
  destruct (o_parent o) as [p|] eqn:Ep; [|by apply safe_raise].
  assert (live s p) as Hp. { destruct (wf_nodes _ H _ _ Ho) as [_ [K _ _]]. eauto. }
  sload Hp. destruct (has _ _); [|by apply safe_raise].
  destruct (o_suppress _); [by apply safe_ret|apply safe_notify].
Qed.

(** * __setitem__ *)
Lemma of_unalias_safe s al k : safe s (of_res (alias_with unalias al k)) any.
Proof.
  apply safe_of_res. pose proof (alias_with_not_dangling unalias al k unalias_not_dangling).
  destruct (alias_with _ _ _); [done|congruence].
Qed.

Lemma safe_set_stage b next s self k v :
  live s self -> vok s v ->
  (forall s k, wf s -> live s self -> vok s v -> safe s (next self k v) any) ->
  safe s (set_stage b next self k v) any.
Proof.
  intros Hl Hv Hn. apply safe_intro; intros W.
  destruct b; simpl; try (by apply Hn).
  - (* Adopt *)
    destruct v; try (by apply Hn). simpl in Hv.
    sload Hv. eapply safe_bind; [by apply safe_modify_name|]. intros _ s1 W1 E1 _.
    eapply safe_bind; [apply safe_modify_parent; [lv|intros q [= <-]; lv]|]. intros _ s2 W2 E2 _.
    assert (ext s s2) by lv.
    apply safe_try_catch; [apply Hn; simpl; lv|].
    intros e s3 W3 E3 He. assert (ext s s3) by lv.
    eapply safe_bind; [apply safe_modify_name; lv|]. intros _ s4 W4 E4 _.
    eapply safe_bind; [apply safe_modify_parent; [lv|]|].
    { intros q Hq. destruct (wf_nodes _ W _ _ Ho) as [_ [K _ _]]. apply K in Hq. lv. }
    intros. by apply safe_raise.
  - (* NodeChildValidate *)
    sload Hl. destruct (_ && _); [by apply safe_raise|]. destruct (_ && _); [by apply safe_raise|].
    by apply Hn.
  - (* Nodespaces *)
    destruct k; try (by apply safe_raise). destruct (reserved s0); [|by apply Hn].
    destruct v; try (by apply safe_raise). simpl in Hv.
    eapply safe_bind; [by apply safe_modify_name|]. intros _ s1 W1 E1 _.
    eapply safe_bind; [apply safe_modify_parent; [lv|intros q [= <-]; lv]|]. intros _ s2 W2 E2 _.
    eapply safe_bind; [apply safe_nodespaces_of; lv|]. intros l s3 W3 E3 Hd.
    apply safe_dict_set; [done|]. simpl. lv.
  - (* Reference *)
    destruct v; try (by apply Hn). simpl in Hv.
    eapply safe_bind; [by apply safe_iterkeys|]. intros ks s1 W1 E1 _.
    eapply safe_bind with (Q := fun _ s' => s' = s1).
    + destruct ks; [by apply safe_ret|].
      eapply safe_bind; [apply safe_index_of; lv|]. intros i ? _ _ [-> Hi].
      eapply safe_bind; [by apply safe_read_idx|]. intros mi ? _ _ [-> Hmi].
      eapply safe_bind; [apply safe_index_of; lv|]. intros j ? _ _ [-> Hj].
      eapply safe_bind; [by apply safe_read_idx|]. intros mj ? _ _ [-> Hmj].
      case_decide; [by apply safe_ret|by apply safe_raise].
    + intros _ ? _ _ ->.
      eapply safe_bind; [apply safe_index_of; lv|]. intros i ? _ _ [-> Hi].
      eapply safe_bind; [by apply safe_read_idx|]. intros mi ? _ _ [-> Hmi].
      eapply safe_bind; [apply safe_index_of; lv|]. intros j ? _ _ [-> Hj].
      eapply safe_bind; [by apply safe_read_idx|]. intros mj ? _ _ [-> Hmj].
      eapply safe_bind.
      { apply safe_write_idx; [done|]. intros u y [H|[_ H]]%lookup_union_Some_raw.
        - by apply (proj2 (wf_idxs _ W1 _ _ Hmj) u).
        - by apply (proj2 (wf_idxs _ W1 _ _ Hmi) u). }
      intros _ s2 W2 E2 _.
      eapply safe_bind; [apply safe_modify_index; [lv|lv]|].
      intros _ s3 W3 E3 _. assert (ext s s3) by lv. apply Hn; simpl; lv.
  - (* Alias *)
    sload Hl. eapply safe_bind; [apply of_unalias_safe|]. intros k' s1 W1 E1 _.
    apply safe_try_catch; [apply Hn; lv|]. intros. by apply safe_raise.
  - (* Cache *)
    eapply safe_bind; [by apply safe_cache_of|]. intros l s1 W1 E1 Hd.
    eapply safe_bind; [apply safe_try_catch; [by apply safe_dict_del|intros; by apply safe_ret]|].
    intros _ s2 W2 E2 _. apply Hn; lv.
  - (* Lifecycle *)
    eapply safe_bind; [by apply Hn|]. intros _ s1 W1 E1 _.
    sload Hl. destruct (o_suppress _); [by apply safe_ret|apply safe_notify].
  - (* AttributesLifecycle *)
    eapply safe_bind; [by apply Hn|]. intros _ s1 W1 E1 _. apply safe_notify_modified. lv.
Qed.

Lemma safe_set_stack all bs s self k v : live s self -> vok s v ->
  safe s (set_stack all bs self k v) any.
Proof.
  revert s k. induction bs as [|b bs IH]; intros s k Hl Hv; simpl.
  - unfold set_endpoint. destruct (hasc FixedChildren all); [by apply safe_raise|].
    destruct (_ || _); [|by apply safe_raise].
    eapply safe_bind; [by apply safe_storage_of|]. intros l s1 W1 E1 Hd.
    apply safe_dict_set; lv.
  - apply safe_set_stage; [done..|]. intros. by apply IH.
Qed.
Lemma safe_setitem s self k v : live s self -> vok s v -> safe s (setitem self k v) any.
Proof. intros Hl Hv. unfold setitem. sload Hl. by apply safe_set_stack. Qed.

(** * Object creation *)
Lemma safe_assign_uuid s self u : live s self -> safe s (assign_uuid self u) any.
Proof.
  intros Hl. unfold assign_uuid. sload Hl.
  destruct (has _ _); [by apply safe_set_uuid|].
  eapply safe_bind; [apply safe_saw_uuid|]. intros ? s4 W4 E4 Hu. apply safe_modify_uuid; [lv|done].
Qed.

Lemma safe_slot_k {A} a s self (K : nat -> M A) Q :
  live s self ->
  (forall l s', wf s' -> ext s s' -> is_Some (dicts s' !! l) -> safe s' (K l) Q) ->
  safe s (let! l := alloc_dict [] in do! modify self (with_slot a (Some l)) in K l) Q.
Proof.
  intros [o Ho] HK. apply safe_intro; intros W. 
  assert (Heq : forall s0,
      (let! l := alloc_dict [] in do! modify self (with_slot a (Some l)) in K l) s0 =
      (let! l := (let! l := alloc_dict [] in do! modify self (with_slot a (Some l)) in ret l) in K l) s0).
  { intros s0. unfold bind, alloc_dict. destruct (modify _ _ _) as [[] ?]; done. }
  intros W'. rewrite Heq. revert W'.
  change (safe s (let! l := (let! l := alloc_dict [] in do! modify self (with_slot a (Some l)) in ret l) in K l) Q).
  eapply safe_bind; [eapply safe_lazy_slot; [exact Ho|constructor|constructor]|].
  intros l s1 W1 E1 H1. apply HK; [done|done|]. by destruct H1.
Qed.

Lemma safe_fixed_body mk s self :
  live s self ->
  (forall s cn, wf s -> safe s (mk cn) (fun c s' => live s' c)) ->
  safe s (init_stage mk FixedChildren (fun _ => ret tt) self) any.
Proof.
  intros Hl Hmk. simpl. eapply safe_bind; [apply safe_ret with (Q := any); done|]. cbn beta.
  intros _ s1 W1 E1 _.
  apply (safe_slot_k SChildren); [lv|]. intros l s2 W2 E2 Hd.
  assert (live s2 self) as Hl2 by lv. sload Hl2.
  apply safe_iterM with (P := fun s _ => live s self /\ is_Some (dicts s !! l)).
  + intros s3 s4 _ E [? ?]. split; [lv|lv].
  + intros s3 kf W3 [Hl3 Hd3]. eapply safe_bind; [by apply Hmk|]. intros c s4 W4 E4 Hc.
    eapply safe_bind; [by apply safe_modify_name|]. intros _ s5 W5 E5 _.
    eapply safe_bind; [apply safe_modify_parent; [lv|intros q [= <-]; lv]|]. intros _ s6 W6 E6 _.
    assert (ext s3 s6) by lv. assert (ext s4 s6) by lv.
    apply safe_dict_set; [lv|]. simpl. lv.
  + apply Forall_forall. done.
Qed.

Lemma safe_init_stack mk all bs name parent s self :
  live s self -> (forall q, parent = Some q -> live s q) ->
  (forall s cn, wf s -> safe s (mk cn) (fun c s' => live s' c)) ->
  safe s (init_stack mk all bs name parent self) any.
Proof.
  revert s. induction bs as [|b bs IH]; intros s Hl Hp Hmk; simpl.
  - unfold init_endpoint. destruct (hasc DefaultInit all).
    + eapply safe_bind; [by apply safe_modify_name|]. intros _ s1 W1 E1 _.
      apply safe_modify_parent; [lv|]. intros q Hq. apply Hp in Hq. lv.
    + destruct name; try (by apply safe_raise). destruct parent; [by apply safe_raise|by apply safe_ret].
  - (* the parent stays live in every later state: carry it through *)
    apply safe_intro; intros W.
    assert (Hgen : forall s', ext s s' -> wf s' -> live s' self ->
       safe s' (init_stack mk all bs name parent self) any).
    { intros s' E' W' Hl'. apply IH; [done| |done]. intros q Hq. apply Hp in Hq. lv. }
    clear IH.
    destruct b; simpl; try (apply Hgen; [apply ext_refl|done..]).
    + eapply safe_bind; [apply Hgen; [apply ext_refl|done..]|]. intros _ s1 W1 E1 _.
      assert (live s1 self) as Hl1 by lv. exact (safe_fixed_body mk s1 self Hl1 Hmk).
    + eapply safe_bind; [apply Hgen; [apply ext_refl|done..]|]. intros _ s1 W1 E1 _.
      eapply safe_bind; [apply safe_uuid4|]. intros u s2 W2 E2 _. apply safe_assign_uuid. lv.
    + eapply safe_bind; [apply safe_alloc_idx; intros u y H; by rewrite lookup_empty in H|].
      intros i s1 W1 E1 Hi.
      eapply safe_bind; [apply safe_modify_index; [lv|done]|]. intros _ s2 W2 E2 _.
      eapply safe_bind; [apply safe_uuid4|]. intros u s3 W3 E3 _.
      eapply safe_bind; [apply safe_set_uuid; lv|]. intros _ s4 W4 E4 _. apply Hgen; lv.
    + eapply safe_bind; [apply Hgen; [apply ext_refl|done..]|]. intros _ s1 W1 E1 _. apply safe_notify.
Qed.

Lemma safe_instantiate fuel : forall s cn name parent,
  (forall q, parent = Some q -> live s q) ->
  safe s (instantiate fuel cn name parent) (fun x s' => live s' x).
Proof.
  induction fuel as [|f IH]; intros s cn name parent Hp; simpl; [by apply safe_raise|].
  eapply safe_bind; [apply safe_get_class|]. intros c ? W _ [-> Hc].
  eapply safe_bind.
  { apply safe_alloc_node; [constructor; try done; intros []; done|by intros []]. }
  intros x s1 W1 E1 [Hx Hnew].
  eapply safe_bind.
  { apply safe_init_stack; [by eexists|intros q Hq; apply Hp in Hq; lv|].
    intros s2 cn' W2. apply IH. done. }
  intros _ s2 W2 E2 _. apply safe_ret. lv.
Qed.
Lemma safe_new_node s cn name parent :
  (forall q, parent = Some q -> live s q) ->
  safe s (new_node cn name parent) (fun x s' => live s' x).
Proof. intros Hp W. unfold new_node. by apply safe_instantiate. Qed.

(** * __getitem__ *)
Lemma safe_get_stage fb b next s self k :
  live s self ->
  (forall s k, wf s -> live s self -> safe s (fb self k) (fun r s' => forall v, r = Some v -> vok s' v)) ->
  (forall s k, wf s -> live s self -> safe s (next self k) (fun v s' => vok s' v)) ->
  safe s (get_stage fb b next self k) (fun v s' => vok s' v).
Proof.
  intros Hl Hfb Hn. apply safe_intro; intros W.
  destruct b; simpl; try (by apply Hn).
  - (* ChildFactory *)
    apply safe_try_catch; [by apply Hn|]. intros e s1 W1 E1 He.
    sload Hl. destruct (hashable k); [|by apply safe_raise].
    destruct (dget _ _); [|by apply safe_raise].
    eapply safe_bind; [by apply safe_new_node|]. intros c s2 W2 E2 Hc.
    eapply safe_bind; [apply safe_setitem; [lv|done]|]. intros _ s3 W3 E3 _.
    apply safe_ret. simpl. lv.
  - (* Nodespaces *)
    destruct k; try (by apply Hn). destruct (reserved s0); [|by apply Hn].
    eapply safe_bind; [by apply safe_nodespaces_of|]. intros l s1 W1 E1 Hd. by apply safe_dict_get.
  - (* Alias *)
    sload Hl. eapply safe_bind; [apply of_unalias_safe|]. intros k' s1 W1 E1 _.
    apply safe_try_catch; [apply Hn; lv|]. intros. by apply safe_raise.
  - (* Cache *)
    eapply safe_bind; [by apply safe_cache_of|]. intros l s1 W1 E1 Hd.
    apply safe_try_catch; [by apply safe_dict_get|]. intros e s2 W2 E2 He.
    eapply safe_bind; [apply Hn; lv|]. intros v s3 W3 E3 Hv.
    assert (is_Some (dicts s3 !! l)). { do 2 (eapply ext_dicts; [eassumption|]). done. }
    eapply safe_bind; [by apply safe_dict_set|]. intros _ s4 W4 E4 _.
    apply safe_dict_get. lv.
  - (* Fallback *)
    apply safe_try_catch; [by apply Hn|]. intros e s1 W1 E1 He.
    eapply safe_bind; [apply safe_fb_enter|]. intros count s2 W2 E2 _.
    apply safe_try_finally.
    + destruct (0 <? count)%Z; [by apply safe_raise|].
      eapply safe_bind; [apply Hfb; lv|]. intros [v|] s3 W3 E3 Hv; [|by apply safe_raise].
      apply safe_ret. by apply Hv.
    + intros s3 W3 E3. apply safe_fb_exit. intros s4 Hn4 v. unfold vok, live. by rewrite Hn4.
Qed.

Lemma safe_get_endpoint all s self k : live s self ->
  safe s (get_endpoint all self k) (fun v s' => vok s' v).
Proof.
  intros Hl. unfold get_endpoint. destruct (hasc FixedChildren all).
  - eapply safe_bind; [by apply safe_fixed_of|]. intros. by apply safe_dict_get.
  - destruct (_ || _); [|by apply safe_raise].
    eapply safe_bind; [by apply safe_storage_of|]. intros. by apply safe_dict_get.
Qed.
Lemma safe_get_stack fb all bs s self k :
  live s self ->
  (forall s k, wf s -> live s self -> safe s (fb self k) (fun r s' => forall v, r = Some v -> vok s' v)) ->
  safe s (get_stack fb all bs self k) (fun v s' => vok s' v).
Proof.
  intros Hl Hfb. revert s k Hl. induction bs as [|b bs IH]; intros s k Hl; simpl.
  - by apply safe_get_endpoint.
  - apply safe_get_stage; [done|done|]. intros. by apply IH.
Qed.
Lemma safe_getitem_nested s self k : live s self ->
  safe s (getitem_nested self k) (fun v s' => vok s' v).
Proof.
  intros Hl. unfold getitem_nested. sload Hl. apply safe_get_stack; [done|].
  intros. by apply safe_raise.
Qed.
Lemma safe_to_leaf_loop names : forall s cur, vok s cur ->
  safe s (to_leaf_loop cur names)
    (fun r s' => match r with inl c => live s' c | inr v => vok s' v end).
Proof.
  induction names as [|n names IH]; intros s cur Hc; simpl; [by apply safe_ret|].
  destruct cur; try (by apply safe_raise). simpl in Hc.
  eapply safe_bind with (Q := fun r s' => forall v, r = Some v -> vok s' v).
  - apply safe_try_catch.
    + eapply safe_bind; [by apply safe_getitem_nested|]. intros v s1 W1 E1 Hv.
      apply safe_ret. by intros ? [= <-].
    + intros. by apply safe_ret.
  - intros [v|] s1 W1 E1 Hv; [apply IH; by apply Hv|]. apply safe_ret. lv.
Qed.
Lemma safe_to_root fuel : forall s node path visited, live s node ->
  safe s (to_root fuel node path visited) (fun r s' => forall v, r = Some v -> vok s' v).
Proof.
  induction fuel as [|f IH]; intros s node path visited Hl; simpl; [by apply safe_raise|].
  sload Hl. destruct (o_parent o) as [p|] eqn:Ep; [|by apply safe_ret].
  assert (live s p) as Hp. { destruct (wf_nodes _ H _ _ Ho) as [_ [K _ _]]. eauto. }
  sload Hp. destruct (o_fallback o0) as [fk|]; [|by apply IH].
  destruct (key_truthy fk && _); [|by apply IH].
  eapply safe_bind; [by apply safe_getitem_nested|]. intros c s1 W1 E1 Hc.
  destruct c; try (by apply safe_raise). simpl in Hc.
  eapply safe_bind; [by apply safe_path_of|]. intros cp s2 W2 E2 _.
  eapply safe_bind; [apply safe_to_leaf_loop; simpl; lv|]. intros [c|v] s3 W3 E3 Hr.
  - by apply IH.
  - apply safe_ret. by intros ? [= <-].
Qed.
Lemma safe_fb_search s self k : live s self ->
  safe s (fb_search self k) (fun r s' => forall v, r = Some v -> vok s' v).
Proof.
  intros Hl. unfold fb_search. eapply safe_bind; [by apply safe_path_of|].
  intros p s1 W1 E1 _ W. apply safe_to_root; [lv|done].
Qed.
Lemma safe_getitem s self k : live s self -> safe s (getitem self k) (fun v s' => vok s' v).
Proof.
  intros Hl. unfold getitem. sload Hl. apply safe_get_stack; [done|].
  intros. by apply safe_fb_search.
Qed.

(** * Reference helpers, values, items *)
Lemma safe_to_delete fuel : forall s self, live s self -> safe s (to_delete fuel self) any.
Proof.
  induction fuel as [|f IH]; intros s self Hl; simpl; [by apply safe_raise|].
  sload Hl. destruct (has _ _); [|by apply safe_raise].
  destruct (o_uuid o); [|by apply safe_raise].
  eapply safe_bind; [by apply safe_iter|]. intros ks s1 W1 E1 _.
  eapply safe_bind.
  { apply safe_mapM with (P := fun s _ => live s self) (Q := fun _ _ => True); [intros; lv|done| |].
    - intros s2 k W2 Hl2. apply safe_try_catch; [|intros; by apply safe_ret].
      eapply safe_bind; [by apply safe_getitem|]. intros v s3 W3 E3 Hv.
      destruct v; try (by apply safe_raise). by apply IH.
    - apply Forall_forall. intros. lv. }
  intros. by apply safe_ret.
Qed.
Lemma safe_values s self : live s self -> safe s (values self) (fun l s' => Forall (vok s') l).
Proof.
  intros Hl. unfold values. eapply safe_bind; [by apply safe_iter|]. intros ks s1 W1 E1 _.
  apply safe_mapM with (P := fun s _ => live s self); [intros; lv|intros; lv| |].
  - intros. by apply safe_getitem.
  - apply Forall_forall. intros. lv.
Qed.
Lemma safe_items s self : live s self ->
  safe s (items self) (fun l s' => Forall (fun e => vok s' (snd e)) l).
Proof.
  intros Hl. unfold items. eapply safe_bind; [by apply safe_iter|]. intros ks s1 W1 E1 _.
  apply safe_mapM with (P := fun s _ => live s self) (Q := fun s' e => vok s' (snd e));
    [intros; lv|intros; lv| |].
  - intros s2 k W2 Hl2. eapply safe_bind; [by apply safe_getitem|]. intros. by apply safe_ret.
  - apply Forall_forall. intros. lv.
Qed.
Lemma safe_index_nodes fuel : forall s self, live s self -> safe s (index_nodes fuel self) any.
Proof.
  induction fuel as [|f IH]; intros s self Hl; simpl; [by apply safe_raise|].
  sload Hl. destruct (has _ _); [|by apply safe_raise].
  eapply safe_bind; [by apply safe_values|]. intros vs s1 W1 E1 Hvs.
  apply safe_iterM with (P := fun s v => live s self /\ vok s v).
  - intros s2 s3 v E [? ?]. split; lv.
  - intros s2 v W2 [Hl2 Hv]. destruct v; try (by apply safe_ret). simpl in Hv.
    sload Hv. destruct (_ || _); [|by apply safe_ret].
    destruct (o_uuid o1); [|by apply safe_raise].
    eapply safe_bind; [by apply safe_index_of|]. intros i ? _ _ [-> Hi].
    eapply safe_bind; [by apply safe_read_idx|]. intros m ? _ _ [-> Hm].
    eapply safe_bind.
    { apply safe_write_idx; [done|]. intros u y Hy.
      destruct (decide (Some n = u)) as [<-|].
      - rewrite lookup_insert in Hy. injection Hy as <-. done.
      - rewrite lookup_insert_ne in Hy by done. by apply (proj2 (wf_idxs _ W2 _ _ Hm) u). }
    intros _ s3 W3 E3 _.
    eapply safe_bind; [apply safe_modify_index; [lv|lv]|].
    intros _ s4 W4 E4 _. apply IH. lv.
  - eapply Forall_impl; [exact Hvs|]. intros v Hv. split; [lv|done].
Qed.
Lemma safe_idx_del s i u : is_Some (idxs s !! i) -> safe s (idx_del i u) any.
Proof.
  intros H. unfold idx_del. eapply safe_bind; [by apply safe_read_idx|].
  intros m ? W _ [-> Hm]. destruct (m !! u); [|by apply safe_raise].
  apply safe_write_idx; [done|]. intros k y [_ Hy]%lookup_delete_Some.
  by apply (proj2 (wf_idxs _ W _ _ Hm) k).
Qed.

(** * __delitem__, detach *)
Lemma safe_del_stage b next s self k :
  live s self ->
  (forall s k, wf s -> live s self -> safe s (next self k) any) ->
  safe s (del_stage b next self k) any.
Proof.
  intros Hl Hn. apply safe_intro; intros W.
  destruct b; simpl; try (by apply Hn).
  - destruct k; try (by apply safe_raise). destruct (reserved s0); [|by apply Hn].
    eapply safe_bind; [by apply safe_nodespaces_of|]. intros l s1 W1 E1 Hd. by apply safe_dict_del.
  - eapply safe_bind; [by apply safe_getitem|]. intros v s1 W1 E1 Hv.
    eapply safe_bind with (Q := any).
    + destruct v; try (by apply safe_ret). simpl in Hv. sload Hv.
      destruct (has _ _); [|by apply safe_ret].
      eapply safe_bind; [apply safe_with_fuel; intros; by apply safe_to_delete|].
      intros us s2 W2 E2 _.
      apply safe_iterM with (P := fun s _ => live s self); [intros; lv| |].
      * intros s3 u W3 Hl3. eapply safe_bind; [by apply safe_index_of|]. intros i ? _ _ [-> Hi].
        by apply safe_idx_del.
      * apply Forall_forall. intros. lv.
    + intros _ s2 W2 E2 _. apply Hn; lv.
  - sload Hl. eapply safe_bind; [apply of_unalias_safe|]. intros k' s1 W1 E1 _.
    apply safe_try_catch; [apply Hn; lv|]. intros. by apply safe_raise.
  - eapply safe_bind; [by apply safe_cache_of|]. intros l s1 W1 E1 Hd.
    eapply safe_bind; [apply safe_try_catch; [by apply safe_dict_del|intros; by apply safe_ret]|].
    intros _ s2 W2 E2 _. apply Hn; lv.
  - eapply safe_bind; [by apply safe_getitem|]. intros v s1 W1 E1 Hv.
    eapply safe_bind; [apply Hn; lv|]. intros _ s2 W2 E2 _.
    assert (live s2 self) as Hl2 by lv.
    sload Hl2. destruct (o_suppress _); [by apply safe_ret|apply safe_notify].
  - eapply safe_bind; [by apply Hn|]. intros _ s1 W1 E1 _. apply safe_notify_modified. lv.
Qed.
Lemma safe_del_stack all bs s self k : live s self -> safe s (del_stack all bs self k) any.
Proof.
  revert s k. induction bs as [|b bs IH]; intros s k Hl; simpl.
  - unfold del_endpoint. destruct (hasc FixedChildren all); [by apply safe_raise|].
    destruct (_ || _); [|by apply safe_raise].
    eapply safe_bind; [by apply safe_storage_of|]. intros l s1 W1 E1 Hd. by apply safe_dict_del.
  - apply safe_del_stage; [done..|]. intros. by apply IH.
Qed.
Lemma safe_delitem s self k : live s self -> safe s (delitem self k) any.
Proof. intros Hl. unfold delitem. sload Hl. by apply safe_del_stack. Qed.

Lemma safe_detach_stage b next s self k :
  live s self ->
  (forall s k, wf s -> live s self -> safe s (next self k) (fun v s' => vok s' v)) ->
  safe s (detach_stage b next self k) (fun v s' => vok s' v).
Proof.
  intros Hl Hn. apply safe_intro; intros W.
  destruct b; simpl; try (by apply Hn).
  - eapply safe_bind; [by apply Hn|]. intros v s1 W1 E1 Hv.
    destruct v; try (by apply safe_raise). simpl in Hv. sload Hv.
    destruct (has _ _); [|by apply safe_raise]. destruct (o_uuid o0); [|by apply safe_raise].
    eapply safe_bind.
    { apply safe_alloc_idx. intros u y [_ <-]%lookup_singleton_Some. done. }
    intros i s2 W2 E2 Hi.
    eapply safe_bind; [apply safe_modify_index; [lv|done]|]. intros _ s3 W3 E3 _.
    eapply safe_bind; [apply safe_with_fuel; intros; apply safe_index_nodes; lv|].
    intros _ s4 W4 E4 _. apply safe_ret. simpl. lv.
  - eapply safe_bind; [by apply safe_modify_suppress|]. intros _ s1 W1 E1 _.
    eapply safe_bind; [apply Hn; lv|]. intros v s2 W2 E2 Hv.
    eapply safe_bind; [apply safe_modify_suppress; lv|]. intros _ s3 W3 E3 _.
    eapply safe_bind; [apply safe_notify|]. intros _ s4 W4 E4 _. apply safe_ret. lv.
Qed.
Lemma safe_detach_stack bs s self k : live s self ->
  safe s (detach_stack bs self k) (fun v s' => vok s' v).
Proof.
  revert s k. induction bs as [|b bs IH]; intros s k Hl; simpl.
  - unfold detach_endpoint. eapply safe_bind; [by apply safe_getitem|]. intros v s1 W1 E1 Hv.
    eapply safe_bind; [apply safe_delitem; lv|]. intros _ s2 W2 E2 _. apply safe_ret. lv.
  - apply safe_detach_stage; [done..|]. intros. by apply IH.
Qed.
Lemma safe_detach s self k : live s self -> safe s (detach self k) (fun v s' => vok s' v).
Proof. intros Hl. unfold detach. sload Hl. by apply safe_detach_stack. Qed.

(** * Derived methods *)
Lemma safe_get s self k d : live s self -> vok s d -> safe s (get self k d) (fun v s' => vok s' v).
Proof.
  intros Hl Hd. apply safe_try_catch; [by apply safe_getitem|]. intros. apply safe_ret. lv.
Qed.
Lemma safe_contains s self k : live s self -> safe s (contains self k) any.
Proof.
  intros Hl. apply safe_try_catch; [|intros; by apply safe_ret].
  eapply safe_bind; [by apply safe_getitem|]. intros. by apply safe_ret.
Qed.
Lemma safe_clear s self : live s self -> safe s (clear self) any.
Proof.
  intros Hl. unfold clear. eapply safe_bind; [by apply safe_iter|]. intros ks s1 W1 E1 _.
  apply safe_iterM with (P := fun s _ => live s self); [intros; lv| |].
  - intros. by apply safe_delitem.
  - apply Forall_forall. intros. lv.
Qed.
Lemma safe_set_list s self l : live s self -> Forall (vok s) (map snd l) ->
  safe s (iterM (fun kv : key * val => setitem self (fst kv) (snd kv)) l) any.
Proof.
  intros Hl Hv. apply safe_iterM with (P := fun s kv => live s self /\ vok s (snd kv)).
  - intros s2 s3 v E [? ?]. split; lv.
  - intros s2 kv W2 [Hl2 Hv2]. by apply safe_setitem.
  - rewrite Forall_forall in Hv. apply Forall_forall. intros kv H. split; [done|]. apply Hv. apply elem_of_list_fmap. by exists kv.
Qed.
Lemma safe_update s self args kw : live s self ->
  Forall (vok s) (map snd (concat args)) -> Forall (vok s) (map snd kw) ->
  safe s (update self args kw) any.
Proof.
  intros Hl H1 H2. unfold update.
  assert (safe s (do! iterM (fun kv : key * val => setitem self (fst kv) (snd kv)) (concat args) in
      iterM (fun kv : key * val => setitem self (fst kv) (snd kv)) kw) any).
  { eapply safe_bind; [by apply safe_set_list|]. intros _ s1 W1 E1 _.
    apply safe_set_list; [lv|]. eapply Forall_impl; [exact H2|]. intros; lv. }
  destruct args as [|? [|]]; [done|done|by apply safe_raise].
Qed.
Lemma safe_setdefault s self k d : live s self -> vok s d ->
  safe s (setdefault self k d) (fun v s' => vok s' v).
Proof.
  intros Hl Hd. apply safe_try_catch; [by apply safe_getitem|]. intros e s1 W1 E1 He.
  eapply safe_bind; [apply safe_setitem; lv|]. intros _ s2 W2 E2 _. apply safe_ret. lv.
Qed.
Lemma safe_pop s self k d : live s self -> (forall v, d = Some v -> vok s v) ->
  safe s (pop self k d) (fun v s' => vok s' v).
Proof.
  intros Hl Hd. apply safe_try_catch.
  - eapply safe_bind; [by apply safe_getitem|]. intros v s1 W1 E1 Hv.
    eapply safe_bind; [apply safe_delitem; lv|]. intros _ s2 W2 E2 _. apply safe_ret. lv.
  - intros e s1 W1 E1 He. destruct d as [v|]; [|by apply safe_raise].
    assert (safe s1 (ret v) (fun v s' => vok s' v)). { apply safe_ret. specialize (Hd v eq_refl). lv. }
    destruct v; try done. by apply safe_raise.
Qed.
Lemma safe_popitem s self : live s self ->
  safe s (popitem self) (fun kv s' => vok s' (snd kv)).
Proof.
  intros Hl. unfold popitem. eapply safe_bind; [by apply safe_iter|]. intros ks s1 W1 E1 _.
  destruct (rev ks); [by apply safe_raise|].
  eapply safe_bind; [apply safe_getitem; lv|]. intros v s2 W2 E2 Hv.
  eapply safe_bind; [apply safe_delitem; lv|]. intros _ s3 W3 E3 _. apply safe_ret. simpl. lv.
Qed.
Lemma safe_attrs_of s self : live s self -> safe s (attrs_of self) (fun v s' => vok s' v).
Proof.
  intros Hl. unfold attrs_of. sload Hl. destruct (with_attrs _); [|by apply safe_raise]. eapply safe_bind; [by apply safe_nodespaces_of|].
  intros l s1 W1 E1 Hd. apply safe_try_catch; [by apply safe_dict_get|]. intros e s2 W2 E2 He.
  assert (live s2 self) as Hl2 by lv.
  eapply safe_bind; [apply safe_new_node; intros q [= <-]; done|]. intros a s3 W3 E3 Ha.
  eapply safe_bind; [apply safe_nodespaces_of; lv|]. intros l' s4 W4 E4 Hd4.
  eapply safe_bind; [apply safe_dict_set; [done|simpl; lv]|]. intros _ s5 W5 E5 _.
  apply safe_ret. simpl. lv.
Qed.

(** * invalidate *)
Lemma safe_dict_del_all s l ks : is_Some (dicts s !! l) -> safe s (iterM (dict_del l) ks) any.
Proof.
  intros Hd. apply safe_iterM with (P := fun s _ => is_Some (dicts s !! l)).
  - intros. lv.
  - intros. by apply safe_dict_del.
  - by apply Forall_forall.
Qed.
Lemma safe_invalidate_endpoint bs s self k : live s self -> safe s (invalidate_endpoint bs self k) any.
Proof.
  intros Hl. induction bs as [|b bs IH]; simpl; [by apply safe_raise|].
  destruct b; try done.
  - case_decide; [by apply safe_clear|by apply safe_delitem].
  - eapply safe_bind; [by apply safe_storage_of|]. intros l s1 W1 E1 Hd. case_decide.
    + eapply safe_bind; [by apply safe_read_dict|]. intros d ? _ _ [-> _]. by apply safe_dict_del_all.
    + eapply safe_bind; [apply safe_iter; lv|]. intros ks s2 W2 E2 _.
      case_bool_decide; [|by apply safe_raise].
      apply safe_try_catch; [apply safe_dict_del; lv|intros; by apply safe_ret].
Qed.
Lemma safe_invalidate s self k : live s self -> safe s (invalidate self k) any.
Proof.
  intros Hl. unfold invalidate. sload Hl.
  assert (forall bs s k, live s self -> safe s (invalidate_stack (c_behs (o_cls o)) bs self k) any) as HS;
    [|by apply HS].
  clear. intros bs. induction bs as [|b bs IH]; intros s k Hl; simpl.
  - by apply safe_invalidate_endpoint.
  - destruct b; simpl; try (by apply IH).
    eapply safe_bind; [by apply safe_cache_of|]. intros l s1 W1 E1 Hd. case_decide.
    + eapply safe_bind; [by apply safe_read_dict|]. intros d ? _ _ [-> _].
      eapply safe_bind; [by apply safe_dict_del_all|]. intros _ s2 W2 E2 _. apply IH. lv.
    + eapply safe_bind; [apply safe_try_catch; [by apply safe_dict_del|intros; by apply safe_ret]|].
      intros _ s2 W2 E2 _. apply IH. lv.
Qed.

(** * Order *)
Lemma safe_name_of s x : live s x -> safe s (name_of x) (fun _ s' => s' = s).
Proof. intros H. unfold name_of. sload H. by apply safe_ret. Qed.

Lemma dkeys_dinsert_before {A} ref k (v : A) d :
  ref ∈ dkeys d -> exists l1 l2, dkeys d = l1 ++ l2 /\ dkeys (dinsert_before ref k v d) = l1 ++ k :: l2.
Proof.
  induction d as [|[k' v'] d IH]; simpl; intros H; [inversion H|]. case_decide as E.
  - exists [], (dkeys ((k', v') :: d)). done.
  - apply elem_of_cons in H as [?|H]; [done|]. destruct (IH H) as (l1 & l2 & E1 & E2).
    exists (k' :: l1), l2. unfold dkeys in *. simpl. by rewrite E1, E2.
Qed.
Lemma dkeys_dinsert_after {A} ref k (v : A) d :
  ref ∈ dkeys d -> exists l1 l2, dkeys d = l1 ++ l2 /\ dkeys (dinsert_after ref k v d) = l1 ++ k :: l2.
Proof.
  induction d as [|[k' v'] d IH]; simpl; intros H; [inversion H|]. case_decide as E.
  - exists [k'], (dkeys d). done.
  - apply elem_of_cons in H as [?|H]; [done|]. destruct (IH H) as (l1 & l2 & E1 & E2).
    exists (k' :: l1), l2. unfold dkeys in *. simpl. by rewrite E1, E2.
Qed.
Lemma NoDup_dinsert {A} (before : bool) ref k (v : A) d :
  ref ∈ dkeys d -> k ∉ dkeys d -> NoDup (dkeys d) ->
  NoDup (dkeys (if before then dinsert_before ref k v d else dinsert_after ref k v d)).
Proof.
  intros H1 H2 ND.
  assert (exists l1 l2, dkeys d = l1 ++ l2 /\
    dkeys (if before then dinsert_before ref k v d else dinsert_after ref k v d) = l1 ++ k :: l2)
    as (l1 & l2 & E1 & ->).
  { destruct before; [by apply dkeys_dinsert_before|by apply dkeys_dinsert_after]. }
  rewrite E1 in *. apply NoDup_app in ND as (N1 & N2 & N3). apply NoDup_app. split; [done|].
  rewrite elem_of_app in H2. split.
  - intros x Hx [->|Hx2]%elem_of_cons; [naive_solver|by eapply N2].
  - apply NoDup_cons. naive_solver.
Qed.
Lemma Forall_dinsert (P : key * val -> Prop) (before : bool) ref k v d :
  Forall P d -> P (k, v) ->
  Forall P (if before then dinsert_before ref k v d else dinsert_after ref k v d).
Proof.
  intros F Hv. destruct before; induction d as [|[k' v'] d IH]; simpl; try constructor;
    apply Forall_cons in F as [F1 F2]; case_decide; auto.
Qed.

Lemma safe_odict_insert before s l r k v : is_Some (dicts s !! l) -> vok s v ->
  safe s (odict_insert before l r k v) any.
Proof.
  intros Hd Hv. unfold odict_insert. case_decide; [by apply safe_raise|].
  eapply safe_bind; [by apply safe_read_dict|]. intros d ? W _ [-> Hl].
  destruct (dget r d) eqn:E1; [|by apply safe_raise].
  destruct (dget k d) eqn:E2; [by apply safe_raise|].
  destruct (hashable k) eqn:Hk; [|by apply safe_raise].
  destruct (wf_dicts _ W _ _ Hl) as (_ & ND & F).
  apply safe_write_dict; [done| |].
  - apply NoDup_dinsert; [apply dget_is_Some; eauto|by apply dget_None|done].
  - apply Forall_dinsert; [done|by split].
Qed.

Lemma dswap_keys {A} a b (d : list (key * A)) :
  dkeys (dswap a b d) =
  match dget a d, dget b d with
  | Some _, Some _ => map (fun k => if decide (k = a) then b else if decide (k = b) then a else k) (dkeys d)
  | _, _ => dkeys d
  end.
Proof.
  unfold dswap. destruct (dget a d), (dget b d); try done. unfold dkeys.
  rewrite !map_map. apply map_ext. intros [k v]. simpl. repeat case_decide; done.
Qed.
Lemma NoDup_dswap {A} a b (d : list (key * A)) : NoDup (dkeys d) -> NoDup (dkeys (dswap a b d)).
Proof.
  intros ND. rewrite dswap_keys. destruct (dget a d), (dget b d); try done.
  apply NoDup_fmap_2; [|done]. intros x y. repeat case_decide; congruence.
Qed.
Lemma safe_own_storage s x : live s x -> safe s (own_storage x) (fun l s' => is_Some (dicts s' !! l)).
Proof.
  intros [o Ho] W. unfold own_storage. rewrite (bind_load _ _ _ _ Ho). destruct (_ || _); [by apply safe_storage_of; [exists o|]|].
  simpl. split; [done|]. split; [apply ext_refl|done].
Qed.
Lemma safe_odict_of s self : live s self -> safe s (odict_of self) (fun l s' => is_Some (dicts s' !! l)).
Proof.
  intros Hl. unfold odict_of. sload Hl. eapply safe_bind; [by apply safe_own_storage|]. intros l s1 W1 E1 Hd.
  destruct (keeps_order _); [by apply safe_ret|by apply safe_raise].
Qed.
Lemma safe_order_method {A} s self (m : M A) Q : live s self -> safe s m Q -> safe s (order_method self m) Q.
Proof. intros Hl Hm. unfold order_method. sload Hl. destruct (has Order o); [done|by apply safe_raise]. Qed.
Lemma safe_swap s self a b : live s self -> live s a -> live s b -> safe s (swap self a b) any.
Proof.
  intros Hl Ha Hb. unfold swap. apply safe_order_method; [done|]. eapply safe_bind; [by apply safe_odict_of|].
  intros l s1 W1 E1 Hd. eapply safe_bind; [apply safe_name_of; lv|]. intros ka ? _ _ ->.
  eapply safe_bind; [apply safe_name_of; lv|]. intros kb ? _ _ ->.
  unfold odict_swap. case_decide; [by apply safe_raise|].
  eapply safe_bind; [by apply safe_read_dict|]. intros d ? W _ [-> Hl'].
  destruct (wf_dicts _ W _ _ Hl') as (_ & ND & F). rewrite Forall_forall in F.
  destruct (dget ka d) as [va|] eqn:E2; [|by apply safe_raise].
  destruct (dget kb d) as [vb|] eqn:E3; [|by apply safe_raise].
  apply safe_write_dict; [done|by apply NoDup_dswap|].
  unfold dswap. rewrite E2, E3. apply Forall_forall. intros e He.
  apply elem_of_list_In, in_map_iff in He as ([k v] & <- & He). apply elem_of_list_In in He. simpl.
  apply dget_Some_in in E2, E3.
  case_decide; [by apply (F (kb, vb))|]. case_decide; [by apply (F (ka, va))|]. by apply (F (k, v)).
Qed.

Lemma safe_validateinsertion s self n : live s self -> live s n ->
  safe s (validateinsertion self n) (fun _ s' => s' = s).
Proof.
  intros Hl Hn. unfold validateinsertion. sload Hn. case_decide; [by apply safe_raise|].
  sload Hl. destruct (has _ _); [|by apply safe_ret].
  destruct (_ || _); [|by apply safe_raise]. destruct (o_uuid o); [|by apply safe_raise].
  eapply safe_bind; [by apply safe_index_of|]. intros i ? _ _ [-> Hi].
  eapply safe_bind; [by apply safe_read_idx|]. intros m ? _ _ [-> Hm].
  destruct (m !! _); [by apply safe_raise|by apply safe_ret].
Qed.
Lemma safe_insert_at before s self n r : live s self -> live s n -> live s r ->
  safe s (insert_at before self n r) any.
Proof.
  intros Hl Hn Hr. unfold insert_at. apply safe_order_method; [done|].
  eapply safe_bind; [by apply safe_validateinsertion|]. intros _ ? W _ ->.
  eapply safe_bind; [by apply safe_odict_of|]. intros l s1 W1 E1 Hd.
  eapply safe_bind; [apply safe_name_of; lv|]. intros ka ? _ _ ->.
  eapply safe_bind; [apply safe_name_of; lv|]. intros kb ? _ _ ->.
  eapply safe_bind; [apply safe_try_catch;
    [apply safe_odict_insert; [done|simpl; lv]|intros; by apply safe_raise]|].
  intros _ s2 W2 E2 _.
  eapply safe_bind; [apply safe_name_of; lv|]. intros kc ? _ _ ->.
  apply safe_setitem; simpl; lv.
Qed.
Lemma safe_insert_end first s self n : live s self -> live s n -> safe s (insert_end first self n) any.
Proof.
  intros Hl Hn. unfold insert_end. apply safe_order_method; [done|]. eapply safe_bind; [by apply safe_iter|]. intros ks s1 W1 E1 _.
  destruct (if first then head ks else last ks).
  - eapply safe_bind; [apply safe_getitem; lv|]. intros r s2 W2 E2 Hr.
    destruct r; try (by apply safe_raise). apply safe_insert_at; lv.
  - eapply safe_bind; [apply safe_name_of; lv|]. intros k' ? _ _ ->. apply safe_setitem; simpl; lv.
Qed.

(** * Empty heap *)
Lemma wf_empty nu lg fb cs n : wf (St ∅ ∅ ∅ n nu lg fb cs).
Proof. constructor; simpl; intros; by rewrite lookup_empty in *. Qed.
