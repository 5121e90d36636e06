(** ChildFactory. *)
From Verif Require Import Py Odict OdictFacts Aliaser Heap Model Classes MonadFacts WF WFOps Views TreeOps SetEff DelEff DetachEff
  SpecMapping MappingProofs StorageProofs Observe ObserveFacts SpecTree MappingProps FrameNew SpecFactory.

Definition fac_beh (b : behavior) : bool := plain_beh b || bool_decide (b = ChildFactory).
(** classes of mapping behaviors with one ChildFactory and a storage *)
Definition factory_class (bs : list behavior) : bool :=
  forallb fac_beh bs && storage_class bs && bool_decide (occ ChildFactory bs = 1).

Lemma factory_class_inv bs : factory_class bs = true -> forallb fac_beh bs = true /\ storage_class bs = true /\ occ ChildFactory bs = 1.
Proof. unfold factory_class. rewrite !andb_true_iff, bool_decide_eq_true. naive_solver. Qed.
Lemma fac_in bs b : forallb fac_beh bs = true -> b ∈ bs -> fac_beh b = true.
Proof. intros H Hb. rewrite forallb_forall in H. apply H. by apply elem_of_list_In. Qed.
Lemma fac_no bs b : forallb fac_beh bs = true -> fac_beh b = false -> hasc b bs = false.
Proof. intros H Hb. apply bool_decide_eq_false. intros Hin. apply (fac_in _ _ H) in Hin. congruence. Qed.
Lemma fac_set bs : forallb fac_beh bs = true -> forallb set_beh bs = true.
Proof.
  intros H. apply forallb_forall. intros b Hb. apply elem_of_list_In in Hb. apply (fac_in _ _ H) in Hb.
  unfold fac_beh in Hb. unfold set_beh, tree_beh. apply orb_prop in Hb as [->|Hb]; [done|]. apply bool_decide_eq_true in Hb as ->. done.
Qed.
Lemma occ_none b bs : occ b bs = 0 -> b ∉ bs.
Proof.
  unfold occ. intros H%nil_length_inv Hin. assert (Hi : b ∈ filter (eq b) bs) by (by apply elem_of_list_filter). rewrite H in Hi. by apply elem_of_nil in Hi.
Qed.
Lemma occ_in b bs : 0 < occ b bs -> b ∈ bs.
Proof.
  unfold occ. destruct (filter (eq b) bs) as [|b' l] eqn:E; simpl; [lia|]. intros _.
  assert (Hi : b' ∈ filter (eq b) bs) by (rewrite E; left). apply elem_of_list_filter in Hi as [-> ?]. done.
Qed.
Lemma offered_dget {A} k (l : list (key * A)) : offered k l = dget k l.
Proof.
  unfold offered. induction l as [|[k' v] l IH]; simpl; [done|]. destruct (decide (k = k')) as [->|Hne].
  - by rewrite bool_decide_eq_true_2.
  - rewrite bool_decide_eq_false_2 by congruence. done.
Qed.

(** ** the pipelines *)
Lemma get_stack_none fb all bs x k s : forallb fac_beh bs = true -> ChildFactory ∉ bs -> get_stack fb all bs x k s = get_endpoint all x k s.
Proof.
  induction bs as [|b bs IH]; [done|]. simpl. intros [Hb1 Hb2]%andb_prop [Hn1 Hn2]%not_elem_of_cons. cbn [get_stack].
  destruct b; try discriminate Hb1; try done; by apply IH.
Qed.
Definition factory_get (x : nat) (k : key) (next : M val) : M val :=
  try_catch next is_key_error
        (fun _ =>
           let! o := load x in
           if hashable k then
             match dget k (c_factories (o_cls o)) with
             | None => raise (KeyError k)
             | Some cn =>
                 let! c := new_node cn KNone None in
                 do! setitem x k (VNode c) in
                 ret (VNode c)
             end
           else raise TypeError).
Lemma try_catch_ext {A} (m m' : M A) p h s : m s = m' s -> try_catch m p h s = try_catch m' p h s.
Proof. intros E. unfold try_catch. by rewrite E. Qed.
Lemma get_stack_one fb all bs x k s : forallb fac_beh bs = true -> occ ChildFactory bs = 1 ->
  get_stack fb all bs x k s = factory_get x k (get_endpoint all x k) s.
Proof.
  induction bs as [|b bs IH]; [done|]. simpl. intros [Hb1 Hb2]%andb_prop Ho. cbn [get_stack].
  destruct (decide (b = ChildFactory)) as [->|Hne].
  - assert (Hz : occ ChildFactory bs = 0). { unfold occ in *. rewrite filter_cons, decide_True in Ho by done. simpl in Ho. lia. }
    apply try_catch_ext. apply get_stack_none; [done|by apply occ_none].
  - assert (Hz : occ ChildFactory bs = 1). { unfold occ in *. rewrite filter_cons, decide_False in Ho by done. done. }
    specialize (IH Hb2 Hz). destruct b; try discriminate Hb1; try done.
Qed.
Lemma del_stack_fac all bs x k s : forallb fac_beh bs = true -> del_stack all bs x k s = del_endpoint all x k s.
Proof.
  induction bs as [|b bs IH]; [done|]. simpl. intros [Hb1 Hb2]%andb_prop.
  destruct b; try discriminate Hb1; try done; by apply IH.
Qed.
Lemma iter_stack_fac all bs x s : forallb fac_beh bs = true -> iter_stack all bs x s = iter_endpoint all x s.
Proof.
  induction bs as [|b bs IH]; [done|]. simpl. intros [Hb1 Hb2]%andb_prop.
  destruct b; try discriminate Hb1; try done; by apply IH.
Qed.

(** ** Frame of a creation, on views *)
Lemma keeps_views s s' x w : wf s -> keeps (next_id s) s s' -> views s !! x = Some w -> views s' !! x = Some w.
Proof.
  intros W K (o & Ho & ->)%view_obj. destruct (wf_nodes _ W _ _ Ho) as [Hx Hok].
  assert (Hd : forall a l, get_slot a o = Some l -> dicts s' !! l = dicts s !! l).
  { intros a l Hl. apply (kp_dicts _ _ _ K). destruct (ok_slot _ _ Hok a l Hl) as [d Hd]. by destruct (wf_dicts _ W _ _ Hd) as [? _]. }
  apply views_Some. exists o. rewrite (kp_nodes _ _ _ K) by done. split; [done|].
  unfold view_of, deref.
  pose proof (Hd SStorage) as H1. pose proof (Hd SCache) as H2. pose proof (Hd SChildren) as H3. pose proof (Hd SNodespaces) as H4. simpl in *.
  f_equal.
  - destruct (o_storage o); [|done]. by rewrite H1.
  - destruct (o_cache o); [|done]. by rewrite H2.
  - destruct (o_children o); [|done]. simpl. by rewrite H3.
  - destruct (o_nodespaces o); [|done]. by rewrite H4.
Qed.
Lemma keeps_only_new s s' : wf s -> keeps (next_id s) s s' -> only_new s s'.
Proof.
  intros W K. constructor.
  - intros y Hy. apply live_view in Hy as [w Hw]. apply same_node_views. rewrite Hw. by eapply keeps_views.
  - destruct (kp_log _ _ _ K) as (l & E & F). exists l. split; [done|]. eapply Forall_impl; [exact F|].
    intros e (c & -> & Hc). exists c. split; [done|]. intros [o Ho]. apply (wf_nodes _ W) in Ho as [? _]. lia.
Qed.
Lemma only_new_eqv s s1 s' : eqv s s1 -> only_new s1 s' -> only_new s s'.
Proof.
  intros Q [H1 (l & H2 & H3)]. constructor.
  - intros y Hy. assert (Hy1 : exists_node s1 y). { apply views_live. rewrite (e_views _ _ Q). by apply views_live. }
    specialize (H1 y Hy1). pose proof (sw_nodes _ _ (same_world_eqv _ _ Q) y) as H0. destruct H0, H1. constructor; congruence.
  - exists l. rewrite H2, (e_log _ _ Q). split; [done|]. eapply Forall_impl; [exact H3|]. intros e (c & -> & Hc). exists c. split; [done|].
    intros Hl. apply Hc. apply views_live. rewrite (e_views _ _ Q). by apply views_live.
Qed.

(** ** Creation works for every class without FixedChildren *)
Definition selfidx (s : st) (x : nat) : Prop :=
  forall o i m, nodes s !! x = Some o -> o_index o = Some i -> idxs s !! i = Some m -> forall u y, m !! u = Some y -> y = x.
Lemma set_uuid_works s x u o i : wf s -> nodes s !! x = Some o -> o_index o = Some i -> selfidx s x ->
  exists s', set_uuid x u s = (Ret tt, s') /\ selfidx s' x /\ (exists o', nodes s' !! x = Some o' /\ o_index o' = Some i /\ o_cls o' = o_cls o).
Proof.
  intros W Ho Hi Hs. destruct (wf_nodes _ W _ _ Ho) as [_ Hok]. destruct (ok_index _ _ Hok i Hi) as [m Hm].
  unfold set_uuid. assert (E1 : index_of x s = (Ret i, s)). { unfold index_of. rewrite (bind_load _ _ _ _ Ho), Hi. done. }
  rewrite (bind_Ret _ _ _ _ _ E1). assert (E2 : read_idx i s = (Ret m, s)) by (unfold read_idx; by rewrite Hm).
  rewrite (bind_Ret _ _ _ _ _ E2).
  assert ((match m !! iuuid u with Some o0 => if decide (o0 = x) then false else true | None => false end) = false) as ->.
  { destruct (m !! iuuid u) as [y|] eqn:E; [|done]. by rewrite decide_True by (by eapply Hs). }
  rewrite (bind_load _ _ _ _ Ho). rewrite (bind_Ret (write_idx _ _) _ _ _ _ eq_refl).
  set (s1 := set_idxs _ s).
  assert (exists s2, saw_uuid u s1 = (Ret tt, s2) /\ nodes s2 = nodes s1 /\ idxs s2 = idxs s1) as (s2 & E3 & N2 & I2) by (unfold saw_uuid; destruct u; eauto).
  rewrite (bind_Ret _ _ _ _ _ E3).
  assert (Ho2 : nodes s2 !! x = Some o) by (by rewrite N2).
  rewrite (modify_Some _ _ _ _ Ho2). eexists. split; [done|]. split.
  - intros o' i' m'. simpl. rewrite lookup_insert. intros [= <-] Hi' Hm' u' y Hy. simpl in Hi'. rewrite Hi in Hi'. injection Hi' as <-.
    rewrite I2 in Hm'. simpl in Hm'. rewrite lookup_insert in Hm'. injection Hm' as <-.
    apply lookup_insert_Some in Hy as [[_ <-]|[_ Hy]]; [done|]. apply lookup_delete_Some in Hy as [_ Hy]. by eapply Hs.
  - eexists. simpl. rewrite lookup_insert. done.
Qed.
Lemma init_stack_works mk all x : (forall s cn, wf s -> safe s (mk cn) (fun c s' => live s' c)) ->
  forall bs s o, wf s -> nodes s !! x = Some o -> c_behs (o_cls o) = all -> selfidx s x ->
  FixedChildren ∉ bs -> (Reference ∈ all -> Reference ∈ bs \/ is_Some (o_index o)) ->
  exists s', init_stack mk all bs KNone None x s = (Ret tt, s') /\ wf s' /\ selfidx s' x /\
    exists o', nodes s' !! x = Some o' /\ o_cls o' = o_cls o /\ (Reference ∈ all -> is_Some (o_index o')).
Proof.
  intros Hmk bs. induction bs as [|b bs IH]; intros s o W Ho Ha Hs Hfb Hr.
  - assert (L : live s x) by (by eexists).
    pose proof (safe_init_stack mk all [] KNone None s x L ltac:(done) Hmk W) as (W' & _ & _).
    cbn [init_stack] in *. unfold init_endpoint in *. destruct (hasc DefaultInit all).
    + rewrite (bind_Ret _ _ _ _ _ (modify_Some _ _ _ _ Ho)) in *.
      set (s1 := set_nodes <[x:=with_name KNone o]> s) in *.
      assert (Ho1 : nodes s1 !! x = Some (with_name KNone o)) by (simpl; by rewrite lookup_insert).
      rewrite (modify_Some _ _ _ _ Ho1) in *. eexists. split; [done|]. split; [done|]. split.
      * intros o' i m. simpl. rewrite lookup_insert. intros [= <-] Hi Hm. simpl in Hi. by eapply Hs.
      * eexists. simpl. rewrite lookup_insert. split; [done|]. split; [done|]. simpl. intros Hin.
        destruct (Hr Hin) as [Hx|?]; [by apply elem_of_nil in Hx|done].
    + exists s. split; [done|]. split; [done|]. split; [done|]. exists o. split; [done|]. split; [done|].
      intros Hin. destruct (Hr Hin) as [Hx|?]; [by apply elem_of_nil in Hx|done].
  - apply not_elem_of_cons in Hfb as [Hf1 Hf2].
    assert (L : live s x) by (by eexists).
    pose proof (safe_init_stack mk all (b :: bs) KNone None s x L ltac:(done) Hmk W) as (W' & _ & _).
    assert (Hr' : b <> Reference -> Reference ∈ all -> Reference ∈ bs \/ is_Some (o_index o)).
    { intros Hne Hin. destruct (Hr Hin) as [[?|?]%elem_of_cons|?]; [congruence|by left|by right]. }
    cbn [init_stack] in *.
    destruct (decide (b = UUIDAware)) as [->|H1]; [|destruct (decide (b = Lifecycle)) as [->|H2]; [|destruct (decide (b = Reference)) as [->|H3]]].
    + destruct (IH s o) as (s1 & E1 & W1 & S1 & o1 & Ho1 & Hc1 & Hi1); [done..|by apply Hr'|]. cbn [init_stage] in *.
      rewrite (bind_Ret _ _ _ _ _ E1) in *. rewrite (bind_Ret uuid4 _ _ _ _ eq_refl) in *.
      set (s2 := set_next_uuid N.succ s1) in *. unfold assign_uuid in *.
      assert (Ho2 : nodes s2 !! x = Some o1) by done. rewrite (bind_load _ _ _ _ Ho2) in *.
      assert (W2 : wf s2) by (by destruct (safe_uuid4 s1 W1) as [? _]).
      destruct (has Reference o1) eqn:Eh.
      * assert (Hin : Reference ∈ all). { unfold has in Eh. apply bool_decide_eq_true in Eh. rewrite <- Ha, <- Hc1. done. }
        destruct (Hi1 Hin) as [i Hi].
        destruct (set_uuid_works s2 x (Some (next_uuid s1)) o1 i W2 Ho2 Hi S1) as (s3 & E3 & S3 & o3 & Ho3 & Hi3 & Hc3).
        rewrite E3 in *. exists s3. split; [done|]. split; [done|]. split; [done|]. exists o3. split; [done|]. split; [congruence|]. intros _. by eexists.
      * set (u := Some (next_uuid s1)) in *.
        assert (exists s3, saw_uuid u s2 = (Ret tt, s3) /\ nodes s3 = nodes s2 /\ idxs s3 = idxs s2) as (s3 & E3 & N3 & I3) by (unfold saw_uuid; destruct u; eauto).
        rewrite (bind_Ret _ _ _ _ _ E3) in *.
        assert (Ho3 : nodes s3 !! x = Some o1) by (by rewrite N3).
        rewrite (modify_Some _ _ _ _ Ho3) in *. eexists. split; [done|]. split; [done|]. split.
        -- intros o' i m. simpl. rewrite lookup_insert, I3. intros [= <-] Hi Hm. simpl in Hi. by eapply S1.
        -- eexists. simpl. rewrite lookup_insert. done.
    + destruct (IH s o) as (s1 & E1 & W1 & S1 & o1 & Ho1 & Hc1 & Hi1); [done..|by apply Hr'|]. cbn [init_stage] in *.
      rewrite (bind_Ret _ _ _ _ _ E1) in *. eexists. split; [done|]. split; [done|]. split; [exact S1|]. by exists o1.
    + cbn [init_stage] in *. clear W'.
      set (s1 := set_next_id S (set_idxs <[next_id s := ∅]> s)).
      assert (E1 : alloc_idx ∅ s = (Ret (next_id s), s1)) by done.
      assert (W1 : wf s1). { apply (safe_alloc_idx s ∅); [|done]. intros u' y. by rewrite lookup_empty. }
      rewrite (bind_Ret _ _ _ _ _ E1).
      assert (Ho1 : nodes s1 !! x = Some o) by done. rewrite (bind_Ret _ _ _ _ _ (modify_Some _ _ _ _ Ho1)).
      set (s2 := set_nodes <[x:=with_index (Some (next_id s)) o]> s1).
      assert (W2 : wf s2).
      { pose proof (safe_modify_index s1 x (next_id s)) as Hm. destruct Hm as (W2 & _ & _); [by eexists|by simpl; rewrite lookup_insert|done|].
        rewrite (modify_Some _ _ _ _ Ho1) in W2. exact W2. }
      rewrite (bind_Ret uuid4 _ _ _ _ eq_refl). set (s3 := set_next_uuid N.succ s2).
      assert (W3 : wf s3) by (by destruct (safe_uuid4 s2 W2) as [? _]).
      assert (Ho3 : nodes s3 !! x = Some (with_index (Some (next_id s)) o)) by (simpl; by rewrite lookup_insert).
      assert (S3 : selfidx s3 x).
      { intros o' i m Ho' Hi Hm u y Hy. rewrite Ho3 in Ho'. injection Ho' as <-. simpl in Hi. injection Hi as <-.
        simpl in Hm. rewrite lookup_insert in Hm. injection Hm as <-. by rewrite lookup_empty in Hy. }
      destruct (set_uuid_works s3 x (Some (next_uuid s2)) _ _ W3 Ho3 eq_refl S3) as (s4 & E4 & S4 & o4 & Ho4 & Hi4 & Hc4).
      rewrite (bind_Ret _ _ _ _ _ E4).
      assert (W4 : wf s4). { destruct (safe_set_uuid s3 x (Some (next_uuid s2))) as (W4 & _ & _); [by eexists|done|]. by rewrite E4 in W4. }
      destruct (IH s4 o4) as (s5 & E5 & W5 & S5 & o5 & Ho5 & Hc5 & Hi5); try done.
      { rewrite Hc4. done. } { intros _. right. by eexists. }
      exists s5. split; [done|]. split; [done|]. split; [done|]. exists o5. split; [done|]. split; [|done]. rewrite Hc5, Hc4. done.
    + destruct (IH s o) as (s1 & E1 & W1 & S1 & o1 & Ho1 & Hc1 & Hi1); [done..|by apply Hr'|].
      exists s1. split; [destruct b; try done; exact E1|]. split; [done|]. split; [done|]. by exists o1.
Qed.
Lemma new_works s cn c : wf s -> classes s !! cn = Some c -> FixedChildren ∉ c_behs c ->
  exists x s', new_node cn KNone None s = (Ret x, s') /\ class_of s' x = Some c.
Proof.
  intros W Hc Hf. unfold new_node. cbn [instantiate].
  assert (E0 : get_class cn s = (Ret c, s)) by (unfold get_class; by rewrite Hc). rewrite (bind_Ret _ _ _ _ _ E0).
  set (s1 := set_next_id S (set_nodes <[next_id s := blank c]> s)).
  assert (E1 : alloc_node (blank c) s = (Ret (next_id s), s1)) by done. rewrite (bind_Ret _ _ _ _ _ E1).
  assert (W1 : wf s1). { apply (safe_alloc_node s (blank c)); [constructor; try done; intros []; done|by intros []|done]. }
  assert (Ho1 : nodes s1 !! next_id s = Some (blank c)) by (simpl; by rewrite lookup_insert).
  destruct (init_stack_works (fun cn0 => instantiate (size (classes s)) cn0 KNone None) (c_behs c) (next_id s)) with (bs := c_behs c) (s := s1) (o := blank c)
    as (s2 & E2 & W2 & _ & o2 & Ho2 & Hc2 & _); try done.
  { intros s2 cn2 W2. by apply safe_instantiate. }
  { intros o i m. rewrite Ho1. by intros [= <-]. }
  { intros ?. by left. }
  rewrite (bind_Ret _ _ _ _ _ E2). exists (next_id s), s2. split; [done|]. unfold class_of. rewrite Ho2. simpl. by rewrite Hc2.
Qed.
Lemma new_made s cn x s' : wf s -> new_node cn KNone None s = (Ret x, s') -> exists c, classes s !! cn = Some c /\ class_of s' x = Some c.
Proof.
  intros W. unfold new_node. cbn [instantiate]. unfold get_class. unfold bind at 1. destruct (classes s !! cn) as [c|] eqn:Hc; [|done].
  set (s1 := set_next_id S (set_nodes <[next_id s := blank c]> s)).
  assert (E1 : alloc_node (blank c) s = (Ret (next_id s), s1)) by done. rewrite (bind_Ret _ _ _ _ _ E1).
  assert (W1 : wf s1). { apply (safe_alloc_node s (blank c)); [constructor; try done; intros []; done|by intros []|done]. }
  assert (Ho1 : nodes s1 !! next_id s = Some (blank c)) by (simpl; by rewrite lookup_insert).
  assert (L : live s1 (next_id s)) by (by eexists).
  pose proof (safe_init_stack (fun cn0 => instantiate (size (classes s)) cn0 KNone None) (c_behs c) (c_behs c) KNone None s1 (next_id s) L ltac:(done)
    ltac:(intros; by apply safe_instantiate) W1) as (_ & X & _).
  unfold bind. destruct (init_stack _ _ _ _ _ _ s1) as [[[]|e] s2]; [|done]. intros [= <- <-]. simpl in X.
  exists c. split; [done|]. destruct (ext_nodes _ _ X _ _ Ho1) as (o2 & Ho2 & Hc2). unfold class_of. rewrite Ho2. simpl. by rewrite Hc2.
Qed.

(** the endpoint *)
Lemma get_endpoint_fac s x w k : wf s -> views s !! x = Some w -> forallb fac_beh (c_behs (w_cls w)) = true -> storage_class (c_behs (w_cls w)) = true ->
  exists s', get_endpoint (c_behs (w_cls w)) x k s = (look k (w_ent w), s') /\ eqv s s' /\ wf s'.
Proof.
  intros W Hw Hb Hst. unfold get_endpoint. rewrite (fac_no _ FixedChildren Hb eq_refl). pose proof Hst as Hst'. unfold storage_class in Hst'. rewrite Hst'.
  apply (slot_get s x w SStorage); [done..|]. by apply storage_slot.
Qed.

Lemma view_fields s s' y : fld w_core s' y = fld w_core s y -> fld w_ent s' y = fld w_ent s y -> fld w_ns s' y = fld w_ns s y ->
  fld w_np s' y = fld w_np s y -> fld w_index s' y = fld w_index s y -> views s' !! y = views s !! y.
Proof.
  unfold fld. destruct (views s' !! y) as [a|], (views s !! y) as [b|]; simpl; try done.
  intros [= ? ? ? ? ? ? ?] [= ?] [= ?] [= ? ?] [= ?]. destruct a, b; simpl in *; congruence.
Qed.

(** a factory node returns what is stored, and else asks the factory *)
Lemma factory_stored s x cls k v : wf s -> class_of s x = Some cls -> factory_class (c_behs cls) = true -> value_at k (entries_at s x) = Some v ->
  exists s', getitem x k s = (Ret v, s') /\ eqv s s' /\ wf s'.
Proof.
  intros W Hc (Hb & Hst & Ho)%factory_class_inv Hv. destruct (class_view _ _ _ Hc) as (w & Hw & <-). destruct (view_obj _ _ _ Hw) as (o & Hob & Ew).
  unfold getitem. rewrite (bind_load _ _ _ _ Hob). replace (o_cls o) with (w_cls w) by (by subst). rewrite get_stack_one by done.
  destruct (get_endpoint_fac s x w k W Hw Hb Hst) as (s1 & E1 & Q1 & W1). exists s1. split; [|done].
  unfold factory_get, try_catch. rewrite E1.
  assert (He : entries_at s x = w_ent w) by (rewrite ob_entries; unfold fld; by rewrite Hw).
  rewrite value_at_spec, He in Hv. unfold look. rewrite Hv.
  assert (hashable k = true) as ->; [|done].
  pose proof (entries_known s x W) as Hk. rewrite He in Hk. apply dget_Some_in in Hv. rewrite Forall_forall in Hk. by apply Hk in Hv as [? _].
Qed.
Lemma factory_absent s x cls k : wf s -> class_of s x = Some cls -> factory_class (c_behs cls) = true -> value_at k (entries_at s x) = None ->
  exists s1, eqv s s1 /\ wf s1 /\ getitem x k s =
    (if hashable k then
       match dget k (c_factories cls) with
       | None => raise (KeyError k)
       | Some cn => let! c := new_node cn KNone None in do! setitem x k (VNode c) in ret (VNode c)
       end
     else raise TypeError) s1.
Proof.
  intros W Hc (Hb & Hst & Ho)%factory_class_inv Hv. destruct (class_view _ _ _ Hc) as (w & Hw & <-). destruct (view_obj _ _ _ Hw) as (o & Hob & Ew).
  unfold getitem. rewrite (bind_load _ _ _ _ Hob). replace (o_cls o) with (w_cls w) by (by subst). rewrite get_stack_one by done.
  destruct (get_endpoint_fac s x w k W Hw Hb Hst) as (s1 & E1 & Q1 & W1). exists s1. split; [done|]. split; [done|].
  unfold factory_get, try_catch. rewrite E1.
  assert (He : entries_at s x = w_ent w) by (rewrite ob_entries; unfold fld; by rewrite Hw).
  rewrite value_at_spec, He in Hv. unfold look. rewrite Hv. destruct (hashable k) eqn:Hk; [|done]. simpl.
  pose proof (eqv_view _ _ _ _ Q1 Hw) as Hw1. destruct (view_obj _ _ _ Hw1) as (o1 & Hob1 & Ew1). rewrite (bind_load _ _ _ _ Hob1).
  replace (o_cls o1) with (w_cls w) by (by rewrite Ew1). done.
Qed.

(** storing a fresh child *)
Lemma store_child s x cls k c : wf s -> class_of s x = Some cls -> factory_class (c_behs cls) = true -> exists_node s c -> hashable k = true ->
  exists s', setitem x k (VNode c) s = (Ret tt, s') /\ wf s' /\ log s' = log s /\
    entries_at s' x = put k (VNode c) (entries_at s x) /\
    (Adopt ∈ c_behs cls -> name_at s' c = Some k /\ parent_at s' c = Some x) /\
    (forall y, class_of s' y = class_of s y /\ spaces_at s' y = spaces_at s y /\ cache_at s' y = cache_at s y /\ uuid_at s' y = uuid_at s y /\ suppressed s' y = suppressed s y) /\
    (forall y, y <> c -> name_at s' y = name_at s y /\ parent_at s' y = parent_at s y) /\
    (forall y, y <> x -> y <> c -> same_node s s' y).
Proof.
  intros W Hc (Hb & Hst & _)%factory_class_inv Hl Hk. pose proof Hc as Hc'. rewrite ob_class in Hc'.
  destruct (setitem_eff' s x cls k (VNode c) W Hc' (fac_set _ Hb) Hst Hl) as (r & s' & E & F & G).
  assert (Hns : forall k, nskey (c_behs cls) k = false). { intros k'. unfold nskey. by rewrite (fac_no _ Nodespaces Hb eq_refl). }
  assert (Hrf : hasc Reference (c_behs cls) = false) by (by apply fac_no).
  assert (r = Ret tt) as ->.
  { destruct (class_view _ _ _ Hc) as (w & Hw & Hwc). rewrite (G (w_allow w)).
    - clear -Hb Hk. induction (c_behs cls) as [|b bs IH]; simpl; [by rewrite Hk|].
      simpl in Hb. apply andb_prop in Hb as [Hb1 Hb2]. specialize (IH Hb2).
      destruct b; try discriminate Hb1; try done. simpl. by rewrite !andb_false_r.
    - intros c' _. by rewrite Hrf.
    - unfold fld. by rewrite Hw. }
  assert (Hlc : occ Lifecycle (c_behs cls) = 0). { apply hasc_occ. by apply fac_no. }
  exists s'. split; [done|]. destruct F. rewrite Hns in *.
  assert (Hcore : forall y, class_of s' y = class_of s y /\ spaces_at s' y = spaces_at s y /\ cache_at s' y = cache_at s y /\ uuid_at s' y = uuid_at s y /\ suppressed s' y = suppressed s y).
  { intros y. specialize (se_core y). specialize (se_ns y).
    assert (Hnsy : fld w_ns s' y = fld w_ns s y) by (rewrite se_ns; by case_decide). clear se_ns.
    rewrite !ob_class, !ob_spaces, !ob_cache, !ob_uuid, !ob_suppressed, Hnsy. unfold fld in *.
    destruct (views s' !! y) as [a|], (views s !! y) as [b|]; simpl in *; try done. injection se_core as -> -> _ -> _ -> _. done. }
  split; [done|]. split; [by apply se_log0|]. split; [|split; [|split; [done|split]]].
  - rewrite (ob_entries s'), se_ent, decide_True by done. simpl. rewrite ent_fmap by (by apply live_cls in Hc'). by apply wf_dset_put.
  - intros Ha. specialize (se_np_ret c eq_refl eq_refl).
    assert (hasc Adopt (c_behs cls) = true) as Had by (by apply hasc_in). rewrite Had in se_np_ret. simpl in se_np_ret.
    destruct (fld_view _ _ _ _ se_np_ret) as (wc & Hwc & Hnp). injection Hnp as Hn1 Hn2.
    rewrite ob_name, ob_parent. unfold fld. rewrite Hwc. simpl. by rewrite Hn1, Hn2.
  - intros y Hy. apply fld_np, se_np_other. congruence.
  - intros y Hx Hy. apply same_node_views. apply view_fields.
    + done.
    + rewrite se_ent. by rewrite decide_False.
    + rewrite se_ns. by rewrite decide_False.
    + apply se_np_other. congruence.
    + by apply se_ix.
Qed.

Lemma same_node_eqv s s1 s' y : eqv s s1 -> same_node s1 s' y -> same_node s s' y.
Proof. intros Q H. pose proof (sw_nodes _ _ (same_world_eqv _ _ Q) y) as H0. destruct H0, H. constructor; congruence. Qed.
Lemma exists_eqv s s1 y : eqv s s1 -> exists_node s1 y <-> exists_node s y.
Proof. intros Q. change (live s1 y <-> live s y). rewrite !views_live. by rewrite (e_views _ _ Q). Qed.
Lemma same_node_trans s1 s2 s3 y : same_node s1 s2 y -> same_node s2 s3 y -> same_node s1 s3 y.
Proof. intros [] []. constructor; congruence. Qed.

(** the factory is asked *)
Lemma factory_asked s x cls k cn r s' : wf s -> class_of s x = Some cls -> factory_class (c_behs cls) = true ->
  value_at k (entries_at s x) = None -> hashable k = true -> offered k (c_factories cls) = Some cn -> getitem x k s = (r, s') ->
  match r with
  | Ret v => exists c made, v = VNode c /\ classes s !! cn = Some made /\ made_child cls made s x k c s'
  | Exc e => only_new s s'
  end /\ wf s'.
Proof.
  intros W Hc Hf Hv Hk Ho E. destruct (factory_absent s x cls k W Hc Hf Hv) as (s1 & Q1 & W1 & E1). rewrite E in E1.
  rewrite Hk in E1. rewrite offered_dget in Ho. rewrite Ho in E1.
  destruct (new_node cn KNone None s1) as [r2 s2] eqn:E2.
  destruct (new_node_keeps s1 cn KNone None r2 s2) as [K Hid]; [|done|].
  { intros y o Hy. by apply (wf_nodes _ W1) in Hy as [? _]. }
  assert (W2 : wf s2). { destruct (safe_new_node s1 cn KNone None) as (W2 & _); [done|done|]. by rewrite E2 in W2. }
  pose proof (keeps_only_new s1 s2 W1 K) as N2.
  assert (Hc1 : class_of s1 x = Some cls). { rewrite <- Hc. apply (sn_class _ _ _ (sw_nodes _ _ (same_world_eqv _ _ Q1) x)). }
  assert (Hex : exists_node s1 x). { unfold class_of in Hc1. destruct (nodes s1 !! x) eqn:En; [by eexists|done]. }
  destruct r2 as [c|e].
  2: { rewrite (bind_Exc _ _ _ _ _ E2) in E1. injection E1 as -> ->. split; [|done]. by eapply only_new_eqv. }
  rewrite (bind_Ret _ _ _ _ _ E2) in E1. specialize (Hid c eq_refl).
  destruct (new_made s1 cn c s2 W1 E2) as (made & Hmade & Hcc). rewrite (e_classes _ _ Q1) in Hmade.
  assert (Hcnew : ~ exists_node s1 c). { intros [o Hoc]. apply (wf_nodes _ W1) in Hoc as [? _]. lia. }
  assert (Hxc : x <> c) by (intros ->; done).
  assert (Hc2 : class_of s2 x = Some cls). { rewrite <- Hc1. by apply (sn_class _ _ _ (on_nodes _ _ N2 x Hex)). }
  destruct (store_child s2 x cls k c W2 Hc2 Hf) as (s3 & E3 & W3 & L3 & En3 & Ad3 & Co3 & Np3 & Ot3); [|done|].
  { unfold class_of in Hcc. destruct (nodes s2 !! c) eqn:Enc; [by eexists|done]. }
  rewrite (bind_Ret _ _ _ _ _ E3) in E1. injection E1 as -> ->. split; [|done].
  exists c, made. split; [done|]. split; [done|].
  pose proof (on_nodes _ _ N2 x Hex) as Sx. pose proof (same_node_eqv _ _ _ _ Q1 Sx) as Sx'.
  constructor.
  - by rewrite <- (exists_eqv _ _ _ Q1).
  - destruct (Co3 c) as (-> & _). done.
  - rewrite En3. f_equal. apply Sx'.
  - done.
  - destruct (Co3 x) as (-> & -> & -> & -> & ->). destruct (Np3 x) as [-> ->]; [done|]. destruct Sx'. done.
  - intros y Hy Hex'. eapply same_node_trans; [|apply Ot3; [done|]].
    + eapply same_node_eqv; [exact Q1|]. apply (on_nodes _ _ N2). by apply (exists_eqv _ _ _ Q1).
    + intros ->. apply Hcnew. by apply (exists_eqv _ _ _ Q1).
  - rewrite L3. apply (only_new_eqv _ _ _ Q1 N2).
Qed.
Lemma factory_works s x cls k cn made : wf s -> class_of s x = Some cls -> factory_class (c_behs cls) = true ->
  value_at k (entries_at s x) = None -> hashable k = true -> offered k (c_factories cls) = Some cn ->
  classes s !! cn = Some made -> FixedChildren ∉ c_behs made ->
  exists c s', getitem x k s = (Ret (VNode c), s') /\ made_child cls made s x k c s'.
Proof.
  intros W Hc Hf Hv Hk Ho Hm Hnf. destruct (getitem x k s) as [r s'] eqn:E.
  destruct (factory_asked s x cls k cn r s' W Hc Hf Hv Hk Ho E) as [H _].
  destruct r as [v|e].
  - destruct H as (c & made' & -> & Hm' & H). rewrite Hm in Hm'. injection Hm' as <-. eauto.
  - exfalso. clear H. destruct (factory_absent s x cls k W Hc Hf Hv) as (s1 & Q1 & W1 & E1). rewrite E in E1.
    rewrite Hk in E1. rewrite offered_dget in Ho. rewrite Ho in E1.
    destruct (new_works s1 cn made W1) as (c & s2 & E2 & Hc2); [by rewrite (e_classes _ _ Q1)|done|].
    rewrite (bind_Ret _ _ _ _ _ E2) in E1.
    assert (W2 : wf s2 /\ ext s1 s2). { destruct (safe_new_node s1 cn KNone None) as (W2 & X2 & _); [done|done|]. by rewrite E2 in W2, X2. }
    destruct W2 as [W2 X2].
    destruct (store_child s2 x cls k c W2) as (s3 & E3 & _); try done.
    + assert (Hc1 : class_of s1 x = Some cls). { rewrite <- Hc. apply (sn_class _ _ _ (sw_nodes _ _ (same_world_eqv _ _ Q1) x)). }
      unfold class_of in Hc1. destruct (nodes s1 !! x) as [o1|] eqn:En; [|done]. injection Hc1 as Hc1.
      destruct (ext_nodes _ _ X2 _ _ En) as (o2 & Ho2 & Ec). unfold class_of. rewrite Ho2. simpl. by rewrite Ec, Hc1.
    + unfold class_of in Hc2. destruct (nodes s2 !! c) eqn:Enc; [by eexists|done].
    + rewrite (bind_Ret _ _ _ _ _ E3) in E1. done.
Qed.
Lemma factory_nothing s x cls k : wf s -> class_of s x = Some cls -> factory_class (c_behs cls) = true ->
  value_at k (entries_at s x) = None -> (hashable k = true -> offered k (c_factories cls) = None) ->
  exists s', getitem x k s = (Exc (if hashable k then KeyError k else TypeError), s') /\ same_world s s'.
Proof.
  intros W Hc Hf Hv Ho. destruct (factory_absent s x cls k W Hc Hf Hv) as (s1 & Q1 & W1 & E1). exists s1. rewrite E1.
  split; [|by apply same_world_eqv]. destruct (hashable k); [|done]. rewrite <- offered_dget, Ho by done. done.
Qed.
(** listing *)
Fixpoint factory_first (bs : list behavior) : bool :=
  match bs with
  | [] => false
  | ChildFactory :: _ => true
  | DictStorage :: _ | OdictStorage :: _ => false
  | _ :: r => factory_first r
  end.
Lemma factory_iter s x cls : class_of s x = Some cls -> factory_class (c_behs cls) = true -> factory_first (c_behs cls) = true ->
  keys x s = (Ret (map fst (c_factories cls)), s).
Proof.
  intros Hc (Hb & Hst & _)%factory_class_inv Hff. unfold class_of in Hc. destruct (nodes s !! x) as [o|] eqn:Ho; [|done]. injection Hc as Hc.
  unfold keys, iter. rewrite (bind_load _ _ _ _ Ho), Hc. rewrite iter_stack_fac by done. unfold iter_endpoint. rewrite (fac_no _ FixedChildren Hb eq_refl).
  clear Hst. revert Hb Hff. generalize (c_behs cls). induction l as [|b bs IH]; [done|]. simpl. intros [Hb1 Hb2]%andb_prop Hff.
  destruct b; try discriminate Hb1; try discriminate Hff; try (by apply IH). by rewrite (bind_load _ _ _ _ Ho), Hc.
Qed.

(** ** Later calls leave a stored child in place *)
Section stays.
Context (x : nat) (cls : classdef) (k : key) (v : val) (s0 : st).
Hypothesis Hf : factory_class (c_behs cls) = true.
Record inplace (s : st) : Prop := InPlace {
  ip_wf : wf s; ip_ext : ext s0 s; ip_cls : class_of s x = Some cls; ip_val : value_at k (entries_at s x) = Some v
}.
Definition pres {A} (m : M A) : Prop := forall s, inplace s -> inplace (m s).2.

Lemma pres_bind {A B} (m : M A) (f : A -> M B) : pres m -> (forall a, pres (f a)) -> pres (bind m f).
Proof. intros H K s I. unfold bind. specialize (H s I). destruct (m s) as [[a|e] s1]; simpl in *; [by apply K|done]. Qed.
Lemma pres_ret {A} (a : A) : pres (ret a).
Proof. by intros s I. Qed.
Lemma pres_raise {A} e : pres (@raise A e).
Proof. by intros s I. Qed.
Lemma pres_try {A} (m : M A) p h : pres m -> (forall e, pres (h e)) -> pres (try_catch m p h).
Proof. intros H K s I. unfold try_catch. specialize (H s I). destruct (m s) as [[a|e] s1]; simpl in *; [done|]. destruct (p e); [by apply K|done]. Qed.
Lemma pres_iterM {A} (f : A -> M unit) l : (forall a, a ∈ l -> pres (f a)) -> pres (iterM f l).
Proof. induction l as [|a l IH]; intros H; [apply pres_ret|]. simpl. apply pres_bind; [apply H; left|]. intros _. apply IH. intros b Hb. apply H. by right. Qed.
Lemma pres_mapM {A B} (f : A -> M B) l : (forall a, pres (f a)) -> pres (mapM_ f l).
Proof. intros H. induction l as [|a l IH]; [apply pres_ret|]. simpl. apply pres_bind; [apply H|]. intros b. apply pres_bind; [done|]. intros bs. apply pres_ret. Qed.

Lemma inplace_eqv s s' : eqv s s' -> wf s' -> ext s s' -> inplace s -> inplace s'.
Proof.
  intros Q W X []. pose proof (sw_nodes _ _ (same_world_eqv _ _ Q) x) as []. constructor; [done|by eapply ext_trans|congruence|by rewrite sn_entries].
Qed.
Lemma inplace_live s : inplace s -> live s x.
Proof. intros [_ _ H _]. unfold class_of in H. destruct (nodes s !! x) eqn:E; [by eexists|done]. Qed.

Lemma value_put_ne (k' : key) (v' : val) (d : list (key * val)) : k' <> k -> value_at k (dset k' v' d) = value_at k d.
Proof. intros Hne. rewrite !value_at_spec. rewrite dget_dset_ne; done. Qed.

Lemma pres_getitem k' : pres (getitem x k').
Proof.
  intros s I. pose proof (safe_getitem s x k' (inplace_live s I) (ip_wf _ I)) as (W' & X' & _).
  destruct (getitem x k' s) as [r s'] eqn:E. simpl in *.
  destruct (value_at k' (entries_at s x)) as [v'|] eqn:Ev.
  { destruct (factory_stored s x cls k' v' (ip_wf _ I) (ip_cls _ I) Hf Ev) as (s1 & E1 & Q1 & W1). rewrite E in E1. injection E1 as -> ->.
    by eapply inplace_eqv. }
  assert (Hne : k' <> k). { intros ->. rewrite (ip_val _ I) in Ev. done. }
  destruct (hashable k') eqn:Hh; [|].
  2: { destruct (factory_absent s x cls k' (ip_wf _ I) (ip_cls _ I) Hf Ev) as (s1 & Q1 & W1 & E1). rewrite E, Hh in E1. injection E1 as -> ->.
       by eapply inplace_eqv. }
  destruct (offered k' (c_factories cls)) as [cn|] eqn:Eo.
  2: { destruct (factory_absent s x cls k' (ip_wf _ I) (ip_cls _ I) Hf Ev) as (s1 & Q1 & W1 & E1). rewrite E, Hh, <- offered_dget, Eo in E1.
       injection E1 as -> ->. by eapply inplace_eqv. }
  destruct (factory_asked s x cls k' cn r s' (ip_wf _ I) (ip_cls _ I) Hf Ev Hh Eo E) as [H _].
  pose proof (ip_val _ I) as Hv. pose proof (ip_cls _ I) as Hc. pose proof (ip_ext _ I) as X0.
  destruct r as [v'|e].
  - destruct H as (c & made & -> & _ & []). constructor; [done|by eapply ext_trans|destruct mc_self as [-> _]; done|].
    rewrite mc_entries, <- (wf_dset_put s x) by (apply I). by rewrite value_put_ne.
  - destruct H as [H _]. destruct (H x (inplace_live _ I)). constructor; [done|by eapply ext_trans|congruence|by rewrite sn_entries].
Qed.
Lemma pres_iter : pres (keys x).
Proof.
  intros s I. pose proof (inplace_live _ I) as Hl. pose proof (safe_iter s x Hl (ip_wf _ I)) as (W' & X' & _).
  pose proof (quiet_iter s x Hl (ip_wf _ I)) as Q. unfold keys. eapply inplace_eqv; [|done..|done]. exact Q.
Qed.
Lemma pres_setitem k' v' : k' <> k -> known s0 v' -> pres (setitem x k' v').
Proof.
  intros Hne Hk s I. pose proof (inplace_live _ I) as Hl.
  assert (Hv' : known s v'). { destruct v' as [| | | | | | |c| | | |]; try done. destruct Hk as [o Ho]. destruct (ext_nodes _ _ (ip_ext _ I) _ _ Ho) as (o' & Ho' & _). by eexists. }
  pose proof (safe_setitem s x k' v' Hl Hv' (ip_wf _ I)) as (W' & X' & _).
  pose proof (factory_class_inv _ Hf) as (Hb & Hst & _). pose proof (ip_cls _ I) as Hc. rewrite ob_class in Hc.
  destruct (setitem_eff' s x cls k' v' (ip_wf _ I) Hc (fac_set _ Hb) Hst Hv') as (r & s' & E & F & _). rewrite E in *. simpl in *.
  constructor; [done|eapply ext_trans; [apply I|done]| |].
  - destruct F. specialize (se_core x). rewrite ob_class. unfold fld in *. destruct (views s' !! x) as [a|], (views s !! x) as [b|]; simpl in *; try done.
    injection se_core as -> _ _ _ _ _ _. done.
  - destruct F. rewrite ob_entries, se_ent, decide_True by done. pose proof (ip_val _ I) as Hv.
    destruct (is_ret r && _); [|by rewrite <- ob_entries]. rewrite ent_fmap by done. by rewrite value_put_ne.
Qed.
Lemma pres_delitem k' : k' <> k -> pres (delitem x k').
Proof.
  intros Hne s I. pose proof (inplace_live _ I) as Hl. pose proof (ip_cls _ I) as Hc. pose proof (ip_wf _ I) as W.
  pose proof (safe_delitem s x k' Hl W) as (W' & X' & _).
  destruct (factory_class_inv _ Hf) as (Hb & Hst & _). destruct (class_view _ _ _ Hc) as (w & Hw & Hwc). destruct (view_obj _ _ _ Hw) as (o & Ho & Ew).
  assert (Ec : o_cls o = cls) by (by rewrite <- Hwc, Ew).
  unfold delitem in *. rewrite (bind_load _ _ _ _ Ho), Ec in *. rewrite del_stack_fac in * by done. unfold del_endpoint in *.
  rewrite (fac_no _ FixedChildren Hb eq_refl) in *. pose proof Hst as Hst'. unfold storage_class in Hst'. rewrite Hst' in *.
  destruct (del_slot_eff false (storage_of x) s x w k' 0) as (r & s' & E & F & G); [done..| | | |].
  all: try (apply storage_slot; try done; by rewrite Hwc).
  all: try done.
  rewrite E in *. simpl in *. constructor; [done|eapply ext_trans; [apply I|done]| |].
  - destruct (ext_nodes _ _ X' _ _ Ho) as (o' & Ho' & Ec'). unfold class_of. rewrite Ho'. simpl. by rewrite Ec', Ec.
  - destruct F. rewrite ob_entries, de_ent, decide_True by done. pose proof (ip_val _ I) as Hv.
    destruct (is_ret r && _); [|by rewrite <- ob_entries]. rewrite ent_fmap by done. rewrite value_at_spec in *. by rewrite dget_ddel_ne.
Qed.
Lemma get_at s : inplace s -> exists s', getitem x k s = (Ret v, s') /\ inplace s'.
Proof.
  intros I. pose proof (safe_getitem s x k (inplace_live s I) (ip_wf _ I)) as (W' & X' & _).
  destruct (factory_stored s x cls k v (ip_wf _ I) (ip_cls _ I) Hf (ip_val _ I)) as (s1 & E1 & Q1 & W1).
  exists s1. split; [done|]. rewrite E1 in *. by eapply inplace_eqv.
Qed.
Lemma wrap_pres {A} (f : A -> answer) (m : M A) s : pres m -> inplace s -> inplace (wrap f m s).2.
Proof. intros H I. specialize (H s I). unfold wrap. by destruct (m s) as [[a|e] s1]. Qed.
Lemma call_stays c s : may_change k c = false -> Forall (known s0) (call_values c) -> inplace s -> inplace (run_call x c s).2.
Proof.
  intros Hm Hv I. destruct c; simpl in *; try discriminate Hm; try (apply bool_decide_eq_false in Hm); (try (apply wrap_pres; [|done])).
  - apply pres_setitem; [done|]. by apply Forall_cons in Hv as [? _].
  - apply pres_getitem.
  - by apply pres_delitem.
  - apply pres_try; [apply pres_getitem|]. intros _. apply pres_ret.
  - apply pres_try; [|intros _; apply pres_ret]. apply pres_bind; [apply pres_getitem|]. intros _. apply pres_ret.
  - apply pres_iter.
  - apply pres_bind; [apply pres_iter|]. intros ks. apply pres_mapM. intros k'. apply pres_getitem.
  - apply pres_bind; [apply pres_iter|]. intros ks. apply pres_mapM. intros k'. apply pres_bind; [apply pres_getitem|]. intros v'. apply pres_ret.
  - apply pres_bind; [apply pres_iter|]. intros ks. apply pres_ret.
  - apply pres_try.
    + apply pres_bind; [apply pres_getitem|]. intros v'. apply pres_bind; [by apply pres_delitem|]. intros _. apply pres_ret.
    + intros e. destruct d as [[]|]; first [apply pres_ret|apply pres_raise].
  - clear s I. intros s I. unfold setdefault, try_catch. destruct (decide (k0 = k)) as [->|Hne].
    + destruct (get_at s I) as (s1 & E1 & I1). by rewrite E1.
    + pose proof (pres_getitem k0 s I) as I1. destruct (getitem x k0 s) as [[v'|e] s1]; [done|]. simpl in I1. destruct (is_key_error e); [|done].
      apply pres_bind; [|intros _; apply pres_ret|done]. apply pres_setitem; [done|]. by apply Forall_cons in Hv as [? _].
  - assert (Hs : forall kv, kv ∈ (concat args ++ kw)%list -> pres (setitem x (fst kv) (snd kv))).
    { intros [k' v'] Hin. apply pres_setitem.
      - intros <-. simpl in Hm. rewrite <- not_true_iff_false, existsb_exists in Hm. apply Hm. exists (k', v').
        split; [by apply elem_of_list_In|]. by apply bool_decide_eq_true.
      - rewrite Forall_forall in Hv. apply Hv. simpl. apply elem_of_list_fmap. by exists (k', v'). }
    unfold update. destruct args as [|a [|b args]]; [| |apply pres_raise].
    + apply pres_bind; [apply pres_ret|]. intros _. apply pres_iterM. intros kv Hin. by apply Hs.
    + apply pres_bind; [|intros _]; apply pres_iterM; intros kv Hin; apply Hs; apply elem_of_app; auto.
Qed.
Lemma calls_stay l s : Forall (fun c => may_change k c = false /\ Forall (known s0) (call_values c)) l -> inplace s -> inplace (run_calls x l s).2.
Proof.
  revert s. induction l as [|c l IH]; intros s Hl I; [done|]. apply Forall_cons in Hl as [[H1 H2] Hl]. simpl.
  pose proof (call_stays c s H1 H2 I) as I1. destruct (run_call x c s) as [a s1]. simpl in I1. specialize (IH s1 Hl I1). by destruct (run_calls x l s1).
Qed.
End stays.
Lemma factory_once s x cls k c l : wf s -> class_of s x = Some cls -> factory_class (c_behs cls) = true -> value_at k (entries_at s x) = Some (VNode c) ->
  Forall (fun c => may_change k c = false /\ Forall (known s) (call_values c)) l ->
  exists s', getitem x k (run_calls x l s).2 = (Ret (VNode c), s') /\ same_world (run_calls x l s).2 s'.
Proof.
  intros W Hc Hf Hv Hl. pose proof (calls_stay x cls k (VNode c) s Hf l s Hl) as I.
  destruct I as [W' _ Hc' Hv']; [constructor; try done; apply ext_refl|].
  destruct (factory_stored _ x cls k (VNode c) W' Hc' Hf Hv') as (s1 & E1 & Q1 & _). exists s1. split; [done|]. by apply same_world_eqv.
Qed.
