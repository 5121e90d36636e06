(** What invalidation does to a node of the tree behaviors. *)
From Verif Require Import Py Odict OdictFacts Aliaser Heap Model Classes MonadFacts WF WFOps Views TreeOps SetEff DelEff
  SpecMapping MappingProofs StorageProofs Observe ObserveFacts SpecTree MappingProps Reach SpecCache CacheProofs CacheProofs2.

Lemma tree_no_cache bs : tree_class bs = true -> Cache ∉ bs.
Proof.
  intros [H _]%tree_class_inv Hin. apply elem_of_list_In in Hin. rewrite forallb_forall in H. by specialize (H _ Hin).
Qed.
(** The call it stands for, when Invalidate answers it. *)
Definition stands_for (x : nat) (k : key) : op := if decide (k = KNone) then OClear x else ODel x k.
Lemma inval_eff s x cls k : wf s -> class_of s x = Some cls -> tree_class (c_behs cls) = true ->
  match invalidator (c_behs cls) with
  | None => invalidate x k s = (Exc AttributeError, s)
  | Some Through => invalidate x k s = run_op (stands_for x k) s
  | Some Below => exists r s1 s' , invalidate x k s = (r, s') /\ eqv s s1 /\ wf s1 /\
      (s' = s1 \/ wrote SStorage x (if decide (k = KNone) then [] else ddel k (entries_at s x)) s1 s')
  end.
Proof.
  intros W Hc Ht. pose proof (tree_no_cache _ Ht) as Hn. pose proof (proj2 (tree_class_inv _ Ht)) as Hs.
  destruct (class_view _ _ _ Hc) as (w & Hw & Hwc). destruct (view_obj _ _ _ Hw) as (o & Ho & Ew).
  assert (Ec : o_cls o = cls) by (by rewrite <- Hwc, Ew).
  assert (E : invalidate x k s = invalidate_endpoint (c_behs cls) x k s).
  { unfold invalidate. rewrite (bind_load _ _ _ _ Ho), Ec. by rewrite inval_stack_nocache. }
  rewrite E, inval_endpoint_eq. destruct (invalidator (c_behs cls)) as [[|]|] eqn:Hi; [|..|done].
  { unfold stands_for. by case_decide. }
  clear E. rewrite <- Hwc in Hs. destruct (storage_slot s x w W Hw Hs) as (l & s2 & E2 & Q2 & W2 & o2 & Ho2 & Hl2 & Hc2). rewrite (bind_Ret _ _ _ _ _ E2).
  assert (Evw : view_of s2 x o2 = w).
  { pose proof (nodes_views _ _ _ Ho2) as Hv. rewrite (e_views _ _ Q2) in Hv. congruence. }
  pose proof (slot_dict _ _ _ _ _ W2 Ho2 Hl2) as Hd. case_decide as Hk.
  - rewrite (bind_read_dict _ _ _ _ Hd). destruct (wf_dicts _ W2 _ _ Hd) as (_ & ND & F). rewrite (clear_dict l _ _ Hd ND).
    2: { apply Forall_forall. intros k' Hk'. apply elem_of_list_fmap in Hk' as (e & -> & He). rewrite Forall_forall in F. by apply F in He as [? _]. }
    do 3 eexists. split; [reflexivity|]. split; [exact Q2|]. split; [done|]. right. constructor; try done.
    exists (view_of s2 x o2). split; [by apply nodes_views|]. by apply views_write_dict.
  - assert (Hag : snd (storage_of x s2) = s2).
    { unfold storage_of. rewrite (bind_load _ _ _ _ Ho2). unfold has. unfold storage_class, hasc in Hs. rewrite Hc2, Hs. simpl in Hl2. by rewrite Hl2. }
    assert (Hw2 : views s2 !! x = Some w) by (by rewrite (e_views _ _ Q2)).
    destruct (iter_any s2 x w W2 Hw2) as (s3 & E3 & _). pose proof (iter_same x s2 Hag) as E3s. rewrite E3 in E3s. simpl in E3s. subst s3.
    unfold keys. destruct (iter_view (c_behs (w_cls w)) (c_behs (w_cls w)) w) as [ks|e].
    2: { rewrite (bind_Exc _ _ _ _ _ E3). exists (Exc e), s2, s2. auto. }
    rewrite (bind_Ret _ _ _ _ _ E3). case_bool_decide as Hin.
    2: { exists (Exc (KeyError k)), s2, s2. auto. }
    destruct (dict_del_eff s2 x o2 SStorage l k W2 Ho2 Hl2) as (r & s4 & E4 & W4 & [(Hx & Er & Es)|[(_ & Hg & -> & ->)|(_ & Hg & -> & Hwr)]]).
    + subst r s4. exists (Exc TypeError), s2, s2. rewrite (try_catch_Exc _ _ _ _ _ _ E4). simpl. auto.
    + exists (Ret tt), s2, s2. rewrite (try_catch_Exc _ _ _ _ _ _ E4). simpl. auto.
    + exists (Ret tt), s2, s4. rewrite (try_catch_Ret _ _ _ _ _ _ E4). split; [done|]. split; [done|]. split; [done|]. right.
      rewrite Evw in Hwr. rewrite ob_entries. unfold fld. by rewrite Hw.
Qed.

(** The calls other than invalidation and deepcopy. *)
Definition basic (o : op) : bool := match o with OInvalidate _ _ | ODeepcopy _ | OStore _ _ _ | OUnstore _ _ | OPlace _ _ _ => false | _ => true end.
Lemma stands_basic x k : basic (stands_for x k) = true.
Proof. unfold stands_for. by case_decide. Qed.
