(** FixedChildren. *)
From Verif Require Import Py Odict OdictFacts Aliaser Heap Model Classes MonadFacts WF WFOps Views TreeOps SetEff DelEff DetachEff
  SpecMapping MappingProofs StorageProofs Observe ObserveFacts SpecTree MappingProps FrameNew SpecFactory FactoryProofs.

Lemma instantiate_keeps s f cn name parent r s' : wf s -> instantiate f cn name parent s = (r, s') ->
  keeps (next_id s) s s' /\ forall x, r = Ret x -> next_id s <= x.
Proof.
  intros W E. destruct (fr_instantiate (next_id s) f cn name parent s) as (_ & K & P).
  { split; [done|]. intros x o i Hx Ho. apply (wf_nodes _ W) in Ho as [? _]. lia. }
  rewrite E in K, P. done.
Qed.
Lemma instantiate_made s f cn name parent x s' : wf s -> (forall q, parent = Some q -> live s q) -> instantiate f cn name parent s = (Ret x, s') ->
  exists c, classes s !! cn = Some c /\ class_of s' x = Some c.
Proof.
  intros W Hp. destruct f as [|f]; [done|]. cbn [instantiate]. unfold get_class. unfold bind at 1. destruct (classes s !! cn) as [c|] eqn:Hc; [|done].
  set (s1 := set_next_id S (set_nodes <[next_id s := blank c]> s)).
  assert (E1 : alloc_node (blank c) s = (Ret (next_id s), s1)) by done. rewrite (bind_Ret _ _ _ _ _ E1).
  assert (W1 : wf s1). { apply (safe_alloc_node s (blank c)); [constructor; try done; intros []; done|by intros []|done]. }
  assert (Ho1 : nodes s1 !! next_id s = Some (blank c)) by (simpl; by rewrite lookup_insert).
  assert (L : live s1 (next_id s)) by (by eexists).
  assert (Hp1 : forall q, parent = Some q -> live s1 q).
  { intros q Hq. unfold live. simpl. destruct (decide (next_id s = q)) as [<-|]; [rewrite lookup_insert; eauto|]. rewrite lookup_insert_ne by done. by apply Hp. }
  pose proof (safe_init_stack (fun cn0 => instantiate f cn0 KNone None) (c_behs c) (c_behs c) name parent s1 (next_id s) L Hp1
    ltac:(intros; by apply safe_instantiate) W1) as (_ & X & _).
  unfold bind. destruct (init_stack _ _ _ _ _ _ s1) as [[[]|e] s2]; [|done]. intros [= <- <-]. simpl in X.
  exists c. split; [done|]. destruct (ext_nodes _ _ X _ _ Ho1) as (o2 & Ho2 & Hc2). unfold class_of. rewrite Ho2. simpl. by rewrite Hc2.
Qed.

(** the children made so far *)
Record half_made (s : st) (x l : nat) (o : obj) (fs : list (key * string)) (cs : list nat) : Prop := HalfMade {
  hm_self : nodes s !! x = Some o; hm_slot : o_children o = Some l;
  hm_len : length cs = length fs;
  hm_dict : dicts s !! l = Some (fold_left (fun d e => dset (fst e) (VNode (snd e)) d) (zip (map fst fs) cs) []);
  hm_nodup : NoDup cs;
  hm_notx : x ∉ cs;
  hm_place : forall i k cn c, fs !! i = Some (k, cn) -> cs !! i = Some c ->
    exists oc, nodes s !! c = Some oc /\ o_name oc = k /\ o_parent oc = Some x /\ Some (o_cls oc) = classes s !! cn
}.
Lemma zip_snoc {A B} (l : list A) (k : list B) a b : length l = length k -> zip (l ++ [a]) (k ++ [b]) = zip l k ++ [(a, b)].
Proof. intros H. revert k H. induction l as [|x l IH]; intros [|y k] H; simpl in *; try done. f_equal. apply IH. lia. Qed.

Lemma fixed_step f s x l o fs cs k cn s' : wf s -> half_made s x l o fs cs ->
  (let! c := instantiate f cn KNone None in
   do! modify c (with_name k) in do! modify c (with_parent (Some x)) in dict_set l k (VNode c)) s = (Ret tt, s') ->
  exists c, half_made s' x l o (fs ++ [(k, cn)]) (cs ++ [c]) /\ classes s' = classes s.
Proof.
  intros W [] E. destruct (instantiate f cn KNone None s) as [[c|e] s1] eqn:E1; [|by rewrite (bind_Exc _ _ _ _ _ E1) in E].
  rewrite (bind_Ret _ _ _ _ _ E1) in E.
  destruct (instantiate_keeps s f cn KNone None _ s1 W E1) as [K Hid]. specialize (Hid c eq_refl).
  destruct (instantiate_made s f cn KNone None c s1 W ltac:(done) E1) as (cl & Hcl & Hcc).
  unfold class_of in Hcc. destruct (nodes s1 !! c) as [oc|] eqn:Hoc; [|done]. injection Hcc as Hcc.
  rewrite (bind_Ret _ _ _ _ _ (modify_Some _ _ _ _ Hoc)) in E.
  set (s2 := set_nodes <[c:=with_name k oc]> s1) in *.
  assert (Hoc2 : nodes s2 !! c = Some (with_name k oc)) by (simpl; by rewrite lookup_insert).
  rewrite (bind_Ret _ _ _ _ _ (modify_Some _ _ _ _ Hoc2)) in E.
  set (oc' := with_parent (Some x) (with_name k oc)) in *. set (s3 := set_nodes <[c:=oc']> s2) in *.
  assert (Hn3 : forall y, nodes s3 !! y = if decide (y = c) then Some oc' else nodes s1 !! y).
  { intros y. simpl. destruct (decide (y = c)) as [->|]; [by rewrite lookup_insert|]. by rewrite !lookup_insert_ne. }
  pose proof (wf_nodes _ W _ _ hm_self0) as [Hx Hok].
  assert (Hl : l < next_id s). { by destruct (wf_dicts _ W _ _ hm_dict0) as [? _]. }
  assert (Hd3 : dicts s3 !! l = dicts s !! l). { simpl. by apply (kp_dicts _ _ _ K). }
  unfold dict_set in E. destruct (hashable k) eqn:Hh; [|done].
  assert (E4 : read_dict l s3 = (Ret (fold_left (fun d e => dset (fst e) (VNode (snd e)) d) (zip (map fst fs) cs) []), s3)).
  { unfold read_dict. by rewrite Hd3, hm_dict0. }
  rewrite (bind_Ret _ _ _ _ _ E4) in E. unfold write_dict in E. injection E as <-.
  assert (Hcs : forall i c', cs !! i = Some c' -> c' < next_id s).
  { intros i c' Hc'. destruct (fs !! i) as [[k' cn']|] eqn:Ef.
    - destruct (hm_place0 i k' cn' c' Ef Hc') as (o' & Ho' & _). by apply (wf_nodes _ W) in Ho' as [? _].
    - apply lookup_ge_None in Ef. apply lookup_lt_Some in Hc'. lia. }
  exists c. split; [|exact (kp_classes _ _ _ K)].
  constructor.
  - change (nodes s3 !! x = Some o). rewrite Hn3, decide_False by lia. rewrite (kp_nodes _ _ _ K) by lia. done.
  - done.
  - rewrite !app_length. simpl. lia.
  - simpl. rewrite lookup_insert. f_equal. rewrite map_app. simpl. rewrite zip_snoc by (rewrite map_length; lia). by rewrite fold_left_app.
  - apply NoDup_app. split; [done|]. split; [|apply NoDup_singleton]. intros c' Hc' ->%elem_of_list_singleton.
    apply elem_of_list_lookup in Hc' as [i Hi]. apply Hcs in Hi. lia.
  - intros [Hi|Hi%elem_of_list_singleton]%elem_of_app; [done|]. lia.
  - intros i k' cn' c' Hf Hc'. change (exists oc0, nodes s3 !! c' = Some oc0 /\ o_name oc0 = k' /\ o_parent oc0 = Some x /\ Some (o_cls oc0) = classes s1 !! cn').
    rewrite (kp_classes _ _ _ K). destruct (decide (i < length fs)) as [Hi|Hi].
    + rewrite lookup_app_l in Hf by done. rewrite lookup_app_l in Hc' by lia. pose proof (Hcs _ _ Hc').
      destruct (hm_place0 i k' cn' c' Hf Hc') as (o' & Ho' & H1 & H2 & H3). exists o'. rewrite Hn3, decide_False by lia.
      rewrite (kp_nodes _ _ _ K) by lia. done.
    + rewrite lookup_app_r in Hf by lia. rewrite lookup_app_r in Hc' by lia. rewrite hm_len0 in Hc'.
      destruct (i - length fs) as [|j]; [|destruct j; done]. simpl in *. injection Hf as <- <-. injection Hc' as <-.
      exists oc'. rewrite Hn3, decide_True by done. split; [done|]. split; [done|]. split; [done|]. simpl. by rewrite Hcc.
Qed.
Lemma fixed_loop f x l o : forall fs2 s fs1 cs s', wf s -> half_made s x l o fs1 cs ->
  iterM (fun kf : key * string => let! c := instantiate f (snd kf) KNone None in
     do! modify c (with_name (fst kf)) in do! modify c (with_parent (Some x)) in dict_set l (fst kf) (VNode c)) fs2 s = (Ret tt, s') ->
  exists cs', half_made s' x l o (fs1 ++ fs2) cs' /\ classes s' = classes s.
Proof.
  induction fs2 as [|[k cn] fs2 IH]; intros s fs1 cs s' W H E; simpl in E.
  { injection E as <-. exists cs. by rewrite app_nil_r. }
  match type of E with bind ?m _ _ = _ => destruct (m s) as [[[]|e] s1] eqn:E1 end.
  2: { by rewrite (bind_Exc _ _ _ _ _ E1) in E. }
  rewrite (bind_Ret _ _ _ _ _ E1) in E.
  destruct (fixed_step f s x l o fs1 cs k cn s1 W H E1) as (c & H1 & C1).
  assert (W1 : wf s1). {
    assert (Hl : live s x) by (eexists; apply H).
    assert (Hs : safe s (let! c := instantiate f cn KNone None in
      do! modify c (with_name k) in do! modify c (with_parent (Some x)) in dict_set l k (VNode c)) any).
    { eapply safe_bind; [by apply safe_instantiate|]. intros c0 s2 W2 X2 Hc0.
      eapply safe_bind; [by apply safe_modify_name|]. intros _ s3 W3 X3 _.
      eapply safe_bind; [apply safe_modify_parent; [by eapply ext_live|]|]. { intros q [= <-]. eapply ext_live; [|done]. by eapply ext_trans. }
      intros _ s4 W4 X4 _. apply safe_dict_set.
      - destruct H. eapply ext_dicts; [eapply ext_trans; [exact X2|eapply ext_trans; [exact X3|exact X4]]|]. by eexists.
      - simpl. eapply ext_live; [exact X4|]. by eapply ext_live. }
    destruct (Hs W) as (W1 & _). by rewrite E1 in W1. }
  destruct (IH s1 (fs1 ++ [(k, cn)]) (cs ++ [c]) s' W1 H1 E) as (cs' & H2 & C2).
  exists cs'. rewrite <- app_assoc in H2. split; [done|]. congruence.
Qed.
Lemma half_keep s s' x l o o' fs cs : half_made s x l o fs cs -> nodes s' = <[x:=o']> (nodes s) -> o_children o' = o_children o ->
  dicts s' = dicts s -> classes s' = classes s -> half_made s' x l o' fs cs.
Proof.
  intros [] Hn Hc Hd Hcl. constructor; try done.
  - by rewrite Hn, lookup_insert.
  - congruence.
  - by rewrite Hd.
  - intros i k cn c Hf Hc'. rewrite Hn, Hcl, lookup_insert_ne; [by eapply hm_place0|]. intros ->. apply hm_notx0. by eapply elem_of_list_lookup_2.
Qed.
Lemma set_uuid_keep s x u s' o : nodes s !! x = Some o -> set_uuid x u s = (Ret tt, s') ->
  nodes s' = <[x:=with_uuid u o]> (nodes s) /\ dicts s' = dicts s /\ classes s' = classes s.
Proof.
  intros Ho. unfold set_uuid, index_of. rewrite bind_assoc, (bind_load _ _ _ _ Ho). destruct (o_index o) as [i|]; [|done].
  rewrite bind_ret. unfold read_idx. unfold bind at 1. destruct (idxs s !! i) as [m|]; [|done].
  destruct (match _ with Some _ => _ | None => _ end); [done|]. rewrite (bind_load _ _ _ _ Ho).
  rewrite (bind_Ret (write_idx _ _) _ _ _ _ eq_refl). set (s1 := set_idxs _ s).
  assert (exists s2, saw_uuid u s1 = (Ret tt, s2) /\ nodes s2 = nodes s /\ dicts s2 = dicts s /\ classes s2 = classes s) as (s2 & E3 & N2 & D2 & C2)
    by (unfold saw_uuid; destruct u; eauto).
  rewrite (bind_Ret _ _ _ _ _ E3). assert (Ho2 : nodes s2 !! x = Some o) by (by rewrite N2).
  rewrite (modify_Some _ _ _ _ Ho2). intros [= <-]. simpl. by rewrite N2, D2, C2.
Qed.
Lemma assign_uuid_keep s x u s' o : nodes s !! x = Some o -> assign_uuid x u s = (Ret tt, s') ->
  nodes s' = <[x:=with_uuid u o]> (nodes s) /\ dicts s' = dicts s /\ classes s' = classes s.
Proof.
  intros Ho. unfold assign_uuid. rewrite (bind_load _ _ _ _ Ho). destruct (has Reference o); [by apply set_uuid_keep|].
  assert (exists s2, saw_uuid u s = (Ret tt, s2) /\ nodes s2 = nodes s /\ dicts s2 = dicts s /\ classes s2 = classes s) as (s2 & E3 & N2 & D2 & C2)
    by (unfold saw_uuid; destruct u; eauto).
  rewrite (bind_Ret _ _ _ _ _ E3). assert (Ho2 : nodes s2 !! x = Some o) by (by rewrite N2).
  rewrite (modify_Some _ _ _ _ Ho2). intros [= <-]. simpl. by rewrite N2, D2, C2.
Qed.
Lemma bind_inv {A B} (m : M A) (f : A -> M B) s b s' : bind m f s = (Ret b, s') -> exists a s1, m s = (Ret a, s1) /\ f a s1 = (Ret b, s').
Proof. unfold bind. destruct (m s) as [[a|e] s1]; [|done]. eauto. Qed.

Lemma init_stack_fixed f all name parent x : forall bs s o s', wf s -> nodes s !! x = Some o -> (forall q, parent = Some q -> live s q) ->
  occ FixedChildren bs = 1 -> init_stack (fun cn => instantiate f cn KNone None) all bs name parent x s = (Ret tt, s') ->
  exists l o' cs, half_made s' x l o' (c_fixed (o_cls o)) cs /\ o_cls o' = o_cls o /\ classes s' = classes s.
Proof.
  assert (Hmk : forall s cn, wf s -> safe s (instantiate f cn KNone None) (fun c s' => live s' c)) by (intros; by apply safe_instantiate).
  induction bs as [|b bs IH]; intros s o s' W Ho Hp Hocc E; [done|]. cbn [init_stack] in E.
  assert (L : live s x) by (by eexists).
  pose proof (safe_init_stack (fun cn => instantiate f cn KNone None) all bs name parent s x L Hp Hmk W) as Hs.
  assert (Hocc' : b <> FixedChildren -> occ FixedChildren bs = 1). { intros Hne. unfold occ in *. by rewrite filter_cons, decide_False in Hocc by congruence. }
  destruct (decide (b = FixedChildren)) as [->|Hne]; [|specialize (Hocc' Hne)].
  { cbn [init_stage] in E. apply bind_inv in E as ([] & s1 & E1 & E). rewrite E1 in Hs. destruct Hs as (W1 & X1 & _). simpl in W1, X1.
    destruct (ext_nodes _ _ X1 _ _ Ho) as (o1 & Ho1 & Hc1).
    rewrite (bind_Ret (alloc_dict []) _ _ _ _ eq_refl) in E. set (s2 := set_next_id S (set_dicts <[next_id s1 := []]> s1)) in *.
    assert (Ho2 : nodes s2 !! x = Some o1) by done. rewrite (bind_Ret _ _ _ _ _ (modify_Some _ _ _ _ Ho2)) in E.
    set (o3 := with_children (Some (next_id s1)) o1) in *. set (s3 := set_nodes <[x:=o3]> s2) in *.
    assert (Ho3 : nodes s3 !! x = Some o3) by (simpl; by rewrite lookup_insert). rewrite (bind_load _ _ _ _ Ho3) in E.
    assert (W3 : wf s3).
    { assert (Hsl : safe s1 (let! l := alloc_dict [] in do! modify x (with_children (Some l)) in ret tt) any).
      { apply (safe_slot_k SChildren); [by eapply ext_live|]. intros l s4 W4 X4 _. by apply safe_ret. }
      destruct (Hsl W1) as (W3 & _). rewrite (bind_Ret (alloc_dict []) _ _ _ _ eq_refl) in W3. fold s2 in W3.
      rewrite (bind_Ret _ _ _ _ _ (modify_Some _ _ _ _ Ho2)) in W3. exact W3. }
    destruct (fixed_loop f x (next_id s1) o3 (c_fixed (o_cls o3)) s3 [] [] s' W3) as (cs & H & C); [|done|].
    - constructor; try done; [simpl; by rewrite lookup_insert|constructor|by intros ?%elem_of_nil].
    - exists (next_id s1), o3, cs. simpl in H. rewrite Hc1 in H. split; [done|]. split; [done|]. rewrite C. simpl. apply (ext_classes _ _ X1). }
  destruct (decide (b = UUIDAware)) as [->|H1]; [|destruct (decide (b = Lifecycle)) as [->|H2]; [|destruct (decide (b = Reference)) as [->|H3]]].
  - cbn [init_stage] in E. apply bind_inv in E as ([] & s1 & E1 & E).
    destruct (IH s o s1 W Ho Hp Hocc' E1) as (l & o1 & cs & H & Hc & C).
    apply bind_inv in E as (u & s2 & E2 & E). injection E2 as <- <-. pose proof (hm_self _ _ _ _ _ _ H) as Ho1.
    destruct (assign_uuid_keep (set_next_uuid N.succ s1) x (Some (next_uuid s1)) s' o1 Ho1 E) as (N' & D' & C').
    exists l, (with_uuid (Some (next_uuid s1)) o1), cs. split; [|split; [done|by rewrite C']]. by eapply half_keep.
  - cbn [init_stage] in E. apply bind_inv in E as ([] & s1 & E1 & E).
    destruct (IH s o s1 W Ho Hp Hocc' E1) as (l & o1 & cs & H & Hc & C). injection E as <-. exists l, o1, cs. split; [|done].
    destruct H; constructor; done.
  - cbn [init_stage] in E. apply bind_inv in E as (i & s1 & E1 & E).
    destruct (safe_alloc_idx s ∅) as (W1 & X1 & Hi1); [intros ? ?; by rewrite lookup_empty|done|]. rewrite E1 in W1, X1, Hi1. simpl in W1, X1, Hi1.
    apply bind_inv in E as ([] & s2 & E2 & E).
    destruct (safe_modify_index s1 x i) as (W2 & X2 & _); [by eapply ext_live|done|done|]. rewrite E2 in W2, X2. simpl in W2, X2.
    apply bind_inv in E as (u & s3 & E3 & E). destruct (safe_uuid4 s2 W2) as (W3 & X3 & _). rewrite E3 in W3, X3. simpl in W3, X3.
    apply bind_inv in E as ([] & s4 & E4 & E).
    assert (X13 : ext s s3) by (eapply ext_trans; [exact X1|eapply ext_trans; done]).
    destruct (safe_set_uuid s3 x (Some u)) as (W4 & X4 & _); [by eapply ext_live|done|]. rewrite E4 in W4, X4. simpl in W4, X4.
    assert (X14 : ext s s4) by (by eapply ext_trans).
    destruct (ext_nodes _ _ X14 _ _ Ho) as (o4 & Ho4 & Hc4).
    destruct (IH s4 o4 s' W4 Ho4) as (l & o1 & cs & H & Hc & C); [|done|done|].
    { intros q Hq. eapply ext_live; [exact X14|]. by apply Hp. }
    exists l, o1, cs. rewrite Hc4 in H, Hc. split; [done|]. split; [done|]. rewrite C. apply (ext_classes _ _ X14).
  - apply (IH s o s'); try done. by destruct b.
Qed.
Lemma fold_put_dset l : forall d : list (key * val), NoDup (dkeys d) ->
  fold_left (fun d (e : key * nat) => put (fst e) (VNode (snd e)) d) l d = fold_left (fun d e => dset (fst e) (VNode (snd e)) d) l d.
Proof.
  induction l as [|[k c] l IH]; intros d Hd; simpl; [done|]. rewrite put_spec by done. apply IH. by apply NoDup_dset.
Qed.
Lemma new_fixed s cn c name parent x s' : wf s -> classes s !! cn = Some c -> occ FixedChildren (c_behs c) = 1 -> (forall q, parent = Some q -> exists_node s q) ->
  new_node cn name parent s = (Ret x, s') -> exists cs, fixed_made s' x (c_fixed c) cs /\ class_of s' x = Some c.
Proof.
  intros W Hc Hocc Hp. unfold new_node. cbn [instantiate].
  assert (E0 : get_class cn s = (Ret c, s)) by (unfold get_class; by rewrite Hc). rewrite (bind_Ret _ _ _ _ _ E0).
  set (s1 := set_next_id S (set_nodes <[next_id s := blank c]> s)).
  assert (E1 : alloc_node (blank c) s = (Ret (next_id s), s1)) by done. rewrite (bind_Ret _ _ _ _ _ E1).
  assert (W1 : wf s1). { apply (safe_alloc_node s (blank c)); [constructor; try done; intros []; done|by intros []|done]. }
  assert (Ho1 : nodes s1 !! next_id s = Some (blank c)) by (simpl; by rewrite lookup_insert).
  intros ([] & s2 & E2 & E3)%bind_inv. injection E3 as <- <-.
  destruct (init_stack_fixed (size (classes s)) (c_behs c) name parent (next_id s) (c_behs c) s1 (blank c) s2 W1 Ho1) as (l & o' & cs & H & Hcl & C); [|done|done|].
  { intros q Hq. unfold live. simpl. destruct (decide (next_id s = q)) as [<-|]; [rewrite lookup_insert; eauto|]. rewrite lookup_insert_ne by done. by apply Hp. }
  exists cs. destruct H. split; [|unfold class_of; rewrite hm_self0; simpl; by rewrite Hcl]. constructor; try done.
  - unfold has_fixed. rewrite hm_self0. simpl. rewrite hm_slot0. by eexists.
  - unfold fixed_at. rewrite hm_self0. simpl. rewrite hm_slot0. simpl. rewrite hm_dict0. simpl. rewrite fold_put_dset; [done|constructor].
  - intros i k cn' c' Hf Hc'. destruct (hm_place0 i k cn' c' Hf Hc') as (oc & Hoc & Hn & Hpar & Hcls).
    unfold name_at, parent_at, class_of, exists_node. rewrite Hoc. simpl. rewrite Hn, Hpar, Hcls. repeat split. by eexists.
Qed.

(** ** Read only *)
Definition fix_beh (b : behavior) : bool := plain_beh b || bool_decide (b = FixedChildren).
Definition fixed_class (bs : list behavior) : bool := forallb fix_beh bs && hasc FixedChildren bs.

Lemma renamed_refl s : renamed s s.
Proof. constructor; try done. intros y. destruct (nodes s !! y) as [o|]; [|done]. exists (o_name o), (o_parent o). destruct o; done. Qed.
Lemma renamed_trans s1 s2 s3 : renamed s1 s2 -> renamed s2 s3 -> renamed s1 s3.
Proof.
  intros [A1 A2 A3 A4] [B1 B2 B3 B4]. constructor; try congruence. intros y. specialize (A4 y). specialize (B4 y).
  destruct (nodes s1 !! y) as [o|], (nodes s2 !! y) as [o2|], (nodes s3 !! y) as [o3|]; try done.
  destruct A4 as (n & p & ->), B4 as (n' & p' & ->). by exists n', p'.
Qed.
Lemma renamed_modify s y f : (forall o, exists n p, f o = with_parent p (with_name n o)) -> renamed s (snd (modify y f s)).
Proof.
  intros Hf. unfold modify. destruct (nodes s !! y) as [o|] eqn:Ho; [|apply renamed_refl]. constructor; try done. simpl.
  intros z. destruct (decide (y = z)) as [<-|Hne]; [rewrite lookup_insert, Ho; apply Hf|]. rewrite lookup_insert_ne by done.
  apply (rn_nodes _ _ (renamed_refl s) z).
Qed.
Lemma renamed_grows s s' : renamed s s' -> grows s s'.
Proof.
  intros [_ _ _ H]. intros y. rewrite !elem_of_dom. specialize (H y). destruct (nodes s !! y), (nodes s' !! y); try done; eauto.
Qed.

Definition fixR (x : nat) (cls : classdef) (a : bool) (s : st) (d : list (key * val)) : Prop :=
  exists o l, nodes s !! x = Some o /\ o_cls o = cls /\ o_children o = Some l /\ dicts s !! l = Some d /\ NoDup (dkeys d) /\
    negb (hasc NodeChildValidate (c_behs cls)) || o_allow o = a.
Lemma fixR_renamed x cls a s s' d : renamed s s' -> fixR x cls a s d -> fixR x cls a s' d.
Proof.
  intros Hr (o & l & Ho & Hc & Hl & Hd & Hn & Ha). pose proof (rn_nodes _ _ Hr x) as Hx. rewrite Ho in Hx.
  destruct (nodes s' !! x) as [o'|] eqn:Ho'; [|done]. destruct Hx as (n & p & ->). eexists _, l. split; [done|].
  rewrite (rn_dicts _ _ Hr). done.
Qed.
Section readonly.
Context (x : nat) (cls : classdef) (a : bool).
Hypothesis Hf : fixed_class (c_behs cls) = true.

Lemma fix_get s d k : fixR x cls a s d -> getitem x k s = (do_get (readonly_policy a) k d, s).
Proof.
  intros (o & l & Ho & Hc & Hl & Hd & _). unfold getitem. rewrite (bind_load _ _ _ _ Ho), Hc. apply andb_prop in Hf as [Hb Hfx].
  assert (E : forall fb bs, forallb fix_beh bs = true -> get_stack fb (c_behs cls) bs x k s = get_endpoint (c_behs cls) x k s).
  { intros fb. induction bs as [|b bs IH]; [done|]. simpl. intros [H1 H2]%andb_prop. destruct b; try discriminate H1; by apply IH. }
  rewrite E by done. unfold get_endpoint. rewrite Hfx. unfold fixed_of. rewrite bind_assoc, (bind_load _ _ _ _ Ho), Hl, bind_ret.
  unfold dict_get, do_get. destruct k; simpl; try done; unfold bind, read_dict; rewrite Hd, value_at_spec; by destruct (dget _ d).
Qed.
Lemma fix_iter s d : fixR x cls a s d -> iter x s = (Ret (dkeys d), s).
Proof.
  intros (o & l & Ho & Hc & Hl & Hd & _). unfold iter. rewrite (bind_load _ _ _ _ Ho), Hc. apply andb_prop in Hf as [Hb Hfx].
  assert (E : forall bs, forallb fix_beh bs = true -> iter_stack (c_behs cls) bs x s = iter_endpoint (c_behs cls) x s).
  { induction bs as [|b bs IH]; [done|]. simpl. intros [H1 H2]%andb_prop. destruct b; try discriminate H1; by apply IH. }
  rewrite E by done. unfold iter_endpoint. rewrite Hfx. unfold fixed_of. rewrite bind_assoc, (bind_load _ _ _ _ Ho), Hl, bind_ret.
  unfold bind, read_dict. by rewrite Hd.
Qed.
Lemma fix_del s d k : fixR x cls a s d -> delitem x k s = (Exc NotImplementedError, s).
Proof.
  intros (o & l & Ho & Hc & _). unfold delitem. rewrite (bind_load _ _ _ _ Ho), Hc. apply andb_prop in Hf as [Hb Hfx].
  assert (E : forall bs, forallb fix_beh bs = true -> del_stack (c_behs cls) bs x k s = del_endpoint (c_behs cls) x k s).
  { induction bs as [|b bs IH]; [done|]. simpl. intros [H1 H2]%andb_prop. destruct b; try discriminate H1; by apply IH. }
  rewrite E by done. unfold del_endpoint. by rewrite Hfx.
Qed.
Definition ro_exc (open : bool) (v : val) : exc :=
  if negb open && is_class v then ValueError "It isn't allowed to use classes as values."
  else if negb open && negb (is_node v) then ValueError "Non-node childs are not allowed." else NotImplementedError.
Lemma ro_exc_spec k v d : fst (do_set (readonly_policy a) k v d) = Some (ro_exc a v) /\ snd (do_set (readonly_policy a) k v d) = d.
Proof. unfold do_set, ro_exc. destruct v, a; done. Qed.
Lemma fix_set_stack k v : forall bs s o, forallb fix_beh bs = true -> nodes s !! x = Some o -> hasc FixedChildren (c_behs cls) = true -> valid_val s v ->
  exists s', set_stack (c_behs cls) bs x k v s = (Exc (ro_exc (negb (hasc NodeChildValidate bs) || o_allow o) v), s')
    /\ renamed s s' /\ (Adopt ∉ bs -> s' = s).
Proof.
  induction bs as [|b bs IH]; intros s o Hb Ho Hfx Hv.
  - simpl. unfold set_endpoint. rewrite Hfx. exists s. split; [|split; [apply renamed_refl|done]]. done.
  - simpl in Hb. apply andb_prop in Hb as [Hb1 Hb2]. cbn [set_stack].
    destruct (decide (b = Adopt)) as [->|Ha].
    { rewrite hasc_cons, bool_decide_eq_false_2 by done. simpl orb. cbn [set_stage].
      destruct v as [| | | | | | |c| | | |]; try (destruct (IH s o Hb2 Ho Hfx Hv) as (s' & E & R & _); exists s'; split; [exact E|]; split; [done|set_solver]).
      destruct Hv as [oc Hoc]. rewrite (bind_load _ _ _ _ Hoc). rewrite (bind_Ret _ _ _ _ _ (modify_Some _ _ _ _ Hoc)).
      set (s1 := set_nodes <[c:=with_name k oc]> s).
      assert (Hoc1 : nodes s1 !! c = Some (with_name k oc)) by (simpl; by rewrite lookup_insert).
      rewrite (bind_Ret _ _ _ _ _ (modify_Some _ _ _ _ Hoc1)). set (s2 := set_nodes _ s1).
      assert (R2 : renamed s s2).
      { constructor; try done. intros y. simpl. rewrite insert_insert. destruct (decide (c = y)) as [<-|Hne].
        - rewrite lookup_insert, Hoc. by exists k, (Some x).
        - rewrite lookup_insert_ne by done. apply (rn_nodes _ _ (renamed_refl s)). }
      pose proof (rn_nodes _ _ R2 x) as Hx. rewrite Ho in Hx. destruct (nodes s2 !! x) as [o2|] eqn:Ho2; [|done]. destruct Hx as (n & p & Eo2).
      destruct (IH s2 o2 Hb2 Ho2 Hfx) as (s3 & E3 & R3 & _). { by eapply valid_val_grows; [apply renamed_grows, R2|eexists]. }
      assert (Hro : forall op, ro_exc op (VNode c) = NotImplementedError) by (by intros []).
      rewrite Hro in *. unfold try_catch. rewrite E3. simpl. exists s3. split; [done|]. split; [by eapply renamed_trans|set_solver]. }
    destruct (decide (b = NodeChildValidate)) as [->|Hn].
    { rewrite hasc_cons, bool_decide_eq_true_2 by done. simpl negb. simpl orb. cbn [set_stage]. rewrite (bind_load _ _ _ _ Ho).
      destruct (IH s o Hb2 Ho Hfx Hv) as (s' & E & R & U). unfold ro_exc.
      destruct (negb (o_allow o) && is_class v) eqn:E1; [exists s; split; [done|split; [apply renamed_refl|done]]|].
      destruct (negb (o_allow o) && negb (is_node v)) eqn:E2; [exists s; split; [done|split; [apply renamed_refl|done]]|].
      exists s'. rewrite E. split; [|split; [done|set_solver]]. f_equal. f_equal. unfold ro_exc.
      destruct (o_allow o); [by rewrite orb_true_r|]. simpl in E1, E2. apply negb_false_iff in E2. rewrite E1, E2. by destruct (hasc NodeChildValidate bs). }
    rewrite hasc_cons, bool_decide_eq_false_2 by done. simpl orb.
    destruct (IH s o Hb2 Ho Hfx Hv) as (s' & E & R & U). exists s'. split; [|split; [done|set_solver]].
    destruct b; try discriminate Hb1; try done; exact E.
Qed.
Lemma fix_set s d k v : fixR x cls a s d -> valid_val s v ->
  exists s', setitem x k v s = (Exc (ro_exc a v), s') /\ renamed s s' /\ (Adopt ∉ c_behs cls -> s' = s).
Proof.
  intros (o & l & Ho & Hc & Hl & Hd & _ & Ha) Hv. unfold setitem. rewrite (bind_load _ _ _ _ Ho), Hc. pose proof Hf as Hf'. apply andb_prop in Hf' as [Hb Hfx].
  destruct (fix_set_stack k v (c_behs cls) s o Hb Ho Hfx Hv) as (s' & E & R). exists s'. by rewrite E, Ha.
Qed.
End readonly.

Lemma fix_R_set (Q : st -> Prop) x cls a (HQ : forall s s', Q s -> renamed s s' -> (Adopt ∉ c_behs cls -> s' = s) -> Q s') :
  fixed_class (c_behs cls) = true -> forall l s d, Q s -> fixR x cls a s d ->
  Forall (fun c => Forall (valid_val s) (call_values c)) l ->
  exists s', run_calls x l s = (fst (calls_spec (readonly_policy a) l d), s') /\ Q s' /\ fixR x cls a s' (snd (calls_spec (readonly_policy a) l d)).
Proof.
  intros Hf l s d Hq Hr Hv.
  destruct (run_calls_sim x (readonly_policy a) (fun s d => Q s /\ fixR x cls a s d)) with (l := l) (s := s) (d := d) as (s' & E & [Q' R'] & _); [..|by exists s'].
  - intros s0 d0 [_ (o & l0 & _ & _ & _ & _ & Hn & _)]. done.
  - intros s0 d0 [Q0 R0]. exists s0. rewrite (fix_iter x cls a Hf s0 d0 R0). split; [done|]. split; [done|apply grows_refl].
  - intros s0 d0 k [Q0 R0]. exists s0. rewrite (fix_get x cls a Hf s0 d0 k R0). split; [done|]. split; [done|apply grows_refl].
  - intros s0 d0 k v [Q0 R0] V0. destruct (ro_exc_spec a k v d0) as [-> ->].
    destruct (fix_set x cls a Hf s0 d0 k v R0 V0) as (s1 & E1 & R1 & U1). exists s1. split; [done|]. split; [|by apply renamed_grows].
    split; [by eapply HQ|by eapply fixR_renamed].
  - intros s0 d0 k [Q0 R0]. exists s0. rewrite (fix_del x cls a Hf s0 d0 k R0). split; [done|]. split; [done|apply grows_refl].
  - done.
  - done.
Qed.
Lemma readonly_stays a l : forall d, snd (calls_spec (readonly_policy a) l d) = d.
Proof.
  assert (U : forall pairs d, snd (do_update (readonly_policy a) pairs d) = d).
  { destruct pairs as [|[k v] r]; [done|]. intros d. cbn [do_update]. destruct (ro_exc_spec a k v d) as [E1 E2].
    destruct (do_set (readonly_policy a) k v d) as [[e|] d']; simpl in *; [done|done]. }
  assert (S : forall k v d, exists e, do_set (readonly_policy a) k v d = (Some e, d)).
  { intros k v d. destruct (ro_exc_spec a k v d) as [E1 E2]. destruct (do_set _ _ _ _) as [r d']. simpl in *. subst. eauto. }
  induction l as [|c l IH]; [done|]. intros d. cbn [calls_spec].
  assert (E : snd (call_spec (readonly_policy a) c d) = d).
  { destruct c as [k v|k|k|k dv|k| | | | |k dv| |k dv|args kw|]; cbn [call_spec]; try done.
    - destruct (S k v d) as [e ->]. done.
    - by destruct (do_get _ _ _).
    - destruct (last d) as [[k v]|]; [|done]. by destruct (do_get _ _ _).
    - destruct (do_get _ _ _) as [v|e]; [done|]. destruct e; try done. destruct (S k dv d) as [e ->]. done.
    - destruct args as [|p1 [|p2 args]]; [..|done].
      + pose proof (U (concat [] ++ kw) d) as U1. destruct (do_update _ _ _); exact U1.
      + pose proof (U (concat [p1] ++ kw) d) as U1. destruct (do_update _ _ _); exact U1.
    - destruct d as [|[k v] d]; done. }
  destruct (call_spec _ c d) as [an d1]. simpl in E. subst d1. specialize (IH d). destruct (calls_spec _ l d). done.
Qed.
Lemma fixR_fixed x cls a s d : fixR x cls a s d -> fixed_at s x = d.
Proof. intros (o & l & Ho & _ & Hl & Hd & _). unfold fixed_at. rewrite Ho. simpl. rewrite Hl. simpl. by rewrite Hd. Qed.
Theorem fixed_read_only s x cls l : wf s -> class_of s x = Some cls -> fixed_class (c_behs cls) = true -> has_fixed s x ->
  Forall (fun c => Forall (known s) (call_values c)) l ->
  exists s', run_calls x l s = (fst (calls_spec (readonly_policy (open_to_all cls s x)) l (fixed_at s x)), s') /\
    fixed_at s' x = fixed_at s x /\ has_fixed s' x /\ renamed s s' /\ (Adopt ∉ c_behs cls -> s' = s).
Proof.
  intros Hwf Hcls Hf [lc Hl] Hv. unfold class_of in Hcls. apply fmap_Some in Hcls as (o & Ho & ->). rewrite Ho in Hl. simpl in Hl.
  assert (HR : fixR x (o_cls o) (open_to_all (o_cls o) s x) s (fixed_at s x)).
  { destruct (wf_nodes s Hwf x o Ho) as [_ Hok]. destruct (ok_slot s o Hok SChildren lc Hl) as [d Hd]. destruct (wf_dicts s Hwf lc d Hd) as (_ & Hn & _). exists o, lc. split; [done|]. split; [done|]. split; [done|].
    unfold fixed_at. rewrite Ho. simpl. rewrite Hl. simpl. rewrite Hd. split; [done|]. split; [done|].
    unfold open_to_all, allows. rewrite Ho. simpl. unfold hasc. done. }
  destruct (fix_R_set (fun s' => renamed s s' /\ (Adopt ∉ c_behs (o_cls o) -> s' = s)) x (o_cls o) (open_to_all (o_cls o) s x)) with (l := l) (s := s) (d := fixed_at s x)
    as (s' & E & [Q1 Q2] & R').
  - intros s1 s2 [A1 A2] A3 A4. split; [by eapply renamed_trans|]. intros Ha. rewrite A4, A2 by done. done.
  - done.
  - split; [apply renamed_refl|done].
  - done.
  - done.
  - exists s'. split; [done|]. rewrite readonly_stays in R'. split; [by eapply fixR_fixed|]. split; [|done].
    destruct R' as (o' & l' & Ho' & _ & Hl' & _). unfold has_fixed. rewrite Ho'. simpl. by exists l'.
Qed.
