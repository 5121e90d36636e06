(** Reading nodes that cache what they find (C71_caching). *)
From Verif Require Import Py Odict OdictFacts Aliaser Heap Model MonadFacts WF WFOps Views SpecMapping MappingProofs TreeOps Observe ObserveFacts Reach FbCount Utils Reads ReadProofs.

(** What the behaviors right of Cache find. *)
Definition endget (all : list behavior) (w : view) (k : key) : res val :=
  if hasc FixedChildren all then match w_fixed w with Some d => answered d k | None => Exc AttributeError end
  else if hasc DictStorage all || hasc OdictStorage all then answered (w_ent w) k else Exc NotImplementedError.
Fixpoint lowget (all bs : list behavior) (w : view) (k : key) : res val :=
  match bs with
  | [] => endget all w k
  | Nodespaces :: r =>
      match k with
      | KStr n => if reserved n then answered (w_ns w) k else lowget all r w k
      | _ => lowget all r w k
      end
  | Alias :: r =>
      match alias_with unalias (c_aliaser (w_cls w)) k with
      | Ret k' => match lowget all r w k' with
                  | Exc e => if is_key_error e then Exc (KeyError k) else Exc e
                  | Ret v => Ret v
                  end
      | Exc e => Exc e
      end
  | _ :: r => lowget all r w k
  end.
Fixpoint below (bs : list behavior) : list behavior :=
  match bs with [] => [] | Cache :: r => r | _ :: r => below r end.
(** What Cache answers. *)
Definition eff (w : view) (k : key) : res val :=
  if hashable k then match dget k (w_cache w) with Some v => Ret v | None => lowget (c_behs (w_cls w)) (below (c_behs (w_cls w))) w k end
  else Exc TypeError.
Definition sim (w w' : view) : Prop := vw_cache [] w' = vw_cache [] w /\ forall k, eff w' k = eff w k.

Lemma low_nocache all bs w : forall k, lowget all bs (vw_cache [] w) k = lowget all bs w k.
Proof.
  induction bs as [|b bs IH]; intros k; simpl; [done|]. destruct b; try apply IH.
  - destruct k; rewrite ?IH; done.
  - destruct (alias_with _ _ k); [|done]. by rewrite IH.
Qed.
Lemma low_core all bs w w' k : vw_cache [] w' = vw_cache [] w -> lowget all bs w' k = lowget all bs w k.
Proof. intros H. by rewrite <- (low_nocache _ _ w'), H, low_nocache. Qed.
Lemma low_is fb all bs s x w : wf s -> views s !! x = Some w -> c_behs (w_cls w) = all -> Cache ∉ bs -> Fallback ∉ bs -> ChildFactory ∉ bs ->
  forall k, exists s', wf s' /\ eqv s s' /\ get_stack fb all bs x k s = (lowget all bs w k, s').
Proof.
  intros W Hw Ha. induction bs as [|b bs IH]; intros N1 N2 N3 k; simpl.
  - unfold get_endpoint, endget. destruct (hasc FixedChildren all).
    { exists s. split; [done|]. split; [apply eqv_refl|]. etransitivity; [exact (fixed_then s x (fun d => answered d k) _ W (fun t l d => dict_get_is t l d k))|]. unfold of_fixed. by rewrite Hw. }
    destruct (_ || _) eqn:SC; [|exists s; split; [done|]; split; [apply eqv_refl|done]].
    destruct (storage_then s x (fun d => answered d k) _ W (fun t l d => dict_get_is t l d k)) as (s' & W' & Q & E). exists s'. split; [done|]. split; [done|]. etransitivity; [exact E|]. unfold of_storage. rewrite Hw, Ha.
    unfold storage_class. by rewrite SC.
  - assert (IH' : forall k, exists s', wf s' /\ eqv s s' /\ get_stack fb all bs x k s = (lowget all bs w k, s')).
    { apply IH; intros H; [destruct N1|destruct N2|destruct N3]; by right. }
    clear IH. destruct b; simpl; try apply IH'.
    + destruct N3. left.
    + destruct k; try apply IH'. destruct (reserved _); [|apply IH'].
      destruct (spaces_then s x (fun d => answered d (KStr s0)) _ W (fun t l d => dict_get_is t l d (KStr s0))) as (s' & W' & Q & E). exists s'. split; [done|]. split; [done|]. etransitivity; [exact E|]. unfold of_spaces. by rewrite Hw.
    + destruct (view_obj _ _ _ Hw) as (o & Ho & Ew). rewrite (bind_load _ _ _ _ Ho). replace (c_aliaser (o_cls o)) with (c_aliaser (w_cls w)) by (by subst w).
      destruct (alias_with _ _ k) as [k'|e]; simpl; [|exists s; split; [done|]; split; [apply eqv_refl|done]].
      destruct (IH' k') as (s' & W' & Q & E). exists s'. split; [done|]. split; [done|]. unfold bind, of_res, try_catch. simpl. rewrite E. destruct (lowget all bs w k'); [done|]. by destruct (is_key_error _).
    + destruct N1. left.
    + destruct N2. left.
Qed.
(** Reads right of Cache leave the place of the cache. *)
Definition kc {A} (m : M A) : Prop := forall s x, o_cache <$> nodes (snd (m s)) !! x = o_cache <$> nodes s !! x.
Lemma kc_bind {A B} (m : M A) (f : A -> M B) : kc m -> (forall a, kc (f a)) -> kc (bind m f).
Proof. intros H K s x. specialize (H s x). unfold bind. destruct (m s) as [[a|e] s']; [|done]. by rewrite K. Qed.
Lemma kc_try {A} (m : M A) p h : kc m -> (forall a, kc (h a)) -> kc (try_catch m p h).
Proof. intros H K s x. specialize (H s x). unfold try_catch. destruct (m s) as [[a|e] s']; [done|]. destruct (p e); [|done]. by rewrite K. Qed.
Lemma kc_load x : kc (load x).
Proof. intros s y. unfold load. by destruct (nodes s !! x). Qed.
Lemma kc_dict_get l k : kc (dict_get l k).
Proof. intros s y. unfold dict_get, bind, read_dict. destruct (hashable k); [|done]. destruct (dicts s !! l) as [d|]; [|done]. by destruct (dget k d). Qed.
Lemma kc_alloc d : kc (alloc_dict d).
Proof. done. Qed.
Lemma kc_modify x f : (forall o, o_cache (f o) = o_cache o) -> kc (modify x f).
Proof.
  intros H s y. unfold modify. destruct (nodes s !! x) as [o|] eqn:Ho; [|done]. simpl. destruct (decide (x = y)) as [<-|N]; [rewrite lookup_insert, Ho; simpl; by rewrite H|]. by rewrite lookup_insert_ne.
Qed.
Lemma kc_storage x : kc (storage_of x).
Proof.
  unfold storage_of. apply kc_bind; [apply kc_load|]. intros o. destruct (_ || _); [|done]. destruct (o_storage o); [done|]. apply kc_bind; [apply kc_alloc|]. intros l.
  apply kc_bind; [by apply kc_modify|done].
Qed.
Lemma kc_spaces x : kc (nodespaces_of x).
Proof.
  unfold nodespaces_of. apply kc_bind; [apply kc_load|]. intros o. destruct (o_nodespaces o); [done|]. apply kc_bind; [apply kc_alloc|]. intros l.
  apply kc_bind; [by apply kc_modify|done].
Qed.
Lemma kc_fixed x : kc (fixed_of x).
Proof. unfold fixed_of. apply kc_bind; [apply kc_load|]. intros o. by destruct (o_children o). Qed.
Lemma kc_low fb all bs x : Cache ∉ bs -> Fallback ∉ bs -> ChildFactory ∉ bs -> forall k, kc (get_stack fb all bs x k).
Proof.
  induction bs as [|b bs IH]; intros N1 N2 N3 k; simpl.
  - unfold get_endpoint. destruct (hasc FixedChildren all); [apply kc_bind; [apply kc_fixed|intros; apply kc_dict_get]|]. destruct (_ || _); [|done]. apply kc_bind; [apply kc_storage|intros; apply kc_dict_get].
  - assert (IH' : forall k, kc (get_stack fb all bs x k)).
    { apply IH; intros H; [destruct N1|destruct N2|destruct N3]; by right. }
    clear IH. destruct b; simpl; try apply IH'.
    + destruct N3. left.
    + destruct k; try apply IH'. destruct (reserved _); [|apply IH']. apply kc_bind; [apply kc_spaces|intros; apply kc_dict_get].
    + apply kc_bind; [apply kc_load|]. intros o. apply kc_bind; [done|]. intros k'. apply kc_try; [apply IH'|done].
    + destruct N1. left.
    + destruct N2. left.
Qed.
Lemma below_is l r : Cache ∉ l -> below (l ++ Cache :: r) = r.
Proof. induction l as [|b l IH]; intros H; simpl; [done|]. destruct b; try (apply IH; set_solver). destruct H. left. Qed.
Lemma low_vok all bs s x w k v : wf s -> views s !! x = Some w -> c_behs (w_cls w) = all -> Cache ∉ bs -> Fallback ∉ bs -> ChildFactory ∉ bs -> lowget all bs w k = Ret v -> vok s v.
Proof.
  intros W Hw Ha N1 N2 N3 E. destruct (low_is (fun _ _ => raise Unspecified) all bs s x w W Hw Ha N1 N2 N3 k) as (s' & W' & Q & G).
  destruct (safe_get_stack (fun _ _ => raise Unspecified) all bs s x k) as (_ & _ & H); [|intros; by apply safe_raise|done|].
  - apply views_live. by rewrite Hw.
  - rewrite G, E in H. simpl in H. destruct v; try done. simpl in *. apply views_live. apply views_live in H. by rewrite <- (e_views _ _ Q).
Qed.
Lemma sim_trans w w1 w2 : sim w w1 -> sim w1 w2 -> sim w w2.
Proof. intros [A B] [C D]. split; [congruence|]. intros k. by rewrite D. Qed.
Lemma sim_sym w w' : sim w w' -> sim w' w.
Proof. intros [A B]. split; [done|]. intros k. by rewrite B. Qed.
Lemma sim_refl w : sim w w.
Proof. by split. Qed.
Lemma eqv_sim s s' : eqv s s' -> still sim s s'.
Proof. apply eqv_still. by split. Qed.
Lemma cached_get fb s x w k l r : wf s -> views s !! x = Some w -> modest_class (w_cls w) -> c_behs (w_cls w) = l ++ Cache :: r ->
  exists s', wf s' /\ get_stage fb Cache (get_stack fb (c_behs (w_cls w)) r) x k s = (eff w k, s') /\ still sim s s' /\ fbcount s' = fbcount s.
Proof.
  intros W Hw [NF Hm] E. destruct (Hm l r E) as [N1 N2]. assert (N3 : ChildFactory ∉ r) by (intros H; destruct NF; rewrite E; apply elem_of_app; right; by right).
  assert (N4 : Cache ∉ l). { intros (l1 & l2 & ->)%elem_of_list_split. destruct (Hm l1 (l2 ++ Cache :: r)) as [H _]; [by rewrite E, <- app_assoc|]. destruct H. apply elem_of_app. right. left. }
  destruct (view_obj _ _ _ Hw) as (o & Ho & Ew). destruct (cache_of_eff s x o W Ho) as (lc & s1 & E1 & Q1 & W1 & o1 & Ho1 & Hc1 & _).
  assert (V1 : view_of s1 x o1 = w). { apply nodes_views in Ho1. rewrite (e_views _ _ Q1), Hw in Ho1. by injection Ho1 as <-. }
  simpl. unfold bind at 1. rewrite E1. unfold try_catch. rewrite (dict_get_eff s1 x o1 SCache lc k W1 Ho1 Hc1), V1. simpl. unfold eff. destruct (hashable k) eqn:Hk.
  2: { exists s1. split; [done|]. split; [done|]. split; [by apply eqv_sim|apply Q1]. }
  destruct (dget k (w_cache w)) as [v|] eqn:Hd.
  { exists s1. split; [done|]. split; [done|]. split; [by apply eqv_sim|apply Q1]. }
  simpl. assert (Hw1 : views s1 !! x = Some w) by (by rewrite (e_views _ _ Q1)).
  destruct (low_is fb (c_behs (w_cls w)) r s1 x w W1 Hw1 eq_refl N1 N2 N3 k) as (s2 & W2 & Q2 & E2). rewrite E, (below_is l r N4), <- E. unfold bind. rewrite E2.
  destruct (lowget (c_behs (w_cls w)) r w k) as [v|e] eqn:El.
  2: { exists s2. split; [done|]. split; [done|]. split; [|by rewrite (e_fb _ _ Q2), (e_fb _ _ Q1)]. apply eqv_sim. by eapply eqv_trans. }
  pose proof (low_vok _ _ s1 x w k v W1 Hw1 eq_refl N1 N2 N3 El) as Hv.
  assert (Hw2 : views s2 !! x = Some w) by (by rewrite (e_views _ _ Q2)). destruct (view_obj _ _ _ Hw2) as (o2 & Ho2 & Ew2).
  assert (Hc2 : get_slot SCache o2 = Some lc). { pose proof (kc_low fb (c_behs (w_cls w)) r x N1 N2 N3 k s1 x) as K. rewrite E2 in K. simpl in K. rewrite Ho1, Ho2 in K. simpl in K. injection K as K. simpl. congruence. }
  destruct (dict_set_eff s2 x o2 SCache lc k v W2 Ho2 Hc2) as (s3 & E3 & W3 & R3); [|done|].
  { destruct v; try done. simpl in *. by eapply eqv_live. }
  rewrite E3. rewrite <- Ew2 in R3. simpl in R3. destruct (wr_views _ _ _ _ _ R3) as (w0 & Hw0 & V3). rewrite Hw2 in Hw0. injection Hw0 as <-. simpl in V3.
  assert (Hw3 : views s3 !! x = Some (vw_cache (dset k v (w_cache w)) w)) by (rewrite V3; apply lookup_insert).
  destruct (view_obj _ _ _ Hw3) as (o3 & Ho3 & Ew3).
  assert (Hc3 : get_slot SCache o3 = Some lc). { unfold dict_set, bind, read_dict, write_dict in E3. rewrite Hk in E3. destruct (dicts s2 !! lc); [|done]. injection E3 as <-. simpl in Ho3. congruence. }
  rewrite (dict_get_eff s3 x o3 SCache lc k W3 Ho3 Hc3), <- Ew3. simpl. rewrite Hk, dget_dset_eq. exists s3. split; [done|]. split; [done|].
  split; [|by rewrite (wr_fb _ _ _ _ _ R3), (e_fb _ _ Q2), (e_fb _ _ Q1)].
  apply (still_trans sim sim_sym sim_trans s s2); [apply eqv_sim; by eapply eqv_trans|]. constructor; try apply R3. intros y. rewrite V3. destruct (decide (x = y)) as [<-|N].
  - rewrite Hw2, lookup_insert. constructor. split; [done|]. intros k2. unfold eff. simpl. destruct (hashable k2); [|done]. destruct (decide (k2 = k)) as [->|Nk].
    + rewrite dget_dset_eq, Hd, E, (below_is l r N4), <- E. by rewrite El.
    + rewrite dget_dset_ne by done. destruct (dget k2 (w_cache w)); [done|]. by apply low_core.
  - rewrite lookup_insert_ne by done. destruct (views s2 !! y); constructor. by split.
Qed.
Lemma sim_core w w' : sim w w' -> vw_cache [] w' = vw_cache [] w.
Proof. by intros []. Qed.
Lemma cache_stage fb x c k l r : modest_class c -> c_behs c = l ++ Cache :: r -> rq sim modest_class (Some (x, c)) (get_stage fb Cache (get_stack fb (c_behs c) r) x k).
Proof.
  intros Hm E s t K H. simpl in H. pose proof (al_views _ _ _ _ K x) as HS. destruct (views s !! x) as [w|] eqn:Hw; [|done]. injection H as H. inversion HS as [? w' S Hw1 Hw'|]. subst.
  pose proof (f_equal w_cls (sim_core _ _ S)) as Ec. simpl in Ec. symmetry in Hw'.
  destruct (cached_get fb s x w k l r (al_wf _ _ _ _ K) Hw Hm E) as (s' & W1 & E1 & S1 & F1).
  destruct (cached_get fb t x w' k l r (al_wf' _ _ _ _ K) Hw') as (t' & W2 & E2 & S2 & F2); [by rewrite Ec|by rewrite Ec|]. rewrite Ec in E2. rewrite E1, E2. simpl. destruct S as [S0 S]. split; [by rewrite S|].
  split; [|done]. apply (alike_step sim modest_class sim_sym sim_trans sim_core s t); try done; [apply S1|apply S2|]. rewrite F1, F2. apply K.
Qed.
Lemma still_caches s s' : still sim s s' -> same_but_caches s s'.
Proof.
  intros [V ? ? ? ?]. assert (HF : forall B (F : view -> B), (forall w, F (vw_cache [] w) = F w) -> forall x, fld F s' x = fld F s x).
  { intros B F HF x. unfold fld. destruct (V x) as [w w' [K _]|]; [|done]. simpl. f_equal. by rewrite <- (HF w'), K, HF. }
  constructor; intros; rewrite ?ob_class, ?ob_name, ?ob_parent, ?ob_entries, ?ob_spaces, ?ob_fixed, ?ob_uuid, ?ob_index_id, ?ob_suppressed; try done; by rewrite HF.
Qed.
Lemma caching_commute s l : reach s -> modest s ->
  fst (ask_all l s) = map (fun e => fst (ask (fst e) (snd e) s)) l /\ same_but_caches s (snd (ask_all l s)).
Proof.
  intros R U. destruct (asks sim modest_class sim_refl sim_sym sim_trans sim_core (fun c H => proj1 H) cache_stage s l s) as (E & _ & S).
  - apply alike_refl; [exact sim_refl|done|done].
  - split; [done|by apply still_caches].
Qed.
Lemma unassuming_modest s : unassuming s -> modest s.
Proof. intros U x cls H. destruct (U x cls H) as [N1 N2]. split; [done|]. intros l r E. destruct N1. rewrite E. apply elem_of_app. right. left. Qed.
Lemma reads_permute s l l' : reach s -> modest s -> Permutation l l' -> Permutation (zip l (fst (ask_all l s))) (zip l' (fst (ask_all l' s))).
Proof.
  intros R U P. rewrite !(proj1 (caching_commute s _ R U)). assert (Z : forall l : list (nat * query), zip l (map (fun e => fst (ask (fst e) (snd e) s)) l) = map (fun e => (e, fst (ask (fst e) (snd e) s))) l).
  { induction l0 as [|e l0 IH]; simpl; [done|]. by rewrite IH. }
  rewrite !Z. by apply Permutation_map.
Qed.
Definition modestb (bs : list behavior) : bool :=
  negb (hasc ChildFactory bs) && match below bs with r => negb (hasc Cache r) && negb (hasc Fallback r) end.
Lemma modestb_spec c : modestb (c_behs c) = true -> modest_class c.
Proof.
  unfold modestb. rewrite !andb_true_iff, !negb_true_iff. intros (H1 & H2 & H3). unfold hasc in H1, H2, H3. apply bool_decide_eq_false_1 in H1, H2, H3. split; [done|]. intros l r E.
  destruct (decide (Cache ∈ l)) as [Hl|Hl]; [|by rewrite E, (below_is l r Hl) in *]. exfalso. apply H2. rewrite E. clear -Hl. induction l as [|b l IH]; [by apply elem_of_nil in Hl|].
  simpl. destruct b; try (apply IH; apply elem_of_cons in Hl as [?|?]; done). apply elem_of_app. right. left.
Qed.
Lemma modest_all s : forallb (fun e => modestb (c_behs (o_cls (snd e)))) (map_to_list (nodes s)) = true -> modest s.
Proof.
  intros H x cls Hc. unfold class_of in Hc. apply fmap_Some in Hc as (o & Ho & ->). rewrite forallb_forall in H. specialize (H (x, o)).
  rewrite <- elem_of_list_In, elem_of_map_to_list in H. by apply modestb_spec, H.
Qed.
