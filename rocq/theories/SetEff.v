(** The effect of [node[k] = v] for every class made of the tree behaviors in any
    order. *)
From Verif Require Import Py Odict OdictFacts Aliaser Heap Model MonadFacts WF WFOps Views
  SpecMapping MappingProofs StorageProofs TreeOps.

Lemma fld_core_live s s' x : fld w_core s' x = fld w_core s x -> live s' x <-> live s x.
Proof. intros H. by rewrite <- (fld_live w_core s' x), H, fld_live. Qed.
Lemma fld_core_cls s s' x : fld w_core s' x = fld w_core s x -> fld w_cls s' x = fld w_cls s x.
Proof.
  unfold fld. destruct (views s' !! x), (views s !! x); simpl; intros H; try done. by injection H as -> _ _ _ _ _ _.
Qed.

Lemma ref_step_pre s s2 self c s' :
  (forall x, fld w_core s2 x = fld w_core s x) -> (forall x, fld w_ent s2 x = fld w_ent s x) ->
  (forall x, fld w_index s2 x = fld w_index s x) -> idxs s2 = idxs s ->
  ref_step s2 self c s' -> ref_step s self c s'.
Proof.
  intros Hc He Hi Hx (i & j & mi & mj & H1 & H2 & H3 & H4 & H5 & H6 & H7).
  rewrite Hi in *. rewrite Hx in *. exists i, j, mi, mj. do 6 (split; [done|]).
  destruct H7 as [H7|H7]; [left|by right]. intros cls. rewrite <- (fld_core_cls s s2) by done.
  rewrite <- He. apply H7.
Qed.
Lemma ref_step_post s self c s2 s' :
  fld w_index s2 c = fld w_index s' c -> idxs s2 = idxs s' -> ref_step s self c s' -> ref_step s self c s2.
Proof.
  intros Hi Hx (i & j & mi & mj & H1 & H2 & H3 & H4 & H5 & H6 & H7).
  exists i, j, mi, mj. rewrite Hi, Hx. done.
Qed.

Lemma set_eff_ns_any ad ad' rf' lc' self k v s r s' :
  set_eff true ad false 0 self k v s r s' -> (ad = true \/ is_ret r = false \/ ad = ad') -> set_eff true ad' rf' lc' self k v s r s'.
Proof.
  intros [] Hr. constructor; try done; intros.
  - rewrite orb_true_r. rewrite se_np_ret by done. by rewrite orb_true_r.
  - by apply se_ix.
  - by apply se_log0.
  - destruct (se_catch e) as [?|[?|?]]; naive_solver.
Qed.

(** equal but for the name and parent of [c] *)
Record bnp (c : nat) (s s' : st) : Prop := Bnp {
  bn_core : forall x, fld w_core s' x = fld w_core s x;
  bn_ent : forall x, fld w_ent s' x = fld w_ent s x;
  bn_ns : forall x, fld w_ns s' x = fld w_ns s x;
  bn_ix : forall x, fld w_index s' x = fld w_index s x;
  bn_np : forall x, x <> c -> fld w_np s' x = fld w_np s x;
  bn_idxs : idxs s' = idxs s;
  bn_log : log s' = log s;
  bn_uuid : next_uuid s' = next_uuid s;
  bn_fb : fbcount s' = fbcount s;
  bn_classes : classes s' = classes s
}.
Lemma bnp_refl c s : bnp c s s.
Proof. by constructor. Qed.
Lemma adopted_bnp c k p s s' : adopted c k p s s' -> bnp c s s'.
Proof. intros []. constructor; intros; first [done|by apply ad_np_ne|by apply ad_fld]. Qed.
Lemma eqv_bnp c s s' : eqv s s' -> bnp c s s'.
Proof. intros Q. pose proof Q as []. constructor; intros; try done; by apply fld_eqv. Qed.

Lemma set_eff_bnp ns ad ad' rf lc self k c s s2 r s3 s4 :
  bnp c s s2 -> bnp c s3 s4 -> wf s4 ->
  set_eff ns ad rf lc self k (VNode c) s2 r s3 ->
  (is_ret r = true -> fld w_np s4 c = if ad' || ns then Some (k, Some self) else fld w_np s c) ->
  (forall e, r = Exc e ->  fld w_np s4 c = fld w_np s c \/
     (adopt_catches e = false /\ fld w_np s4 c = Some (k, Some self))) ->
  set_eff ns ad' rf lc self k (VNode c) s r s4.
Proof.
  intros [P1 P2 P3 P4 P5 P6 P7 P8 P9 P10] [Q1 Q2 Q3 Q4 Q5 Q6 Q7 Q8 Q9 Q10] W []
    Hret Hexc.
  constructor; try done.
  - intros. by rewrite Q1, se_core.
  - intros. by rewrite Q2, se_ent, !P2.
  - intros. by rewrite Q3, se_ns, !P3.
  - intros x Hx. rewrite Q5 by congruence. rewrite se_np_other by done. apply P5. congruence.
  - intros c0 [= <-]. done.
  - intros c0 e [= <-] He. by apply Hexc.
  - intros x Hx. by rewrite Q4, se_ix_other.
  - intros Hrf. destruct (se_ix Hrf) as [H1 H2]. split; [|congruence]. intros x. by rewrite Q4, H1.
  - intros c0 [= <-] H1 H2 H3. eapply ref_step_pre; [..|eapply ref_step_post, se_ref]; done.
  - intros H1. by rewrite Q7, se_log0.
  - intros H1. by rewrite Q7, se_log_exc.
  - intros b H1 H2 H3. rewrite Q7, (se_log b); [by rewrite P7|done..|]. by rewrite (fld_core_suppress s).
  - congruence.
  - congruence.
  - congruence.
Qed.

(** prefixing with an adoption that is kept *)
Lemma set_eff_adopt ns ad rf lc self k c s s2 r s3 :
  adopted c k (Some self) s s2 ->
  (forall e, r = Exc e -> adopt_catches e = false) ->
  set_eff ns ad rf lc self k (VNode c) s2 r s3 -> set_eff ns true rf lc self k (VNode c) s r s3.
Proof.
  intros A Hr E. eapply set_eff_bnp; [by eapply adopted_bnp|apply bnp_refl|by destruct E|exact E|..].
  - intros H. rewrite (se_np_ret _ _ _ _ _ _ _ _ _ _ E) by done. simpl.
    rewrite (ad_np _ _ _ _ _ A). by destruct (ad || ns).
  - intros e ->. right. split; [by apply Hr|].
    destruct (se_np_exc _ _ _ _ _ _ _ _ _ _ E c e) as [E'|[_ E']]; [done..| |done].
    rewrite E'. by destruct A.
Qed.

(** an adoption undone after a failure *)
Lemma set_eff_revert ns ad rf lc self k c s s2 e s3 s4 n p :
  adopted c k (Some self) s s2 -> fld w_np s c = Some (n, p) ->
  set_eff ns ad rf lc self k (VNode c) s2 (Exc e) s3 ->
  adopted c n p s3 s4 -> set_eff ns true rf lc self k (VNode c) s (Exc e) s4.
Proof.
  intros A Hnp E A'. eapply set_eff_bnp; [by eapply adopted_bnp|by eapply adopted_bnp|by destruct A'|exact E|done|].
  intros e' [= <-]. left. rewrite Hnp. by destruct A'.
Qed.

(** a hook that does nothing before [next] *)
Lemma stack_eff_pass b bs self k v s r s' :
  b <> Nodespaces -> b <> Adopt -> b <> Reference -> b <> Lifecycle ->
  stack_eff bs self k v s r s' -> stack_eff (b :: bs) self k v s r s'.
Proof.
  intros H1 H2 H3 H4. unfold stack_eff, nskey, occ. rewrite !hasc_cons, filter_cons.
  rewrite !bool_decide_eq_false_2 by done. by rewrite decide_False by done.
Qed.

Lemma stack_eff_fail bs self k v s s' e :
  wf s' -> eqv s s' -> (adopt_catches e = true \/ hashable k = false \/ hasc Reference bs = true) ->
  stack_eff bs self k v s (Exc e) s'.
Proof. apply set_eff_fail. Qed.

(** The outcome when the index of the child can be merged. *)
Fixpoint set_res (allow : bool) (bs : list behavior) (k : key) (v : val) : res unit :=
  match bs with
  | [] => if hashable k then Ret tt else Exc TypeError
  | NodeChildValidate :: r =>
      if negb allow && is_class v then Exc (ValueError "It isn't allowed to use classes as values.")
      else if negb allow && negb (is_node v) then Exc (ValueError "Non-node childs are not allowed.")
      else set_res allow r k v
  | Nodespaces :: r =>
      match k with
      | KStr s => if reserved s then if is_node v then Ret tt else Exc AttributeError
                  else set_res allow r k v
      | _ => Exc AttributeError
      end
  | _ :: r => set_res allow r k v
  end.

Definition ref_ready (bs : list behavior) (s : st) (self : nat) (v : val) : Prop :=
  forall c, v = VNode c -> hasc Reference bs = true ->
  exists i j mi mj cls e, fld w_index s self = Some (Some i) /\ fld w_index s c = Some (Some j)
    /\ idxs s !! i = Some mi /\ idxs s !! j = Some mj
    /\ fld w_cls s c = Some cls /\ tree_class (c_behs cls) = true
    /\ fld w_ent s c = Some e /\ (e = [] \/ dom mi ∩ dom mj = ∅ /\ occ Reference bs <= 1).

Definition outcome bs s self k v (r : res unit) : Prop :=
  forall a, ref_ready bs s self v -> fld w_allow s self = Some a -> r = set_res a bs k v.

Lemma ref_ready_bnp bs c s s' self v : bnp c s s' -> ref_ready bs s self v -> ref_ready bs s' self v.
Proof.
  intros [] H c0 Hc Hb. destruct (H c0 Hc Hb) as (i & j & mi & mj & cls & e & H1 & H2 & H3 & H4 & H5 & H6 & H7 & H8).
  exists i, j, mi, mj, cls, e. rewrite !bn_ix0, bn_idxs0, bn_ent0. rewrite (fld_core_cls s) by done. done.
Qed.
Lemma fld_core_allow s s' x : fld w_core s' x = fld w_core s x -> fld w_allow s' x = fld w_allow s x.
Proof.
  unfold fld. destruct (views s' !! x), (views s !! x); simpl; intros H; try done. by injection H as _ _ _ _ -> _ _.
Qed.
Lemma ref_ready_cons b bs s self v : b <> Reference -> ref_ready (b :: bs) s self v -> ref_ready bs s self v.
Proof.
  intros Hb H c Hc Hr. destruct (H c Hc) as (i & j & mi & mj & cls & e & H1 & H2 & H3 & H4 & H5 & H6 & H7 & H8).
  { rewrite hasc_cons, Hr. apply orb_true_r. }
  exists i, j, mi, mj, cls, e. do 7 (split; [done|]). destruct H8 as [?|[? H8]]; [by left|right]. split; [done|].
  unfold occ in H8. rewrite filter_cons, decide_False in H8; done.
Qed.

Definition pre_ok s self v cls := wf s /\ fld w_cls s self = Some cls /\ vok s v.

Lemma fld_view {B} (F : view -> B) s x b : fld F s x = Some b -> exists w, views s !! x = Some w /\ F w = b.
Proof. unfold fld. destruct (views s !! x) as [w|]; simpl; [|done]. intros [= <-]. eauto. Qed.
Lemma live_view s x : live s x -> exists w, views s !! x = Some w.
Proof. rewrite views_live. done. Qed.
Lemma load_view s x w : views s !! x = Some w -> exists o, load x s = (Ret o, s) /\ nodes s !! x = Some o /\ view_of s x o = w.
Proof. intros (o & Ho & ->)%view_obj. exists o. split; [by apply load_Some|done]. Qed.

Lemma set_stack_adopt bs self k v s cls all :
  pre_ok s self v cls ->
  (forall s, pre_ok s self v cls -> exists r s', set_stack all bs self k v s = (r, s')
      /\ stack_eff bs self k v s r s' /\ outcome bs s self k v r) ->
  exists r s', set_stack all (Adopt :: bs) self k v s = (r, s') /\ stack_eff (Adopt :: bs) self k v s r s'
    /\ outcome (Adopt :: bs) s self k v r.
Proof.
  intros (W & Hcls & Hv) IH. simpl.
  assert (Hpass : forall s r s', is_node v = false -> stack_eff bs self k v s r s' -> stack_eff (Adopt :: bs) self k v s r s').
  { intros s0 r0 s0' Hn. unfold stack_eff, nskey, occ. rewrite !hasc_cons. simpl. intros []. constructor; try done.
    intros c ->. done. }
  destruct (is_node v) eqn:Hn; [destruct v as [| | | | | | |c| | | |]; try discriminate Hn|].
  2: { destruct (IH s) as (r & s' & E & F & G); [done|]. exists r, s'.
       split; [destruct v; try exact E; discriminate Hn|]. split; [by apply Hpass|].
       intros a Hr Ha. apply G; [|done]. intros c ->. done. }
  clear Hpass. simpl in Hv. destruct (live_view _ _ Hv) as [w Hw].
  destruct (load_view _ _ _ Hw) as (o & Hload & Ho & Hwo).
  simpl. rewrite (bind_Ret _ _ _ _ _ Hload).
  assert (live s self) as Hself. { apply (fld_live w_cls). by rewrite Hcls. }
  destruct (adopt_eff s c k (Some self)) as (s2 & A & Em); [exact W|exact Hv|by intros q [= <-]|].
  rewrite Em.
  destruct (IH s2) as (r & s3 & E & F & G).
  { split; [by destruct A|]. split; [|simpl; by apply (ad_live _ _ _ _ _ A)].
    rewrite <- Hcls. by apply (ad_fld _ _ _ _ _ A). }
  assert (Hocc : occ Lifecycle (Adopt :: bs) = occ Lifecycle bs) by done.
  assert (Hns : nskey (Adopt :: bs) k = nskey bs k). { unfold nskey. by rewrite hasc_cons. }
  assert (Had : hasc Adopt (Adopt :: bs) = true). { by rewrite hasc_cons. }
  assert (Hrf : hasc Reference (Adopt :: bs) = hasc Reference bs). { by rewrite hasc_cons. }
  assert (G' : outcome (Adopt :: bs) s self k (VNode c) r).
  { intros a Hr Ha. apply adopted_bnp in A. apply G.
    - eapply ref_ready_bnp; [done|]. by apply (ref_ready_cons Adopt).
    - rewrite (fld_core_allow s); [done|]. by apply (bn_core _ _ _ A). }
  unfold stack_eff in *. rewrite Hocc, Hns, Had, Hrf.
  destruct r as [[]|e].
  - rewrite (try_catch_Ret _ _ _ _ _ _ E). eexists _, _. split; [done|]. split; [|done]. eapply set_eff_adopt; [exact A|done|exact F].
  - rewrite (try_catch_Exc _ _ _ _ _ _ E). destruct (adopt_catches e) eqn:Hc.
    + assert (Hl : forall x, live s3 x <-> live s x).
      { intros x. rewrite (fld_core_live s2) by (by apply (se_core _ _ _ _ _ _ _ _ _ _ F)). by destruct A. }
      destruct (adopt_eff s3 c (o_name o) (o_parent o)) as (s4 & A4 & Em4); [by destruct F|by apply Hl| |].
      2: { rewrite Em4. eexists _, _. split; [reflexivity|]. split; [|done]. eapply set_eff_revert; [exact A| |exact F|exact A4].
           unfold fld. rewrite Hw. simpl. rewrite <- Hwo. done. }
      intros q Hq. apply Hl. destruct (wf_nodes _ W _ _ Ho) as [_ [Hp _ _]]. by apply Hp.
    + eexists _, _. split; [done|]. split; [|done]. eapply set_eff_adopt; [exact A| |exact F]. by intros e' [= <-].
Qed.

Lemma stack_eff_ref_pass bs self k v s r s' : is_node v = false ->
  stack_eff bs self k v s r s' -> stack_eff (Reference :: bs) self k v s r s'.
Proof.
  intros Hn. unfold stack_eff, nskey, occ. rewrite !hasc_cons. simpl. intros [].
  constructor; try done.
  - intros c ->. done.
  - intros e He. destruct (se_catch e He) as [?|[?|?]]; auto.
Qed.

(** Reference: state after merging the indices *)
Lemma ref_merge s self c i j mi mj :
  wf s -> live s c -> fld w_index s self = Some (Some i) -> fld w_index s c = Some (Some j) ->
  idxs s !! i = Some mi -> idxs s !! j = Some mj ->
  forall A (m : M A),
  exists s2, (do! write_idx i (mj ∪ mi) in do! modify c (with_index (Some i)) in m) s = m s2 /\ wf s2
    /\ idxs s2 = <[i := mj ∪ mi]> (idxs s) /\ views s2 = alter (vw_index (Some i)) c (views s)
    /\ log s2 = log s /\ next_uuid s2 = next_uuid s /\ fbcount s2 = fbcount s /\ classes s2 = classes s.
Proof.
  intros W Hc Hi Hj Hmi Hmj A m.
  assert (W1 : wf (snd (write_idx i (mj ∪ mi) s))).
  { apply safe_write_idx; [eauto| |done]. intros u y [H|[_ H]]%lookup_union_Some_raw.
    - by apply (proj2 (wf_idxs _ W _ _ Hmj) u).
    - by apply (proj2 (wf_idxs _ W _ _ Hmi) u). }
  rewrite (bind_Ret _ _ s tt (set_idxs <[i := mj ∪ mi]> s)) by done. simpl in W1.
  destruct (modify_index_eff (set_idxs <[i := mj ∪ mi]> s) c i) as (s2 & E2 & W2 & T); [done|done| |].
  { simpl. rewrite lookup_insert. eauto. }
  rewrite (bind_Ret _ _ _ _ _ E2). exists s2. split; [done|]. split; [done|].
  destruct T as [(w & Hw & Hv) H2 H3 H4 H5 H6]. rewrite H2. split; [done|]. split; [|done].
  rewrite Hv. change (views (set_idxs <[i:=mj ∪ mi]> s)) with (views s) in *.
  apply map_eq. intros x. destruct (decide (c = x)) as [<-|].
  - by rewrite lookup_insert, lookup_alter, Hw.
  - by rewrite lookup_insert_ne, lookup_alter_ne.
Qed.

Lemma index_of_eff s x w : views s !! x = Some w ->
  index_of x s = (match w_index w with Some i => Ret i | None => Exc AttributeError end, s).
Proof.
  intros (o & Ho & ->)%view_obj. unfold index_of. rewrite (bind_load _ _ _ _ Ho). simpl.
  by destruct (o_index o).
Qed.
Lemma read_idx_eff s x w i : wf s -> views s !! x = Some w -> w_index w = Some i ->
  exists m, idxs s !! i = Some m.
Proof.
  intros W (o & Ho & ->)%view_obj Hi. destruct (wf_nodes _ W _ _ Ho) as [_ [_ _ H]]. by apply H.
Qed.

(** the state after the merge, seen from before *)
Lemma stack_eff_ref bs self k c s s2 r s' i j mi mj :
  fld w_index s self = Some (Some i) -> fld w_index s c = Some (Some j) ->
  idxs s !! i = Some mi -> idxs s !! j = Some mj ->
  idxs s2 = <[i := mj ∪ mi]> (idxs s) -> views s2 = alter (vw_index (Some i)) c (views s) ->
  log s2 = log s -> next_uuid s2 = next_uuid s -> fbcount s2 = fbcount s -> classes s2 = classes s ->
  ((forall cls, fld w_cls s c = Some cls -> tree_class (c_behs cls) = true -> fld w_ent s c = Some [])
     \/ dom mi ∩ dom mj = ∅) ->
  stack_eff bs self k (VNode c) s2 r s' -> stack_eff (Reference :: bs) self k (VNode c) s r s'.
Proof.
  intros Hi Hj Hmi Hmj Hidx Hv H1 H2 H3 H4 Hdis E.
  assert (Hfld : forall B (F : view -> B) x, (forall w i, F (vw_index i w) = F w) -> fld F s2 x = fld F s x).
  { intros B F x HF. unfold fld. rewrite Hv. destruct (decide (c = x)) as [<-|].
    - rewrite lookup_alter. destruct (views s !! c); simpl; [by rewrite HF|done].
    - by rewrite lookup_alter_ne. }
  assert (Hc2 : fld w_index s2 c = Some (Some i)).
  { unfold fld. rewrite Hv, lookup_alter. unfold fld in Hj. by destruct (views s !! c). }
  assert (Hself2 : fld w_index s2 self = Some (Some i)).
  { destruct (decide (c = self)) as [<-|]; [done|]. unfold fld. by rewrite Hv, lookup_alter_ne. }
  unfold stack_eff, nskey, occ in *. rewrite !hasc_cons. simpl.
  destruct E. constructor; try done.
  - intros x. rewrite se_core. by apply Hfld.
  - intros x. rewrite se_ent. by rewrite !(Hfld _ w_ent x).
  - intros x. rewrite se_ns. by rewrite !(Hfld _ w_ns x).
  - intros x Hx. rewrite se_np_other by done. by apply Hfld.
  - intros x Hx Hr. rewrite se_np_ret by done. by rewrite (Hfld _ w_np x).
  - intros x e Hx Hr. rewrite <- (Hfld _ w_np x) by done. by apply (se_np_exc x e).
  - intros x Hx. rewrite se_ix_other by done. unfold fld. rewrite Hv, lookup_alter_ne; [done|congruence].
  - intros x [= <-] _ Hns Hr. exists i, j, mi, mj. do 4 (split; [done|]).
    assert (idxs s' = <[i:=mj ∪ mi]> (idxs s) /\ fld w_index s' c = Some (Some i)) as [? ?]; [|done].
    destruct (hasc Reference bs) eqn:Hrb.
    + destruct (se_ref c) as (i' & j' & mi' & mj' & G1 & G2 & G3 & G4 & G5 & G6 & _); [done..|].
      assert (i' = i) as -> by congruence. assert (j' = i) as -> by congruence. split; [|done].
      rewrite G5, Hidx, insert_insert. f_equal. rewrite Hidx, lookup_insert in G3, G4.
      injection G3 as <-. injection G4 as <-. apply map_union_idemp.
    + destruct se_ix as [G1 G2]; [done|]. rewrite G2, G1. done.
  - intros H. by rewrite se_log0.
  - intros H. by rewrite se_log_exc.
  - intros b Hns Hr Hs. rewrite (se_log b), H1; [done..|]. by rewrite (Hfld _ w_suppress).
  - intros e He. auto.
  - congruence.
  - congruence.
  - congruence.
Qed.

Lemma set_stack_reference bs self k v s cls all :
  pre_ok s self v cls ->
  (forall s, pre_ok s self v cls -> exists r s', set_stack all bs self k v s = (r, s')
      /\ stack_eff bs self k v s r s' /\ outcome bs s self k v r) ->
  exists r s', set_stack all (Reference :: bs) self k v s = (r, s') /\ stack_eff (Reference :: bs) self k v s r s'
    /\ outcome (Reference :: bs) s self k v r.
Proof.
  intros (W & Hcls & Hv) IH. simpl.
  destruct (is_node v) eqn:Hn; [destruct v as [| | | | | | |c| | | |]; try discriminate Hn|].
  2: { destruct (IH s) as (r & s' & E & F & G); [done|]. exists r, s'.
       split; [destruct v; try exact E; discriminate Hn|]. split; [by apply stack_eff_ref_pass|].
       intros a Hr Ha. apply G; [|done]. intros c ->. done. }
  simpl in Hv. simpl.
  assert (live s self) as Hself. { apply (fld_live w_cls). by rewrite Hcls. }
  pose proof (quiet_iterkeys s c Hv W) as Q. pose proof (safe_iterkeys s c Hv W) as (W1 & _ & _).
  assert (Hks : forall ks s1, iterkeys c s = (Ret ks, s1) -> ks = [] ->
    (forall cls, fld w_cls s c = Some cls -> tree_class (c_behs cls) = true -> fld w_ent s c = Some [])).
  { intros ks s1 E -> cl Hcl Ht. destruct (fld_view _ _ _ _ Hcl) as (w & Hw & <-).
    destruct (iterkeys_eff s c w W Hw Ht) as (s1' & E' & _). rewrite E in E'. injection E' as E' _.
    unfold fld. rewrite Hw. simpl. destruct (w_ent w); done. }
  assert (Hfail : forall e s', wf s' -> eqv s s' -> ~ ref_ready (Reference :: bs) s self (VNode c) ->
      stack_eff (Reference :: bs) self k (VNode c) s (Exc e) s' /\ outcome (Reference :: bs) s self k (VNode c) (Exc e)).
  { intros e s' W' Q' Hnr. split; [|by intros a Hr]. apply stack_eff_fail; try done. right. right. by rewrite hasc_cons. }
  assert (Hready : ref_ready (Reference :: bs) s self (VNode c) -> exists i j mi mj,
      fld w_index s self = Some (Some i) /\ fld w_index s c = Some (Some j)
      /\ idxs s !! i = Some mi /\ idxs s !! j = Some mj
      /\ exists e, fld w_ent s c = Some e /\ (exists ks s1, iterkeys c s = (Ret ks, s1) /\ ks = dkeys e)
        /\ (e = [] \/ dom mi ∩ dom mj = ∅ /\ occ Reference bs = 0)).
  { intros Hr. destruct (Hr c eq_refl) as (i & j & mi & mj & cl & e & H1 & H2 & H3 & H4 & H5 & H6 & H7 & H8).
    { by rewrite hasc_cons. }
    exists i, j, mi, mj. do 4 (split; [done|]). exists e. split; [done|]. split.
    - destruct (fld_view _ _ _ _ H5) as (w & Hw & <-).
      destruct (iterkeys_eff s c w W Hw H6) as (s1' & E' & _). exists (dkeys (w_ent w)), s1'.
      split; [done|]. unfold fld in H7. rewrite Hw in H7. simpl in H7. by injection H7 as <-.
    - destruct H8 as [?|[? H8]]; [by left|right]. split; [done|]. 
      unfold occ in *. rewrite filter_cons, decide_True in H8 by done. simpl in H8. lia. }
  destruct (iterkeys c s) as [[ks|e] s1] eqn:Ek; simpl in Q, W1.
  2: { rewrite (bind_Exc _ _ _ _ _ Ek). eexists _, _. split; [done|]. apply Hfail; [done..|].
       intros Hr. destruct (Hready Hr) as (? & ? & ? & ? & ? & ? & ? & ? & ? & ? & (ks & s1' & Hk & ?) & _). congruence. }
  rewrite (bind_Ret _ _ _ _ _ Ek). specialize (Hks ks s1 eq_refl).
  destruct (live_view s1 self) as [ws Hws]; [by eapply eqv_live|].
  destruct (live_view s1 c) as [wc Hwc]; [by eapply eqv_live|].
  pose proof (index_of_eff _ _ _ Hws) as Eis. pose proof (index_of_eff _ _ _ Hwc) as Eic.
  destruct (w_index ws) as [i|] eqn:Hi.
  2: { eexists (Exc AttributeError), s1. split; [|apply Hfail; [done..|];
         intros Hr; destruct (Hready Hr) as (i' & j' & _ & _ & Hi' & Hj' & _);
         unfold fld in Hi', Hj'; rewrite <- (e_views _ _ Q) in Hi', Hj'; rewrite ?Hws, ?Hwc in *; simpl in *; congruence].
       destruct ks; [rewrite bind_ret; by rewrite (bind_Exc _ _ _ _ _ Eis)|].
       apply bind_Exc. by rewrite (bind_Exc _ _ _ _ _ Eis). }
  destruct (read_idx_eff s1 self ws i) as [mi Hmi]; [done..|].
  destruct (w_index wc) as [j|] eqn:Hj.
  2: { eexists (Exc AttributeError), s1. split; [|apply Hfail; [done..|];
         intros Hr; destruct (Hready Hr) as (i' & j' & _ & _ & Hi' & Hj' & _);
         unfold fld in Hi', Hj'; rewrite <- (e_views _ _ Q) in Hi', Hj'; rewrite ?Hws, ?Hwc in *; simpl in *; congruence].
       destruct ks; [rewrite bind_ret; rewrite (bind_Ret _ _ _ _ _ Eis), (bind_read_idx _ _ _ _ Hmi); by rewrite (bind_Exc _ _ _ _ _ Eic)|].
       apply bind_Exc. rewrite (bind_Ret _ _ _ _ _ Eis), (bind_read_idx _ _ _ _ Hmi). by rewrite (bind_Exc _ _ _ _ _ Eic). }
  destruct (read_idx_eff s1 c wc j) as [mj Hmj]; [done..|].
  assert (Hrest : (ks = [] \/ dom mi ∩ dom mj = ∅) ->
     exists r s', (do! write_idx i (mj ∪ mi) in do! modify c (with_index (Some i)) in set_stack all bs self k (VNode c)) s1 = (r, s')
     /\ stack_eff (Reference :: bs) self k (VNode c) s r s' /\ outcome (Reference :: bs) s self k (VNode c) r).
  { intros Hd. destruct (ref_merge s1 self c i j mi mj) with (A := unit) (m := set_stack all bs self k (VNode c))
      as (s2 & -> & W2 & Hx2 & Hv2 & Hl2 & Hu2 & Hf2 & Hc2); try done.
    { by eapply eqv_live. } { unfold fld. rewrite Hws. simpl. by f_equal. }
    { unfold fld. rewrite Hwc. simpl. by f_equal. }
    destruct (IH s2) as (r & s3 & E & F & G).
    { split; [done|]. split.
      - rewrite <- Hcls. unfold fld. rewrite Hv2, (e_views _ _ Q). destruct (decide (c = self)) as [<-|].
        + rewrite lookup_alter. by destruct (views s !! c).
        + by rewrite lookup_alter_ne.
      - simpl. apply views_live. rewrite Hv2, lookup_alter, Hwc. simpl. eauto. }
    exists r, s3. split; [done|].
    rewrite (e_views _ _ Q) in *.
    assert (Hfld : forall B (F : view -> B) x, (forall w i, F (vw_index i w) = F w) -> fld F s2 x = fld F s x).
    { intros B F0 x HF. unfold fld. rewrite Hv2. destruct (decide (c = x)) as [<-|].
      - rewrite lookup_alter. destruct (views s !! c); simpl; [by rewrite HF|done].
      - by rewrite lookup_alter_ne. }
    split; cycle 1.
    { intros a Hr Ha. simpl. apply G; [|by rewrite Hfld].
      destruct (Hready Hr) as (i' & j' & mi' & mj' & Hi' & Hj' & Hmi' & Hmj' & e & He & _ & Hd').
      intros c0 [= <-] Hrb. 
      destruct Hd' as [->|[_ Hocc]].
      2: { exfalso. unfold occ in Hocc. apply nil_length_inv in Hocc. unfold hasc in Hrb. apply bool_decide_eq_true in Hrb.
           assert (Reference ∈ filter (eq Reference) bs) as Hin by (by apply elem_of_list_filter).
           rewrite Hocc in Hin. by apply elem_of_nil in Hin. }
      destruct (Hr c eq_refl) as (_ & _ & _ & _ & cl & e & _ & _ & _ & _ & Hcl & Htc & _); [by rewrite hasc_cons|].
      assert (Hcc2 : fld w_index s2 c = Some (Some i)).
      { unfold fld. rewrite Hv2, lookup_alter, Hwc. done. }
      assert (Hs2 : fld w_index s2 self = Some (Some i)).
      { destruct (decide (c = self)) as [<-|]; [done|]. unfold fld. rewrite Hv2, lookup_alter_ne, Hws by done.
        simpl. by f_equal. }
      exists i, i, (mj ∪ mi), (mj ∪ mi), cl, []. split; [done|]. split; [done|].
      rewrite Hx2, lookup_insert. split; [done|]. split; [done|]. split; [by rewrite Hfld|]. split; [done|].
      split; [by rewrite Hfld|by left]. }
    apply (stack_eff_ref bs self k c s s2 r s3 i j mi mj); try done.
    - unfold fld. rewrite Hws. simpl. by f_equal.
    - unfold fld. rewrite Hwc. simpl. by f_equal.
    - by rewrite <- (e_idxs _ _ Q).
    - by rewrite <- (e_idxs _ _ Q).
    - by rewrite <- (e_idxs _ _ Q).
    - by rewrite <- (e_log _ _ Q).
    - by rewrite <- (e_uuid _ _ Q).
    - by rewrite <- (e_fb _ _ Q).
    - by rewrite <- (e_classes _ _ Q).
    - destruct Hd as [Hd|Hd]; [left; by apply Hks|by right]. }
  assert (Hcont : forall A (m : nat -> gmap (option N) nat -> nat -> gmap (option N) nat -> M A),
     (let! i := index_of self in let! mi := read_idx i in let! j := index_of c in let! mj := read_idx j in m i mi j mj) s1 = m i mi j mj s1).
  { intros A m. by rewrite (bind_Ret _ _ _ _ _ Eis), (bind_read_idx _ _ _ _ Hmi), (bind_Ret _ _ _ _ _ Eic), (bind_read_idx _ _ _ _ Hmj). }
  destruct ks as [|k0 ks].
  - rewrite bind_ret, Hcont. apply Hrest. by left.
  - destruct (decide (dom mi ∩ dom mj = ∅)) as [Hd|Hd].
    + rewrite (bind_Ret _ _ s1 tt s1).
      * rewrite Hcont. apply Hrest. by right.
      * rewrite (Hcont _ (fun i mi j mj => if decide (dom mi ∩ dom mj = ∅) then ret tt else raise (ValueError "Node with uuid already exists"))).
        by rewrite decide_True.
    + eexists _, s1. split; [|apply Hfail; [done..|];
         intros Hr; destruct (Hready Hr) as (i' & j' & mi' & mj' & Hi' & Hj' & Hmi' & Hmj' & e' & _ & (ks' & s1' & Hk1 & Hk2) & Hd');
         unfold fld in Hi', Hj'; rewrite <- (e_views _ _ Q) in Hi', Hj'; rewrite <- (e_idxs _ _ Q) in Hmi', Hmj'; rewrite ?Hws, ?Hwc in *; simpl in *;
         destruct Hd' as [->|[Hd' _]]; [simpl in Hk2; congruence|]; apply Hd; congruence]. apply bind_Exc.
      rewrite (Hcont _ (fun i mi j mj => if decide (dom mi ∩ dom mj = ∅) then ret tt else raise (ValueError "Node with uuid already exists"))).
      by rewrite decide_False.
Qed.

Lemma set_stack_nodespaces bs self k v s cls all :
  pre_ok s self v cls ->
  (forall s, pre_ok s self v cls -> exists r s', set_stack all bs self k v s = (r, s')
      /\ stack_eff bs self k v s r s' /\ outcome bs s self k v r) ->
  exists r s', set_stack all (Nodespaces :: bs) self k v s = (r, s') /\ stack_eff (Nodespaces :: bs) self k v s r s'
    /\ outcome (Nodespaces :: bs) s self k v r.
Proof.
  intros (W & Hcls & Hv) IH. simpl.
  assert (Hfail : (forall a, set_res a (Nodespaces :: bs) k v = Exc AttributeError) ->
    exists r s', raise (A := unit) AttributeError s = (r, s') /\ stack_eff (Nodespaces :: bs) self k v s r s'
      /\ outcome (Nodespaces :: bs) s self k v r).
  { intros Hs. eexists _, _. split; [done|]. split; [|intros a _ _; by rewrite Hs]. apply stack_eff_fail; [done|apply eqv_refl|by left]. }
  destruct k as [str| | |]; try (by apply Hfail).
  destruct (reserved str) eqn:Er.
  2: { destruct (IH s) as (r & s' & E & F & G); [done|]. exists r, s'. split; [done|].
       split; cycle 1. { intros a Hr Ha. simpl. rewrite Er. apply G; [|done]. eapply ref_ready_cons; [|exact Hr]; done. }
       unfold stack_eff, nskey, occ in *. rewrite !hasc_cons. simpl in *. rewrite Er in *. rewrite andb_false_r in F. done. }
  destruct (is_node v) eqn:Hn; [|destruct v; try (apply Hfail; simpl; by rewrite Er); discriminate Hn]. clear Hfail.
  destruct v as [| | | | | | |c| | | |]; try discriminate Hn. simpl in Hv.
  assert (live s self) as Hself. { apply (fld_live w_cls). by rewrite Hcls. }
  destruct (adopt_eff s c (KStr str) (Some self)) as (s2 & A & Em); [exact W|exact Hv|by intros q [= <-]|].
  rewrite Em.
  destruct (live_view s2 self) as [w Hw]; [by apply A|].
  destruct (ns_slot s2 self w) as (l & s3 & E3 & Q3 & W3 & o3 & Ho3 & Hs3 & _); [by destruct A|done|].
  rewrite (bind_Ret _ _ _ _ _ E3).
  destruct (dict_set_eff s3 self o3 SNodespaces l (KStr str) (VNode c) W3 Ho3 Hs3) as (s4 & E4 & W4 & Wr); [|done|].
  { simpl. eapply eqv_live; [done|]. by apply A. }
  assert (view_of s3 self o3 = w) as Hvw.
  { apply nodes_views in Ho3. rewrite (e_views _ _ Q3), Hw in Ho3. by injection Ho3. }
  rewrite Hvw in Wr. simpl in Wr.
  exists (Ret tt), s4. split; [done|]. split; cycle 1. { intros a _ _. simpl. by rewrite Er. }
  assert (F : set_eff true true false 0 self (KStr str) (VNode c) s (Ret tt) s4).
  { eapply set_eff_adopt; [exact A|done|].
    eapply (set_eff_write true); try done. intros c' [= <-] _. by destruct A. }
  unfold stack_eff. replace (nskey (Nodespaces :: bs) (KStr str)) with true.
  eapply set_eff_ns_any; [exact F|by left].
Qed.

Lemma set_stack_lifecycle bs self k v s cls all :
  pre_ok s self v cls ->
  (forall s, pre_ok s self v cls -> exists r s', set_stack all bs self k v s = (r, s')
      /\ stack_eff bs self k v s r s' /\ outcome bs s self k v r) ->
  exists r s', set_stack all (Lifecycle :: bs) self k v s = (r, s') /\ stack_eff (Lifecycle :: bs) self k v s r s'
    /\ outcome (Lifecycle :: bs) s self k v r.
Proof.
  intros HP IH. simpl. destruct (IH s HP) as (r & s1 & E & F & G). destruct HP as (W & Hcls & Hv).
  assert (G' : outcome (Lifecycle :: bs) s self k v r).
  { intros a Hr Ha. simpl. apply G; [|done]. eapply ref_ready_cons; [|exact Hr]; done. }
  destruct r as [[]|e].
  2: { rewrite (bind_Exc _ _ _ _ _ E). eexists _, _. split; [done|]. split; [|done].
       unfold stack_eff, nskey, occ in *. rewrite !hasc_cons. simpl. by destruct F; constructor. }
  rewrite (bind_Ret _ _ _ _ _ E).
  destruct (fld_view _ _ _ _ Hcls) as (w & Hw & <-).
  destruct (fld_core_view _ s1 _ _ Hw (se_core _ _ _ _ _ _ _ _ _ _ F self)) as (w1 & Hw1 & _ & _ & Hsup & _).
  destruct (load_view _ _ _ Hw1) as (o & Hload & Ho & Hwo). rewrite (bind_Ret _ _ _ _ _ Hload).
  assert (Hso : o_suppress o = w_suppress w). { by rewrite <- Hsup, <- Hwo. }
  assert (Hocc : occ Lifecycle (Lifecycle :: bs) = S (occ Lifecycle bs)).
  { unfold occ. rewrite filter_cons, decide_True by done. done. }
  rewrite Hso. destruct (w_suppress w) eqn:Hsw.
  - exists (Ret tt), s1. split; [done|]. split; [|done]. unfold stack_eff, nskey in *. rewrite Hocc, !hasc_cons. simpl.
    destruct F; constructor; try done.
    intros b Hns Hr Hb. rewrite (se_log b) by done. unfold fld in Hb. rewrite Hw in Hb. simpl in Hb. rewrite Hsw in Hb.
    injection Hb as <-. done.
  - eexists (Ret tt), _. split; [done|]. split; [|done]. unfold stack_eff, nskey in *. rewrite Hocc, !hasc_cons. simpl.
    assert (W' : wf (set_log (fun l => l ++ [EvAdded v self k]) s1)).
    { assert (wf s1) as W1 by (by destruct F). by destruct (safe_notify s1 (EvAdded v self k) W1) as [? _]. }
    destruct F; constructor; try done.
    intros b Hns Hr Hb. simpl. rewrite (se_log b) by done. unfold fld in Hb. rewrite Hw in Hb. simpl in Hb. rewrite Hsw in Hb.
    injection Hb as <-. rewrite <- app_assoc. f_equal. change (EvAdded v self k :: replicate (occ Lifecycle bs) (EvAdded v self k)) with (replicate (S (occ Lifecycle bs)) (EvAdded v self k)). by rewrite replicate_S_end.
Qed.

Lemma set_stack_validate bs self k v s cls all :
  pre_ok s self v cls ->
  (forall s, pre_ok s self v cls -> exists r s', set_stack all bs self k v s = (r, s')
      /\ stack_eff bs self k v s r s' /\ outcome bs s self k v r) ->
  exists r s', set_stack all (NodeChildValidate :: bs) self k v s = (r, s') /\ stack_eff (NodeChildValidate :: bs) self k v s r s'
    /\ outcome (NodeChildValidate :: bs) s self k v r.
Proof.
  intros HP IH. simpl. destruct (IH s HP) as (r & s1 & E & F & G). destruct HP as (W & Hcls & Hv).
  destruct (fld_view _ _ _ _ Hcls) as (w & Hw & <-).
  destruct (load_view _ _ _ Hw) as (o & Hload & Ho & Hwo). rewrite (bind_Ret _ _ _ _ _ Hload).
  assert (Hoa : forall a, fld w_allow s self = Some a -> a = o_allow o).
  { intros a. unfold fld. rewrite Hw, <- Hwo. simpl. congruence. }
  destruct (_ && _) eqn:E1.
  { eexists _, _. split; [done|]. split.
    - apply stack_eff_fail; [done|apply eqv_refl|by left].
    - intros a _ ->%Hoa. simpl. by rewrite E1. }
  destruct (_ && negb _) eqn:E2.
  { eexists _, _. split; [done|]. split.
    - apply stack_eff_fail; [done|apply eqv_refl|by left].
    - intros a _ ->%Hoa. simpl. by rewrite E1, E2. }
  exists r, s1. split; [done|]. split; [by apply stack_eff_pass|].
  intros a Hr Ha. simpl. rewrite (Hoa a Ha), E1, E2. rewrite <- (Hoa a Ha). apply G; [|done]. eapply ref_ready_cons; [|exact Hr]; done.
Qed.

(** assignment also passes through these *)
Definition set_beh (b : behavior) : bool :=
  tree_beh b || match b with ChildFactory | Fallback => true | _ => false end.
Lemma set_stack_eff all bs : forall s self k v cls,
  c_behs cls = all -> storage_class all = true -> hasc FixedChildren all = false -> forallb set_beh bs = true -> pre_ok s self v cls ->
  exists r s', set_stack all bs self k v s = (r, s') /\ stack_eff bs self k v s r s'
    /\ outcome bs s self k v r.
Proof.
  intros s self k v cls Hall Ht Hnf Hb. revert s. induction bs as [|b bs IH]; intros s HP.
  - simpl. destruct HP as (W & Hcls & Hv). destruct (fld_view _ _ _ _ Hcls) as (w & Hw & <-).
    rewrite <- Hall. destruct (set_endpoint_eff s self w k v) as (r & s' & E & F & G); try done.
    { by rewrite Hall. } { by rewrite Hall. }
    exists r, s'. split; [done|]. split; [exact F|]. intros a _ _. exact G.
  - simpl in Hb. apply andb_prop in Hb as [Hb1 Hb2]. specialize (IH Hb2).
    destruct b; try discriminate Hb1;
      try (destruct (IH s HP) as (r & s' & E & F & G); exists r, s'; split; [exact E|]; split; [by apply stack_eff_pass|];
        intros a Hr Ha; simpl; apply G; [eapply ref_ready_cons; [|exact Hr]; done|done]).
    + by eapply set_stack_adopt.
    + by eapply set_stack_validate.
    + by eapply set_stack_nodespaces.
    + by eapply set_stack_reference.
    + by eapply set_stack_lifecycle.
Qed.

Lemma tree_set_beh bs : forallb tree_beh bs = true -> forallb set_beh bs = true.
Proof. rewrite !forallb_forall. intros H b Hb. unfold set_beh. by rewrite (H b Hb). Qed.
Lemma set_no_fixed bs : forallb set_beh bs = true -> hasc FixedChildren bs = false.
Proof.
  intros H. unfold hasc. apply bool_decide_eq_false. intros Hin.
  rewrite forallb_forall in H. apply elem_of_list_In in Hin. by apply H in Hin.
Qed.
Theorem setitem_eff' s self cls k v :
  wf s -> fld w_cls s self = Some cls -> forallb set_beh (c_behs cls) = true -> storage_class (c_behs cls) = true -> vok s v ->
  exists r s', setitem self k v s = (r, s') /\ stack_eff (c_behs cls) self k v s r s'
    /\ outcome (c_behs cls) s self k v r.
Proof.
  intros W Hcls Hb Hst Hv. destruct (fld_view _ _ _ _ Hcls) as (w & Hw & Hwc).
  destruct (load_view _ _ _ Hw) as (o & Hload & Ho & Hwo). unfold setitem.
  rewrite (bind_Ret _ _ _ _ _ Hload). replace (o_cls o) with cls by (by rewrite <- Hwc, <- Hwo).
  eapply set_stack_eff; try done. by apply set_no_fixed.
Qed.
Theorem setitem_eff s self cls k v :
  wf s -> fld w_cls s self = Some cls -> tree_class (c_behs cls) = true -> vok s v ->
  exists r s', setitem self k v s = (r, s') /\ stack_eff (c_behs cls) self k v s r s'
    /\ outcome (c_behs cls) s self k v r.
Proof.
  intros W Hcls [Hb Hst]%tree_class_inv Hv. apply setitem_eff'; try done. by apply tree_set_beh.
Qed.
