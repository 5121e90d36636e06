(** Fixed children over all histories, and loops over them. *)
From Verif Require Import Py Odict OdictFacts Aliaser Heap Model MonadFacts WF Views SpecMapping StorageProofs TreeOps Observe Reach Slots Lasting SpecFactory FactoryProofs FixedProofs
  SpecCopy Loops SpecLoops LoopProofs FixedLoops.

Lemma safekept_from s x : reach s -> has_fixed s x -> exists L, safekept x L (fixed_at s x) s.
Proof.
  intros R [L E]. pose proof (reach_wf _ R) as W. unfold fixed_at in *. destruct (nodes s !! x) as [o|] eqn:Ho; [|done]. simpl in *.
  destruct (wf_nodes s W x o Ho) as [Hx Hok]. destruct (ok_slot s o Hok SChildren L E) as [d Hd]. destruct (wf_dicts s W L d Hd) as (HL & _). exists L. rewrite E. simpl. rewrite Hd. simpl.
  constructor; [by exists o|done|done|]. intros z o' Hz.
  split; [|split]; intros F; [destruct (wf_own s W x z o o' SChildren SStorage L Ho Hz E F)|destruct (wf_own s W x z o o' SChildren SCache L Ho Hz E F)|destruct (wf_own s W x z o o' SChildren SNodespaces L Ho Hz E F)]; done.
Qed.
Lemma safekept_at x L D s : safekept x L D s -> has_fixed s x /\ fixed_at s x = D.
Proof.
  intros K. destruct (sk_slot _ _ _ _ K) as (o & Ho & E). unfold has_fixed, fixed_at. rewrite Ho. simpl. rewrite E. simpl. rewrite (sk_dict _ _ _ _ K). split; [eauto|done].
Qed.
Lemma safekept_ops x L D ops : forall s, safekept x L D s -> safekept x L D (after_ops ops s).
Proof. induction ops as [|o ops IH]; intros s K; [done|]. simpl. apply IH. by apply skt_run. Qed.
Lemma fixed_forever s x ops : reach s -> has_fixed s x -> has_fixed (after_ops ops s) x /\ fixed_at (after_ops ops s) x = fixed_at s x.
Proof. intros R H. destruct (safekept_from s x R H) as (L & K). by apply (safekept_at x L), safekept_ops. Qed.
Lemma class_stays x cls ops : forall s, x < next_id s -> class_of s x = Some cls -> class_of (after_ops ops s) x = Some cls.
Proof.
  induction ops as [|o ops IH]; intros s Hx H; [done|]. simpl. destruct (stays_run o s) as (N & _ & S). unfold class_of in H. destruct (nodes s !! x) as [ob|] eqn:Ho; [|done].
  destruct (S x ob Hx Ho) as (ob' & Ho' & E & _). apply IH; [lia|]. unfold class_of. rewrite Ho'. simpl in *. congruence.
Qed.
Lemma fixed_nodup s x : reach s -> NoDup (dkeys (fixed_at s x)).
Proof.
  intros R. pose proof (reach_wf _ R) as W. unfold fixed_at. destruct (nodes s !! x) as [o|] eqn:Ho; simpl; [|constructor]. destruct (o_children o) as [L|] eqn:E; simpl; [|constructor].
  destruct (dicts s !! L) as [d|] eqn:Hd; simpl; [|constructor]. by destruct (wf_dicts s W L d Hd) as (_ & ? & _).
Qed.
Lemma fixR_later s x cls ops : reach s -> class_of s x = Some cls -> has_fixed s x -> exists a, fixR x cls a (after_ops ops s) (fixed_at s x).
Proof.
  intros R Hc H. destruct (safekept_from s x R H) as (L & K). pose proof (safekept_ops x L _ ops s K) as K'.
  pose proof (class_stays x cls ops s (proj1 (sk_old _ _ _ _ K)) Hc) as Hc'. destruct (sk_slot _ _ _ _ K') as (o & Ho & E). eexists _, o, L.
  unfold class_of in Hc'. rewrite Ho in Hc'. simpl in Hc'. injection Hc' as E'. split; [done|]. split; [done|]. split; [done|]. split; [by apply K'|]. split; [by apply fixed_nodup|reflexivity].
Qed.
Lemma fixed_asked s x cls ops k : reach s -> class_of s x = Some cls -> fixed_class (c_behs cls) = true -> has_fixed s x ->
  getitem x k (after_ops ops s) = (if hashable k then match value_at k (fixed_at s x) with Some v => Ret v | None => Exc (KeyError k) end else Exc TypeError, after_ops ops s) /\
  keys x (after_ops ops s) = (Ret (map fst (fixed_at s x)), after_ops ops s).
Proof.
  intros R Hc Hf H. destruct (fixR_later s x cls ops R Hc H) as (a & F). split; [|exact (fix_iter x cls a Hf _ _ F)].
  rewrite (fix_get x cls a Hf _ _ k F). unfold do_get. f_equal. by destruct k.
Qed.
(** * Loops *)
Lemma lasting_keys x L D s : safekept x L D s -> keys_in s L = dkeys D.
Proof. intros K. unfold keys_in. by rewrite (sk_dict _ _ _ _ K). Qed.
Lemma lasting_next x L D s i : NoDup (dkeys D) -> i <= length (dkeys D) -> safekept x L D s ->
  iter_next (reached L (dkeys D) i) s = (Ret (dkeys D !! i), if decide (i < length (dkeys D)) then reached L (dkeys D) (S i) else Exhausted).
Proof.
  intros ND Hi K0. pose proof (lasting_keys _ _ _ _ K0) as K. generalize dependent (dkeys D). intros ks ND Hi K. destruct i as [|j].
  - simpl. rewrite K. by destruct ks.
  - simpl. destruct (lookup_lt_is_Some_2 ks j) as [k Hk]; [lia|]. rewrite Hk. simpl. rewrite K, decide_True by (by eapply elem_of_list_lookup_2).
    destruct (key_after_find k ks) as (i & F & G); [by eapply elem_of_list_lookup_2|]. apply list_find_Some in F as (F & _ & _).
    rewrite (NoDup_lookup _ _ _ _ ND F Hk) in G. rewrite G. destruct (decide (S j < length ks)) as [l|l].
    + destruct (lookup_lt_is_Some_2 ks (S j)) as [k' Hk']; [lia|]. by rewrite Hk'.
    + by rewrite lookup_ge_None_2 by lia.
Qed.
Lemma lasting_loop x L D acts : NoDup (dkeys D) -> forall s i, i <= length (dkeys D) -> safekept x L D s ->
  answers (reached L (dkeys D) i) s acts = map (fun i => Ret (dkeys D !! i)) (seq i (asked acts)).
Proof.
  intros ND. induction acts as [|[|o] acts IH]; intros s i Hi K; [done| |].
  - rewrite answers_next, (lasting_next x L D s i ND Hi K). cbn [fst snd asked seq map]. f_equal. destruct (decide (i < length (dkeys D))) as [l|l].
    + by apply IH; [lia|].
    + rewrite answers_done. symmetry. apply past_the_end. lia.
  - rewrite answers_call. cbn [asked]. rewrite <- (IH (snd (run_op o s)) i Hi); [|by apply skt_run]. f_equal. destruct i as [|j]; [done|]. simpl. by destruct (dkeys D !! j).
Qed.
Lemma fixed_loop s x : reach s -> has_fixed s x ->
  exists c, fixed_iter x s = (Ret c, s) /\ forall acts, answers c s acts = one_by_one (map fst (fixed_at s x)) (asked acts).
Proof.
  intros R H. destruct (safekept_from s x R H) as (L & K). exists (OdictFresh L). split.
  - destruct (sk_slot _ _ _ _ K) as (o & Ho & E). unfold fixed_iter, fixed_of. rewrite bind_assoc, (bind_load _ _ _ _ Ho), E. done.
  - intros acts. exact (lasting_loop x L _ acts (fixed_nodup s x R) s 0 ltac:(lia) K).
Qed.
(** consumed at once *)
Lemma iter_fixed s x o : nodes s !! x = Some o -> Alias ∉ c_behs (o_cls o) -> FixedChildren ∈ c_behs (o_cls o) -> has_fixed s x -> reach s ->
  keys x s = (Ret (map fst (fixed_at s x)), s).
Proof.
  intros Ho Ha Hfx H R. destruct (safekept_from s x R H) as (L & K). unfold keys, iter. rewrite (bind_load _ _ _ _ Ho).
  assert (E : forall bs, Alias ∉ bs -> iter_stack (c_behs (o_cls o)) bs x s = iter_endpoint (c_behs (o_cls o)) x s).
  { induction bs as [|b bs IH]; [done|]. intros Hb. simpl. destruct b; simpl; try (apply IH; set_solver). set_solver. }
  rewrite E by done. unfold iter_endpoint, hasc. rewrite bool_decide_eq_true_2 by done. destruct (sk_slot _ _ _ _ K) as (o' & Ho' & E'). assert (o' = o) as -> by congruence.
  unfold fixed_of. rewrite bind_assoc, (bind_load _ _ _ _ Ho), E', bind_ret. unfold bind, read_dict. by rewrite (sk_dict _ _ _ _ K).
Qed.
Lemma fixed_keys_at_once s x cls : reach s -> class_of s x = Some cls -> FixedChildren ∈ c_behs cls -> Alias ∉ c_behs cls -> has_fixed s x ->
  exists n, forall f, n <= f -> fixed_keys_loop f x s = keys x s.
Proof.
  intros R Hc Hfx Ha H. unfold class_of in Hc. destruct (nodes s !! x) as [o|] eqn:Ho; [|done]. simpl in Hc. injection Hc as <-. rewrite (iter_fixed s x o Ho Ha Hfx H R).
  destruct (safekept_from s x R H) as (L & K). exists (S (length (fixed_at s x))). intros f Hfu. unfold fixed_keys_loop, fixed_iter, fixed_of.
  destruct (sk_slot _ _ _ _ K) as (o' & Ho' & E'). rewrite !bind_assoc, (bind_load _ _ _ _ Ho'), E', !bind_ret.
  assert (G : forall n i, i <= length (dkeys (fixed_at s x)) -> length (dkeys (fixed_at s x)) - i < n -> draw n ret (reached L (dkeys (fixed_at s x)) i) s = (Ret (drop i (dkeys (fixed_at s x))), s)).
  { induction n as [|n IH]; intros i Hi Hn; [lia|]. simpl. rewrite (lasting_next x L _ s i (fixed_nodup s x R) Hi K). destruct (decide (i < length (dkeys (fixed_at s x)))) as [l|l].
    - destruct (lookup_lt_is_Some_2 _ i l) as [k Hk]. rewrite Hk. unfold ret at 1. rewrite (drop_S _ _ _ Hk).
      assert (iter_watch s s (reached L (dkeys (fixed_at s x)) (S i)) = reached L (dkeys (fixed_at s x)) (S i)) as -> by (simpl; by rewrite Hk). unfold bind. by rewrite IH by lia.
    - rewrite (lookup_ge_None_2 _ i) by lia. by rewrite drop_ge by lia. }
  apply (G f 0); [lia|]. unfold dkeys. rewrite map_length. lia.
Qed.
