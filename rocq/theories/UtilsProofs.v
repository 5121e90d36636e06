(** Proofs about node.utils and treerepr. *)
From Coq Require Import Ascii.
From Verif Require Import Py Odict OdictFacts Aliaser Heap Model MonadFacts WF WFOps Views StrFacts SpecMapping
  MappingProofs StorageProofs Observe TreeOps SetEff DelEff DetachEff ObserveFacts SpecTree MappingProps Utils SpecUtils.
From stdpp Require Import list.

(** * ReverseMapping *)
Section reverse.
Context {K V : Type} (I : st -> Prop) (it : M (list K)) (get : K -> M V) (its : M (list (K * V))) (len : M nat)
  (eqv : V -> V -> bool) (d : list (K * V)) (A : acts_like I it get its len d).

Lemma rm_find_spec v l : forall s, I s -> (forall e, e ∈ l -> e ∈ d) ->
  exists r s', rm_find get eqv (map fst l) v s = (Ret r, s') /\ I s' /\ first_key_holding eqv l v r.
Proof.
  induction l as [|[k w] l IH]; intros s Hs Hl; simpl.
  - exists None, s. split; [done|]. split; [done|constructor].
  - destruct (al_get _ _ _ _ _ _ A s k w Hs) as (s1 & E1 & I1); [apply Hl; by left|].
    rewrite (bind_Ret _ _ _ _ _ E1). destruct (eqv w v) eqn:Ew.
    + exists (Some k), s1. split; [done|]. split; [done|]. by exists [], w, l.
    + destruct (IH s1 I1) as (r & s2 & E2 & I2 & F); [intros e He; apply Hl; by right|].
      exists r, s2. split; [done|]. split; [done|]. destruct r as [k'|]; simpl in *.
      * destruct F as (pre & w' & post & -> & Hw & Hp). exists ((k, w) :: pre), w', post. split; [done|]. split; [done|]. by constructor.
      * by constructor.
Qed.
Lemma rm_getitem_spec v s : I s ->
  exists r s', rm_getitem it get eqv v s = (Ret r, s') /\ I s' /\ first_key_holding eqv d v r.
Proof.
  intros Hs. unfold rm_getitem. destruct (al_iter _ _ _ _ _ _ A s Hs) as (s1 & E1 & I1).
  rewrite (bind_Ret _ _ _ _ _ E1). by apply rm_find_spec.
Qed.
Lemma rm_get_spec v k0 s : I s ->
  exists r s', rm_get it get eqv v k0 s = (Ret (default k0 r), s') /\ I s' /\ first_key_holding eqv d v r.
Proof.
  intros Hs. destruct (rm_getitem_spec v s Hs) as (r & s1 & E1 & I1 & F). exists r, s1. unfold rm_get.
  rewrite (bind_Ret _ _ _ _ _ E1). by destruct r.
Qed.
Lemma rm_contains_spec v s : I s ->
  exists b s', rm_contains it get eqv v s = (Ret b, s') /\ I s' /\ (b = true <-> exists k w, (k, w) ∈ d /\ eqv w v = true).
Proof.
  intros Hs. destruct (rm_getitem_spec v s Hs) as (r & s1 & E1 & I1 & F). unfold rm_getitem, bind in E1. unfold rm_contains, bind.
  destruct (it s) as [[ks|e] s2]; [|done]. rewrite E1. eexists _, s1. split; [done|]. split; [done|].
  destruct r as [k|]; simpl in *.
  - split; [|done]. intros _. destruct F as (pre & w & post & -> & Hw & _). exists k, w. split; [|done]. apply elem_of_app. right. left.
  - split; [done|]. intros (k & w & Hin & Hw). rewrite Forall_forall in F. specialize (F _ Hin). simpl in F. congruence.
Qed.
Lemma rm_keys_loop l : forall s, I s -> (forall e, e ∈ l -> e ∈ d) ->
  exists s', mapM_ get (map fst l) s = (Ret (map snd l), s') /\ I s'.
Proof.
  induction l as [|[k w] l IH]; intros s Hs Hl; simpl; [by exists s|].
  destruct (al_get _ _ _ _ _ _ A s k w Hs) as (s1 & E1 & I1); [apply Hl; by left|].
  rewrite (bind_Ret _ _ _ _ _ E1).
  destruct (IH s1 I1) as (s2 & E2 & I2); [intros e He; apply Hl; by right|]. rewrite (bind_Ret _ _ _ _ _ E2). by exists s2.
Qed.
Lemma rm_keys_spec s : I s -> exists s', rm_keys it get s = (Ret (map snd d), s') /\ I s'.
Proof.
  intros Hs. unfold rm_keys. destruct (al_iter _ _ _ _ _ _ A s Hs) as (s1 & E1 & I1).
  rewrite (bind_Ret _ _ _ _ _ E1). by apply rm_keys_loop.
Qed.
Lemma rm_values_spec s : I s -> exists s', rm_values it s = (Ret (map fst d), s') /\ I s'.
Proof. apply (al_iter _ _ _ _ _ _ A). Qed.
Lemma rm_items_spec s : I s -> exists s', rm_items its s = (Ret (map (fun e => (snd e, fst e)) d), s') /\ I s'.
Proof.
  intros Hs. unfold rm_items. destruct (al_items _ _ _ _ _ _ A s Hs) as (s1 & E1 & I1).
  rewrite (bind_Ret _ _ _ _ _ E1). by exists s1.
Qed.
Lemma rm_len_spec s : I s -> exists s', rm_len len s = (Ret (length d), s') /\ I s'.
Proof. apply (al_len _ _ _ _ _ _ A). Qed.
Lemma rm_inverse v k s : I s -> (forall a b, eqv a b = true <-> a = b) -> NoDup (map snd d) ->
  (exists s', rm_getitem it get eqv v s = (Ret (Some k), s')) <-> (k, v) ∈ d.
Proof.
  intros Hs He Hn. destruct (rm_getitem_spec v s Hs) as (r & s1 & E1 & I1 & F). rewrite E1. split.
  - intros [s' [= ->]]. destruct F as (pre & w & post & -> & Hw & _). apply He in Hw as ->. apply elem_of_app. right. left.
  - intros Hin. exists s1. destruct r as [k'|].
    + do 3 f_equal. destruct F as (pre & w & post & -> & Hw & Hp). apply He in Hw as ->.
      rewrite map_app in Hn. apply NoDup_app in Hn as (_ & _ & Hn). simpl in Hn. apply NoDup_cons in Hn as [Hn _].
      rewrite Forall_forall in Hp. apply elem_of_app in Hin as [Hin|Hin].
      * specialize (Hp _ Hin). simpl in Hp. rewrite (proj2 (He v v)) in Hp by done. done.
      * apply elem_of_cons in Hin as [[= ->]|Hin]; [done|]. exfalso. apply Hn. apply elem_of_list_fmap. by exists (k, v).
    + simpl in F. rewrite Forall_forall in F. specialize (F _ Hin). simpl in F. rewrite (proj2 (He v v)) in F by done. done.
Qed.
End reverse.

(** * Reading entries *)
Lemma dget_NoDup_in k v (d : list (key * val)) : NoDup (dkeys d) -> (k, v) ∈ d -> dget k d = Some v.
Proof.
  induction d as [|[k' v'] d IH]; simpl; intros Hn Hin; [by apply elem_of_nil in Hin|].
  apply NoDup_cons in Hn as [Hn Hd]. apply elem_of_cons in Hin as [[= -> ->]|Hin]; [by rewrite decide_True|].
  rewrite decide_False; [by apply IH|]. intros ->. apply Hn. unfold dkeys. apply elem_of_list_fmap. by exists (k', v).
Qed.
Lemma get_res_entry s x w k v : wf s -> views s !! x = Some w -> (k, v) ∈ entries_at s x ->
  nskey (c_behs (w_cls w)) k = false -> get_res w k = Ret v.
Proof.
  intros W Hw Hin Hn. unfold get_res, look. rewrite Hn.
  pose proof (entries_known s x W) as Hk. rewrite Forall_forall in Hk. destruct (Hk _ Hin) as [Hh _]. simpl in Hh. rewrite Hh.
  pose proof (entries_nodup s x W) as Hd. rewrite ob_entries in Hin, Hd. unfold fld in Hin, Hd. rewrite Hw in Hin, Hd. simpl in *.
  by rewrite (dget_NoDup_in k v).
Qed.
Lemma apart_nskey s x w k v : spaces_apart s -> views s !! x = Some w -> (k, v) ∈ entries_at s x ->
  nskey (c_behs (w_cls w)) k = false.
Proof.
  intros Ha Hw Hin. apply nskey_dunder_false. apply (Ha x (w_cls w) k v); [|done]. rewrite ob_class. unfold fld. by rewrite Hw.
Qed.
Lemma items_loop x w l : forall s, wf s -> views s !! x = Some w -> tree_class (c_behs (w_cls w)) = true ->
  (forall k v, (k, v) ∈ l -> get_res w k = Ret v) ->
  exists s', mapM_ (fun k => let! v := getitem x k in ret (k, v)) (map fst l) s = (Ret l, s') /\ eqv s s' /\ wf s'.
Proof.
  induction l as [|[k v] l IH]; intros s W Hw Ht Hl; simpl.
  - exists s. split; [done|]. split; [apply eqv_refl|done].
  - destruct (getitem_eff s x w k W Hw Ht) as (s1 & E1 & Q1 & W1). rewrite (Hl k v) in E1 by (by left).
    rewrite bind_assoc, (bind_Ret _ _ _ _ _ E1), bind_ret.
    destruct (IH s1 W1) as (s2 & E2 & Q2 & W2); [by eapply eqv_view|done|intros; apply Hl; by right|].
    rewrite (bind_Ret _ _ _ _ _ E2). exists s2. split; [done|]. split; [by eapply eqv_trans|done].
Qed.
Lemma ent_obs s x w : views s !! x = Some w -> entries_at s x = w_ent w.
Proof. intros Hw. rewrite ob_entries. unfold fld. by rewrite Hw. Qed.
Lemma items_eff s x w : wf s -> views s !! x = Some w -> tree_class (c_behs (w_cls w)) = true ->
  (forall k v, (k, v) ∈ entries_at s x -> nskey (c_behs (w_cls w)) k = false) ->
  exists s', items x s = (Ret (entries_at s x), s') /\ eqv s s' /\ wf s'.
Proof.
  intros W Hw Ht Hn. unfold items. destruct (iter_eff s x w W Hw Ht) as (s1 & E1 & Q1 & W1).
  rewrite (bind_Ret _ _ _ _ _ E1). rewrite <- (ent_obs _ _ _ Hw).
  destruct (items_loop x w (entries_at s x) s1 W1) as (s2 & E2 & Q2 & W2); [by eapply eqv_view|done| |].
  { intros k v Hin. apply (get_res_entry s x w k v); eauto. }
  exists s2. split; [exact E2|]. split; [by eapply eqv_trans|done].
Qed.
Lemma len_eff s x w : wf s -> views s !! x = Some w -> tree_class (c_behs (w_cls w)) = true ->
  exists s', len x s = (Ret (length (entries_at s x)), s') /\ eqv s s' /\ wf s'.
Proof.
  intros W Hw Ht. unfold len, keys. destruct (iter_eff s x w W Hw Ht) as (s1 & E1 & Q1 & W1).
  rewrite (bind_Ret _ _ _ _ _ E1). exists s1. rewrite (ent_obs _ _ _ Hw). unfold dkeys. by rewrite fmap_length.
Qed.
Lemma node_acts_like s x cls : wf s -> class_of s x = Some cls -> tree_class (c_behs cls) = true ->
  (forall k v, (k, v) ∈ entries_at s x -> ~ to_spaces cls k) ->
  exists I : st -> Prop, I s /\ (forall s', I s' -> same_world s s') /\
    acts_like I (Model.iter x) (getitem x) (items x) (len x) (entries_at s x).
Proof.
  intros W Hc Ht Hn. destruct (class_view _ _ _ Hc) as (w & Hw & <-).
  assert (Hn' : forall k v, (k, v) ∈ entries_at s x -> nskey (c_behs (w_cls w)) k = false).
  { intros k v Hin. apply nskey_dunder_false. by apply (Hn k v). }
  exists (fun s' => eqv s s' /\ wf s'). split; [split; [apply eqv_refl|done]|]. split.
  { intros s' [Q _]. by apply same_world_eqv. }
  assert (Hent : forall s', eqv s s' -> entries_at s' x = entries_at s x).
  { intros s' Q. rewrite !ob_entries. by rewrite (fld_eqv _ _ _ _ Q). }
  split; intros s1.
  - intros [Q W1]. destruct (iter_eff s1 x w) as (s2 & E & Q2 & W2); [done|by eapply eqv_view|done|].
    rewrite E. exists s2. split; [by rewrite (ent_obs _ _ _ Hw)|]. split; [by eapply eqv_trans|done].
  - intros k v [Q W1] Hin. destruct (getitem_eff s1 x w k) as (s2 & E & Q2 & W2); [done|by eapply eqv_view|done|].
    exists s2. rewrite E, (get_res_entry s x w k v) by eauto. split; [done|]. split; [by eapply eqv_trans|done].
  - intros [Q W1]. destruct (items_eff s1 x w) as (s2 & E & Q2 & W2); [done|by eapply eqv_view|done|by rewrite Hent|].
    exists s2. rewrite E, Hent by done. split; [done|]. split; [by eapply eqv_trans|done].
  - intros [Q W1]. destruct (len_eff s1 x w) as (s2 & E & Q2 & W2); [done|by eapply eqv_view|done|].
    exists s2. rewrite E, Hent by done. split; [done|]. split; [by eapply eqv_trans|done].
Qed.

(** * AttributeAccess *)
Lemma aa_getattr_eff own s x cls n : wf s -> class_of s x = Some cls -> tree_class (c_behs cls) = true -> own n = false ->
  exists s', same_world s s' /\
    (~ to_spaces cls (KStr n) -> aa_getattr own x n s =
       (match value_at (KStr n) (entries_at s x) with Some v => Ret (FromContext v) | None => Exc AttributeError end, s')) /\
    (to_spaces cls (KStr n) -> aa_getattr own x n s =
       (match value_at (KStr n) (spaces_at s x) with Some v => Ret (FromContext v) | None => Exc AttributeError end, s')).
Proof.
  intros W Hc Ht Ho. destruct (class_view _ _ _ Hc) as (w & Hw & <-).
  destruct (getitem_eff s x w (KStr n) W Hw Ht) as (s1 & E & Q & W1). exists s1. split; [by apply same_world_eqv|].
  unfold aa_getattr. rewrite Ho. rewrite !value_at_spec, (ent_obs _ _ _ Hw).
  assert (Hns : spaces_at s x = w_ns w) by (rewrite ob_spaces; unfold fld; by rewrite Hw). rewrite Hns.
  unfold get_res, look in E. simpl in E.
  split.
  - intros Hsp. apply nskey_dunder_false in Hsp. rewrite Hsp in E.
    unfold try_catch. destruct (dget (KStr n) (w_ent w)).
    + by rewrite (bind_Ret _ _ _ _ _ E).
    + by rewrite (bind_Exc _ _ _ _ _ E).
  - intros Hsp. apply nskey_dunder in Hsp. rewrite Hsp in E.
    unfold try_catch. destruct (dget (KStr n) (w_ns w)).
    + by rewrite (bind_Ret _ _ _ _ _ E).
    + by rewrite (bind_Exc _ _ _ _ _ E).
Qed.
Lemma aa_getattr_no_key_error own x n s k : fst (aa_getattr own x n s) <> Exc (KeyError k).
Proof.
  unfold aa_getattr. destruct (own n); [done|]. unfold try_catch.
  destruct (bind _ _ s) as [[v|e] s1]; [done|]. destruct e; simpl; done.
Qed.
(** * instance_property *)
Section ip.
Context {V : Type} (f : nat -> string -> nat -> res V) (o : nat) (name : string).
Lemma ip_key_ne o' name' : (o', name') <> (o, name) -> (o', "_" +:+ name') <> (o, "_" +:+ name).
Proof. intros H [= -> ->]. done. Qed.
Lemma ip_read_other o' name' s : (o', name') <> (o, name) ->
  let s' := snd (ip_read f o' name' s) in
  ip_attrs s' !! (o, "_" +:+ name) = ip_attrs s !! (o, "_" +:+ name) /\ ip_called s' o name = ip_called s o name.
Proof.
  intros H. unfold ip_read. destruct (ip_attrs s !! (o', "_" +:+ name')) eqn:E; [done|].
  pose proof (ip_key_ne _ _ H). destruct (f o' name' _); simpl; unfold ip_called; simpl; rewrite ?lookup_insert_ne by done; done.
Qed.
Lemma ip_cached l : forall s v, ip_attrs s !! (o, "_" +:+ name) = Some v ->
  let '(ans, s') := ip_reads f l s in
  answers_for (o, name) l ans = repeat (Ret v) (times_read (o, name) l) /\ ip_called s' o name = ip_called s o name /\
  ip_attrs s' !! (o, "_" +:+ name) = Some v.
Proof.
  induction l as [|[o' n'] l IH]; intros s v Hv; simpl; [done|].
  destruct (ip_read f o' n' s) as [a s1] eqn:E1. destruct (ip_reads f l s1) as [ans s2] eqn:E2.
  unfold times_read. rewrite filter_cons. destruct (decide ((o', n') = (o, name))) as [[= -> ->]|Hne].
  - unfold ip_read in E1. rewrite Hv in E1. injection E1 as <- <-. specialize (IH s v Hv). rewrite E2 in IH.
    destruct IH as (-> & H). simpl. done.
  - pose proof (ip_read_other o' n' s Hne) as [H1 H2]. rewrite E1 in H1, H2. simpl in H1, H2.
    specialize (IH s1 v). rewrite E2 in IH. rewrite H1, H2 in IH. by apply IH.
Qed.
Lemma ip_failing l : forall s, ip_attrs s !! (o, "_" +:+ name) = None ->
  let g i := f o name (ip_called s o name + i) in
  (forall i, i < times_read (o, name) l -> fails (g i)) ->
  let '(ans, s') := ip_reads f l s in
  answers_for (o, name) l ans = map g (seq 0 (times_read (o, name) l)) /\
  ip_called s' o name = ip_called s o name + times_read (o, name) l /\ ip_attrs s' !! (o, "_" +:+ name) = None.
Proof.
  induction l as [|[o' n'] l IH]; intros s Hv g Hg; simpl; [split; [done|]; split; [unfold times_read; simpl; lia|done]|].
  destruct (ip_read f o' n' s) as [a s1] eqn:E1. destruct (ip_reads f l s1) as [ans s2] eqn:E2.
  unfold times_read in *. rewrite filter_cons in *. destruct (decide ((o', n') = (o, name))) as [[= -> ->]|Hne].
  - unfold ip_read in E1. rewrite Hv in E1. destruct (Hg 0) as [e He]; [simpl; lia|]. unfold g in He. rewrite Nat.add_0_r in He.
    rewrite He in E1. injection E1 as <- <-. specialize (IH (Ip (ip_attrs s) (<[(o, name):=S (ip_called s o name)]> (ip_calls s))) Hv).
    rewrite E2 in IH. unfold ip_called in *. simpl in *. rewrite lookup_insert in IH. simpl in IH.
    destruct IH as (-> & -> & H).
    { intros i Hi. destruct (Hg (S i)) as [e' He']; [lia|]. exists e'. unfold g in He'. rewrite Nat.add_succ_r in He'. done. }
    split; [|split; [lia|done]]. unfold g at 1. rewrite Nat.add_0_r, He. f_equal. rewrite <- seq_shift, map_map. apply map_ext.
    intros i. unfold g. f_equal. lia.
  - pose proof (ip_read_other o' n' s Hne) as [H1 H2]. rewrite E1 in H1, H2. simpl in H1, H2.
    specialize (IH s1). rewrite E2, H1, H2 in IH. by apply IH.
Qed.
Lemma ip_first_success l : forall s k v, ip_attrs s !! (o, "_" +:+ name) = None ->
  let g i := f o name (ip_called s o name + i) in
  k < times_read (o, name) l -> (forall i, i < k -> fails (g i)) -> g k = Ret v ->
  let '(ans, s') := ip_reads f l s in
  answers_for (o, name) l ans = map g (seq 0 k) ++ repeat (Ret v) (times_read (o, name) l - k) /\
  ip_called s' o name = ip_called s o name + k + 1 /\ ip_attrs s' !! (o, "_" +:+ name) = Some v.
Proof.
  induction l as [|[o' n'] l IH]; intros s k v Hv g Hk Hg Hgk; [unfold times_read in Hk; simpl in Hk; lia|]. simpl.
  destruct (ip_read f o' n' s) as [a s1] eqn:E1. destruct (ip_reads f l s1) as [ans s2] eqn:E2.
  unfold times_read in *. rewrite filter_cons in *. destruct (decide ((o', n') = (o, name))) as [[= -> ->]|Hne].
  - unfold ip_read in E1. rewrite Hv in E1. destruct k as [|k].
    + unfold g in Hgk. rewrite Nat.add_0_r in Hgk. rewrite Hgk in E1. injection E1 as <- <-.
      pose proof (ip_cached l (Ip (<[(o, "_" +:+ name):=v]> (ip_attrs s)) (<[(o, name):=S (ip_called s o name)]> (ip_calls s))) v) as H.
      rewrite E2 in H. simpl in H. rewrite lookup_insert in H. destruct (H eq_refl) as (-> & H2 & H3).
      simpl. split; [done|]. unfold ip_called in *. simpl in H2. rewrite lookup_insert in H2. simpl in H2. split; [lia|done].
    + destruct (Hg 0) as [e He]; [lia|]. unfold g in He. rewrite Nat.add_0_r in He. rewrite He in E1. injection E1 as <- <-.
      specialize (IH (Ip (ip_attrs s) (<[(o, name):=S (ip_called s o name)]> (ip_calls s))) k v Hv).
      rewrite E2 in IH. unfold ip_called in *. simpl in *. rewrite lookup_insert in IH. simpl in IH.
      destruct IH as (-> & -> & H).
      { lia. } { intros i Hi. destruct (Hg (S i)) as [e' He']; [lia|]. exists e'. unfold g in He'. rewrite Nat.add_succ_r in He'. done. }
      { unfold g in Hgk. rewrite Nat.add_succ_r in Hgk. done. }
      split; [|split; [lia|done]]. unfold g at 1. rewrite Nat.add_0_r, He. simpl. f_equal. f_equal.
      rewrite <- seq_shift, map_map. apply map_ext. intros i. unfold g. f_equal. lia.
  - pose proof (ip_read_other o' n' s Hne) as [H1 H2]. rewrite E1 in H1, H2. simpl in H1, H2.
    specialize (IH s1 k v). rewrite E2, H1, H2 in IH. by apply IH.
Qed.
End ip.

Lemma aa_setattr_eff own s x cls n v s' :
  wf s -> class_of s x = Some cls -> tree_class (c_behs cls) = true -> known s v ->
  aa_setattr x n v s = (Ret tt, s') ->
  assigned cls s x (KStr n) v s' /\
  fst (aa_getattr own x n s') = Ret (if own n then OwnAttribute n else FromContext v).
Proof.
  intros W Hc Ht Hv E. pose proof (setitem_assigned s x cls (KStr n) v s' W Hc Ht Hv E) as HA. split; [done|].
  destruct (own n) eqn:Ho; [unfold aa_getattr; by rewrite Ho|].
  assert (W' : wf s').
  { pose proof (safe_setitem s x (KStr n) v) as Hs. destruct Hs as (W' & _); [| | |unfold aa_setattr in E; by rewrite E in W'].
    - unfold class_of in Hc. unfold live. destruct (nodes s !! x); [eauto|done].
    - done.
    - done. }
  assert (Hc' : class_of s' x = Some cls) by (by rewrite (as_class _ _ _ _ _ _ HA)).
  destruct (aa_getattr_eff own s' x cls n W' Hc' Ht Ho) as (s2 & _ & H1 & H2).
  destruct (nskey (c_behs cls) (KStr n)) eqn:En.
  - apply nskey_dunder in En. rewrite (H2 En). destruct (as_spaces _ _ _ _ _ _ HA En) as [-> _].
    rewrite <- wf_dset_put_ns by done. rewrite value_at_spec, dget_dset_eq. done.
  - apply nskey_dunder_false in En. rewrite (H1 En). destruct (as_entries _ _ _ _ _ _ HA En) as [-> _].
    rewrite <- wf_dset_put by done. rewrite value_at_spec, dget_dset_eq. done.
Qed.
