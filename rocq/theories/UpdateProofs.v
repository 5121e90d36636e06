(** update with another node as the argument. *)
From Verif Require Import Py Odict OdictFacts Aliaser Heap Model MonadFacts WF WFOps Views SpecMapping
  MappingProofs StorageProofs Observe TreeOps SetEff DelEff DetachEff NewEff ObserveFacts SpecTree SpecOrder SpecUtils MappingProps OrderProofs SpecPlace PlaceProofs
  AliasProofs OpLift Reach SpecReference RefTree RefSteps RefHistory SpecAny NodeMapping ValidateProofs AnyMapping SpecUpdate NodifyProofs.
From stdpp Require Import list.

(** * items *)
Lemma items_loop x w (l : list (key * val)) : tree_class (c_behs (w_cls w)) = true -> Forall (fun e => get_res w (fst e) = Ret (snd e)) l ->
  forall s, wf s -> views s !! x = Some w ->
  exists s', mapM_ (fun k => let! v := getitem x k in ret (k, v)) (dkeys l) s = (Ret l, s') /\ eqv s s' /\ wf s'.
Proof.
  intros Ht. induction l as [|[k v] l IH]; intros Hl s W Hw; [exists s; split; [done|split; [apply eqv_refl|done]]|].
  apply Forall_cons in Hl as [Hk Hl]. simpl in Hk. destruct (getitem_eff s x w k W Hw Ht) as (s1 & E1 & Q1 & W1).
  destruct (IH Hl s1 W1) as (s2 & E2 & Q2 & W2); [by apply (eqv_view _ _ _ _ Q1)|]. exists s2. split; [|split; [by apply (eqv_trans s s1)|done]].
  cbn [dkeys map mapM_]. rewrite bind_assoc. rewrite Hk in E1. simpl. rewrite (bind_Ret _ _ _ _ _ E1). rewrite bind_ret. rewrite (bind_Ret _ _ _ _ _ E2). done.
Qed.
Lemma items_entries s x cls : wf s -> class_of s x = Some cls -> tree_class (c_behs cls) = true ->
  Forall (fun e => ~ to_spaces cls (fst e)) (entries_at s x) ->
  exists s', items x s = (Ret (entries_at s x), s') /\ eqv s s' /\ wf s'.
Proof.
  intros W Hc Ht Hd. destruct (class_view s x cls Hc) as (w & Hw & Ew). subst cls.
  rewrite (view_entries _ _ _ Hw) in *. pose proof (entries_known s x W) as Hk. pose proof (entries_nodup s x W) as Hn.
  rewrite (view_entries _ _ _ Hw) in Hk, Hn.
  destruct (iter_eff s x w W Hw Ht) as (s1 & E1 & Q1 & W1). unfold items. rewrite (bind_Ret _ _ _ _ _ E1).
  destruct (items_loop x w (w_ent w) Ht) with (s := s1) as (s2 & E2 & Q2 & W2); try done.
  - apply Forall_forall. intros [k v] Hin. rewrite Forall_forall in Hd, Hk. pose proof (Hd _ Hin) as A. destruct (Hk _ Hin) as [B _]. simpl in *.
    unfold get_res, look. rewrite (proj2 (nskey_dunder_false _ _) A), B. by rewrite (proj2 (dget_in k _ v Hn) Hin).
  - by apply (eqv_view _ _ _ _ Q1).
  - exists s2. split; [done|]. split; [by apply (eqv_trans s s1)|done].
Qed.

(** * One assignment after the other *)
Lemma listed_dec c (l : list (key * val)) : Exists (fun e => snd e = VNode c) l \/ ~ Exists (fun e => snd e = VNode c) l.
Proof.
  induction l as [|[k v] l IH]; [right; intros H; inversion H|]. destruct IH as [H|H]; [left; by right|].
  assert (Hv : v = VNode c \/ v <> VNode c). { destruct v as [| | | | | | |d| | | |]; try (by right). destruct (decide (d = c)) as [->|]; [by left|right; congruence]. }
  destruct Hv as [->|Hv]; [left; by left|]. right. intros H'. inversion H'; subst; done.
Qed.
Lemma take_one s x cls k v : wf s -> class_of s x = Some cls -> tree_class (c_behs cls) = true -> Reference ∉ c_behs cls -> usable cls k ->
  p_set (class_policy cls (allows s x)) k v = None -> known s v ->
  exists s', setitem x k v s = (Ret tt, s') /\ wf s' /\ allows s' x = allows s x /\ assigned cls s x k v s'.
Proof.
  intros W Hc Ht Hr Hu Hp Hv. destruct (class_view s x cls Hc) as (w & Hw & Hwc). pose proof Hc as Hc'. rewrite ob_class in Hc'.
  destruct (setitem_eff s x cls k v W Hc' Ht Hv) as (r & s' & E & F & O).
  assert (Ha : w_allow w = allows s x). { rewrite ob_allows. unfold fld. by rewrite Hw. }
  assert (Hres : r = Ret tt).
  { rewrite (O (w_allow w)); [|intros c _ Hrf; by rewrite (no_ref cls Hr) in Hrf|unfold fld; by rewrite Hw].
    rewrite (any_set_res x cls (w_allow w) s); [|by apply usable_nskey|by apply usable_str]. unfold class_policy in Hp. rewrite Ha, Hp. done. }
  subst r. exists s'. split; [done|]. split; [by apply se_wf in F|]. split; [|by apply setitem_assigned].
  rewrite !ob_allows. f_equal. pose proof (se_core _ _ _ _ _ _ _ _ _ _ F x) as H. unfold fld in *. destruct (views s' !! x), (views s !! x); simpl in *; try done. injection H. congruence.
Qed.
Lemma take_all x cls l : tree_class (c_behs cls) = true -> Reference ∉ c_behs cls -> forall s, wf s -> class_of s x = Some cls ->
  Forall (fun e => usable cls (fst e) /\ p_set (class_policy cls (allows s x)) (fst e) (snd e) = None) l -> Forall (known s) (map snd l) ->
  exists s', iterM (fun kv : key * val => setitem x (fst kv) (snd kv)) l s = (Ret tt, s') /\
    entries_at s' x = merged (entries_at s x) l /\ (forall z, z <> x -> entries_at s' z = entries_at s z) /\ (forall z, spaces_at s' z = spaces_at s z) /\
    (Adopt ∈ c_behs cls -> forall k c, (k, VNode c) ∈ l -> parent_at s' c = Some x /\ exists k', (k', VNode c) ∈ l /\ name_at s' c = Some k') /\
    (forall c, (forall k, (k, VNode c) ∉ l) -> keeps_place s s' c) /\ (forall z, uuid_at s' z = uuid_at s z) /\ (forall z, class_of s' z = class_of s z).
Proof.
  intros Ht Hr. induction l as [|[k v] l IH]; intros s W Hc Hl Hk.
  { exists s. split; [done|]. split; [done|]. split; [done|]. split; [done|]. split; [intros _ k c H; by apply elem_of_nil in H|]. done. }
  apply Forall_cons in Hl as [[Hu Hp] Hl]. apply Forall_cons in Hk as [Hv Hk]. simpl in Hu, Hp, Hv.
  destruct (take_one s x cls k v W Hc Ht Hr Hu Hp Hv) as (s1 & E1 & W1 & Ha1 & A). pose proof A as [A1 A2 _ A4 A5 A6].
  destruct (A2 (usable_apart cls k Hu)) as [A2e A2s].
  destruct (IH s1 W1) as (s2 & E2 & B1 & B2 & B3 & B4 & B5 & B6 & B7); [by rewrite A6|by rewrite Ha1| |].
  { eapply Forall_impl; [exact Hk|]. intros u Hu'. destruct u as [| | | | | | |c| | | |]; try done. by apply (same_class_node s s1 c (A6 c)). }
  exists s2. split; [cbn [iterM]; by rewrite (bind_Ret _ _ _ _ _ E1)|]. split; [by rewrite B1, A2e|].
  split; [intros z Hz; rewrite B2 by done; by destruct (A1 z Hz)|].
  split; [intros z; rewrite B3; destruct (decide (z = x)) as [->|Hz]; [done|by destruct (A1 z Hz)]|].
  split; [|split; [|split; [intros z; by rewrite B6|intros z; by rewrite B7]]].
  - intros Had k' c Hin. destruct (listed_dec c l) as [Hex|Hno].
    { apply Exists_exists in Hex as ([k1 v1] & Hi & Hs). simpl in Hs. subst v1. destruct (B4 Had k1 c Hi) as (P1 & k2 & P2 & P3). split; [done|]. exists k2. split; [by right|done]. }
    assert (Hnk : forall k0, (k0, VNode c) ∉ l). { intros k0 H. apply Hno, Exists_exists. by exists (k0, VNode c). }
    apply elem_of_cons in Hin as [[= -> <-]|Hin]; [|by destruct (Hnk k')].
    destruct (adoption s x cls k c s1 W Hc Ht Had Hv E1) as (G1 & G2 & _). destruct (B5 c Hnk) as [K1 K2]. rewrite K1, K2, G1, G2. split; [done|]. exists k. split; [by left|done].
  - intros c Hc0. assert (Hne : v <> VNode c). { intros ->. apply (Hc0 k). by left. }
    destruct (A4 c Hne) as [P1 P2]. destruct (B5 c) as [Q1 Q2]; [intros k0 H; apply (Hc0 k0); by right|]. split; congruence.
Qed.
Theorem update_from_shares s x y cx cy : wf s -> class_of s x = Some cx -> tree_class (c_behs cx) = true -> Reference ∉ c_behs cx ->
  class_of s y = Some cy -> tree_class (c_behs cy) = true -> Forall (fun e => ~ to_spaces cy (fst e)) (entries_at s y) ->
  takes_all cx s x y -> exists s', update_from x y s = (Ret tt, s') /\ shared cx s x y s'.
Proof.
  intros W Hcx Htx Hr Hcy Hty Hns HT. destruct (items_entries s y cy W Hcy Hty Hns) as (s1 & E1 & Q1 & W1).
  unfold update_from. rewrite (bind_Ret _ _ _ _ _ E1). pose proof (same_world_eqv _ _ Q1) as [Hs1 _ _].
  assert (Ha1 : allows s1 x = allows s x) by (rewrite !ob_allows; by rewrite (fld_eqv _ _ _ _ Q1)).
  assert (Hcl1 : forall z, class_of s1 z = class_of s z) by (intros z; by destruct (Hs1 z)).
  destruct (take_all x cx (entries_at s y) Htx Hr s1 W1) as (s2 & E2 & B1 & B2 & B3 & B4 & B5 & B6 & B7).
  - by rewrite Hcl1.
  - by rewrite Ha1.
  - pose proof (entries_known s y W) as HK. apply Forall_forall. intros v Hv. apply elem_of_list_fmap in Hv as (e & -> & He).
    rewrite Forall_forall in HK. destruct (HK _ He) as [_ Hkn]. destruct (snd e) as [| | | | | | |c| | | |]; try done. by apply (same_class_node s s1 c (Hcl1 c)).
  - exists s2. split; [unfold update; cbn [concat]; rewrite app_nil_r; by rewrite (bind_Ret _ _ _ _ _ E2)|]. constructor.
    + rewrite B1. by destruct (Hs1 x) as [_ _ _ -> _ _ _ _ _ _].
    + intros z Hz. rewrite B2 by done. by destruct (Hs1 z).
    + intros z. rewrite B3. by destruct (Hs1 z).
    + done.
    + intros c H. destruct (B5 c H) as [P1 P2]. split; [rewrite P1|rewrite P2]; by destruct (Hs1 c).
    + intros z. rewrite B6. by destruct (Hs1 z).
    + intros z. by rewrite B7.
Qed.
(** The state afterwards is one of a history. *)
Theorem update_from_reach s x y r s' : reach s -> exists_node s x -> exists_node s y -> update_from x y s = (r, s') -> reach s'.
Proof.
  intros R Hx Hy E. unfold update_from, bind in E. destruct (items y s) as [[l|e] s1] eqn:E1.
  - assert (R1 : reach s1). { apply (reach_step s (OItems y) (Ret tt) s1 R); [done|]. simpl. unfold ignore, bind. by rewrite E1. }
    apply (reach_step s1 (OUpdate x [l] []) r s' R1); [|exact E].
    destruct (safe_items s y Hy (reach_wf s R)) as (_ & X & P). rewrite E1 in X, P. simpl in *.
    split; [by apply (ext_live s s1)|]. split; [|constructor]. rewrite app_nil_r. rewrite Forall_map. exact P.
  - injection E as <- <-. apply (reach_step s (OItems y) (Exc e) s1 R); [done|]. simpl. unfold ignore, bind. by rewrite E1.
Qed.

(** * The merged entries *)
Lemma merged_dset d l : NoDup (dkeys d) -> merged d l = foldl (fun d e => dset (fst e) (snd e) d) d l /\ NoDup (dkeys (merged d l)).
Proof.
  revert d. induction l as [|[k v] l IH]; intros d ND; [done|]. simpl. rewrite put_spec by done. apply IH. by apply NoDup_dset.
Qed.
Lemma merged_value d l k : NoDup (dkeys d) -> NoDup (dkeys l) ->
  value_at k (merged d l) = match value_at k l with Some v => Some v | None => value_at k d end.
Proof.
  revert d. induction l as [|[k' v] l IH]; intros d ND NL; [done|]. cbn [merged dkeys map fst] in *. apply NoDup_cons in NL as [Hni NL].
  rewrite IH; [|rewrite put_spec by done; by apply NoDup_dset|done]. rewrite !value_at_spec. rewrite put_spec by done.
  destruct (decide (k = k')) as [->|Hne].
  - rewrite (proj2 (dget_None k' l)) by done. rewrite dget_dset_eq. cbn [dget]. by case_decide.
  - rewrite dget_dset_ne by done. cbn [dget]. by case_decide.
Qed.
Lemma filter_iff_in {A} (P Q : A -> Prop) `{!forall a, Decision (P a)} `{!forall a, Decision (Q a)} (l : list A) :
  (forall a, a ∈ l -> P a <-> Q a) -> filter P l = filter Q l.
Proof.
  induction l as [|a l IH]; intros HPQ; [done|]. rewrite !filter_cons. rewrite IH by (intros b Hb; apply HPQ; by right).
  pose proof (HPQ a (elem_of_list_here _ _)) as Ha. destruct (decide (P a)), (decide (Q a)); tauto.
Qed.
Lemma merged_keys d l : NoDup (dkeys d) -> NoDup (dkeys l) -> dkeys (merged d l) = dkeys d ++ filter (fun k => k ∉ dkeys d) (dkeys l).
Proof.
  revert d. induction l as [|[k v] l IH]; intros d ND NL; [by rewrite app_nil_r|]. change (dkeys ((k, v) :: l)) with (k :: dkeys l) in *. cbn [merged]. apply NoDup_cons in NL as [Hni NL].
  rewrite put_spec by done. rewrite IH; [|by apply NoDup_dset|done]. rewrite filter_cons. destruct (decide (k ∈ dkeys d)) as [Hi|Hi].
  - rewrite dkeys_dset_in by done. rewrite decide_False; [done|]. intros H. by apply H.
  - rewrite dset_notin by done. rewrite decide_True by done. unfold dkeys at 1. rewrite map_app. simpl. rewrite <- app_assoc. simpl. f_equal. f_equal.
    apply filter_iff_in. intros k' Hk'. unfold dkeys. rewrite map_app, elem_of_app. simpl. rewrite elem_of_list_singleton. split; [tauto|]. intros H [H'|H']; [done|]. subst k'. by apply Hni.
Qed.

Lemma merged_self d l : NoDup (dkeys d) -> NoDup (dkeys l) -> (forall e, e ∈ l -> e ∈ d) -> merged d l = d.
Proof.
  intros ND. induction l as [|[k v] l IH]; intros NL H; [done|]. change (dkeys ((k, v) :: l)) with (k :: dkeys l) in *. cbn [merged]. apply NoDup_cons in NL as [Hni NL].
  rewrite put_spec by done. rewrite dset_same. { apply IH; [done|]. intros e He. apply H. by right. }
  apply dget_in; [done|]. apply H. by left.
Qed.
