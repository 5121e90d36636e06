(** What the calls of a tidy history do to the trees and their indices. *)
From Verif Require Import Py Odict OdictFacts Aliaser Heap Model MonadFacts WF WFOps Views SpecMapping MappingProofs StorageProofs
  Observe TreeOps SetEff DelEff DetachEff NewEff ObserveFacts SpecTree SpecUtils MappingProps SpecPlace PlaceProofs SpecReference RefTree.

Lemma index_at_id s y i m : index_id s y = Some i -> idxs s !! i = Some m -> index_at s y = m.
Proof. intros H1 H2. unfold index_at. rewrite H1. simpl. by rewrite H2. Qed.
Lemma index_at_none s y : index_id s y = None -> index_at s y = ∅.
Proof. intros H1. unfold index_at. by rewrite H1. Qed.
Lemma index_at_eq s s' y : index_id s' y = index_id s y -> (forall i, index_id s y = Some i -> idxs s' !! i = idxs s !! i) -> index_at s' y = index_at s y.
Proof. intros H1 H2. unfold index_at. rewrite H1. destruct (index_id s y) as [i|]; [|done]. simpl. by rewrite H2. Qed.
Lemma listed_eq s s' y : uuid_at s' y = uuid_at s y -> index_at s' y = index_at s y -> listed s' y <-> listed s y.
Proof. intros H1 H2. unfold listed. by rewrite H1, H2. Qed.
Lemma index_known s y i : wf s -> index_id s y = Some i -> is_Some (idxs s !! i).
Proof.
  intros W H. rewrite ob_index_id in H. unfold fld in H. destruct (views s !! y) as [w|] eqn:Hw; simpl in H; [|done].
  destruct (read_idx_eff s y w i W Hw H) as [m Hm]. by eexists.
Qed.
Lemma below_sub s s' x y : (forall p k c, child s p k c -> child s' p k c) -> below s x y -> below s' x y.
Proof. intros H. induction 1; [constructor|]. eapply below_child; eauto. Qed.

(** nothing that matters changed *)
Lemma tidy_same s s' : spaces_apart s' -> (forall p k c, child s' p k c <-> child s p k c) -> (forall y, class_of s' y = class_of s y) ->
  (forall y, uuid_at s' y = uuid_at s y) -> (forall y, index_id s' y = index_id s y) -> idxs s' = idxs s -> tidy_ok s ->
  tidy_ok s' /\ forall y, listed s' y <-> listed s y.
Proof.
  intros Ha Hch Hc Hu Hi Hx T.
  assert (Hat : forall y, index_at s' y = index_at s y) by (intros y; apply index_at_eq; [done|by rewrite Hx]).
  assert (HL : forall y, listed s' y <-> listed s y) by (intros y; by apply listed_eq).
  split; [|done]. destruct T as [? to_single to_rank to_ref to_down to_up to_entry to_root to_str]. constructor; try done.
  - intros p k p' k' c. rewrite !Hch. apply to_single.
  - destruct to_rank as [rank R]. exists rank. intros p k c. rewrite Hch. apply R.
  - intros x i. rewrite Hi, Hc. apply to_ref.
  - intros p k c. rewrite !HL, Hch, !Hi. apply to_down.
  - intros p k c. rewrite !HL, Hch, !Hi. apply to_up.
  - intros x i y. rewrite !HL, Hat, !Hi, Hu. apply to_entry.
  - intros x y. rewrite !HL, !Hi. intros H1 H2 H3 H4 H5. apply to_root; try done; intros p k; rewrite <- Hch; [apply H4|apply H5].
  - intros p k c. rewrite Hch. apply to_str.
Qed.

(** a node was created *)
Definition new_index (s s' : st) (a : nat) : Prop :=
  (index_id s' a = None /\ idxs s' = idxs s) \/
  (exists j u cls, index_id s' a = Some j /\ uuid_at s' a = Some u /\ u <> 0%N /\ class_of s' a = Some cls /\ Reference ∈ c_behs cls /\
     idxs s !! j = None /\ idxs s' = <[j := {[Some u := a]}]> (idxs s)).
Lemma tidy_new s s' a : wf s -> ~ exists_node s a -> spaces_apart s' -> (forall p k c, child s' p k c <-> child s p k c) ->
  (forall y, y <> a -> class_of s' y = class_of s y /\ uuid_at s' y = uuid_at s y /\ index_id s' y = index_id s y) -> new_index s s' a -> tidy_ok s ->
  tidy_ok s' /\ forall y, listed s' y <-> listed s y \/ (y = a /\ is_Some (index_id s' a)).
Proof.
  intros W Ha Hap Hch Ho Hn T.
  assert (Hat : forall y, y <> a -> index_at s' y = index_at s y).
  { intros y Hy. destruct (Ho y Hy) as (_ & _ & Hi). apply index_at_eq; [done|]. intros i Hyi. destruct (index_known s y i W Hyi) as [m Hm].
    destruct Hn as [[_ ->]|(j & u & cls & _ & _ & _ & _ & _ & Hj & ->)]; [done|]. rewrite lookup_insert_ne; [done|]. congruence. }
  assert (HL : forall y, y <> a -> listed s' y <-> listed s y). { intros y Hy. apply listed_eq; [by apply Ho|by apply Hat]. }
  assert (Hla : listed s' a <-> is_Some (index_id s' a)).
  { destruct Hn as [[Hi Hx]|(j & u & cls & Hi & Hu & _ & _ & _ & Hj & Hx)].
    - rewrite Hi. split; [|by intros [? ?]]. intros (u & _ & H). by rewrite (index_at_none _ _ Hi) in H.
    - rewrite Hi. split; [by eexists|]. intros _. exists u. split; [done|]. erewrite index_at_id; [|done|rewrite Hx; by rewrite lookup_insert]. by rewrite lookup_singleton. }
  assert (Hnc : forall p k c, child s p k c -> p <> a /\ c <> a).
  { intros p k c H. destruct (child_view _ _ _ _ W H) as (H1 & H2 & _). split; by intros ->. }
  assert (Hnl : ~ listed s a).
  { intros (i & m & u & Hi & _)%listed_index. apply Ha. rewrite ob_index_id in Hi. unfold fld in Hi. destruct (views s !! a) eqn:E; simpl in Hi; [|done]. apply views_live. by eexists. }
  assert (HL' : forall y, listed s' y <-> listed s y \/ (y = a /\ is_Some (index_id s' a))).
  { intros y. destruct (decide (y = a)) as [->|Hy]; [rewrite Hla; naive_solver|rewrite (HL y Hy); naive_solver]. }
  assert (Hia : forall y i, y <> a -> listed s y -> index_id s' a = Some i -> index_id s' y <> Some i).
  { intros y i Hy Hl Hi E. destruct (listed_index s y Hl) as (i' & m & u & H1 & H2 & _). destruct (Ho y Hy) as (_ & _ & Hyi).
    destruct Hn as [[H3 _]|(j & u' & cls & H3 & _ & _ & _ & _ & Hj & _)]; congruence. }
  split; [|done]. destruct T as [? to_single to_rank to_ref to_down to_up to_entry to_root to_str]. constructor; try done.
  - intros p k p' k' c. rewrite !Hch. apply to_single.
  - destruct to_rank as [rank R]. exists rank. intros p k c. rewrite Hch. apply R.
  - intros x i. destruct (decide (x = a)) as [->|Hx]; [|destruct (Ho x Hx) as (-> & _ & ->); apply to_ref]. intros Hi.
    destruct Hn as [[H3 _]|(j & u' & cls & H3 & _ & _ & H4 & H5 & Hj & _)]; [congruence|by exists cls].
  - intros p k c. rewrite Hch. intros Hp H. destruct (Hnc _ _ _ H) as [H1 H2]. destruct (Ho p H1) as (_ & _ & ->). destruct (Ho c H2) as (_ & _ & ->).
    rewrite (HL c H2). apply (to_down p k c); [by apply (HL p H1)|done].
  - intros p k c. rewrite Hch. intros Hp H. destruct (Hnc _ _ _ H) as [H1 H2]. destruct (Ho p H1) as (_ & _ & ->). destruct (Ho c H2) as (_ & _ & ->).
    rewrite (HL p H1). apply (to_up p k c); [by apply (HL c H2)|done].
  - intros x i y Hx Hy. destruct (decide (x = a)) as [->|Hxa].
    + destruct Hn as [[H3 _]|(j & u & cls & H3 & H4 & H5 & _ & _ & Hj & Hxs)]; [rewrite (index_at_none _ _ H3) in Hy; by rewrite lookup_empty in Hy|].
      erewrite index_at_id in Hy; [|done|rewrite Hxs; by rewrite lookup_insert]. apply lookup_singleton_Some in Hy as [<- <-]. split; [done|]. split; [done|]. by exists u.
    + rewrite Hat in Hy by done. destruct (to_entry x i y) as (H1 & H2 & u & H3); [by apply HL|done|].
      assert (Hya : y <> a) by (by intros ->). destruct (Ho y Hya) as (_ & -> & ->). destruct (Ho x Hxa) as (_ & _ & ->). split; [by apply HL|]. split; [done|]. by exists u.
  - assert (Htop : forall z, top s' z -> top s z). { intros z Hz p k. rewrite <- Hch. apply Hz. }
    assert (G : forall y, listed s' y -> listed s' a -> index_id s' a = index_id s' y -> y = a).
    { intros y Hy Hla' Hi. destruct (decide (y = a)) as [|Hne]; [done|]. exfalso. apply Hla in Hla' as [i Hi']. apply (Hia y i); try done; [by apply HL|congruence]. }
    intros x y Hx Hy Hi Tx Ty. destruct (decide (x = a)) as [->|Hxa]; [symmetry; by apply G|]. destruct (decide (y = a)) as [->|Hya]; [by apply G|].
    apply to_root; try (by apply HL); [|by apply Htop..]. destruct (Ho x Hxa) as (_ & _ & <-). by destruct (Ho y Hya) as (_ & _ & <-).
  - intros p k c. rewrite Hch. apply to_str.
Qed.

(** a lone node became a child *)
Lemma tidy_join s s' x t c i j mi mj : let k := KStr t in wf s -> listed s x -> lone s x c -> spaces_apart s' ->
  (forall p k' d, child s' p k' d <-> child s p k' d \/ (p = x /\ k' = k /\ d = c)) -> (forall y, class_of s' y = class_of s y) -> (forall y, uuid_at s' y = uuid_at s y) ->
  index_id s x = Some i -> index_id s c = Some j -> idxs s !! i = Some mi -> idxs s !! j = Some mj ->
  index_id s' c = Some i -> (forall y, y <> c -> index_id s' y = index_id s y) -> idxs s' = <[i := mj ∪ mi]> (idxs s) -> tidy_ok s ->
  tidy_ok s' /\ (forall y, listed s' y <-> listed s y) /\ forall i' y, index_at s' x !! i' = Some y <-> index_at s x !! i' = Some y \/ (y = c /\ i' = uuid_at s c).
Proof.
  intros k W Lx (Lc & Ec & Tc & Uc) Hap Hch Hcl Hu Hxi Hcj Hmi Hmj Hci Hio Hx T.
  destruct (listed_index s c Lc) as (j' & mj' & uc & E1 & E2 & E3 & Huc & Hmc). assert (j' = j) as -> by congruence. assert (mj' = mj) as -> by congruence.
  assert (Hxat : index_at s x = mi) by (by apply (index_at_id s x i)).
  assert (Hij : i <> j). { intros ->. rewrite Hmi in Hmj. injection Hmj as <-. rewrite <- Hxat, (Uc uc Huc) in Hmc. done. }
  assert (Hxc : x <> c) by congruence.
  assert (Hnc : forall k d, ~ child s c k d). { intros k0 d H. unfold child in H. rewrite Ec in H. done. }
  assert (Hbc : forall d, below s c d -> d = c). { intros d B. inversion B as [|p k0 e d0 H B' E4 E5]; subst; [done|by apply Hnc in H]. }
  assert (Hone : forall y, listed s y -> index_id s y = Some j -> y = c).
  { intros y Ly Hy. destruct (proj1 (index_tree s c y W T Lc)) as (r & Br & By); [split; [done|congruence]|].
    apply below_last in Br as [->|(p & k0 & _ & H)]; [by apply Hbc|by apply Tc in H]. }
  assert (Hmj' : forall i' y, mj !! i' = Some y <-> i' = Some uc /\ y = c).
  { intros i' y. split; [|intros [-> ->]; done]. intros H. rewrite <- E3 in H. destruct (to_entry s T c i' y Lc H) as (Ly & Iy & u & -> & _ & Hu').
    assert (y = c) as -> by (apply Hone; [done|congruence]). split; [congruence|done]. }
  assert (Hmuc : mi !! Some uc = None) by (rewrite <- Hxat; by apply Uc).
  assert (Hun : forall i' y, (mj ∪ mi) !! i' = Some y <-> (i' = Some uc /\ y = c) \/ mi !! i' = Some y).
  { intros i' y. rewrite lookup_union_Some_raw, Hmj'. split; [intros [?|[_ ?]]; auto|]. intros [?|H]; [by left|]. right. split; [|done].
    destruct (mj !! i') as [z|] eqn:Ez; [|done]. apply Hmj' in Ez as [-> ->]. congruence. }
  assert (Hi' : idxs s' !! i = Some (mj ∪ mi)) by (rewrite Hx; by rewrite lookup_insert).
  assert (Hat : forall y, index_id s y <> Some i -> y <> c -> index_at s' y = index_at s y).
  { intros y Hy Hyc. apply index_at_eq; [by apply Hio|]. intros i' Hyi. rewrite Hx, lookup_insert_ne; [done|]. congruence. }
  assert (Hat' : forall y, index_id s' y = Some i -> index_at s' y = mj ∪ mi). { intros y Hy. by apply (index_at_id s' y i). }
  assert (HL : forall y, listed s' y <-> listed s y).
  { intros y. destruct (decide (y = c)) as [->|Hyc].
    - split; [done|]. intros _. exists uc. rewrite Hu. split; [done|]. rewrite (Hat' c Hci). apply Hun. by left.
    - destruct (decide (index_id s y = Some i)) as [Hyi|Hyi]; [|apply listed_eq; [done|by apply Hat]].
      unfold listed. rewrite Hu, (Hat' y), (index_at_id s y i mi) by (done || rewrite Hio; done). split; intros (u & H1 & H2); exists u; (split; [done|]).
      + apply Hun in H2 as [[_ ?]|?]; done.
      + apply Hun. by right. }
  assert (Hic : forall y, index_id s' y = if decide (y = c) then Some i else index_id s y) by (intros y; case_decide; [by subst|by apply Hio]).
  split; [|split; [done|]; intros i' y; rewrite (Hat' x), Hun, Hxat, Huc by (by rewrite Hio); tauto]. pose proof (to_entry s T) as Ten. destruct T as [? to_single to_rank to_ref to_down to_up to_entry to_root to_str]. constructor; try done.
  - intros p k1 p' k2 d. rewrite !Hch. intros [H1|(F1 & F2 & F3)] [H2|(F4 & F5 & F6)]; subst; [by eapply to_single|by apply Tc in H1|by apply Tc in H2|done].
  - destruct to_rank as [rank R]. exists (fun y => if decide (y = c) then 0 else S (rank y)). intros p k0 d. rewrite Hch. intros [H|(-> & -> & ->)].
    + rewrite (decide_False (P := p = c)) by (intros ->; by apply Hnc in H). case_decide; [lia|]. specialize (R _ _ _ H). lia.
    + rewrite (decide_True (P := c = c)), (decide_False (P := x = c)) by done. lia.
  - intros y i'. rewrite Hcl, Hic. case_decide as Ey; [|apply to_ref]. intros _. apply (to_ref y j). congruence.
  - intros p k0 d. rewrite !HL, Hch, !Hic. intros Lp [H|(-> & -> & ->)].
    + rewrite (decide_False (P := p = c)) by (intros ->; by apply Hnc in H). rewrite decide_False by (intros ->; by apply Tc in H). by eapply to_down.
    + rewrite (decide_True (P := c = c)), (decide_False (P := x = c)) by done. by rewrite ?Hxi.
  - intros p k0 d. rewrite !HL, Hch, !Hic. intros Lp [H|(-> & -> & ->)].
    + rewrite (decide_False (P := p = c)) by (intros ->; by apply Hnc in H). rewrite decide_False by (intros ->; by apply Tc in H). by eapply to_up.
    + rewrite (decide_True (P := c = c)), (decide_False (P := x = c)) by done. by rewrite ?Hxi.
  - intros y i' z. rewrite !HL, Hu. intros Ly Hz. destruct (decide (index_id s' y = Some i)) as [Hyi|Hyi].
    + rewrite (Hat' y Hyi) in Hz. apply Hun in Hz as [[-> ->]|Hz].
      * split; [done|]. split; [congruence|]. exists uc. split; [done|]. split; [|done]. destruct (Ten c (Some uc) c Lc) as (_ & _ & u & [= <-] & ? & _); [congruence|done].
      * rewrite <- Hxat in Hz. destruct (to_entry x i' z Lx Hz) as (Lz & Iz & u & -> & Hu0 & Huz). split; [done|].
        assert (Hzc : z <> c) by (intros ->; congruence). rewrite (Hio z Hzc). split; [congruence|]. by exists u.
    + assert (Hyc : y <> c) by (intros ->; congruence). rewrite Hio in Hyi by done. rewrite Hat in Hz by done. destruct (to_entry y i' z Ly Hz) as (Lz & Iz & u & -> & Hu0 & Huz).
      assert (Hzc : z <> c). { intros ->. apply Hyc. apply Hone; [done|congruence]. }
      split; [done|]. rewrite !Hio by done. split; [done|]. by exists u.
  - intros y z. rewrite !HL. intros Ly Lz Hi Ty Tz.
    assert (Htop : forall w, top s' w -> top s w /\ w <> c).
    { intros w Hw. split; [intros p k0 H; apply (Hw p k0), Hch; by left|]. intros ->. apply (Hw x k), Hch. by right. }
    destruct (Htop y Ty) as [Ty' Hyc], (Htop z Tz) as [Tz' Hzc]. rewrite !Hio in Hi by done. by apply to_root.
  - intros p k0 d. rewrite Hch. intros [H|(_ & -> & _)]; [by eapply to_str|by exists t].
Qed.

(** a child was removed *)
Section drop.
  Context (s s' : st) (x : nat) (k : key) (c : nat) (W : wf s) (T : tidy_ok s) (Lx : listed s x) (Hk : child s x k c).
  Context (Hap : spaces_apart s') (Hch : forall p k' d, child s' p k' d <-> child s p k' d /\ ~ (p = x /\ k' = k)).
  Context (Hcl : forall y, class_of s' y = class_of s y) (Hu : forall y, uuid_at s' y = uuid_at s y).
  Context (us : list N) (Hus : forall u, u ∈ us <-> exists y, below s c y /\ uuid_at s y = Some u).
  Context (i : nat) (m : gmap (option N) nat) (Hi : index_id s x = Some i) (Hm : idxs s !! i = Some m).

  Lemma drop_sub : listed s c /\ index_id s c = Some i /\ ~ below s c x.
  Proof. destruct (to_down s T x k c Lx Hk). split; [done|]. split; [congruence|]. by apply (child_not_below s T x k). Qed.
  Lemma drop_below y : below s c y <-> below s' c y.
  Proof.
    destruct drop_sub as (_ & _ & Hcx). split.
    - assert (G : forall c0, below s c c0 -> forall y, below s c0 y -> below s' c0 y); [|intros B; apply (G c); [constructor|done]].
      intros c0 B0 z B. revert B0. induction B as [|p k0 d e H B IH]; intros B0; [constructor|].
      assert (B1 : below s c d) by (eapply below_trans; [exact B0|by eapply below_one]).
      eapply below_child; [|by apply IH]. apply Hch. split; [exact H|]. by intros [-> _].
    - apply below_sub. intros p k0 d H. by apply Hch in H as [? _].
  Qed.
  Lemma drop_keep y u : listed s y -> index_id s y = Some i -> ~ below s c y -> uuid_at s y = Some u -> u ∉ us.
  Proof.
    intros Ly Hy Hb Huy (z & Bz & Uz)%Hus. destruct drop_sub as (Lc & Ic & _). destruct (below_listed s T c z Lc Bz) as [Lz Iz].
    assert (y = z) as -> by (apply (listed_inj s y z u); congruence). done.
  Qed.
  Lemma drop_minus i' y : minus us m !! i' = Some y <-> m !! i' = Some y /\ ~ below s c y.
  Proof.
    assert (Hmx : index_at s x = m) by (by apply (index_at_id s x i)).
    rewrite lookup_minus. split.
    - case_decide as E; [done|]. intros H. split; [done|]. intros B. rewrite <- Hmx in H.
      destruct (to_entry s T x i' y Lx H) as (_ & _ & u & -> & _ & Uy). apply E. apply elem_of_list_fmap. exists u. split; [done|]. apply Hus. by exists y.
    - intros [H B]. rewrite decide_False; [done|]. intros (u & -> & Hin)%elem_of_list_fmap. rewrite <- Hmx in H.
      destruct (to_entry s T x _ y Lx H) as (Ly & Iy & u' & [= <-] & _ & Uy). apply (drop_keep y u); try done. congruence.
  Qed.
  Lemma drop_up d : ~ below s c d -> forall p k', child s' p k' d -> ~ below s c p.
  Proof. intros Hd p k' [H _]%Hch B. apply Hd. eapply below_trans; [exact B|by eapply below_one]. Qed.
  Lemma drop_down p : ~ below s c p -> forall k' d, child s' p k' d -> ~ below s c d.
  Proof.
    intros Hp k' d [H Hne]%Hch B. apply below_last in B as [<-|(q & k2 & B & H2)].
    - apply Hne. by apply (to_single s T _ _ _ _ _ H Hk).
    - destruct (to_single s T _ _ _ _ _ H H2) as [-> _]. done.
  Qed.
  Lemma drop_top d : top s' d -> d <> c -> top s d.
  Proof. intros Ht Hd p k' H. apply (Ht p k'). apply Hch. split; [done|]. intros [-> ->]. apply Hd. unfold child in *. congruence. Qed.
  Lemma drop_ctop : top s' c.
  Proof. intros p k' [H Hne]%Hch. apply Hne. by apply (to_single s T _ _ _ _ _ H Hk). Qed.
  Lemma drop_rank : exists rank : nat -> nat, forall p k c, child s' p k c -> rank c < rank p.
  Proof. destruct (to_rank s T) as [rank R]. exists rank. intros p k0 d [H _]%Hch. by apply (R p k0). Qed.
  Lemma drop_single p k1 p' k2 d : child s' p k1 d -> child s' p' k2 d -> p = p' /\ k1 = k2.
  Proof. intros [H _]%Hch [H' _]%Hch. by eapply to_single. Qed.

  (** del *)
  Lemma tidy_drop : (forall y, index_id s' y = index_id s y) -> idxs s' = <[i := minus us m]> (idxs s) ->
    tidy_ok s' /\ forall y, listed s' y <-> listed s y /\ ~ below s c y.
  Proof.
    intros Hid Hx. destruct drop_sub as (Lc & Ic & Hcx).
    assert (Hat : forall y, index_id s y <> Some i -> index_at s' y = index_at s y).
    { intros y Hy. apply index_at_eq; [done|]. intros i' Hyi. rewrite Hx, lookup_insert_ne; [done|congruence]. }
    assert (Hat' : forall y, index_id s y = Some i -> index_at s' y = minus us m /\ index_at s y = m).
    { intros y Hy. split; [|by apply (index_at_id s y i)]. apply (index_at_id s' y i); [by rewrite Hid|]. rewrite Hx. by rewrite lookup_insert. }
    assert (HL : forall y, listed s' y <-> listed s y /\ ~ below s c y).
    { intros y. destruct (decide (index_id s y = Some i)) as [Hy|Hy].
      - destruct (Hat' y Hy) as [E1 E2]. unfold listed. rewrite Hu, E1, E2. split.
        + intros (u & H1 & H2). apply drop_minus in H2 as [H2 H3]. split; [by exists u|done].
        + intros [(u & H1 & H2) H3]. exists u. split; [done|]. by apply drop_minus.
      - rewrite (listed_eq s s') by (done || by apply Hat). split; [|by intros [? _]]. intros Ly. split; [done|]. intros B.
        apply Hy. destruct (below_listed s T c y Lc B). congruence. }
    split; [|done]. constructor; try done.
    - apply drop_single.
    - apply drop_rank.
    - intros y i'. rewrite Hid, Hcl. apply (to_ref s T).
    - intros p k' d. rewrite !HL, !Hid. intros [Lp Bp] H. pose proof (drop_down p Bp k' d H). apply Hch in H as [H _]. destruct (to_down s T p k' d Lp H). done.
    - intros p k' d. rewrite !HL, !Hid. intros [Lp Bp] H. pose proof (drop_up d Bp p k' H). apply Hch in H as [H _]. destruct (to_up s T p k' d Lp H). done.
    - intros y i' z. rewrite !HL, !Hid, Hu. intros [Ly By] Hz. destruct (decide (index_id s y = Some i)) as [Hy|Hy].
      + destruct (Hat' y Hy) as [E1 E2]. rewrite E1 in Hz. apply drop_minus in Hz as [Hz Bz]. rewrite <- E2 in Hz. destruct (to_entry s T y i' z Ly Hz) as (? & ? & ?). done.
      + rewrite Hat in Hz by done. destruct (to_entry s T y i' z Ly Hz) as (Lz & Iz & ?). split; [|done]. split; [done|]. intros B. apply Hy.
        destruct (below_listed s T c z Lc B). congruence.
    - intros y z. rewrite !HL, !Hid. intros [Ly By] [Lz Bz] Hi' Ty Tz. apply (to_root s T); try done.
      + apply drop_top; [done|]. intros ->. apply By. constructor.
      + apply drop_top; [done|]. intros ->. apply Bz. constructor.
    - intros p k0 d [H _]%Hch. by eapply to_str.
  Qed.

  (** detach *)
  Lemma tidy_detach n mc : idxs s !! n = None -> (forall i' y, mc !! i' = Some y <-> exists u, i' = Some u /\ below s c y /\ uuid_at s y = Some u) ->
    (forall y, below s c y -> index_id s' y = Some n) -> (forall y, ~ below s c y -> index_id s' y = index_id s y) ->
    (forall y, below s c y \/ ~ below s c y) ->
    idxs s' = <[n := mc]> (<[i := minus us m]> (idxs s)) -> tidy_ok s' /\ forall y, listed s' y <-> listed s y.
  Proof.
    intros Hn Hmc Hib Hin Hdec Hx. destruct drop_sub as (Lc & Ic & Hcx).
    assert (Hni : n <> i) by congruence.
    assert (Hyn : forall y, index_id s y <> Some n). { intros y Hy. destruct (index_known s y n W Hy). congruence. }
    assert (Hatb : forall y, below s c y -> index_at s' y = mc).
    { intros y B. apply (index_at_id s' y n); [by apply Hib|]. rewrite Hx. by rewrite lookup_insert. }
    assert (Hat : forall y, ~ below s c y -> index_id s y <> Some i -> index_at s' y = index_at s y).
    { intros y B Hy. apply index_at_eq; [by apply Hin|]. intros i' Hyi. rewrite Hx, !lookup_insert_ne; [done|congruence|]. intros ->. by apply (Hyn y). }
    assert (Hat' : forall y, ~ below s c y -> index_id s y = Some i -> index_at s' y = minus us m /\ index_at s y = m).
    { intros y B Hy. split; [|by apply (index_at_id s y i)]. apply (index_at_id s' y i); [by rewrite Hin|]. rewrite Hx. by rewrite lookup_insert_ne, lookup_insert. }
    assert (HL : forall y, listed s' y <-> listed s y).
    { intros y. destruct (Hdec y) as [B|B].
      - destruct (below_listed s T c y Lc B) as [Ly _]. split; [done|]. intros _. destruct Ly as (u & H1 & _). exists u. rewrite Hu, (Hatb y B). split; [done|].
        apply Hmc. by exists u.
      - destruct (decide (index_id s y = Some i)) as [Hy|Hy].
        + destruct (Hat' y B Hy) as [E1 E2]. unfold listed. rewrite Hu, E1, E2. split.
          * intros (u & H1 & H2). apply drop_minus in H2 as [H2 H3]. by exists u.
          * intros (u & H1 & H2). exists u. split; [done|]. by apply drop_minus.
        + apply listed_eq; [done|by apply Hat]. }
    assert (Hsame : forall p k' d, child s' p k' d -> listed s p \/ listed s d -> index_id s' d = index_id s' p).
    { intros p k' d H HLi. pose proof H as [H0 _]%Hch. assert (E : index_id s d = index_id s p). { destruct HLi as [L|L]; [by apply (to_down s T p k' d)|symmetry; by apply (to_up s T p k' d)]. }
      destruct (Hdec p) as [Bp|Bp].
      - assert (Bd : below s c d) by (eapply below_trans; [exact Bp|by eapply below_one]). by rewrite !Hib.
      - rewrite !Hin; [done|done|]. by apply (drop_down p Bp k'). }
    split; [|done]. constructor; try done.
    - apply drop_single.
    - apply drop_rank.
    - intros y i'. rewrite Hcl. destruct (Hdec y) as [B|B]; [|rewrite Hin by done; apply (to_ref s T)]. intros _.
      destruct (below_listed s T c y Lc B) as [_ Iy]. apply (to_ref s T y i). congruence.
    - intros p k' d. rewrite !HL. intros Lp H. split; [|apply (Hsame p k' d H); by left]. apply Hch in H as [H _]. by destruct (to_down s T p k' d Lp H).
    - intros p k' d. rewrite !HL. intros Ld H. split; [|symmetry; apply (Hsame p k' d H); by right]. apply Hch in H as [H _]. by destruct (to_up s T p k' d Ld H).
    - intros y i' z. rewrite !HL, Hu. intros Ly Hz. destruct (Hdec y) as [By|By].
      + rewrite (Hatb y By) in Hz. apply Hmc in Hz as (u & -> & Bz & Uz). destruct (below_listed s T c z Lc Bz) as [Lz Iz]. rewrite !Hib by done. split; [done|]. split; [done|].
        exists u. split; [done|]. split; [|done]. destruct Lz as (u' & Uz' & Hz). destruct (to_entry s T z (Some u') z) as (_ & _ & u2 & [= <-] & ? & _); [by exists u'|done|]. congruence.
      + destruct (decide (index_id s y = Some i)) as [Hy|Hy].
        * destruct (Hat' y By Hy) as [E1 E2]. rewrite E1 in Hz. apply drop_minus in Hz as [Hz Bz]. rewrite <- E2 in Hz. rewrite !Hin by done. by apply (to_entry s T y i' z).
        * rewrite Hat in Hz by done. destruct (to_entry s T y i' z Ly Hz) as (Lz & Iz & ?). split; [done|]. split; [|done].
          rewrite !Hin; [done|done|]. intros B. apply Hy. destruct (below_listed s T c z Lc B). congruence.
    - intros y z. rewrite !HL. intros Ly Lz Hi' Ty Tz.
      assert (G : forall y, top s' y -> listed s y -> below s c y -> y = c).
      { intros w Tw _ Bw. apply drop_below in Bw. apply below_last in Bw as [->|(p & k' & _ & H)]; [done|]. by apply Tw in H. }
      destruct (Hdec y) as [By|By], (Hdec z) as [Bz|Bz].
      + rewrite (G y), (G z); done.
      + exfalso. rewrite Hib, Hin in Hi' by done. by apply (Hyn z).
      + exfalso. rewrite Hin, Hib in Hi' by done. by apply (Hyn y).
      + rewrite !Hin in Hi' by done. apply (to_root s T); try done.
        * apply drop_top; [done|]. intros ->. apply By. constructor.
        * apply drop_top; [done|]. intros ->. apply Bz. constructor.
    - intros p k0 d [H _]%Hch. by eapply to_str.
  Qed.
End drop.

(** a node got another uuid *)
Lemma tidy_uuid s s' x i m u n : wf s -> listed s x -> index_id s x = Some i -> idxs s !! i = Some m -> uuid_at s x = Some u ->
  (m !! Some n = None \/ m !! Some n = Some x) -> n <> 0%N -> spaces_apart s' -> (forall p k c, child s' p k c <-> child s p k c) ->
  (forall y, class_of s' y = class_of s y) -> (forall y, index_id s' y = index_id s y) -> (forall y, y <> x -> uuid_at s' y = uuid_at s y) -> uuid_at s' x = Some n ->
  idxs s' = <[i := <[Some n := x]> (delete (Some u) m)]> (idxs s) -> tidy_ok s -> tidy_ok s' /\ forall y, listed s' y <-> listed s y.
Proof.
  intros W Lx Hi Hm Hux Hn Hn0 Hap Hch Hcl Hid Huo Hun Hx T.
  assert (Hmx : index_at s x = m) by (by apply (index_at_id s x i)).
  set (m' := <[Some n := x]> (delete (Some u) m)) in *.
  assert (Hat : forall y, index_id s y <> Some i -> index_at s' y = index_at s y).
  { intros y Hy. apply index_at_eq; [done|]. intros i' Hyi. rewrite Hx, lookup_insert_ne; [done|congruence]. }
  assert (Hat' : forall y, index_id s y = Some i -> index_at s' y = m' /\ index_at s y = m).
  { intros y Hy. split; [|by apply (index_at_id s y i)]. apply (index_at_id s' y i); [by rewrite Hid|]. rewrite Hx. by rewrite lookup_insert. }
  assert (Hm'x : forall i', m' !! i' = Some x <-> i' = Some n).
  { intros i'. unfold m'. rewrite lookup_insert_Some, lookup_delete_Some. split; [|intros ->; by left]. intros [[<- _]|(_ & H1 & H2)]; [done|].
    rewrite <- Hmx in H2. destruct (to_entry s T x i' x Lx H2) as (_ & _ & u' & -> & _ & Hu'). congruence. }
  assert (Hm'y : forall i' y, y <> x -> m' !! i' = Some y <-> m !! i' = Some y).
  { intros i' y Hy. unfold m'. rewrite lookup_insert_Some, lookup_delete_Some. split; [intros [[_ ?]|(_ & _ & ?)]; congruence|]. intros H. right. split_and!; [| |done].
    - intros <-. destruct Hn; congruence.
    - intros <-. destruct Lx as (u' & Hu' & H'). rewrite Hmx in H'. congruence. }
  assert (HL : forall y, listed s' y <-> listed s y).
  { intros y. destruct (decide (y = x)) as [->|Hy].
    - split; [done|]. intros _. exists n. split; [done|]. destruct (Hat' x Hi) as [-> _]. by apply Hm'x.
    - destruct (decide (index_id s y = Some i)) as [Hyi|Hyi]; [|apply listed_eq; [by apply Huo|by apply Hat]].
      destruct (Hat' y Hyi) as [E1 E2]. unfold listed. rewrite E1, E2, Huo by done. split; intros (u' & H1 & H2); exists u'; (split; [done|]); by apply Hm'y. }
  split; [|done]. constructor; try done.
  - intros p k p' k' c. rewrite !Hch. apply (to_single s T).
  - destruct (to_rank s T) as [rank R]. exists rank. intros p k c. rewrite Hch. apply R.
  - intros y i'. rewrite Hid, Hcl. apply (to_ref s T).
  - intros p k c. rewrite !HL, Hch, !Hid. apply (to_down s T).
  - intros p k c. rewrite !HL, Hch, !Hid. apply (to_up s T).
  - intros y i' z. rewrite !HL, !Hid. intros Ly Hz. destruct (decide (index_id s y = Some i)) as [Hyi|Hyi].
    + destruct (Hat' y Hyi) as [E1 E2]. rewrite E1 in Hz. destruct (decide (z = x)) as [->|Hzx].
      * apply Hm'x in Hz as ->. split; [done|]. split; [congruence|]. by exists n.
      * apply Hm'y in Hz; [|done]. rewrite <- E2 in Hz. destruct (to_entry s T y i' z Ly Hz) as (? & ? & u' & ?). split; [done|]. split; [done|]. exists u'. by rewrite Huo.
    + rewrite Hat in Hz by done. destruct (to_entry s T y i' z Ly Hz) as (? & ? & u' & ?). split; [done|]. split; [done|]. exists u'. rewrite Huo; [done|]. intros ->. congruence.
  - intros y z. rewrite !HL, !Hid. intros H1 H2 H3 H4 H5. apply (to_root s T); try done; intros p k; rewrite <- Hch; [apply H4|apply H5].
  - intros p k c. rewrite Hch. apply (to_str s T).
Qed.
