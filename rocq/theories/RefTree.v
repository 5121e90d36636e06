(** Trees in which every node has one place, and the walks of Reference over them. *)
From Verif Require Import Py Odict OdictFacts Aliaser Heap Model MonadFacts WF WFOps Views SpecMapping MappingProofs StorageProofs
  Observe TreeOps SetEff DelEff DetachEff NewEff ObserveFacts SpecTree SpecUtils MappingProps SpecPlace PlaceProofs SpecReference.

(** * The invariant *)
Record tidy_ok (s : st) : Prop := TidyOk {
  to_apart : spaces_apart s;
  to_single : forall p k p' k' c, child s p k c -> child s p' k' c -> p = p' /\ k = k';
  to_rank : exists rank : nat -> nat, forall p k c, child s p k c -> rank c < rank p;
  to_ref : forall x i, index_id s x = Some i -> exists cls, class_of s x = Some cls /\ Reference ∈ c_behs cls;
  to_down : forall p k c, listed s p -> child s p k c -> listed s c /\ index_id s c = index_id s p;
  to_up : forall p k c, listed s c -> child s p k c -> listed s p /\ index_id s p = index_id s c;
  to_entry : forall x i y, listed s x -> index_at s x !! i = Some y ->
    listed s y /\ index_id s y = index_id s x /\ exists u, i = Some u /\ u <> 0%N /\ uuid_at s y = Some u;
  to_root : forall x y, listed s x -> listed s y -> index_id s x = index_id s y -> top s x -> top s y -> x = y;
  to_str : forall p k c, child s p k c -> exists t, k = KStr t
}.

Lemma below_trans s x y z : below s x y -> below s y z -> below s x z.
Proof. induction 1; [done|]. intros. eapply below_child; eauto. Qed.
Lemma below_one s p k c : child s p k c -> below s p c.
Proof. intros H. eapply below_child; [exact H|constructor]. Qed.
Lemma below_last s x y : below s x y -> x = y \/ exists p k, below s x p /\ child s p k y.
Proof.
  induction 1 as [|p k c d H B [->|(q & k' & B' & H')]]; [by left| |].
  - right. exists p, k. split; [constructor|done].
  - right. exists q, k'. split; [by eapply below_child|done].
Qed.

Section tree.
  Context (s : st) (T : tidy_ok s).

  Lemma below_rank rank x y : (forall p k c, child s p k c -> rank c < rank p) -> below s x y -> rank y <= rank x.
  Proof. intros H. induction 1 as [|p k c d Hc _ IH]; [done|]. specialize (H _ _ _ Hc). lia. Qed.
  Lemma child_not_below p k c : child s p k c -> ~ below s c p.
  Proof. intros H B. destruct (to_rank s T) as [rank R]. pose proof (below_rank rank c p R B). specialize (R _ _ _ H). lia. Qed.
  Lemma below_linear x y z : below s x z -> below s y z -> below s x y \/ below s y x.
  Proof.
    intros Hx. revert y. induction Hx as [|p k c d Hc B IH]; intros y Hy; [by right|].
    destruct (IH y Hy) as [H|H].
    - left. by eapply below_child.
    - apply below_last in H as [->|(q & k' & H1 & H2)]; [left; by eapply below_one|].
      destruct (to_single s T _ _ _ _ _ H2 Hc) as [-> _]. by right.
  Qed.
  Lemma siblings_apart p k k' c c' z : child s p k c -> child s p k' c' -> below s c z -> below s c' z -> c = c'.
  Proof.
    intros H H' B B'.
    assert (G : forall k k' c c', child s p k c -> child s p k' c' -> below s c c' -> c = c').
    { clear - T. intros k k' c c' H H' B. apply below_last in B as [->|(q & k2 & B & H2)]; [done|].
      destruct (to_single s T _ _ _ _ _ H2 H') as [-> _]. by destruct (child_not_below _ _ _ H). }
    destruct (below_linear _ _ _ B B') as [L|L]; [by eapply G|symmetry; by eapply G].
  Qed.
  Lemma below_listed x y : listed s x -> below s x y -> listed s y /\ index_id s y = index_id s x.
  Proof.
    intros Hx. induction 1 as [|p k c d Hc _ IH]; [done|].
    destruct (to_down s T _ _ _ Hx Hc) as [H1 H2]. destruct (IH H1). split; [done|congruence].
  Qed.
  Lemma above_listed x y : listed s y -> below s x y -> listed s x /\ index_id s x = index_id s y.
  Proof.
    intros Hy. induction 1 as [|p k c d Hc _ IH]; [done|]. destruct (IH Hy) as [H1 H2].
    destruct (to_up s T _ _ _ H1 Hc). split; [done|congruence].
  Qed.
  Lemma listed_inj x y u : listed s x -> listed s y -> index_id s x = index_id s y -> uuid_at s x = Some u -> uuid_at s y = Some u -> x = y.
  Proof.
    intros (u1 & U1 & I1) (u2 & U2 & I2) Hi Hx Hy. assert (u1 = u) as -> by congruence. assert (u2 = u) as -> by congruence.
    unfold index_at in *. rewrite Hi in I1. congruence.
  Qed.
  Lemma listed_index x : listed s x -> exists i m u, index_id s x = Some i /\ idxs s !! i = Some m /\ index_at s x = m /\ uuid_at s x = Some u /\ m !! Some u = Some x.
  Proof.
    intros (u & Hu & Hi). unfold index_at in Hi. destruct (index_id s x) as [i|] eqn:E; simpl in Hi; [|by rewrite lookup_empty in Hi].
    destruct (idxs s !! i) as [m|] eqn:Em; simpl in Hi; [|by rewrite lookup_empty in Hi]. exists i, m, u. unfold index_at. rewrite E. simpl. by rewrite Em.
  Qed.
  Lemma listed_ref x : listed s x -> exists cls, class_of s x = Some cls /\ Reference ∈ c_behs cls.
  Proof. intros (i & _ & _ & H & _)%listed_index. by apply (to_ref s T x i). Qed.
End tree.

Lemma nodup_size s (l : list nat) : NoDup l -> Forall (exists_node s) l -> length l <= size (nodes s).
Proof.
  intros ND F. transitivity (size (list_to_set l : gset nat)).
  - rewrite size_list_to_set by done. done.
  - rewrite <- (size_dom (D := gset nat) (nodes s)). apply subseteq_size. intros y Hy. apply elem_of_list_to_set in Hy.
    rewrite Forall_forall in F. apply elem_of_dom. by apply F.
Qed.

(** * The walks *)
Lemma mapr_all {A B} (f : A -> res B) ks : (forall k, k ∈ ks -> exists b, f k = Ret b) -> exists bs, mapr f ks = Ret bs /\ Forall2 (fun k b => f k = Ret b) ks bs.
Proof.
  induction ks as [|k ks IH]; intros H; [by exists []|]. simpl. destruct (H k) as [b E]; [by left|].
  destruct IH as (bs & E' & F). { intros k' Hk'. apply H. by right. }
  exists (b :: bs). rewrite E, E'. split; [done|]. by constructor.
Qed.
Lemma seqs_all {A B} (f : A -> list B * option exc) l : (forall a, a ∈ l -> exists b, f a = (b, None)) ->
  exists bs, seqs f l = (concat bs, None) /\ Forall2 (fun a b => f a = (b, None)) l bs.
Proof.
  induction l as [|a l IH]; intros H; [by exists []|]. destruct (H a) as [b E]; [by left|].
  destruct IH as (bs & E' & F). { intros k' Hk'. apply H. by right. }
  exists (b :: bs). simpl. rewrite E, E'. split; [done|]. by constructor.
Qed.
Lemma Forall2_elem_l {A B} (P : A -> B -> Prop) l l' a : Forall2 P l l' -> a ∈ l -> exists b, b ∈ l' /\ P a b.
Proof. induction 1 as [|x y l l' H F IH]; intros Hin; [by apply elem_of_nil in Hin|]. apply elem_of_cons in Hin as [->|Hin]; [exists y; split; [left|done]|]. destruct (IH Hin) as (b & ? & ?). exists b. split; [by right|done]. Qed.
Lemma Forall2_elem_r {A B} (P : A -> B -> Prop) l l' b : Forall2 P l l' -> b ∈ l' -> exists a, a ∈ l /\ P a b.
Proof. induction 1 as [|x y l l' H F IH]; intros Hin; [by apply elem_of_nil in Hin|]. apply elem_of_cons in Hin as [->|Hin]; [exists x; split; [left|done]|]. destruct (IH Hin) as (a & ? & ?). exists a. split; [by right|done]. Qed.

Lemma NoDup_concat_keys {A B} (R : A -> list B -> Prop) ks ls : Forall2 R ks ls -> NoDup ks -> (forall k b, k ∈ ks -> R k b -> NoDup b) ->
  (forall k k' b b' u, k ∈ ks -> k' ∈ ks -> R k b -> R k' b' -> u ∈ b -> u ∈ b' -> k = k') -> NoDup (concat ls).
Proof.
  induction 1 as [|k b ks ls H F IH]; intros ND H1 H2; simpl; [apply NoDup_nil_2|]. apply NoDup_cons in ND as [Hk ND].
  apply NoDup_app. split; [|split].
  - apply (H1 k); [left|done].
  - intros u Hu Hc. apply elem_of_list_In, in_concat in Hc as (b' & Hb' & Hu'). apply elem_of_list_In in Hb', Hu'.
    destruct (Forall2_elem_r _ _ _ _ F Hb') as (k' & Hk' & E). apply Hk. rewrite (H2 k k' b b' u); try done; [left|by right].
  - apply IH; [done| |].
    + intros k' b' Hk'. apply H1. by right.
    + intros k1 k2 b1 b2 u H3 H4. apply H2; by right.
Qed.

Lemma view_uuid s x w : views s !! x = Some w -> uuid_at s x = w_uuid w.
Proof. intros H. rewrite ob_uuid. unfold fld. by rewrite H. Qed.
Lemma view_entries s x w : views s !! x = Some w -> entries_at s x = w_ent w.
Proof. intros H. rewrite ob_entries. unfold fld. by rewrite H. Qed.
Lemma view_class s x w : views s !! x = Some w -> class_of s x = Some (w_cls w).
Proof. intros H. rewrite ob_class. unfold fld. by rewrite H. Qed.
Lemma view_index s x w : views s !! x = Some w -> index_id s x = w_index w.
Proof. intros H. rewrite ob_index_id. unfold fld. by rewrite H. Qed.

(** an entry is looked up as such *)
Lemma entry_get s x w k : wf s -> spaces_apart s -> views s !! x = Some w -> k ∈ dkeys (w_ent w) ->
  exists v, get_res w k = Ret v /\ value_at k (entries_at s x) = Some v.
Proof.
  intros W Ha Hw Hk. apply elem_of_dkeys in Hk as [v Hv]. exists v. rewrite <- (view_entries _ _ _ Hw) in Hv.
  assert (Hd : dget k (entries_at s x) = Some v) by (apply in_dget; [by apply entries_nodup|done]).
  rewrite value_at_spec. split; [|done]. unfold get_res, look.
  assert (nskey (c_behs (w_cls w)) k = false) as ->. { apply nskey_dunder_false. apply (Ha x (w_cls w) k v); [by apply view_class|done]. }
  pose proof (entries_known s x W) as F. rewrite Forall_forall in F. destruct (F _ Hv) as [Hh _]. simpl in Hh. rewrite Hh.
  by rewrite <- (view_entries _ _ _ Hw), Hd.
Qed.
Lemma child_view s p k c : wf s -> child s p k c -> exists_node s p /\ exists_node s c /\ forall w, views s !! p = Some w -> k ∈ dkeys (w_ent w).
Proof.
  intros W H. unfold child in H. rewrite value_at_spec in H. apply dget_Some_in in H.
  split; [|split].
  - unfold entries_at in H. unfold exists_node. destruct (nodes s !! p); [by eexists|by apply elem_of_nil in H].
  - pose proof (entries_known s p W) as F. rewrite Forall_forall in F. by destruct (F _ H) as [_ ?].
  - intros w Hw. rewrite <- (view_entries _ _ _ Hw). apply elem_of_dkeys. by eexists.
Qed.

(** the subtree of a listed node is walked to the end *)
Lemma td_tree s : wf s -> tidy_ok s -> forall f c l, listed s c -> NoDup l -> Forall (exists_node s) l ->
  (forall a, a ∈ l -> below s a c /\ a <> c) -> length l + f = fuel_of s ->
  exists us, td f (views s) c = Ret us /\ NoDup us /\ forall u, u ∈ us <-> exists y, below s c y /\ uuid_at s y = Some u.
Proof.
  intros W T. induction f as [|f IH]; intros c l Hc ND Fl Hl Hf.
  { exfalso. pose proof (nodup_size s l ND Fl). unfold fuel_of in Hf. lia. }
  destruct (listed_ref s T c Hc) as (cls & Hcls & Href).
  destruct (class_view _ _ _ Hcls) as (w & Hw & Hwc).
  destruct Hc as (u & Hu & Hi). assert (Hc : listed s c) by (by exists u).
  cbn [td]. rewrite Hw, Hwc. assert (hasc Reference (c_behs cls) = true) as -> by (by apply hasc_in).
  rewrite <- (view_uuid _ _ _ Hw), Hu.
  assert (Hcl : c ∉ l). { intros Hin. by destruct (Hl c Hin) as [_ ?]. }
  assert (Hcn : exists_node s c) by (apply exists_class; by eexists).
  assert (Hch : forall k c', child s c k c' -> exists us, td f (views s) c' = Ret us /\ NoDup us /\ forall u, u ∈ us <-> exists y, below s c' y /\ uuid_at s y = Some u).
  { intros k c' Hk. apply (IH c' (c :: l)).
    - by destruct (to_down s T _ _ _ Hc Hk).
    - by constructor.
    - by constructor.
    - intros a [->|Ha]%elem_of_cons.
      + split; [by eapply below_one|]. intros ->. eapply child_not_below; [done|exact Hk|constructor].
      + destruct (Hl a Ha) as [B Hne]. split; [eapply below_trans; [exact B|by eapply below_one]|].
        intros ->. by eapply child_not_below.
    - simpl. lia. }
  edestruct (mapr_all (fun k => catch_attr
                         match get_res w k with
                         | Ret (VNode c') => td f (views s) c'
                         | Ret _ => Exc AttributeError
                         | Exc e => Exc e
                         end) (dkeys (w_ent w))) as (ls & -> & F2).
  { intros k Hk. destruct (entry_get s c w k W (to_apart s T) Hw Hk) as (v & -> & Hv).
    destruct v as [| | | | | | |i| | | |]; try (by eexists). destruct (Hch k i Hv) as (us & -> & _). by eexists. }
  exists (u :: concat ls). split; [done|].
  assert (Hls : forall k b, k ∈ dkeys (w_ent w) -> catch_attr
                         match get_res w k with
                         | Ret (VNode c') => td f (views s) c'
                         | Ret _ => Exc AttributeError
                         | Exc e => Exc e
                         end = Ret b -> (b = [] /\ forall c', ~ child s c k c') \/ exists c', child s c k c' /\ NoDup b /\ forall u, u ∈ b <-> exists y, below s c' y /\ uuid_at s y = Some u).
  { intros k b Hk. destruct (entry_get s c w k W (to_apart s T) Hw Hk) as (v & -> & Hv). intros E.
    destruct v as [| | | | | | |i| | | |]; try (left; split; [by injection E as <-|intros c' Hc'; unfold child in Hc'; congruence]).
    right. exists i. split; [done|]. destruct (Hch k i Hv) as (us & Et & H). rewrite Et in E. by injection E as <-. }
  assert (Hin : forall u, u ∈ concat ls <-> exists k c' y, child s c k c' /\ below s c' y /\ uuid_at s y = Some u).
  { intros u0. rewrite elem_of_list_In, in_concat. split.
    - intros (b & Hb & Hu0). apply elem_of_list_In in Hb, Hu0.
      destruct (Forall2_elem_r _ _ _ _ F2 Hb) as (k & Hk & E). destruct (Hls k b Hk E) as [[-> _]|(c' & Hc' & _ & Hb')].
      + by apply elem_of_nil in Hu0.
      + apply Hb' in Hu0 as (y & ? & ?). by exists k, c', y.
    - intros (k & c' & y & Hk & By & Uy). destruct (child_view s c k c' W Hk) as (_ & _ & Hkw). specialize (Hkw w Hw).
      destruct (Forall2_elem_l _ _ _ _ F2 Hkw) as (b & Hb & E). exists b. split; [by apply elem_of_list_In|].
      destruct (Hls k b Hkw E) as [[_ Hno]|(c2 & Hc2 & _ & Hb')]; [by destruct (Hno c')|].
      assert (c2 = c') as -> by (unfold child in *; congruence). apply elem_of_list_In, Hb'. by exists y. }
  split.
  - constructor.
    + intros (k & c' & y & Hk & By & Uy)%Hin. assert (By' : below s c y) by (by eapply below_child).
      destruct (below_listed s T c y Hc By') as [Ly Iy]. assert (y = c) as -> by (by apply (listed_inj s y c u)).
      by eapply child_not_below.
    + assert (NDk : NoDup (dkeys (w_ent w))). { rewrite <- (view_entries _ _ _ Hw). by apply entries_nodup. }
      apply (NoDup_concat_keys _ _ _ F2 NDk).
      * intros k b Hk E. destruct (Hls k b Hk E) as [[-> _]|(c' & _ & ? & _)]; [apply NoDup_nil_2|done].
      * intros k k' b b' u0 Hk Hk' E E' Hb Hb'.
        destruct (Hls k b Hk E) as [[-> _]|(c1 & C1 & _ & B1)]; [by apply elem_of_nil in Hb|].
        destruct (Hls k' b' Hk' E') as [[-> _]|(c2 & C2 & _ & B2)]; [by apply elem_of_nil in Hb'|].
        apply B1 in Hb as (y & By & Uy). apply B2 in Hb' as (z & Bz & Uz).
        assert (Dy : below s c y) by (by apply (below_child s c k c1)). assert (Dz : below s c z) by (by apply (below_child s c k' c2)).
        destruct (below_listed s T c y Hc Dy) as [Ly Iy]. destruct (below_listed s T c z Hc Dz) as [Lz Iz].
        assert (y = z) as -> by (apply (listed_inj s y z u0); congruence).
        assert (c1 = c2) as -> by (by apply (siblings_apart s T c k k' c1 c2 z)).
        by destruct (to_single s T _ _ _ _ _ C1 C2).
  - intros u0. rewrite elem_of_cons, Hin. split.
    + intros [->|(k & c' & y & Hk & By & Uy)]; [exists c; split; [constructor|done]|]. exists y. split; [by eapply below_child|done].
    + intros (y & By & Uy). inversion By as [|p k c' d Hk By' E1 E2]; subst; [left; congruence|right]. by exists k, c', y.
Qed.

Lemma inodes_tree s vs : wf s -> tidy_ok s -> forall f c l, listed s c -> NoDup l -> Forall (exists_node s) l ->
  (forall a, a ∈ l -> below s a c /\ a <> c) -> length l + f = fuel_of s ->
  (forall y, below s c y -> w_shape <$> vs !! y = w_shape <$> views s !! y) ->
  exists ps, inodes f vs c = (ps, None) /\ forall u y, (u, y) ∈ ps <-> below s c y /\ y <> c /\ uuid_at s y = Some u.
Proof.
  intros W T. induction f as [|f IH]; intros c l Hc ND Fl Hl Hf Hvs.
  { exfalso. pose proof (nodup_size s l ND Fl). unfold fuel_of in Hf. lia. }
  destruct (listed_ref s T c Hc) as (cls & Hcls & Href).
  destruct (class_view _ _ _ Hcls) as (w0 & Hw0 & Hwc0).
  pose proof (Hvs c ltac:(constructor)) as Hw. rewrite Hw0 in Hw. destruct (vs !! c) as [w|] eqn:Ew; [|done].
  cbn [fmap option_fmap option_map] in Hw. injection Hw as Hwc He Hn _.
  cbn [inodes]. rewrite Ew. assert (hasc Reference (c_behs (w_cls w)) = true) as -> by (apply hasc_in; congruence).
  rewrite (mapr_ext (get_res w) (get_res w0)) by (intros; by apply get_res_same). rewrite He.
  assert (Hcl : c ∉ l). { intros Hin. by destruct (Hl c Hin) as [_ ?]. }
  assert (Hcn : exists_node s c) by (apply exists_class; by eexists).
  assert (Hch : forall k c', child s c k c' -> exists ps, inodes f vs c' = (ps, None) /\ forall u y, (u, y) ∈ ps <-> below s c' y /\ y <> c' /\ uuid_at s y = Some u).
  { intros k c' Hk. apply (IH c' (c :: l)).
    - by destruct (to_down s T _ _ _ Hc Hk).
    - by constructor.
    - by constructor.
    - intros a [->|Ha]%elem_of_cons.
      + split; [by eapply below_one|]. intros ->. eapply child_not_below; [done|exact Hk|constructor].
      + destruct (Hl a Ha) as [B Hne]. split; [eapply below_trans; [exact B|by eapply below_one]|].
        intros ->. by eapply child_not_below.
    - simpl. lia.
    - intros y By. apply Hvs. by eapply below_child. }
  destruct (mapr_all (get_res w0) (dkeys (w_ent w0))) as (vl & -> & F).
  { intros k Hk. destruct (entry_get s c w0 k W (to_apart s T) Hw0 Hk) as (v & -> & _). by eexists. }
  assert (Hvl : forall c', VNode c' ∈ vl <-> exists k, child s c k c').
  { intros c'. split.
    - intros Hin. destruct (Forall2_elem_r _ _ _ _ F Hin) as (k & Hk & E). destruct (entry_get s c w0 k W (to_apart s T) Hw0 Hk) as (v & E' & Hv).
      exists k. unfold child. congruence.
    - intros (k & Hk). destruct (child_view s c k c' W Hk) as (_ & _ & Hkw). specialize (Hkw w0 Hw0).
      destruct (Forall2_elem_l _ _ _ _ F Hkw) as (v & Hv & E). destruct (entry_get s c w0 k W (to_apart s T) Hw0 Hkw) as (v' & E' & Hv').
      unfold child in Hk. congruence. }
  set (G := fun v : val => match v with VNode c' => _ | _ => _ end).
  assert (HG : forall c', VNode c' ∈ vl -> exists u ps, uuid_at s c' = Some u /\ inodes f vs c' = (ps, None) /\ G (VNode c') = ((u, c') :: ps, None)).
  { intros c' (k & Hk)%Hvl. destruct (to_down s T _ _ _ Hc Hk) as [Lc' _]. destruct (Hch k c' Hk) as (ps & E & _).
    destruct (listed_ref s T c' Lc') as (cls' & Hcls' & Href'). destruct (class_view _ _ _ Hcls') as (w1 & Hw1 & Hwc1).
    pose proof (Hvs c' ltac:(by eapply below_one)) as H. rewrite Hw1 in H. destruct (vs !! c') as [w2|] eqn:Ew2; [|done].
    cbn [fmap option_fmap option_map] in H. injection H as H1 _ _ H4. destruct Lc' as (u & Hu & _). exists u, ps. split; [done|]. split; [done|].
    unfold G. rewrite Ew2. assert (hasc Reference (c_behs (w_cls w2)) = true) as -> by (apply hasc_in; congruence). simpl.
    rewrite H4, <- (view_uuid _ _ _ Hw1), Hu, E. done. }
  destruct (seqs_all G vl) as (bs & -> & F2).
  { intros v Hv. destruct v as [| | | | | | |i| | | |]; try (by eexists). destruct (HG i Hv) as (u & ps & _ & _ & ->). by eexists. }
  exists (concat bs). split; [done|]. intros u y. rewrite elem_of_list_In, in_concat. split.
  - intros (b & Hb & Hu). apply elem_of_list_In in Hb, Hu. destruct (Forall2_elem_r _ _ _ _ F2 Hb) as (v & Hv & E).
    destruct v as [| | | | | | |c'| | | |]; try (injection E as <-; by apply elem_of_nil in Hu).
    destruct (HG c' Hv) as (u' & ps & Hu' & Eps & EG). rewrite EG in E. injection E as <-.
    apply Hvl in Hv as (k & Hk). apply elem_of_cons in Hu as [[= -> ->]|Hu].
    + split; [by eapply below_one|]. split; [|done]. intros ->. eapply child_not_below; [done|exact Hk|constructor].
    + destruct (Hch k c' Hk) as (ps' & Eps' & Hps). rewrite Eps in Eps'. injection Eps' as <-. apply Hps in Hu as (B & _ & Uy).
      split; [by eapply below_child|]. split; [|done]. intros ->. by eapply child_not_below.
  - intros (B & Hne & Uy). inversion B as [|p k c' d Hk B' E1 E2]; subst; [done|].
    assert (Hv : VNode c' ∈ vl) by (apply Hvl; by eexists). destruct (Forall2_elem_l _ _ _ _ F2 Hv) as (b & Hb & E).
    exists b. split; [by apply elem_of_list_In|]. apply elem_of_list_In. destruct (HG c' Hv) as (u' & ps & Hu' & Eps & EG). rewrite EG in E. injection E as <-.
    destruct (decide (y = c')) as [->|Hy]; [assert (u' = u) as -> by congruence; left|right]. destruct (Hch k c' Hk) as (ps' & Eps' & Hps). rewrite Eps in Eps'. injection Eps' as <-.
    by apply Hps.
Qed.

Lemma lookup_ins_all ps : forall m i y, (forall u z z', (u, z) ∈ ps -> (u, z') ∈ ps -> z = z') ->
  ins_all m ps !! i = Some y <-> (exists u, i = Some u /\ (u, y) ∈ ps) \/ (m !! i = Some y /\ forall u z, i = Some u -> (u, z) ∉ ps).
Proof.
  induction ps as [|[u z] ps IH]; intros m i y Hf; simpl.
  - split; [intros H; right; split; [done|]; intros u z _ Hn; by apply elem_of_nil in Hn|]. intros [(u & _ & H)|[H _]]; [by apply elem_of_nil in H|done].
  - change (ins_all m ((u, z) :: ps)) with (ins_all (<[Some u := z]> m) ps). rewrite IH.
    2:{ intros u0 z0 z' H1 H2. apply (Hf u0); by right. }
    split.
    + intros [(u0 & -> & H)|[H Hn]]; [left; exists u0; split; [done|by right]|].
      apply lookup_insert_Some in H as [[<- <-]|[Hne H]]; [left; exists u; split; [done|left]|]. right. split; [done|].
      intros u0 z0 -> [[= -> ->]|Hin]%elem_of_cons; [done|by apply (Hn u0 z0)].
    + intros [(u0 & -> & H)|[H Hn]].
      * apply elem_of_cons in H as [[= -> ->]|H]; [|left; by exists u0].
        destruct (decide (u ∈ ps.*1)) as [Hin|Hni].
        -- left. exists u. split; [done|]. apply elem_of_list_fmap in Hin as ([u1 z1] & -> & Hin). simpl in *.
           rewrite (Hf u1 z z1); [done|left|by right].
        -- right. split; [by rewrite lookup_insert|]. intros u1 z1 [= <-] Hin. apply Hni. apply elem_of_list_fmap. by exists (u, z1).
      * right. split; [|intros u0 z0 E Hin; apply (Hn u0 z0 E); by right]. rewrite lookup_insert_ne; [done|]. intros <-. apply (Hn u z); [done|left].
Qed.

(** * Roots *)
Lemma child_among s p c : wf s -> (exists k, child s p k c) <-> c ∈ nodes_among (entries_at s p).*2.
Proof.
  intros W. unfold nodes_among. rewrite elem_of_list_In, in_flat_map. split.
  - intros [k H]. exists (VNode c). split; [|by left]. unfold child in H. rewrite value_at_spec in H. apply dget_Some_in in H.
    apply elem_of_list_In, elem_of_list_fmap. by exists (k, VNode c).
  - intros (v & Hv & Hc). apply elem_of_list_In, elem_of_list_fmap in Hv as ([k v'] & -> & Hin). simpl in Hc. destruct v'; try done. destruct Hc as [->|[]].
    exists k. unfold child. rewrite value_at_spec. apply in_dget; [by apply entries_nodup|done].
Qed.
Lemma top_or_child s c : wf s -> top s c \/ exists p k, child s p k c.
Proof.
  intros W. destruct (decide (Exists (fun p => c ∈ nodes_among (entries_at s p).*2) (elements (dom (nodes s))))) as [H|H].
  - right. apply Exists_exists in H as (p & _ & H). apply child_among in H as [k H]; [|done]. by exists p, k.
  - left. intros p k Hc. apply H. apply Exists_exists. exists p. split.
    + destruct (child_view s p k c W Hc) as (Hp & _ & _). apply elem_of_elements, elem_of_dom. exact Hp.
    + apply child_among; [done|]. by exists k.
Qed.
Lemma climb s : wf s -> tidy_ok s -> forall n l z, length l + n = fuel_of s -> NoDup (z :: l) -> Forall (exists_node s) (z :: l) ->
  (forall a, a ∈ l -> below s z a) -> exists r, below s r z /\ top s r.
Proof.
  intros W T. induction n as [|n IH]; intros l z Hn ND Fl Hl.
  { exfalso. pose proof (nodup_size s _ ND Fl). simpl in H. unfold fuel_of in Hn. lia. }
  destruct (top_or_child s z W) as [Ht|(p & k & Hp)]; [exists z; split; [constructor|done]|].
  destruct (IH (z :: l) p) as (r & Br & Tr).
  - simpl. lia.
  - constructor; [|done]. intros [->|Hin]%elem_of_cons; eapply (child_not_below s T); [exact Hp|constructor|exact Hp|by apply Hl].
  - constructor; [|done]. by destruct (child_view s p k z W Hp).
  - intros a [->|Ha]%elem_of_cons; [by eapply below_one|]. eapply below_child; [done|by apply Hl].
  - exists r. split; [|done]. eapply below_trans; [exact Br|by eapply below_one].
Qed.
Lemma root_above s x : wf s -> tidy_ok s -> exists_node s x -> exists r, below s r x /\ top s r.
Proof.
  intros W T Hx. apply (climb s W T (fuel_of s) [] x); try done.
  - apply NoDup_singleton.
  - by constructor.
  - intros a Ha. by apply elem_of_nil in Ha.
Qed.
Lemma listed_exists s x : listed s x -> exists_node s x.
Proof. intros (u & Hu & _). unfold uuid_at in Hu. unfold exists_node. destruct (nodes s !! x); [by eexists|done]. Qed.

(** The index of a listed node is its tree. *)
Lemma index_tree s x y : wf s -> tidy_ok s -> listed s x -> listed s y /\ index_id s y = index_id s x <-> same_tree s x y.
Proof.
  intros W T Lx. split.
  - intros [Ly Hi]. destruct (root_above s x W T (listed_exists s x Lx)) as (r & Br & Tr). destruct (root_above s y W T (listed_exists s y Ly)) as (r' & Br' & Tr').
    destruct (above_listed s T r x Lx Br) as [Lr Ir]. destruct (above_listed s T r' y Ly Br') as [Lr' Ir'].
    assert (r = r') as <- by (apply (to_root s T); congruence). by exists r.
  - intros (r & Br & Br'). destruct (above_listed s T r x Lx Br) as [Lr Ir]. destruct (below_listed s T r y Lr Br') as [Ly Iy]. split; [done|congruence].
Qed.
Lemma index_exact s x i y : wf s -> tidy_ok s -> listed s x ->
  index_at s x !! i = Some y <-> exists u, i = Some u /\ uuid_at s y = Some u /\ same_tree s x y.
Proof.
  intros W T Lx. split.
  - intros H. destruct (to_entry s T x i y Lx H) as (Ly & Iy & u & -> & _ & Hu). exists u. split; [done|]. split; [done|]. by apply index_tree.
  - intros (u & -> & Hu & St). apply index_tree in St as [Ly Iy]; [|done..]. destruct Ly as (u' & Hu' & H). assert (u' = u) as -> by congruence.
    unfold index_at in *. by rewrite <- Iy.
Qed.
