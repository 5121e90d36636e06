(** Proofs about deepcopy. *)
From Verif Require Import Py Odict OdictFacts Aliaser Heap Model Classes MonadFacts WF WFOps Views SpecMapping MappingProofs TreeOps
  Observe ObserveFacts SpecTree SpecReference DelEff DetachEff Reach MappingProps PlaceProofs RefTree AliasProofs NodifyProofs SpecCopy Dup.

Lemma dictionaries_slot s x l : l ∈ dictionaries s x <-> exists o a, nodes s !! x = Some o /\ get_slot a o = Some l.
Proof.
  unfold dictionaries. destruct (nodes s !! x) as [o|]; [|split; [by intros ?%elem_of_nil|by intros (o & a & ? & _)]].
  rewrite elem_of_list_In, in_flat_map. split.
  - intros (a & Ha & Hl). destruct a as [l'|]; [|done]. destruct Hl as [->|[]]. exists o. simpl in Ha.
    destruct Ha as [?|[?|[?|[?|[]]]]]; [exists SStorage|exists SCache|exists SChildren|exists SNodespaces]; done.
  - intros (o' & a & [= <-] & Ha). exists (Some l). split; [|by left]. destruct a; simpl in *; rewrite Ha; naive_solver.
Qed.
Lemma wf_dictionaries s y z l : wf s -> y <> z -> l ∈ dictionaries s y -> l ∉ dictionaries s z.
Proof.
  rewrite !dictionaries_slot. intros W Hne (o & a & Ho & Ha) (o' & b & Ho' & Hb). by destruct (wf_own _ W _ _ _ _ _ _ _ Ho Ho' Ha Hb).
Qed.
Lemma dup_copied s s' : wf s -> wf s' -> duplicate s s' -> deep_copied (Nat.add (next_id s)) s s'.
Proof.
  intros W W' D. assert (L : forall y, exists_node s y -> y < next_id s) by (intros y [o Ho]; by destruct (wf_nodes _ W _ _ Ho)).
  constructor.
  - intros y z. lia.
  - intros y. by apply dup_fresh.
  - intros y m Hy. apply L in Hy. lia.
  - intros y. by apply dup_mirrored.
  - intros y z _ _. rewrite !(dup_index_id s s' D). destruct (index_id s y), (index_id s z); simpl; try done.
    split; [intros [= ?]; f_equal; lia|by intros [= ->]].
  - intros y z Hy Hz l. apply wf_dictionaries; [done|]. apply L in Hz. lia.
  - intros y z Hy Hz i. rewrite (dup_index_id s s' D). intros (i0 & Hi & ->)%fmap_Some_1 Hz'.
    destruct Hz as [oz Hz]. unfold index_id in Hz'. rewrite (dup_old s s' W D _ _ Hz) in Hz'. simpl in Hz'.
    destruct (wf_nodes _ W _ _ Hz) as [_ [_ _ K _]]. destruct (K _ Hz') as [m Hm]. destruct (wf_idxs _ W _ _ Hm). lia.
  - intros y Hy. split; [|by apply dup_index]. by apply same_node_views, dup_view.
  - apply (du_log _ _ D).
Qed.
Theorem deepcopy_plain s x cls : wf s -> class_of s x = Some cls -> UUIDAware ∉ c_behs cls ->
  exists f s', deepcopy x s = (Ret (f x), s') /\ deep_copied f s s' /\ new_uuids f (fun _ => False) s s'.
Proof.
  intros W Hc Hu. unfold class_of in Hc. destruct (nodes s !! x) as [o|] eqn:Ho; [|done]. injection Hc as <-.
  destruct (deep_eff s x W) as (s' & E & D & W'). exists (Nat.add (next_id s)), s'. split.
  - unfold deepcopy. rewrite (bind_load _ _ _ _ Ho). by rewrite deepcopy_stack_plain.
  - split; [apply dup_copied; [done|apply W'; by exists o|done]|]. constructor; try done. intros y _ _. by apply dup_uuid.
Qed.

(** * Trees with uuids *)
Record stamped (l : list nat) (s s' : st) : Prop := Stamped {
  sp_views : forall y, vw_uuid None <$> views s' !! y = vw_uuid None <$> views s !! y;
  sp_out : forall y, y ∉ l -> uuid_at s' y = uuid_at s y;
  sp_in : forall y, y ∈ l -> exists u, uuid_at s' y = Some u /\ (next_uuid s <= u < next_uuid s')%N;
  sp_inj : forall y z, y ∈ l -> z ∈ l -> uuid_at s' y = uuid_at s' z -> y = z;
  sp_idxs : idxs s' = idxs s;
  sp_log : log s' = log s;
  sp_next : (next_uuid s <= next_uuid s')%N;
  sp_wf : wf s'
}.
Lemma stamped_nil s s' : eqv s s' -> wf s' -> stamped [] s s'.
Proof.
  intros [] W. constructor; try done.
  - intros y. by rewrite e_views.
  - intros y _. rewrite !ob_uuid. unfold fld. by rewrite e_views.
  - intros y Hy. by apply elem_of_nil in Hy.
  - intros y z Hy. by apply elem_of_nil in Hy.
  - by rewrite e_uuid.
Qed.
Lemma stamped_trans l m s s1 s2 : stamped l s s1 -> stamped m s1 s2 -> stamped (l ++ m) s s2.
Proof.
  intros A B. 
  assert (U : forall y, y ∈ l ++ m -> (y ∈ m /\ exists u, uuid_at s2 y = Some u /\ (next_uuid s1 <= u < next_uuid s2)%N) \/
     (y ∉ m /\ y ∈ l /\ exists u, uuid_at s1 y = Some u /\ uuid_at s2 y = Some u /\ (next_uuid s <= u < next_uuid s1)%N)).
  { intros y Hy. destruct (decide (y ∈ m)) as [Hm|Hm]; [left; split; [done|by apply (sp_in _ _ _ B)]|]. right. split; [done|].
    apply elem_of_app in Hy as [Hy|]; [|done]. split; [done|]. destruct (sp_in _ _ _ A y Hy) as (u & Hu & L). exists u. by rewrite (sp_out _ _ _ B y Hm). }
  constructor.
  - intros y. by rewrite (sp_views _ _ _ B), (sp_views _ _ _ A).
  - intros y Hy. rewrite (sp_out _ _ _ B), (sp_out _ _ _ A); [done|set_solver|set_solver].
  - pose proof (sp_next _ _ _ A). pose proof (sp_next _ _ _ B). intros y [(_ & u & Hu & L)|(_ & _ & u & _ & Hu & L)]%U; exists u; (split; [done|lia]).
  - intros y z [(Hy & u & Hu & L)|(Hy & Hyl & u & Hu1 & Hu & L)]%U [(Hz & u' & Hu' & L')|(Hz & Hzl & u' & Hu1' & Hu' & L')]%U E.
    + by apply (sp_inj _ _ _ B).
    + rewrite Hu, Hu' in E. injection E as ->. lia.
    + rewrite Hu, Hu' in E. injection E as ->. lia.
    + apply (sp_inj _ _ _ A); [done|done|congruence].
  - by rewrite (sp_idxs _ _ _ B), (sp_idxs _ _ _ A).
  - by rewrite (sp_log _ _ _ B), (sp_log _ _ _ A).
  - pose proof (sp_next _ _ _ A). pose proof (sp_next _ _ _ B). lia.
  - apply (sp_wf _ _ _ B).
Qed.
Lemma stamped_fld {B} (F : view -> B) l s s' y : (forall w, F (vw_uuid None w) = F w) -> stamped l s s' -> fld F s' y = fld F s y.
Proof.
  intros HF H. unfold fld. pose proof (sp_views _ _ _ H y) as E. destruct (views s' !! y) as [w'|], (views s !! y) as [w|]; simpl in *; try done.
  injection E as E1 E2 E3 E4 E5 E6 E7 E8 E9 E10 E11. rewrite <- (HF w), <- (HF w'). do 2 f_equal. unfold vw_uuid. congruence.
Qed.
Lemma stamped_class l s s' y : stamped l s s' -> class_of s' y = class_of s y.
Proof. intros H. rewrite !ob_class. by eapply stamped_fld. Qed.
Lemma stamped_entries l s s' y : stamped l s s' -> entries_at s' y = entries_at s y.
Proof. intros H. rewrite !ob_entries. f_equal. by eapply stamped_fld. Qed.
Lemma stamped_exists l s s' y : stamped l s s' -> exists_node s' y <-> exists_node s y.
Proof.
  intros H. unfold exists_node. change (live s' y <-> live s y). rewrite !views_live. pose proof (sp_views _ _ _ H y) as E.
  destruct (views s' !! y), (views s !! y); simpl in *; try done.
Qed.
Lemma stamped_below l s s' x y : stamped l s s' -> below s' x y <-> below s x y.
Proof.
  intros H. assert (C : forall p k c, child s' p k c <-> child s p k c) by (intros p k c; unfold child; by rewrite (stamped_entries _ _ _ _ H)).
  split; (induction 1 as [|p k c d Hc Hb IH]; [constructor|]; econstructor; [by apply C|done]).
Qed.
Lemma stamped_size l s s' : stamped l s s' -> size (nodes s') = size (nodes s).
Proof.
  intros H. rewrite <- !size_dom. apply set_size_proper. intros y. rewrite !elem_of_dom. apply (stamped_exists _ _ _ _ H).
Qed.
Lemma stamped_tree l s s' x : stamped l s s' -> node_tree s x -> node_tree s' x.
Proof.
  intros H [A B C D]. constructor.
  - intros y Hy. rewrite (stamped_class _ _ _ _ H). apply A. by apply (stamped_below _ _ _ _ _ H).
  - intros y k v Hy. rewrite (stamped_entries _ _ _ _ H). apply B. by apply (stamped_below _ _ _ _ _ H).
  - intros y k v cls Hy. rewrite (stamped_entries _ _ _ _ H), (stamped_class _ _ _ _ H). apply C. by apply (stamped_below _ _ _ _ _ H).
  - intros y k c Hy. unfold child. rewrite (stamped_entries _ _ _ _ H). rewrite (stamped_below _ _ _ _ _ H). apply D. by apply (stamped_below _ _ _ _ _ H).
Qed.
Lemma stamped_aware l s s' y : stamped l s s' -> aware s' y <-> aware s y.
Proof. intros H. unfold aware. by rewrite (stamped_class _ _ _ _ H). Qed.

(** The uuid of one node. *)
Lemma stamp_one s c o : wf s -> nodes s !! c = Some o -> Reference ∉ c_behs (o_cls o) ->
  exists s', (let! u := uuid4 in assign_uuid c (Some u)) s = (Ret tt, s') /\ stamped [c] s s'.
Proof.
  intros W Ho Hr. unfold bind at 1, uuid4. set (s1 := set_next_uuid N.succ s).
  assert (Hh : has Reference o = false) by (unfold has, hasc; by rewrite bool_decide_eq_false_2).
  unfold assign_uuid. rewrite (bind_load _ s1 _ _ Ho), Hh. unfold bind at 1, saw_uuid. 
  assert (Es : set_next_uuid (N.max (N.succ (next_uuid s))) s1 = s1) by (unfold s1, set_next_uuid; simpl; by rewrite N.max_id).
  rewrite Es. assert (W1 : wf s1). { pose proof (safe_uuid4 s W) as [H _]. exact H. }
  destruct (modify_uuid_eff s1 c (Some (next_uuid s))) as (s2 & E & W2 & [(w & Hw & Hv) T1 T2 T3 _ _]); [by exists o|done|intros n [= <-]; simpl; lia|].
  exists s2. split; [done|]. unfold s1 in *. rewrite views_set_uuid in Hw, Hv. simpl in *. clear s1 Es.
  assert (Uc : uuid_at s2 c = Some (next_uuid s)). { rewrite (view_uuid s2 c (vw_uuid (Some (next_uuid s)) w)); [done|]. by rewrite Hv, lookup_insert. }
  constructor.
  - intros y. rewrite Hv. destruct (decide (y = c)) as [->|Hne]; [rewrite lookup_insert, Hw; by destruct w|by rewrite lookup_insert_ne].
  - intros y Hy. rewrite !ob_uuid. unfold fld. rewrite Hv, lookup_insert_ne by set_solver. done.
  - intros y ->%elem_of_list_singleton. exists (next_uuid s). split; [done|]. rewrite T2. lia.
  - intros y z ->%elem_of_list_singleton ->%elem_of_list_singleton _. done.
  - done.
  - done.
  - rewrite T2. lia.
  - done.
Qed.
Lemma values_eqv s x cls : wf s -> class_of s x = Some cls -> tree_class (c_behs cls) = true ->
  Forall (fun e => ~ to_spaces cls (fst e)) (entries_at s x) ->
  exists s', values x s = (Ret (map snd (entries_at s x)), s') /\ eqv s s' /\ wf s'.
Proof.
  intros W Hc Ht Hd. destruct (class_view s x cls Hc) as (w & Hw & Ew). subst cls.
  rewrite (view_entries _ _ _ Hw) in *. pose proof (entries_known s x W) as Hk. pose proof (entries_nodup s x W) as Hn.
  rewrite (view_entries _ _ _ Hw) in Hk, Hn.
  destruct (values_eff s x w W Hw Ht) as (s' & E & Q & W'). exists s'. split; [|done].
  rewrite E. f_equal. apply mapr_values; [done| |].
  - eapply Forall_impl; [exact Hk|]. by intros e [? _].
  - eapply Forall_impl; [exact Hd|]. intros e He. by apply nskey_dunder_false.
Qed.
Lemma below_trans s x y z : below s x y -> below s y z -> below s x z.
Proof. induction 1 as [|p k c d Hc Hb IH]; [done|]. intros H. econstructor; [done|by apply IH]. Qed.
Lemma below_exists s x y : wf s -> exists_node s x -> below s x y -> exists_node s y.
Proof.
  intros W Hx. induction 1 as [|p k c d Hc Hb IH]; [done|]. apply IH. unfold child in Hc. rewrite value_at_spec in Hc. apply dget_Some_in in Hc.
  pose proof (entries_known s p W) as K. rewrite Forall_forall in K. by destruct (K _ Hc).
Qed.
Lemma anc_short s (anc : list nat) : NoDup anc -> (forall a, a ∈ anc -> exists_node s a) -> length anc <= size (nodes s).
Proof.
  intros ND H. rewrite <- size_dom, <- (size_list_to_set (C := gset nat) _ ND). apply subseteq_size. intros y Hy.
  apply elem_of_list_to_set in Hy. apply elem_of_dom. by apply H.
Qed.
Lemma node_tree_child s x k c : node_tree s x -> child s x k c -> node_tree s c.
Proof.
  intros [A B C D] Hc. assert (T : forall y, below s c y -> below s x y) by (intros y Hy; by econstructor).
  constructor; eauto.
Qed.
Lemma stamp_tree f : forall c anc s, wf s -> exists_node s c -> node_tree s c -> NoDup anc ->
  (forall a, a ∈ anc -> exists_node s a /\ below s a c) -> c ∉ anc -> size (nodes s) < length anc + f ->
  exists s' l, set_uuid_for f true (VNode c) s = (Ret tt, s') /\ stamped l s s' /\ forall y, y ∈ l <-> below s c y /\ aware s y.
Proof.
  induction f as [|f IH]; intros c anc s W Hc T ND Ha Hn Hf.
  { exfalso. assert (length anc <= size (nodes s)); [|lia]. apply anc_short; [done|]. intros a Hin. by apply Ha. }
  pose proof Hc as [o Ho]. simpl. rewrite (bind_load _ _ _ _ Ho).
  assert (Hcls : class_of s c = Some (o_cls o)) by (unfold class_of; by rewrite Ho).
  destruct (nt_class _ _ T c (below_here _ _)) as (cls & E & Ht & Hr). rewrite Hcls in E. injection E as <-.
  assert (Step : exists s1, (if has UUIDAware o then let! u := uuid4 in assign_uuid c (Some u) else ret tt) s = (Ret tt, s1) /\
    exists l1, stamped l1 s s1 /\ forall y, y ∈ l1 <-> y = c /\ aware s c).
  { unfold has, hasc. case_bool_decide as Hw.
    - destruct (stamp_one s c o W Ho Hr) as (s1 & E & S). exists s1. split; [done|]. exists [c]. split; [done|]. intros y. rewrite elem_of_list_singleton.
      split; [|by intros [? _]]. intros ->. split; [done|]. by exists (o_cls o).
    - exists s. split; [done|]. exists []. split; [by apply stamped_nil; [apply eqv_refl|]|]. intros y. split; [by intros ?%elem_of_nil|].
      intros [_ (cls & Hcl & Hin)]. rewrite Hcls in Hcl. injection Hcl as <-. done. }
  destruct Step as (s1 & E1 & l1 & S1 & L1). rewrite (bind_Ret _ _ _ _ _ E1).
  destruct (values_eqv s1 c (o_cls o)) as (s2 & E2 & Q2 & W2); [apply (sp_wf _ _ _ S1)|by rewrite (stamped_class _ _ _ _ S1)|done| |].
  { rewrite (stamped_entries _ _ _ _ S1). apply Forall_forall. intros [k v] Hin. simpl. eapply (nt_keys _ _ T c); [constructor| |done].
    rewrite value_at_spec. apply dget_in; [by apply entries_nodup|done]. }
  rewrite (bind_Ret _ _ _ _ _ E2). rewrite (stamped_entries _ _ _ _ S1).
  pose proof (stamped_trans _ _ _ _ _ S1 (stamped_nil _ _ Q2 W2)) as S2. rewrite app_nil_r in S2. clear E1 E2 Q2 W2 S1 s1. rename s2 into s1. rename S2 into S1.
  assert (G : forall vs s1 l1, Forall (fun v => exists k z, v = VNode z /\ child s c k z) vs -> stamped l1 s s1 ->
    exists s' l, iterM (set_uuid_for f true) vs s1 = (Ret tt, s') /\ stamped (l1 ++ l) s s' /\
      forall y, y ∈ l <-> (exists z, VNode z ∈ vs /\ below s z y) /\ aware s y).
  { clear s1 l1 S1 L1. induction vs as [|v vs IHv]; intros s1 l1 Hvs S1.
    - exists s1, []. split; [done|]. rewrite app_nil_r. split; [done|]. intros y. split; [by intros ?%elem_of_nil|]. intros [(z & Hz & _) _]. by apply elem_of_nil in Hz.
    - apply Forall_cons in Hvs as [(k & z & -> & Hz) Hvs]. 
      assert (Hez : exists_node s z). { apply (below_exists s c z W Hc). econstructor; [done|constructor]. }
      destruct (IH z (c :: anc) s1) as (s2 & l2 & E2 & S2 & L2).
      + apply (sp_wf _ _ _ S1).
      + by apply (stamped_exists _ _ _ _ S1).
      + eapply stamped_tree; [done|]. by eapply node_tree_child.
      + by constructor.
      + intros a. rewrite (stamped_exists _ _ _ _ S1), (stamped_below _ _ _ _ _ S1). intros [->|Hin]%elem_of_cons.
        * split; [done|]. econstructor; [done|constructor].
        * destruct (Ha a Hin) as [? Hb]. split; [done|]. eapply below_trans; [done|]. econstructor; [done|constructor].
      + intros [->|Hin]%elem_of_cons.
        * apply (nt_acyclic _ _ T c k c); [constructor|done|constructor].
        * destruct (Ha z Hin) as [_ Hb]. by apply (nt_acyclic _ _ T c k z); [constructor| |].
      + rewrite (stamped_size _ _ _ S1). simpl. lia.
      + pose proof (stamped_trans _ _ _ _ _ S1 S2) as S12.
        destruct (IHv s2 (l1 ++ l2) Hvs S12) as (s3 & l3 & E3 & S3 & L3). exists s3, (l2 ++ l3).
        split; [change (bind (set_uuid_for f true (VNode z)) (fun _ => iterM (set_uuid_for f true) vs) s1 = (Ret tt, s3)); by rewrite (bind_Ret _ _ _ _ _ E2)|].
        split; [by rewrite app_assoc|]. intros y. rewrite elem_of_app, L2, L3. rewrite (stamped_below _ _ _ _ _ S1), (stamped_aware _ _ _ _ S1). split.
        * intros [[Hb Hw]|[(z' & Hz' & Hb) Hw]]; (split; [|done]); [exists z; split; [by left|done]|exists z'; split; [by right|done]].
        * intros [(z' & Hz' & Hb) Hw]. apply elem_of_cons in Hz' as [[= ->]|Hz']; [by left|]. right. split; [|done]. by exists z'. }
  destruct (G (map snd (entries_at s c)) s1 l1) as (s2 & l & E & S & L); [|done|].
  { apply Forall_forall. intros v Hin. apply elem_of_list_In, in_map_iff in Hin as ([k v'] & <- & Hin). apply elem_of_list_In in Hin. simpl.
    assert (Hv : value_at k (entries_at s c) = Some v') by (rewrite value_at_spec; apply dget_in; [by apply entries_nodup|done]).
    destruct (nt_nodes _ _ T c k v' (below_here _ _) Hv) as [z ->]. by exists k, z. }
  exists s2, (l1 ++ l). split; [done|]. split; [done|]. intros y. rewrite elem_of_app, L1, L. split.
  - intros [[-> Hw]|[(z & Hz & Hb) Hw]]; [split; [constructor|done]|]. split; [|done].
    apply elem_of_list_In, in_map_iff in Hz as ([k v'] & Hv' & Hin). simpl in Hv'. subst v'. apply elem_of_list_In in Hin.
    econstructor; [|done]. unfold child. rewrite value_at_spec. apply dget_in; [by apply entries_nodup|done].
  - intros [Hb Hw]. inversion Hb as [|p k z d Hz Hzb]; subst; [by left|]. right. split; [|done]. exists z. split; [|done].
    unfold child in Hz. rewrite value_at_spec in Hz. apply dget_Some_in in Hz. apply elem_of_list_In, in_map_iff. exists (k, VNode z). split; [done|]. by apply elem_of_list_In.
Qed.

(** * The stack *)
Section stack.
Context (s s1 : st) (x : nat) (o : obj) (W : wf s) (D : duplicate s s1) (W1 : wf s1) (Ho : nodes s !! x = Some o).
Notation f := (Nat.add (next_id s)).
Lemma dup_entries y : exists_node s y -> entries_at s1 (f y) = renamed_entries f (entries_at s y).
Proof. intros H. apply (mi_entries _ _ _ _ (dup_mirrored s s1 D y H)). Qed.
Lemma renamed_lookup k d : value_at k (renamed_entries f d) = renamed f <$> value_at k d.
Proof. rewrite !value_at_spec. induction d as [|[k' v] d IH]; [done|]. simpl. by case_decide. Qed.
Lemma dup_child p k c : exists_node s p -> child s1 (f p) k c <-> exists d, c = f d /\ child s p k d.
Proof.
  intros Hp. unfold child. rewrite (dup_entries p Hp), renamed_lookup. destruct (value_at k (entries_at s p)) as [v|]; simpl; [|naive_solver].
  destruct v; simpl; naive_solver.
Qed.
Lemma dup_below p y : exists_node s p -> below s p y -> below s1 (f p) (f y).
Proof.
  intros Hp Hb. induction Hb as [|p k c d Hc Hb IH]; [constructor|]. econstructor; [apply (dup_child p k (f c) Hp); by exists c|].
  apply IH. eapply below_exists; [done|exact Hp|]. econstructor; [done|constructor].
Qed.
Lemma dup_below_inv p y : exists_node s p -> below s1 (f p) y -> exists z, y = f z /\ below s p z.
Proof.
  intros Hp Hb. remember (f p) as q eqn:Eq. revert p Hp Eq. induction Hb as [q|q k c d Hc Hb IH]; intros p Hp ->; [exists p; split; [done|constructor]|].
  apply (dup_child p k c Hp) in Hc as (c0 & -> & Hc0). destruct (IH c0) as (z & -> & Hz); [|done|].
  - eapply below_exists; [done|exact Hp|]. econstructor; [done|constructor].
  - exists z. split; [done|]. by econstructor.
Qed.
Lemma dup_class y : exists_node s y -> class_of s1 (f y) = class_of s y.
Proof. intros H. apply (mi_class _ _ _ _ (dup_mirrored s s1 D y H)). Qed.
Lemma dup_tree p : exists_node s p -> node_tree s p -> node_tree s1 (f p).
Proof.
  intros Hp [A B C E]. assert (X : forall y, below s p y -> exists_node s y) by (intros y; by apply below_exists).
  constructor.
  - intros y (z & -> & Hz)%dup_below_inv; [|done]. rewrite dup_class by auto. by apply A.
  - intros y k v (z & -> & Hz)%dup_below_inv; [|done]. rewrite dup_entries, renamed_lookup by auto. intros (v0 & Hv & ->)%fmap_Some_1.
    destruct (B z k v0 Hz Hv) as [c ->]. by exists (f c).
  - intros y k v cls (z & -> & Hz)%dup_below_inv; [|done]. rewrite dup_entries, renamed_lookup, dup_class by auto. intros (v0 & Hv & ->)%fmap_Some_1. by eapply C.
  - intros y k c (z & -> & Hz)%dup_below_inv; [|done]. intros (c0 & -> & Hc)%dup_child Hb; [|by auto].
    assert (exists_node s c0). { apply X. eapply below_trans; [done|]. econstructor; [done|constructor]. }
    apply dup_below_inv in Hb as (z' & Ez & Hb); [|done]. assert (z' = z) as -> by lia. by apply (E z k c0).
Qed.
Lemma dup_aware y : exists_node s y -> aware s1 (f y) <-> aware s y.
Proof. intros H. unfold aware. by rewrite dup_class. Qed.
(** what gets new uuids *)
Definition stamps (y : nat) : Prop := (if c_recursiv (o_cls o) then below s x y else y = x) /\ aware s y.
Lemma stack_stamps bs : (c_recursiv (o_cls o) = true -> node_tree s x) -> Reference ∉ c_behs (o_cls o) ->
  deep x s = (Ret (f x), s1) -> (UUIDAware ∈ bs -> UUIDAware ∈ c_behs (o_cls o)) ->
  exists s' l, deepcopy_stack bs x s = (Ret (f x), s') /\ stamped l s1 s' /\ 
    forall y, y ∈ l <-> UUIDAware ∈ bs /\ exists z, y = f z /\ stamps z.
Proof.
  intros T Hr Hd. assert (Hx : exists_node s x) by (by exists o). induction bs as [|b bs IH]; intros Hin.
  { exists s1, []. split; [done|]. split; [by apply stamped_nil; [apply eqv_refl|]|]. intros y. split; [by intros ?%elem_of_nil|]. by intros [?%elem_of_nil _]. }
  destruct IH as (s2 & l & E & S & L); [intros H; apply Hin; by right|].
  destruct (decide (b = UUIDAware)) as [->|Hb].
  2: { exists s2, l. split; [simpl; destruct b; try exact E; done|]. split; [done|]. intros y. rewrite L, elem_of_cons. naive_solver. }
  assert (Hw : UUIDAware ∈ c_behs (o_cls o)) by (apply Hin; by left).
  assert (Hax : aware s x) by (exists (o_cls o); unfold class_of; by rewrite Ho).
  simpl. rewrite (bind_Ret _ _ _ _ _ E).
  assert (Hold : exists o2, nodes s2 !! x = Some o2 /\ o_cls o2 = o_cls o).
  { pose proof (stamped_class _ _ _ x S) as Hc. unfold class_of in Hc. rewrite (dup_old s s1 W D _ _ Ho) in Hc. destruct (nodes s2 !! x) as [o2|]; [|done].
    exists o2. split; [done|]. by injection Hc. }
  destruct Hold as (o2 & Ho2 & Ec). rewrite (bind_load _ _ _ _ Ho2), Ec. unfold with_fuel at 1.
  assert (HT : exists s3 m, set_uuid_for (fuel_of s2) (c_recursiv (o_cls o)) (VNode (f x)) s2 = (Ret tt, s3) /\ stamped m s2 s3 /\ forall y, y ∈ m <-> exists z, y = f z /\ stamps z).
  { assert (Hfx : exists_node s1 (f x)) by (unfold exists_node; rewrite (dup_new s s1 D), Ho; by eexists). unfold stamps.
    destruct (c_recursiv (o_cls o)) eqn:Er.
    - destruct (stamp_tree (fuel_of s2) (f x) [] s2) as (s3 & m & E3 & S3 & L3).
      + apply (sp_wf _ _ _ S).
      + by apply (stamped_exists _ _ _ _ S).
      + eapply stamped_tree; [exact S|]. apply dup_tree; [done|by apply T].
      + constructor.
      + intros a Ha. by apply elem_of_nil in Ha.
      + apply not_elem_of_nil.
      + unfold fuel_of. simpl. lia.
      + exists s3, m. split; [done|]. split; [done|]. intros y. rewrite L3, (stamped_below _ _ _ _ _ S), (stamped_aware _ _ _ _ S). split.
        * intros [(z & -> & Hz)%dup_below_inv Hw']; [|done]. exists z. split; [done|]. split; [done|]. apply dup_aware; [|done]. by eapply below_exists.
        * intros (z & -> & Hz & Hw'). split; [by apply dup_below|]. apply dup_aware; [|done]. by eapply below_exists.
    - assert (Ho3 : exists o3, nodes s2 !! (f x) = Some o3 /\ o_cls o3 = o_cls o).
      { pose proof (stamped_class _ _ _ (f x) S) as Hc. unfold class_of in Hc. rewrite (dup_new s s1 D), Ho in Hc. destruct (nodes s2 !! f x) as [o3|]; [|done].
        exists o3. split; [done|]. by injection Hc. }
      destruct Ho3 as (o3 & Ho3 & E3). unfold fuel_of. cbn [set_uuid_for]. rewrite (bind_load _ _ _ _ Ho3).
      assert (Hh : has UUIDAware o3 = true) by (unfold has, hasc; rewrite E3; by apply bool_decide_eq_true). rewrite Hh.
      destruct (stamp_one s2 (f x) o3) as (s3 & E4 & S4); [apply (sp_wf _ _ _ S)|done|by rewrite E3|].
      rewrite (bind_Ret _ _ _ _ _ E4). exists s3, [f x]. split; [done|]. split; [done|]. intros y. rewrite elem_of_list_singleton. split.
      + intros ->. by exists x.
      + by intros (z & -> & -> & _). }
  destruct HT as (s3 & m & E3 & S3 & L3). unfold bind. rewrite E3. exists s3, (l ++ m). split; [done|]. split; [by eapply stamped_trans|].
  intros y. rewrite elem_of_app, L, L3, elem_of_cons. naive_solver.
Qed.
End stack.
Lemma stamped_copied f l s s1 s' : wf s -> deep_copied f s s1 -> stamped l s1 s' -> (forall y, exists_node s y -> y ∉ l) -> deep_copied f s s'.
Proof.
  intros W [C1 C2 C0 C3 C4 C5 C6 C7 C8] S Hl.
  assert (V : forall y, exists_node s y -> views s' !! y = views s1 !! y).
  { intros y Hy. pose proof (sp_views _ _ _ S y) as E. pose proof (sp_out _ _ _ S y (Hl y Hy)) as U. rewrite !ob_uuid in U. unfold fld in U.
    destruct (views s' !! y) as [w|], (views s1 !! y) as [w'|]; simpl in *; try done. destruct w, w'. simpl in U. unfold vw_uuid in E. simpl in E. congruence. }
  assert (I : forall y, index_id s' y = index_id s1 y) by (intros y; rewrite !ob_index_id; f_equal; by eapply stamped_fld).
  assert (J : forall y, index_at s' y = index_at s1 y) by (intros y; unfold index_at; by rewrite I, (sp_idxs _ _ _ S)).
  assert (A : forall y, allows s' y = allows s1 y).
  { intros y. unfold allows. pose proof (sp_views _ _ _ S y) as E. rewrite !views_lookup in E. destruct (nodes s' !! y), (nodes s1 !! y); simpl in *; try done. by injection E. }
  constructor; try done.
  - intros y Hy. destruct (C3 y Hy) as [M1 M2 M3 M4 M5 M6 M7 M8 M9 M10 M11]. 
    constructor; rewrite ?I, ?J, ?A; try done; [rewrite <- M1|rewrite <- M2|rewrite <- M3|rewrite <- M4|rewrite <- M5|rewrite <- M6|rewrite <- M7|rewrite <- M11];
      rewrite ?ob_class, ?ob_name, ?ob_parent, ?ob_entries, ?ob_spaces, ?ob_cache, ?ob_fixed, ?ob_suppressed; first [by eapply stamped_fld|f_equal; by eapply stamped_fld|do 2 f_equal; by eapply stamped_fld].
  - intros y z. rewrite !I. apply C4.
  - intros y z Hy Hz l0. apply wf_dictionaries; [apply (sp_wf _ _ _ S)|]. intros E. apply (C2 y Hy). by rewrite E.
  - intros y z. rewrite !I. apply C6.
  - intros y Hy. destruct (C7 y Hy) as [N X]. split; [|by rewrite J]. destruct N. pose proof (same_node_views s1 s' y (V y Hy)) as []. constructor; congruence.
  - by rewrite (sp_log _ _ _ S).
Qed.
Lemma stamped_uuids f l P s s1 s' : wf s -> deep_copied f s s1 -> stamped l s1 s' -> next_uuid s1 = next_uuid s -> 
  (forall y, exists_node s y -> uuid_at s1 (f y) = uuid_at s y) ->
  (forall y, exists_node s y -> f y ∈ l <-> P y) -> new_uuids f P s s'.
Proof.
  intros W C S Hn Hu Hl. constructor.
  - intros y Hy Hp. destruct (sp_in _ _ _ S (f y)) as (u & E & L); [by apply Hl|]. exists u. split; [done|]. intros z Hz. unfold uuid_at in Hz.
    destruct (nodes s !! z) as [o|] eqn:Ho; [|done]. simpl in Hz. destruct (wf_nodes _ W _ _ Ho) as [_ [_ _ _ K]]. specialize (K _ Hz). lia.
  - intros y z Hy Hz Py Pz E. apply (dc_inj _ _ _ C). apply (sp_inj _ _ _ S); [by apply Hl|by apply Hl|done].
  - intros y Hy Hp. rewrite (sp_out _ _ _ S); [by apply Hu|]. by rewrite Hl.
Qed.
Theorem deepcopy_uuids s x cls : wf s -> class_of s x = Some cls -> UUIDAware ∈ c_behs cls -> Reference ∉ c_behs cls ->
  (c_recursiv cls = true -> node_tree s x) ->
  exists f s', deepcopy x s = (Ret (f x), s') /\ deep_copied f s s' /\
    new_uuids f (fun y => (if c_recursiv cls then below s x y else y = x) /\ aware s y) s s'.
Proof.
  intros W Hc Hu Hr T. pose proof Hc as Hc'. unfold class_of in Hc. destruct (nodes s !! x) as [o|] eqn:Ho; [|done]. injection Hc as <-.
  destruct (deep_eff s x W) as (s1 & E & D & W1). specialize (W1 ltac:(by exists o)).
  destruct (stack_stamps s s1 x o W D W1 Ho (c_behs (o_cls o)) T Hr E) as (s' & l & E' & S & L); [done|].
  exists (Nat.add (next_id s)), s'. split; [unfold deepcopy; by rewrite (bind_load _ _ _ _ Ho)|].
  pose proof (dup_copied s s1 W W1 D) as C. split.
  - eapply stamped_copied; [done|exact C|exact S|]. intros y [oy Hy] (_ & z & -> & _)%L. destruct (wf_nodes _ W _ _ Hy). lia.
  - eapply stamped_uuids; [done|exact C|exact S|apply (du_uuid _ _ D)| |].
    + intros y _. by apply dup_uuid.
    + intros y Hy. rewrite L. split; [intros (_ & z & Ez & Hz); by assert (z = y) as -> by lia|]. intros H. split; [done|]. by exists y.
Qed.
