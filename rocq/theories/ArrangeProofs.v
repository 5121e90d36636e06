(** Proofs for C72. *)
From Verif Require Import Py Odict OdictFacts Heap Model MonadFacts WF Views SpecMapping MappingProofs TreeOps Observe ObserveFacts SpecTree Reach MappingProps SpecOrder OrderProofs SpecPlace PlaceProofs SpecReference RefTree RefSteps RefHistory SpecArrange P_Mapping P_Order P_Reference.

Lemma re_refl s x : rearranged s x s.
Proof. by constructor. Qed.
Lemma re_trans s x s1 s2 : rearranged s x s1 -> rearranged s1 x s2 -> rearranged s x s2.
Proof.
  intros [A1 A2 A3 A4 A5 A6] [B1 B2 B3 B4 B5 B6]. constructor; try congruence.
  - by etransitivity.
  - intros y N. destruct (A3 y N), (B3 y N). split; congruence.
  - intros y. destruct (A4 y), (B4 y). split; congruence.
Qed.
Lemma in_place_re cls s x s' : children_in_place cls s x -> rearranged s x s' -> children_in_place cls s' x.
Proof.
  intros H R k v Hin. rewrite <- (re_entries _ _ _ R) in Hin. destruct (H k v Hin) as (t & c & E1 & E2 & E3 & E4 & E5). destruct (re_places _ _ _ R c). exists t, c. repeat split; try done; congruence.
Qed.
Lemma value_in k v d : NoDup (dkeys d) -> (k, v) ∈ d -> value_at k d = Some v.
Proof.
  intros ND H. unfold value_at. induction d as [|[k' v'] d IH]; [by apply elem_of_nil in H|]. simpl in *. apply NoDup_cons in ND as [N ND]. case_bool_decide as E; simpl.
  - subst k'. apply elem_of_cons in H as [[= ->]|H]; [done|]. destruct N. apply elem_of_dkeys. by exists v.
  - apply elem_of_cons in H as [[= -> ->]|H]; [done|]. by apply IH.
Qed.
Lemma value_removed k d : value_at k (remove k d) = None.
Proof. unfold value_at, remove. induction d as [|[k' v'] d IH]; [done|]. simpl. case_bool_decide; simpl; [done|]. by rewrite bool_decide_eq_false_2. Qed.
Lemma in_remove k e d : e ∈ remove k d <-> e ∈ d /\ fst e <> k.
Proof. unfold remove. rewrite elem_of_list_In, filter_In, <- elem_of_list_In, negb_true_iff, bool_decide_eq_false. done. Qed.
Lemma remove_perm k v d : NoDup (dkeys d) -> (k, v) ∈ d -> Permutation d ((k, v) :: remove k d).
Proof.
  intros ND H. induction d as [|[k' v'] d IH]; [by apply elem_of_nil in H|]. simpl in *. apply NoDup_cons in ND as [N ND]. case_bool_decide as E; simpl.
  - subst k'. apply elem_of_cons in H as [[= ->]|H]; [|destruct N; apply elem_of_dkeys; by exists v]. f_equiv. clear IH. assert (remove k d = d) as ->; [|done].
    unfold remove. clear ND. induction d as [|[k2 v2] d IH]; [done|]. simpl in *. rewrite bool_decide_eq_false_2 by (intros ->; apply N; left). simpl. f_equal. apply IH. intros ?. apply N. by right.
  - apply elem_of_cons in H as [[= -> ->]|H]; [done|]. rewrite IH at 1 by done. by rewrite Permutation_swap.
Qed.
(** * One child *)
(** [I] is kept by what is done here, and admits it. *)
Section one.
Context (x : nat) (cls : classdef) (Ht : tree_class (c_behs cls) = true) (Ho : orders cls) (Had : Adopt ∈ c_behs cls).
Context (I : st -> Prop) (HI : forall s, I s -> reach s).
Context (detached : forall s t c, I s -> class_of s x = Some cls -> children_in_place cls s x -> (KStr t, VNode c) ∈ entries_at s x ->
  exists s1, detach x (KStr t) s = (Ret (VNode c), s1) /\ removed cls s x (KStr t) s1 /\ reach s1 /\ joins cls s1 x c /\
    forall o s2, (exists b, o = OInsertEnd b x c) \/ (exists b r, o = OInsertAt b x c r) -> op_ok s1 o -> run_op o s1 = (Ret tt, s2) -> rearranged s x s2 -> I s2).
Lemma member_exists s k c : reach s -> (k, VNode c) ∈ entries_at s x -> exists_node s c.
Proof. intros R H. pose proof (entries_known s x (reach_wf s R)) as F. rewrite Forall_forall in F. by destruct (F _ H). Qed.
(** what both ways of putting it back have in common *)
Lemma put_back s t c s1 s2 d : reach s -> class_of s x = Some cls -> children_in_place cls s x -> (KStr t, VNode c) ∈ entries_at s x ->
  removed cls s x (KStr t) s1 -> inserted cls s1 x c (KStr t) s2 -> entries_at s2 x = d -> Permutation d ((KStr t, VNode c) :: remove (KStr t) (entries_at s x)) -> rearranged s x s2.
Proof.
  intros R Hc HP Hin RM IN Ed P. destruct (HP _ _ Hin) as (t' & c' & [= <-] & [= <-] & E3 & E4 & E5). destruct (rm_entries _ _ _ _ _ RM E3) as (_ & _ & Hsp). constructor.
  - rewrite Ed, P. apply remove_perm; [by apply entries_nodup, reach_wf|done].
  - rewrite (ins_spaces _ _ _ _ _ _ IN). done.
  - intros y N. destruct (rm_others _ _ _ _ _ RM y N), (ins_others _ _ _ _ _ _ IN y N). split; congruence.
  - intros y. destruct (rm_places _ _ _ _ _ RM y) as [A B]. destruct (decide (y = c)) as [->|N].
    + destruct (ins_adopts _ _ _ _ _ _ IN Had) as [C D]. split; congruence.
    + destruct (ins_places _ _ _ _ _ _ IN y N) as [C D]. split; congruence.
  - intros y. by rewrite (ins_uuid _ _ _ _ _ _ IN), (rm_uuid _ _ _ _ _ RM).
  - intros y. by rewrite (ins_class _ _ _ _ _ _ IN), (rm_class _ _ _ _ _ RM).
Qed.
Lemma removed_facts s t c s1 : reach s -> class_of s x = Some cls -> children_in_place cls s x -> (KStr t, VNode c) ∈ entries_at s x -> removed cls s x (KStr t) s1 ->
  entries_at s1 x = remove (KStr t) (entries_at s x) /\ ~ to_spaces cls (KStr t) /\ class_of s1 x = Some cls /\ name_at s1 c = Some (KStr t) /\ value_at (KStr t) (entries_at s1 x) = None.
Proof.
  intros R Hc HP Hin RM. destruct (HP _ _ Hin) as (t' & c' & [= <-] & [= <-] & E3 & E4 & E5). destruct (rm_entries _ _ _ _ _ RM E3) as (_ & He & _). destruct (rm_places _ _ _ _ _ RM c) as [A B].
  repeat split; try done; [by rewrite (rm_class _ _ _ _ _ RM)|congruence|]. rewrite He. apply value_removed.
Qed.
Lemma node_exists s : class_of s x = Some cls -> exists_node s x.
Proof. unfold class_of, exists_node. by destruct (nodes s !! x). Qed.
Lemma class_exists s s' y : (forall y, class_of s' y = class_of s y) -> exists_node s y -> exists_node s' y.
Proof. unfold class_of, exists_node. intros H [o E]. specialize (H y). rewrite E in H. by destruct (nodes s' !! y). Qed.
Lemma ended s t c : I s -> class_of s x = Some cls -> children_in_place cls s x -> (KStr t, VNode c) ∈ entries_at s x ->
  exists s', to_the_end x (KStr t) s = (Ret tt, s') /\ entries_at s' x = remove (KStr t) (entries_at s x) ++ [(KStr t, VNode c)] /\ rearranged s x s' /\ I s'.
Proof.
  intros J Hc HP Hin. destruct (HP _ _ Hin) as (t' & c' & [= <-] & [= <-] & E3 & E4 & E5). pose proof (HI s J) as R. destruct (detached s t c J Hc HP Hin) as (s1 & D & RM & R1 & HJ & HK).
  destruct (removed_facts s t c s1 R Hc HP Hin RM) as (He & _ & Hc1 & Hn1 & Hv1).
  destruct (C15_insert_at_end false s1 x c cls t R1 Hc1 Ht Ho Hn1 E3 Hv1 HJ) as (s2 & EI & He2 & IN).
  - intros rk v Hl. simpl in Hl. rewrite He in Hl. apply last_Some_elem_of in Hl. apply in_remove in Hl as [Hl Hk]. destruct (HP _ _ Hl) as (t2 & c2 & -> & -> & F3 & F4 & _). split; [done|].
    exists c2. split; [done|]. destruct (rm_places _ _ _ _ _ RM c2) as [A _]. congruence.
  - simpl in He2. rewrite He in He2. exists s2. split; [unfold to_the_end, bind; by rewrite D|]. split; [done|]. assert (RE : rearranged s x s2) by (eapply put_back; try done; by rewrite Permutation_app_comm). split; [done|].
    apply (HK (OInsertEnd false x c)); [left; by eexists| |exact EI|done]. simpl. split; [by apply node_exists|]. apply (class_exists s); [apply RM|by eapply member_exists].
Qed.
Lemma moved before s t c r rk : I s -> class_of s x = Some cls -> children_in_place cls s x -> (KStr t, VNode c) ∈ entries_at s x ->
  name_at s r = Some rk -> rk <> KStr t -> is_Some (value_at rk (entries_at s x)) ->
  exists s', move before x (KStr t) r s = (Ret tt, s') /\ beside before rk (KStr t, VNode c) (remove (KStr t) (entries_at s x)) (entries_at s' x) /\ rearranged s x s' /\ I s'.
Proof.
  intros J Hc HP Hin Hr1 Hne [v Hv]. destruct (HP _ _ Hin) as (t' & c' & [= <-] & [= <-] & E3 & E4 & E5). pose proof (HI s J) as R. destruct (detached s t c J Hc HP Hin) as (s1 & D & RM & R1 & HJ & HK).
  destruct (removed_facts s t c s1 R Hc HP Hin RM) as (He & _ & Hc1 & Hn1 & Hv1).
  assert (Hv' : is_Some (value_at rk (entries_at s1 x))).
  { rewrite He. exists v. clear -Hv Hne. unfold value_at, remove in *. induction (entries_at s x) as [|[k' v'] d IH]; [done|]. simpl in *. repeat (case_bool_decide; simpl in *); subst; try done; auto. }
  destruct (rm_places _ _ _ _ _ RM r) as [A _]. rewrite Hr1 in A.
  destruct (C15_insert_beside before s1 x c r cls t rk R1 Hc1 Ht Ho Hn1 E3 Hv1 A Hv' HJ) as (s2 & EI & B & IN). rewrite He in B.
  exists s2. split; [unfold move, bind; by rewrite D|]. split; [done|]. assert (RE : rearranged s x s2). { eapply put_back; try done. destruct B as (l1 & v1 & l2 & -> & ->). destruct before; [symmetry; apply Permutation_middle|]. rewrite (Permutation_swap (KStr t, VNode c)). symmetry. etransitivity; [|apply Permutation_middle]. by rewrite Permutation_middle. }
  split; [done|]. apply (HK (OInsertAt before x c r)); [right; by do 2 eexists| |exact EI|done]. simpl. split; [by apply node_exists|]. split; (apply (class_exists s); [apply RM|]); [by eapply member_exists|].
    unfold name_at in Hr1. unfold exists_node. by destruct (nodes s !! r).
Qed.
(** * All children *)
Lemma keys_remove k (d : list (key * val)) : dkeys (remove k d) = filter (fun k' => k' <> k) (dkeys d).
Proof. unfold remove, dkeys. induction d as [|[k' v] d IH]; [done|]. simpl. case_bool_decide as E; simpl; [rewrite filter_cons_False by naive_solver|rewrite filter_cons_True by done]; by rewrite IH. Qed.
Lemma arranged l : NoDup l ->
  forall s, I s -> class_of s x = Some cls -> children_in_place cls s x -> (forall k, k ∈ l -> k ∈ dkeys (entries_at s x)) ->
  exists s', arrange x l s = (Ret tt, s') /\ dkeys (entries_at s' x) = filter (fun k => k ∉ l) (dkeys (entries_at s x)) ++ l /\ rearranged s x s' /\ I s'.
Proof.
  induction 1 as [|k l Hk ND IH]; intros s R Hc HP Hl.
  - exists s. split; [done|]. split; [|by split; [apply re_refl|]]. rewrite app_nil_r. symmetry. clear. induction (dkeys (entries_at s x)) as [|k d IHd]; [done|]. rewrite filter_cons_True by apply not_elem_of_nil. by rewrite IHd.
  - assert (k ∈ dkeys (entries_at s x)) as Hin by (apply Hl; left). apply elem_of_dkeys in Hin as [v Hin]. destruct (HP _ _ Hin) as (t & c & -> & -> & _).
    destruct (ended s t c R Hc HP Hin) as (s1 & E1 & He & RE & R1).
    assert (Hd : dkeys (entries_at s1 x) = filter (fun k' => k' <> KStr t) (dkeys (entries_at s x)) ++ [KStr t]).
    { rewrite He. unfold dkeys. rewrite map_app. simpl. f_equal. apply keys_remove. }
    destruct (IH s1 R1) as (s2 & E2 & Hd2 & RE2 & R2).
    + by rewrite (re_class _ _ _ RE).
    + by eapply in_place_re.
    + intros k' Hk'. rewrite Hd. apply elem_of_app. left. apply elem_of_list_filter. split; [by intros ->|]. apply Hl. by right.
    + exists s2. split; [unfold arrange in *; simpl; unfold bind; rewrite E1; exact E2|]. split; [|split; [by eapply re_trans|done]].
      rewrite Hd2, Hd, filter_app, filter_cons_True, filter_nil, <- app_assoc by done. simpl. f_equal. rewrite list_filter_filter. apply list_filter_iff. intros k'. rewrite not_elem_of_cons. naive_solver.
Qed.
Lemma arranged_all order s : I s -> class_of s x = Some cls ->
  children_in_place cls s x -> Permutation order (dkeys (entries_at s x)) ->
  exists s', arrange x order s = (Ret tt, s') /\ dkeys (entries_at s' x) = order /\ rearranged s x s' /\ I s'.
Proof.
  intros R Hc HP P. destruct (arranged order) with (s := s) as (s' & E & Hd & RE & J); try done.
  - rewrite P. by apply entries_nodup, reach_wf, HI.
  - intros k. by rewrite P.
  - exists s'. split; [done|]. split; [|by split]. rewrite Hd. assert (filter (fun k => k ∉ order) (dkeys (entries_at s x)) = []) as ->; [|done].
    destruct (filter (fun k => k ∉ order) (dkeys (entries_at s x))) as [|k l] eqn:F; [done|]. assert (k ∈ k :: l) as Hk by left. rewrite <- F in Hk. apply elem_of_list_filter in Hk as [N Hk]. destruct N. by rewrite P.
Qed.
(** * And back *)
Lemma remove_not k (d : list (key * val)) : k ∉ dkeys d -> remove k d = d.
Proof. unfold remove. induction d as [|[k' v] d IH]; [done|]. simpl. intros N. apply not_elem_of_cons in N as [N1 N2]. rewrite bool_decide_eq_false_2 by congruence. simpl. f_equal. by apply IH. Qed.
Lemma remove_app k (d1 d2 : list (key * val)) : remove k (d1 ++ d2) = remove k d1 ++ remove k d2.
Proof. unfold remove. induction d1 as [|e d1 IH]; [done|]. simpl. case_bool_decide; simpl; by rewrite IH. Qed.
Lemma remove_cons_same k v (d : list (key * val)) : remove k ((k, v) :: d) = remove k d.
Proof. unfold remove. simpl. by rewrite bool_decide_eq_true_2. Qed.
Lemma remove_idem k (d : list (key * val)) : remove k (remove k d) = remove k d.
Proof. apply remove_not. rewrite keys_remove. rewrite elem_of_list_filter. naive_solver. Qed.
Lemma remove_beside before rk k v (d d' : list (key * val)) : beside before rk (k, v) (remove k d) d' -> remove k d' = remove k d.
Proof.
  intros (l1 & w & l2 & E & ->). rewrite <- (remove_idem k d), E. destruct before.
  - by rewrite !remove_app, remove_cons_same.
  - change ((rk, w) :: (k, v) :: l2) with ([(rk, w)] ++ (k, v) :: l2). change ((rk, w) :: l2) with ([(rk, w)] ++ l2). by rewrite !remove_app, remove_cons_same.
Qed.
Lemma split_unique (k : key) (v v' : val) (l1 l2 l1' l2' : list (key * val)) : NoDup (dkeys (l1 ++ (k, v) :: l2)) -> l1 ++ (k, v) :: l2 = l1' ++ (k, v') :: l2' -> l1 = l1' /\ v = v' /\ l2 = l2'.
Proof.
  revert l1'. induction l1 as [|[k1 v1] l1 IH]; intros [|[k1' v1'] l1'] ND E; simpl in *.
  - by injection E as -> ->.
  - injection E as -> -> ->. apply NoDup_cons in ND as [N _]. destruct N. apply elem_of_dkeys. exists v'. apply elem_of_app. right. left.
  - injection E as -> -> <-. apply NoDup_cons in ND as [N _]. destruct N. apply elem_of_dkeys. exists v. apply elem_of_app. right. left.
  - injection E as -> -> E. apply NoDup_cons in ND as [_ ND]. destruct (IH l1' ND E) as (-> & -> & ->). done.
Qed.
Lemma nodup_remove k (d : list (key * val)) : NoDup (dkeys d) -> NoDup (dkeys (remove k d)).
Proof. intros H. rewrite keys_remove. by apply NoDup_filter. Qed.
Lemma moved_back before s t c r rk n nk l1 v l2 : I s -> class_of s x = Some cls ->
  children_in_place cls s x -> entries_at s x = l1 ++ (KStr t, VNode c) :: (nk, v) :: l2 -> name_at s n = Some nk ->
  name_at s r = Some rk -> rk <> KStr t -> is_Some (value_at rk (entries_at s x)) ->
  exists s1 s2, move before x (KStr t) r s = (Ret tt, s1) /\ move true x (KStr t) n s1 = (Ret tt, s2) /\ entries_at s2 x = entries_at s x /\ rearranged s x s2 /\ I s2.
Proof.
  intros R Hc HP He Hn Hr1 Hne Hv. pose proof (entries_nodup s x (reach_wf s (HI s R))) as ND.
  assert (Hin : (KStr t, VNode c) ∈ entries_at s x) by (rewrite He; apply elem_of_app; right; left).
  assert (Hin2 : (nk, v) ∈ entries_at s x) by (rewrite He; apply elem_of_app; right; right; left).
  assert (NE : nk <> KStr t /\ KStr t ∉ dkeys l1 /\ KStr t ∉ dkeys l2).
  { rewrite He in ND. unfold dkeys in ND. rewrite map_app in ND. simpl in ND. apply NoDup_app in ND as (_ & D & ND). apply NoDup_cons in ND as [N _]. apply not_elem_of_cons in N as [N1 N2]. split; [done|]. split; [|done]. intros Hk. apply (D _ Hk). left. }
  destruct NE as (N1 & N2 & N3).
  assert (Hrm : remove (KStr t) (entries_at s x) = l1 ++ (nk, v) :: l2).
  { rewrite He, remove_app, remove_cons_same. change ((nk, v) :: l2) with ([(nk, v)] ++ l2). rewrite remove_app, (remove_not _ l1), (remove_not _ l2), (remove_not _ [(nk, v)]); try done. intros H. apply elem_of_list_singleton in H. done. }
  destruct (moved before s t c r rk R Hc HP Hin Hr1 Hne Hv) as (s1 & E1 & B1 & RE1 & R1).
  pose proof (remove_beside _ _ _ _ _ _ B1) as Hrm1.
  assert (Hc1 : class_of s1 x = Some cls) by by rewrite (re_class _ _ _ RE1).
  destruct (re_places _ _ _ RE1 n) as [An _].
  destruct (moved true s1 t c n nk R1 Hc1) as (s2 & E2 & B2 & RE2 & R2).
  - by eapply in_place_re.
  - by rewrite <- (re_entries _ _ _ RE1).
  - congruence.
  - done.
  - exists v. apply value_in; [by apply entries_nodup, reach_wf, HI|]. by rewrite <- (re_entries _ _ _ RE1).
  - exists s1, s2. split; [done|]. split; [done|]. split; [|split; [by eapply re_trans|done]].
    rewrite Hrm1, Hrm in B2. destruct B2 as (a & w & b & E & ->). apply split_unique in E as (-> & -> & ->); [by rewrite He|]. rewrite <- Hrm. by apply nodup_remove.
Qed.
End one.

(** * Without Reference *)
Lemma detached_plain x cls : tree_class (c_behs cls) = true -> Reference ∉ c_behs cls -> forall s t c, reach s -> class_of s x = Some cls -> children_in_place cls s x -> (KStr t, VNode c) ∈ entries_at s x ->
  exists s1, detach x (KStr t) s = (Ret (VNode c), s1) /\ removed cls s x (KStr t) s1 /\ reach s1 /\ joins cls s1 x c /\
    forall o s2, (exists b, o = OInsertEnd b x c) \/ (exists b r, o = OInsertAt b x c r) -> op_ok s1 o -> run_op o s1 = (Ret tt, s2) -> rearranged s x s2 -> reach s2.
Proof.
  intros Ht Hr s t c R Hc HP Hin. destruct (HP _ _ Hin) as (t' & c' & [= <-] & [= <-] & Hs & _). pose proof (value_in _ _ _ (entries_nodup s x (reach_wf s R)) Hin) as Hv.
  destruct (C08_detach_present s x cls (KStr t) (VNode c) R Hc Ht Hr eq_refl) as (s1 & E); [eauto|done|done|]. assert (R1 : reach s1).
  { eapply (reach_step s (ODetach x (KStr t))); [done| |]; simpl; [by eapply node_exists|]. unfold ignore, bind. rewrite E. reflexivity. }
  exists s1. split; [done|]. split; [eapply C08_detach; try done|]. split; [done|]. split; [by intros ?|]. intros o s2 _ Hok Eo _. by eapply reach_step.
Qed.
(** * With Reference *)
Lemma re_child s x s' : reach s -> reach s' -> rearranged s x s' -> forall p k c, child s p k c <-> child s' p k c.
Proof.
  intros R R' RE p k c. unfold child. destruct (decide (p = x)) as [->|N]; [|destruct (re_others _ _ _ RE p N) as [E _]; by rewrite E].
  rewrite !value_at_spec. split; intros H%dget_Some_in; (apply in_dget; [by apply entries_nodup, reach_wf|]); [by rewrite <- (re_entries _ _ _ RE)|by rewrite (re_entries _ _ _ RE)].
Qed.
Lemma child_below s s' : (forall p k c, child s p k c <-> child s' p k c) -> forall p d, below s p d -> below s' p d.
Proof. intros H p d B. induction B as [|p k c d Hc B IH]; [constructor|]. apply (below_child _ p k c); [by apply H|done]. Qed.
(** what a tree with Reference needs *)
Definition kempt (x : nat) (s : st) : Prop := grown creatable tidy s /\ listed s x /\ forall k c, (k, VNode c) ∈ entries_at s x -> entries_at s c = [].
Lemma detached_kempt x cls : Adopt ∈ c_behs cls -> forall s t c, kempt x s -> class_of s x = Some cls -> children_in_place cls s x -> (KStr t, VNode c) ∈ entries_at s x ->
  exists s1, detach x (KStr t) s = (Ret (VNode c), s1) /\ removed cls s x (KStr t) s1 /\ reach s1 /\ joins cls s1 x c /\
    forall o s2, (exists b, o = OInsertEnd b x c) \/ (exists b r, o = OInsertAt b x c r) -> op_ok s1 o -> run_op o s1 = (Ret tt, s2) -> rearranged s x s2 -> kempt x s2.
Proof.
  intros Had s t c (G & Lx & Hleaf) Hc HP Hin. pose proof (grown_reach _ _ _ G) as R. destruct (grown_tidy s G) as [W T]. destruct (HP _ _ Hin) as (t' & c' & [= <-] & [= <-] & Hs & Hnm & Hpa).
  pose proof (value_in _ _ _ (entries_nodup s x (reach_wf s R)) Hin) as Hv. assert (Hch : child s x (KStr t) c) by exact Hv.
  pose proof (new_tree _ (wd_nodes _ _ W _ _ Hc)) as Ht.
  assert (Hcx : c <> x). { intros ->. apply (C12_no_cycle s x (KStr t) x G Hch). constructor. }
  assert (Hst : same_tree s x c). { exists x. split; [constructor|]. apply (below_child _ x (KStr t) c); [done|constructor]. }
  destruct (proj2 (C12_shared_index s x c G Lx) Hst) as [Lc _].
  destruct (C12_detach s x (KStr t) c G Lx Hch) as (s1 & E & U).
  assert (Hik : item_key s x (KStr t)) by by exists cls.
  assert (G1 : grown creatable tidy s1).
  { eapply (grown_step _ _ s (ODetach x (KStr t)) (Ret tt)); [done|by eapply node_exists| |]; simpl; [split; [done|]; split; [done|]; by exists c|]. unfold ignore, bind. rewrite E. reflexivity. }
  assert (RM : removed cls s x (KStr t) s1). { eapply C08_detach; try done. intros _. by apply creatable_trees. }
  destruct (grown_tidy s1 G1) as [W1 T1]. assert (Hc1 : class_of s1 x = Some cls) by by rewrite (rm_class _ _ _ _ _ RM).
  assert (Lx1 : listed s1 x) by by apply (ur_listed _ _ _ _ _ U).
  assert (Lc1 : listed s1 c) by by apply (ur_listed _ _ _ _ _ U).
  assert (HL : lone s1 x c).
  { split; [done|]. split; [destruct (rm_others _ _ _ _ _ RM c Hcx) as [-> _]; by eapply Hleaf|]. split.
    - intros p k Hp. destruct (decide (p = x)) as [->|N].
      + unfold child in Hp. rewrite (ur_entries _ _ _ _ _ U) in Hp. assert (Hk : child s x k c).
        { rewrite value_at_spec in Hp. apply dget_Some_in in Hp. apply in_remove in Hp as [Hp _]. unfold child. rewrite value_at_spec. apply in_dget; [by apply entries_nodup, reach_wf|done]. }
        destruct (C12_child_once s _ _ _ _ _ G Hch Hk) as [_ <-]. by rewrite value_removed in Hp.
      + assert (Hk : child s p k c) by (unfold child in *; destruct (rm_others _ _ _ _ _ RM p N) as [<- _]; done). destruct (C12_child_once s _ _ _ _ _ G Hch Hk) as [<- _]. done.
    - intros u Hu. rewrite (rm_uuid _ _ _ _ _ RM) in Hu. destruct (index_at s1 x !! Some u) as [y|] eqn:Ey; [|done]. apply (ur_rest _ _ _ _ _ U) in Ey as [Ey NB].
      assert (index_at s x !! Some u = Some c) as Ec by (apply (C12_index_exact s x (Some u) c G Lx); by exists u). rewrite Ec in Ey. injection Ey as <-. destruct NB. constructor. }
  destruct (lone_joins s1 x cls c W1 T1 Hc1 Lx1 HL) as (HJ & _).
  exists s1. split; [done|]. split; [done|]. split; [by eapply grown_reach|]. split; [done|]. intros o s2 Ho Hok Eo RE.
  assert (TI : tidy_insert s1 x c).
  { exists t. destruct (removed_facts x cls s t c s1 R Hc HP Hin RM) as (_ & _ & _ & Hn1 & Hv1). split; [done|]. split; [done|]. split; [by exists cls|]. split; [intros d Hd; unfold child in Hd; congruence|].
    intros d [= <-]. split; [done|]. split; [done|]. by exists t. }
  assert (HT : tidy s1 o) by (destruct Ho as [(b & ->)|(b & r & ->)]; exact TI).
  assert (Hdr : drops o = false) by (by destruct Ho as [(b & ->)|(b & r & ->)]).
  split; [by eapply grown_step|]. split; [by eapply C12_stays_listed|].
  intros k d Hd. rewrite <- (re_entries _ _ _ RE) in Hd. destruct (re_others _ _ _ RE d) as [-> _]; [|by eapply Hleaf].
  intros ->. apply (C12_no_cycle s x k x G); [|constructor]. unfold child. by apply value_in; [apply entries_nodup, reach_wf|].
Qed.
Lemma kempt_reach x s : kempt x s -> reach s.
Proof. intros (G & _). by eapply grown_reach. Qed.
Lemma kempt_found x s s' : kempt x s -> kempt x s' -> rearranged s x s' -> forall y u, same_tree s x y -> uuid_at s y = Some u -> node_by_uuid x (Some u) s' = (Ret (VNode y), s').
Proof.
  intros K K' RE y u (r & B1 & B2) Hu. pose proof (re_child s x s' (kempt_reach _ _ K) (kempt_reach _ _ K') RE) as H. destruct K' as (G' & L' & _).
  apply C12_node_finds; [done|done| |by rewrite (re_uuid _ _ _ RE)]. exists r. split; by apply (child_below s).
Qed.
