(** Copies and GetattrChildren: proofs. *)
From Verif Require Import Py Odict OdictFacts Aliaser Heap Model Classes MonadFacts WF Views SpecMapping MappingProofs TreeOps Observe ObserveFacts
  NewEff ShallowProofs SpecTree SpecOrder SpecPlace SpecSpaces SpecRegion Utils AttrProofs AttrCopy SpecAttrCopy.

(** the questions *)
Lemma asks_plain own s g cls n : class_of s g = Some cls -> GetattrChildren ∉ c_behs cls -> own n = false ->
  py_getattr (let! a := node_getattr own g n in ret (Some a)) None s = (Ret None, s).
Proof.
  intros Hc Hg Ho. unfold py_getattr. erewrite try_catch_Exc; [|apply (bind_Exc _ _ _ _ _ (node_getattr_none own s g cls n Hc Hg Ho))]. done.
Qed.
Lemma to_spaces_dec cls k : to_spaces cls k \/ ~ to_spaces cls k.
Proof. destruct (nskey (c_behs cls) k) eqn:E; [left; by apply nskey_dunder|right; by apply nskey_dunder_false]. Qed.
Lemma asks_nothing own s g cls n : wf s -> class_of s g = Some cls -> tree_class (c_behs cls) = true -> GetattrChildren ∈ c_behs cls -> own n = false -> nothing_at s g (KStr n) ->
  exists s', py_getattr (let! a := node_getattr own g n in ret (Some a)) None s = (Exc (KeyError (KStr n)), s') /\ same_world s s'.
Proof.
  intros W Hc Ht Hg Ho Hn. destruct (node_getattr_eff own s g cls n W Hc Ht Hg Ho) as (s' & Hw & H1 & H2). exists s'. split; [|done].
  destruct (Hn cls Hc) as [N1 N2]. unfold py_getattr.
  assert (E : node_getattr own g n s = (Exc (KeyError (KStr n)), s')).
  { destruct (to_spaces_dec cls (KStr n)) as [Hs|Hs]; [rewrite (H2 Hs), (N1 Hs)|rewrite (H1 Hs), (N2 Hs)]; done. }
  erewrite try_catch_Exc; [|apply (bind_Exc _ _ _ _ _ E)]. done.
Qed.
Lemma asks_any own s g cls n : wf s -> class_of s g = Some cls -> tree_class (c_behs cls) = true -> GetattrChildren ∈ c_behs cls -> own n = false ->
  exists s', same_world s s' /\ ((exists v, py_getattr (let! a := node_getattr own g n in ret (Some a)) None s = (Ret (Some (FromContext v)), s')) \/
    py_getattr (let! a := node_getattr own g n in ret (Some a)) None s = (Exc (KeyError (KStr n)), s')).
Proof.
  intros W Hc Ht Hg Ho. destruct (node_getattr_eff own s g cls n W Hc Ht Hg Ho) as (s' & Hw & H1 & H2). exists s'. split; [done|].
  assert (H : exists o, node_getattr own g n s = (match o with Some v => Ret (FromContext v) | None => Exc (KeyError (KStr n)) end, s')).
  { destruct (to_spaces_dec cls (KStr n)) as [Hs|Hs]; [rewrite (H2 Hs)|rewrite (H1 Hs)]; eauto. }
  unfold py_getattr. destruct H as [[v|] E].
  - left. exists v. apply try_catch_Ret. by rewrite (bind_Ret _ _ _ _ _ E).
  - right. erewrite try_catch_Exc; [|apply (bind_Exc _ _ _ _ _ E)]. done.
Qed.

(** * deepcopy *)
Lemma ask_plain s g cls : class_of s g = Some cls -> GetattrChildren ∉ c_behs cls -> ask_deepcopy g s = (Ret tt, s).
Proof. intros Hc Hg. unfold ask_deepcopy. rewrite (bind_Ret _ _ _ _ _ (asks_plain no_attribute s g cls _ Hc Hg eq_refl)). done. Qed.
Lemma class_exists s g : exists_node s g -> exists cls, class_of s g = Some cls.
Proof. intros [o Ho]. unfold class_of. rewrite Ho. simpl. eauto. Qed.
Lemma ask_all s order : (forall i, i ∈ order -> exists_node s i /\ ~ getattr_node s i) -> exists l, mapM_ ask_deepcopy order s = (Ret l, s).
Proof.
  induction order as [|g r IH]; intros H; [by exists []|]. destruct (H g (elem_of_list_here _ _)) as [Hx Hg]. destruct (class_exists _ _ Hx) as [cls Hc].
  destruct IH as [l El]; [intros i Hi; apply H; by right|]. exists (tt :: l). simpl. rewrite (bind_Ret _ _ _ _ _ (ask_plain s g cls Hc ltac:(intros Hin; apply Hg; by exists cls))).
  by rewrite (bind_Ret _ _ _ _ _ El).
Qed.
Lemma getattr_node_dec s g : getattr_node s g \/ ~ getattr_node s g.
Proof.
  unfold getattr_node. destruct (class_of s g) as [cls|]; [|right; by intros (? & ? & _)]. destruct (decide (GetattrChildren ∈ c_behs cls)) as [H|H]; [left; eauto|].
  right. intros (c & [= <-] & ?). done.
Qed.
Lemma deepcopy_plain s x order : visits s x order -> ~ getattr_in_sight s x -> deepcopy_g order x s = deepcopy x s.
Proof.
  intros V Hn. unfold deepcopy_g. destruct (ask_all s order) as [l El]; [|by rewrite (bind_Ret _ _ _ _ _ El)].
  intros i Hi. apply V in Hi as [Hr Hx]. split; [done|]. intros Hg. apply Hn. by exists i.
Qed.
(** the first node with GetattrChildren *)
Lemma ask_first s order (P : res (list unit) -> st -> Prop) : (forall i, i ∈ order -> exists_node s i) -> (exists g, g ∈ order /\ getattr_node s g) ->
  (forall g, g ∈ order -> getattr_node s g -> exists e s', ask_deepcopy g s = (Exc e, s') /\ P (Exc e) s') ->
  exists e s', mapM_ ask_deepcopy order s = (Exc e, s') /\ P (Exc e) s'.
Proof.
  induction order as [|g r IH]; intros Hx Hg HP; [by destruct Hg as (g & Hg & _); apply elem_of_nil in Hg|]. simpl.
  destruct (getattr_node_dec s g) as [Hgg|Hgg].
  - destruct (HP g (elem_of_list_here _ _) Hgg) as (e & s' & E & Hp). exists e, s'. by rewrite (bind_Exc _ _ _ _ _ E).
  - destruct (class_exists _ _ (Hx g (elem_of_list_here _ _))) as [cls Hc].
    assert (Hg' : exists g', g' ∈ r /\ getattr_node s g'). { destruct Hg as (g' & [->|Hin]%elem_of_cons & H'); [done|eauto]. }
    assert (Hx' : forall i, i ∈ r -> exists_node s i) by (intros i Hi; apply Hx; by right).
    assert (HP' : forall g', g' ∈ r -> getattr_node s g' -> exists e s', ask_deepcopy g' s = (Exc e, s') /\ P (Exc e) s') by (intros g' Hin; apply HP; by right).
    destruct (IH Hx' Hg' HP') as (e & s' & E & Hp). exists e, s'.
    rewrite (bind_Ret _ _ _ _ _ (ask_plain s g cls Hc ltac:(intros Hin; apply Hgg; by exists cls))), (bind_Exc _ _ _ _ _ E). done.
Qed.
Lemma deepcopy_getattr s x order : wf s -> visits s x order -> getattr_in_sight s x ->
  (forall g cls, reaches s x g -> class_of s g = Some cls -> GetattrChildren ∈ c_behs cls -> tree_class (c_behs cls) = true) ->
  exists e s', deepcopy_g order x s = (Exc e, s') /\ same_world s s' /\
    ((forall g, reaches s x g -> getattr_node s g -> nothing_at s g (KStr "__deepcopy__")) -> e = KeyError (KStr "__deepcopy__")).
Proof.
  intros W V (g0 & Hr0 & Hg0) Ht.
  destruct (ask_first s order (fun r s' => same_world s s' /\ ((forall g, reaches s x g -> getattr_node s g -> nothing_at s g (KStr "__deepcopy__")) -> r = Exc (KeyError (KStr "__deepcopy__")))))
    as (e & s' & E & Hs & He).
  - intros i Hi. by apply V in Hi as [_ ?].
  - exists g0. split; [|done]. apply V. split; [done|]. destruct Hg0 as (cls & Hc & _). unfold class_of in Hc. unfold exists_node. destruct (nodes s !! g0); [eauto|done].
  - intros g Hin Hg. apply V in Hin as [Hr Hx]. destruct Hg as (cls & Hc & Hgc).
    destruct (asks_any no_attribute s g cls "__deepcopy__" W Hc (Ht g cls Hr Hc Hgc) Hgc eq_refl) as (s' & Hs & [[v E]|E]).
    + unfold ask_deepcopy. rewrite (bind_Ret _ _ _ _ _ E).
      assert (Hv : exists e, match v with VNone => raise Unspecified | _ => call_value v end s' = (Exc e, s')) by (destruct v; simpl; unfold raise; eauto).
      destruct Hv as [e Ev]. exists e, s'. split; [by destruct v|]. split; [done|]. intros Hno.
      destruct (asks_nothing no_attribute s g cls "__deepcopy__" W Hc (Ht g cls Hr Hc Hgc) Hgc eq_refl (Hno g Hr ltac:(by exists cls))) as (s2 & E2 & _). congruence.
    + exists (KeyError (KStr "__deepcopy__")), s'. unfold ask_deepcopy. rewrite (bind_Exc _ _ _ _ _ E). done.
  - exists e, s'. unfold deepcopy_g. rewrite (bind_Exc _ _ _ _ _ E). split; [done|]. split; [done|]. intros Hno. by injection (He Hno).
Qed.

(** * copy *)
Definition blank_at (s : st) (cls : classdef) : st := set_next_id S (set_nodes <[next_id s := blank cls]> s).
Lemma blank_wf s cls : wf s -> wf (blank_at s cls).
Proof. intros W. destruct (safe_alloc_node s (blank cls)) as (K1 & _); [constructor; try done; intros []; done|by intros []|done|done]. Qed.
Lemma blank_same s cls y : wf s -> exists_node s y -> same_node s (blank_at s cls) y.
Proof.
  intros W [o Ho]. assert (Hy : y <> next_id s) by (destruct (wf_nodes _ W _ _ Ho); lia).
  assert (E : nodes (blank_at s cls) !! y = nodes s !! y) by (simpl; by rewrite lookup_insert_ne).
  constructor; unfold class_of, name_at, parent_at, entries_at, spaces_at, cache_at, fixed_at, uuid_at, index_id, suppressed; by rewrite E.
Qed.
Lemma shallow_plain s x o : nodes s !! x = Some o -> GetattrChildren ∉ c_behs (o_cls o) -> forall old, shallow_g old x s = shallow x s.
Proof.
  intros Ho Hg old. unfold shallow_g, shallow. assert (Hc : class_of s x = Some (o_cls o)) by (unfold class_of; by rewrite Ho).
  assert (Ea : ask_getstate old x s = (Ret tt, s)).
  { unfold ask_getstate. destruct old; [|done]. by rewrite (bind_Ret _ _ _ _ _ (asks_plain no_attribute s x _ "__getstate__" Hc Hg eq_refl)). }
  rewrite (bind_Ret _ _ _ _ _ Ea), !(bind_load _ _ _ _ Ho). unfold alloc_node. unfold bind at 1.
  assert (Eb : ask_setstate (next_id s) (set_next_id S (set_nodes <[next_id s := blank (o_cls o)]> s)) = (Ret tt, set_next_id S (set_nodes <[next_id s := blank (o_cls o)]> s))).
  { unfold ask_setstate. erewrite (bind_Ret _ _ _ _ _ (asks_plain no_attribute _ (next_id s) (o_cls o) "__setstate__" _ Hg eq_refl)). done.
    Unshelve. unfold class_of. simpl. by rewrite lookup_insert. }
  rewrite (bind_Ret _ _ _ _ _ Eb). erewrite bind_modify; [|simpl; apply lookup_insert]. unfold set_nodes, set_next_id, ret. simpl. by rewrite insert_insert.
Qed.
Lemma copy_plain s x cls old : class_of s x = Some cls -> GetattrChildren ∉ c_behs cls -> copy_g old x s = copy x s.
Proof.
  intros Hc Hg. unfold class_of in Hc. destruct (nodes s !! x) as [o|] eqn:Ho; [|done]. injection Hc as <-. unfold copy_g, copy. rewrite !(bind_load _ _ _ _ Ho).
  generalize (c_behs (o_cls o)) at 1 2. intros bs. induction bs as [|b bs IH]; [simpl; by apply (shallow_plain s x o Ho Hg)|]. simpl.
  destruct b; simpl; try exact IH; [done|]. unfold bind. by rewrite IH.
Qed.
Lemma shallow_fails s x cls old : wf s -> class_of s x = Some cls -> tree_class (c_behs cls) = true -> GetattrChildren ∈ c_behs cls ->
  exists e s', shallow_g old x s = (Exc e, s') /\ (forall y, exists_node s y -> same_node s s' y) /\
    (old = false -> e = KeyError (KStr "__setstate__")) /\ (old = true -> nothing_at s x (KStr "__getstate__") -> e = KeyError (KStr "__getstate__")).
Proof.
  intros W Hc Ht Hg. unfold shallow_g. destruct old.
  - destruct (asks_any no_attribute s x cls "__getstate__" W Hc Ht Hg eq_refl) as (s' & Hs & [[v E]|E]).
    + assert (Hv : exists e, call_value v s' = (Exc e, s')) by (destruct v; simpl; unfold raise; eauto). destruct Hv as [e Ev]. exists e, s'.
      assert (Ea : ask_getstate true x s = (Exc e, s')) by (unfold ask_getstate; by rewrite (bind_Ret _ _ _ _ _ E)). rewrite (bind_Exc _ _ _ _ _ Ea). split; [done|].
      split; [intros y _; apply (sw_nodes _ _ Hs)|]. split; [done|]. intros _ Hno. destruct (asks_nothing no_attribute s x cls "__getstate__" W Hc Ht Hg eq_refl Hno) as (s2 & E2 & _). congruence.
    + exists (KeyError (KStr "__getstate__")), s'. assert (Ea : ask_getstate true x s = (Exc (KeyError (KStr "__getstate__")), s')) by (unfold ask_getstate; by rewrite (bind_Exc _ _ _ _ _ E)).
      rewrite (bind_Exc _ _ _ _ _ Ea). split; [done|]. split; [intros y _; apply (sw_nodes _ _ Hs)|done].
  - pose proof Hc as Hc'. unfold class_of in Hc'. destruct (nodes s !! x) as [o|] eqn:Ho; [|done]. injection Hc' as <-. unfold ask_getstate. rewrite bind_ret, (bind_load _ _ _ _ Ho). unfold alloc_node. unfold bind at 1.
    fold (blank_at s (o_cls o)). assert (Hb : class_of (blank_at s (o_cls o)) (next_id s) = Some (o_cls o)) by (unfold class_of; simpl; by rewrite lookup_insert).
    destruct (asks_nothing no_attribute (blank_at s (o_cls o)) (next_id s) (o_cls o) "__setstate__" (blank_wf s _ W) Hb Ht Hg eq_refl) as (s' & E & Hs).
    { intros cls Hcl. unfold entries_at, spaces_at. simpl. rewrite lookup_insert. done. }
    exists (KeyError (KStr "__setstate__")), s'. assert (Ea : ask_setstate (next_id s) (blank_at s (o_cls o)) = (Exc (KeyError (KStr "__setstate__")), s')) by (unfold ask_setstate; by rewrite (bind_Exc _ _ _ _ _ E)).
    rewrite (bind_Exc _ _ _ _ _ Ea). split; [done|]. split; [|done]. intros y Hy. pose proof (blank_same s (o_cls o) y W Hy) as [B1 B2 B3 B4 B5 B6 B7 B8 B9 B10].
    destruct (sw_nodes _ _ Hs y) as [C1 C2 C3 C4 C5 C6 C7 C8 C9 C10]. constructor; congruence.
Qed.
Lemma copy_fails s x cls old : wf s -> class_of s x = Some cls -> tree_class (c_behs cls) = true -> GetattrChildren ∈ c_behs cls -> UUIDAware ∉ c_behs cls ->
  exists e s', copy_g old x s = (Exc e, s') /\ (forall y, exists_node s y -> same_node s s' y) /\
    (old = false -> e = KeyError (KStr "__setstate__")) /\ (old = true -> nothing_at s x (KStr "__getstate__") -> e = KeyError (KStr "__getstate__")).
Proof.
  intros W Hc Ht Hg Hu. destruct (shallow_fails s x cls old W Hc Ht Hg) as (e & s' & E & H). exists e, s'. split; [|done].
  unfold class_of in Hc. destruct (nodes s !! x) as [o|] eqn:Ho; [|done]. injection Hc as <-. unfold copy_g. rewrite (bind_load _ _ _ _ Ho).
  clear Ht Hg. revert Hu. generalize (c_behs (o_cls o)). intros bs Hu. induction bs as [|b bs IH]; [exact E|]. simpl. assert (IH' := IH ltac:(set_solver)).
  destruct b; simpl; try exact IH'; [set_solver|]. by rewrite (bind_Exc _ _ _ _ _ IH').
Qed.
