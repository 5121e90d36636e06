(** C59: what a class composed of behaviors does when a method is called. *)
From Verif Require Import Py Odict Aliaser Heap Model Classes MonadFacts SpecMapping Observe Reach Play Plumber.

(** * Which compositions are possible *)
Lemma hooks_need m b : declares m Plumb b = true ->
  of_object m = true \/ declares m Default Nodify = true \/ declares m Override Nodify = true \/ m = "invalidate" /\ b = Cache.
Proof.
  unfold declares. rewrite bool_decide_eq_true. intros H. destruct b; simpl in H; repeat (apply elem_of_cons in H as [[= ->]|H]); try (by apply elem_of_nil in H);
    try (left; vm_compute; reflexivity); try (right; left; vm_compute; reflexivity); try (right; right; left; vm_compute; reflexivity); try (right; right; right; done).
Qed.
Lemma leftmost_none m d bs : leftmost m d bs = None <-> forall b, b ∈ bs -> declares m d b = false.
Proof.
  unfold leftmost. split.
  - intros H b Hb. destruct (declares m d b) eqn:E; [|done]. assert (Hf : b ∈ filter (fun b => declares m d b = true) bs) by (by apply elem_of_list_filter).
    destruct (filter _ bs); [by apply elem_of_nil in Hf|done].
  - intros H. destruct (filter (fun b => declares m d b = true) bs) as [|b r] eqn:E; [done|]. exfalso.
    assert (Hf : b ∈ filter (fun b => declares m d b = true) bs) by (rewrite E; by left). apply elem_of_list_filter in Hf as [H1 H2]. by rewrite H in H1.
Qed.
Lemma endpoint_none m bs : endpoint m bs = None <-> forall b, b ∈ bs -> declares m Finalize b = false /\ declares m Override b = false /\ declares m Default b = false.
Proof.
  unfold endpoint. pose proof (leftmost_none m Finalize bs) as H1. pose proof (leftmost_none m Override bs) as H2. pose proof (leftmost_none m Default bs) as H3.
  destruct (leftmost m Finalize bs); [split; [done|]; intros H; apply H1; intros b' Hb; by apply H|].
  destruct (leftmost m Override bs); [split; [done|]; intros H; apply H2; intros b' Hb; by apply H|].
  rewrite H3. split; [|intros H b Hb; by apply H]. intros H b Hb. split; [by apply H1|]. split; [by apply H2|by apply H].
Qed.
Lemma invalidate_needs b d : declares "invalidate" d b = true -> d <> Plumb -> b = Invalidate \/ b = VolatileStorageInvalidate.
Proof. intros H Hd. destruct b, d; try done; try (by left); try (by right); by vm_compute in H. Qed.
(** No two behaviors get in each other's way, and a class with Nodify can always be made, except that
    Cache needs one of the behaviors it invalidates through. *)
Theorem C59_no_collision : forall bs, ~ collision bs.
Proof.
  intros bs (m & b1 & b2 & _ & _ & Hn & H1 & H2). unfold declares in *. rewrite bool_decide_eq_true in *.
  destruct b1; simpl in H1; repeat (apply elem_of_cons in H1 as [[=]|H1]); try (by apply elem_of_nil in H1); subst;
  destruct b2; try done; simpl in H2; repeat (apply elem_of_cons in H2 as [[=]|H2]); by apply elem_of_nil in H2.
Qed.
Theorem C59_possible : forall bs, Nodify ∈ bs -> (~ endless bs <-> (Cache ∈ bs -> Invalidate ∈ bs \/ VolatileStorageInvalidate ∈ bs)).
Proof.
  intros bs Hn. split.
  - intros H Hc. destruct (decide (Invalidate ∈ bs)) as [|N1]; [by left|]. destruct (decide (VolatileStorageInvalidate ∈ bs)) as [|N2]; [by right|]. exfalso. apply H.
    exists "invalidate", Cache. split; [done|]. split; [by vm_compute|]. split; [|by vm_compute]. apply endpoint_none. intros b Hb.
    assert (G : forall d, d <> Plumb -> declares "invalidate" d b = false).
    { intros d Hd. destruct (declares "invalidate" d b) eqn:E; [|done]. by destruct (invalidate_needs b d E Hd) as [-> | ->]. }
    split; [by apply G|]. split; by apply G.
  - intros H (m & b & Hb & Hp & He & Ho). rewrite endpoint_none in He. destruct (hooks_need m b Hp) as [E|[E|[E|[-> ->]]]].
    + congruence.
    + destruct (He Nodify Hn) as (_ & _ & E'). congruence.
    + destruct (He Nodify Hn) as (_ & E' & _). congruence.
    + destruct (H Hb) as [Hi|Hi]; apply He in Hi as (_ & _ & E'); by vm_compute in E'.
Qed.

(** * What runs *)
Lemma fold_hooks {F} (stage : behavior -> F -> F) (e : F) m bs : (forall b n, declares m Plumb b = false -> stage b n = n) -> foldr stage e bs = foldr stage e (hooks m bs).
Proof.
  intros H. induction bs as [|b bs IH]; [done|]. simpl. unfold hooks in *. rewrite filter_cons. destruct (decide (declares m Plumb b = true)) as [E|E].
  - simpl. by rewrite IH.
  - rewrite H, IH; [done|]. by destruct (declares m Plumb b).
Qed.
Lemma hasc_is b bs : hasc b bs = true <-> b ∈ bs.
Proof. unfold hasc. by rewrite bool_decide_eq_true. Qed.
Lemma hasc_not b bs : hasc b bs = false <-> b ∉ bs.
Proof. unfold hasc. by rewrite bool_decide_eq_false. Qed.
Lemma leftmost_some m d bs b : leftmost m d bs = Some b -> b ∈ bs /\ declares m d b = true.
Proof.
  unfold leftmost. intros H. destruct (filter (fun b => declares m d b = true) bs) as [|c r] eqn:E; [done|]. injection H as ->.
  assert (Hf : b ∈ filter (fun b => declares m d b = true) bs) by (rewrite E; by left). apply elem_of_list_filter in Hf. tauto.
Qed.
Lemma leftmost_is m d bs b : (forall c, declares m d c = true -> c = b) -> b ∈ bs -> declares m d b = true -> leftmost m d bs = Some b.
Proof.
  intros H Hb Hd. destruct (leftmost m d bs) as [c|] eqn:E; [|by rewrite leftmost_none in E; rewrite E in Hd]. by apply leftmost_some in E as [_ ->%H].
Qed.
Lemma leftmost_absent m d bs : (forall c, declares m d c = true -> c ∉ bs) -> leftmost m d bs = None.
Proof. intros H. apply leftmost_none. intros b Hb. destruct (declares m d b) eqn:E; [|done]. by apply H in E. Qed.
Ltac who := let c := fresh in let H := fresh in intros c H; destruct c; try done; by vm_compute in H.
(** The endpoint of the item methods. *)
Lemma item_endpoint m bs : m = "__getitem__" \/ m = "__setitem__" \/ m = "__delitem__" -> Nodify ∈ bs ->
  (hasc FixedChildren bs = true /\ endpoint m bs = Some FixedChildren) \/
  (hasc FixedChildren bs = false /\ hasc DictStorage bs || hasc OdictStorage bs = true /\ (endpoint m bs = Some DictStorage \/ endpoint m bs = Some OdictStorage)) \/
  (hasc FixedChildren bs = false /\ hasc DictStorage bs || hasc OdictStorage bs = false /\ endpoint m bs = Some Nodify).
Proof.
  intros Hm Hn. unfold endpoint. destruct (hasc FixedChildren bs) eqn:F; [left; split; [done|]|right].
  - rewrite (leftmost_is m Finalize bs FixedChildren); [done| |by apply hasc_is|]; destruct Hm as [-> |[-> | ->]]; try (by vm_compute); who.
  - apply hasc_not in F. rewrite (leftmost_absent m Finalize) by (intros c H ?; assert (c = FixedChildren) as -> by (destruct Hm as [-> |[-> | ->]]; destruct c; try done; by vm_compute in H); done).
    destruct (leftmost m Override bs) as [b|] eqn:E.
    + left. split; [done|]. apply leftmost_some in E as [Hb E].
      assert (b = DictStorage \/ b = OdictStorage) as [-> | ->] by (destruct Hm as [-> |[-> | ->]]; destruct b; try (by left); try (by right); by vm_compute in E);
        apply hasc_is in Hb; rewrite Hb; rewrite ?orb_true_r; auto.
    + right. split; [done|]. rewrite leftmost_none in E. split.
      * apply orb_false_iff. split; apply hasc_not; intros Hi; apply E in Hi; destruct Hm as [-> |[-> | ->]]; by vm_compute in Hi.
      * apply leftmost_is; [|done|]; destruct Hm as [-> |[-> | ->]]; try (by vm_compute); who.
Qed.
Ltac idle := let b := fresh in let n := fresh in let H := fresh in intros b n H; destruct b; try reflexivity; by vm_compute in H.
Ltac cls_of s x Hc := let o := fresh "o" in let Ho := fresh "Ho" in unfold class_of in Hc; destruct (nodes s !! x) as [o|] eqn:Ho; [|done]; injection Hc as <-.

Theorem C59_setitem : forall s x cls k v, class_of s x = Some cls -> Nodify ∈ c_behs cls ->
  setitem x k v s = pipeline set_stage set_body "__setitem__" (c_behs cls) x k v s.
Proof.
  intros s x cls k v Hc Hn. cls_of s x Hc. unfold setitem. rewrite (bind_load _ _ _ _ Ho). unfold pipeline. rewrite <- (fold_hooks set_stage) by idle.
  assert (E : set_body (endpoint "__setitem__" (c_behs (o_cls o))) = set_endpoint (c_behs (o_cls o))).
  { unfold set_endpoint. destruct (item_endpoint "__setitem__" (c_behs (o_cls o))) as [(-> & ->)|[(-> & -> & [-> | ->])|(-> & -> & ->)]]; auto. }
  rewrite E. generalize (c_behs (o_cls o)) at 1 3 as all. intros all. generalize (c_behs (o_cls o)) as bs. clear.
  assert (G : forall bs, set_stack all bs = foldr set_stage (set_endpoint all) bs).
  { induction bs as [|b bs IH]; [done|]. change (set_stack all (b :: bs)) with (set_stage b (set_stack all bs)). by rewrite IH. }
  intros bs. by rewrite G.
Qed.
Theorem C59_getitem : forall s x cls k, class_of s x = Some cls -> Nodify ∈ c_behs cls ->
  getitem x k s = pipeline (get_stage fb_search) get_body "__getitem__" (c_behs cls) x k s.
Proof.
  intros s x cls k Hc Hn. cls_of s x Hc. unfold getitem. rewrite (bind_load _ _ _ _ Ho). unfold pipeline. rewrite <- (fold_hooks (get_stage fb_search)) by idle.
  assert (E : get_body (endpoint "__getitem__" (c_behs (o_cls o))) = get_endpoint (c_behs (o_cls o))).
  { unfold get_endpoint. destruct (item_endpoint "__getitem__" (c_behs (o_cls o))) as [(-> & ->)|[(-> & -> & [-> | ->])|(-> & -> & ->)]]; auto. }
  rewrite E. generalize (c_behs (o_cls o)) at 1 3 as all. intros all. generalize (c_behs (o_cls o)) as bs. clear.
  assert (G : forall bs, get_stack fb_search all bs = foldr (get_stage fb_search) (get_endpoint all) bs).
  { induction bs as [|b bs IH]; [done|]. change (get_stack fb_search all (b :: bs)) with (get_stage fb_search b (get_stack fb_search all bs)). by rewrite IH. }
  intros bs. by rewrite G.
Qed.
Theorem C59_delitem : forall s x cls k, class_of s x = Some cls -> Nodify ∈ c_behs cls ->
  delitem x k s = pipeline del_stage del_body "__delitem__" (c_behs cls) x k s.
Proof.
  intros s x cls k Hc Hn. cls_of s x Hc. unfold delitem. rewrite (bind_load _ _ _ _ Ho). unfold pipeline. rewrite <- (fold_hooks del_stage) by idle.
  assert (E : del_body (endpoint "__delitem__" (c_behs (o_cls o))) = del_endpoint (c_behs (o_cls o))).
  { unfold del_endpoint. destruct (item_endpoint "__delitem__" (c_behs (o_cls o))) as [(-> & ->)|[(-> & -> & [-> | ->])|(-> & -> & ->)]]; auto. }
  rewrite E. generalize (c_behs (o_cls o)) at 1 3 as all. intros all. generalize (c_behs (o_cls o)) as bs. clear.
  assert (G : forall bs, del_stack all bs = foldr del_stage (del_endpoint all) bs).
  { induction bs as [|b bs IH]; [done|]. change (del_stack all (b :: bs)) with (del_stage b (del_stack all bs)). by rewrite IH. }
  intros bs. by rewrite G.
Qed.
Lemma leftmost_cons m d b bs : leftmost m d (b :: bs) = if declares m d b then Some b else leftmost m d bs.
Proof. unfold leftmost. rewrite filter_cons. destruct (decide (declares m d b = true)) as [E|E]; [by rewrite E|]. by destruct (declares m d b). Qed.
Lemma iter_override_is bs : iter_override bs = iter_body (match leftmost "__iter__" Override bs with Some b => Some b | None => Some Nodify end).
Proof. induction bs as [|b bs IH]; [done|]. rewrite leftmost_cons. destruct b; try exact IH; try reflexivity. Qed.
Theorem C59_iter : forall s x cls, class_of s x = Some cls -> Nodify ∈ c_behs cls ->
  iter x s = pipeline iter_stage iter_body "__iter__" (c_behs cls) x s.
Proof.
  intros s x cls Hc Hn. cls_of s x Hc. unfold iter. rewrite (bind_load _ _ _ _ Ho). unfold pipeline.
  assert (H : forall bs e, foldr iter_stage e bs = foldr iter_stage e (hooks "__iter__" bs)) by (intros; apply fold_hooks; idle). rewrite <- H. clear H.
  assert (E : iter_body (endpoint "__iter__" (c_behs (o_cls o))) = iter_endpoint (c_behs (o_cls o))).
  { unfold iter_endpoint, endpoint. destruct (hasc FixedChildren (c_behs (o_cls o))) eqn:F.
    - rewrite (leftmost_is _ Finalize _ FixedChildren); [done|who|by apply hasc_is|by vm_compute].
    - apply hasc_not in F. rewrite (leftmost_absent _ Finalize) by (intros c H ?; assert (c = FixedChildren) as -> by (destruct c; try done; by vm_compute in H); done).
      rewrite iter_override_is. destruct (leftmost "__iter__" Override _); [done|]. rewrite (leftmost_is _ Default _ Nodify); [done|who|done|by vm_compute]. }
  rewrite E. generalize (c_behs (o_cls o)) at 1 3 as all. intros all. generalize (c_behs (o_cls o)) as bs. clear.
  assert (G : forall bs, iter_stack all bs = foldr iter_stage (iter_endpoint all) bs).
  { induction bs as [|b bs IH]; [done|]. change (iter_stack all (b :: bs)) with (iter_stage b (iter_stack all bs)). by rewrite IH. }
  intros bs. by rewrite G.
Qed.
(** Only Nodify has it. *)
Lemma nodify_endpoint m bs : (forall d c, d <> Plumb -> declares m d c = true -> c = Nodify) -> (declares m Override Nodify = true \/ declares m Default Nodify = true) -> Nodify ∈ bs ->
  endpoint m bs = Some Nodify.
Proof.
  intros H Hd Hn. unfold endpoint. destruct (leftmost m Finalize bs) as [c|] eqn:E1.
  { apply leftmost_some in E1 as [_ E1]. by rewrite (H Finalize c). }
  destruct (leftmost m Override bs) as [c|] eqn:E2.
  { apply leftmost_some in E2 as [_ E2]. by rewrite (H Override c). }
  destruct Hd as [Hd|Hd]; [|by apply leftmost_is; [intros c; by apply H| |]]. rewrite leftmost_none in E2. by rewrite E2 in Hd.
Qed.
Ltac only_nodify := let d := fresh in let c := fresh in let Hd := fresh in let H := fresh in intros d c Hd H; destruct c, d; try done; by vm_compute in H.
Theorem C59_iterkeys : forall s x cls, class_of s x = Some cls -> Nodify ∈ c_behs cls ->
  iterkeys x s = pipeline (fun _ next => next) iterkeys_body "iterkeys" (c_behs cls) x s.
Proof.
  intros s x cls Hc Hn. cls_of s x Hc. unfold iterkeys. rewrite (bind_load _ _ _ _ Ho). unfold pipeline.
  assert (E : hooks "iterkeys" (c_behs (o_cls o)) = []).
  { unfold hooks. clear. induction (c_behs (o_cls o)) as [|b bs IH]; [done|]. rewrite filter_cons. destruct (decide _) as [E|E]; [|done]. destruct b; by vm_compute in E. }
  rewrite E. simpl foldr. unfold endpoint. rewrite (leftmost_absent _ Finalize) by (intros c H; destruct c; by vm_compute in H). unfold has. fold (hasc ChildFactory (c_behs (o_cls o))).
  destruct (hasc ChildFactory (c_behs (o_cls o))) eqn:F.
  - rewrite (leftmost_is _ Override _ ChildFactory); [|who|by apply hasc_is|by vm_compute]. unfold iterkeys_body. by rewrite (bind_load _ _ _ _ Ho).
  - apply hasc_not in F. rewrite (leftmost_absent _ Override) by (intros c H ?; assert (c = ChildFactory) as -> by (destruct c; try done; by vm_compute in H); done).
    rewrite (leftmost_is _ Default _ Nodify); [done|who|done|by vm_compute].
Qed.
(** What runs for a new object; without DefaultInit, object.__init__. *)
Theorem C59_init : forall mk bs name parent, init_stack mk bs bs name parent = pipeline (init_stage mk) (init_body name parent) "__init__" bs.
Proof.
  intros mk bs name parent. unfold pipeline. assert (H : forall l e, foldr (init_stage mk) e l = foldr (init_stage mk) e (hooks "__init__" l)) by (intros; apply fold_hooks; idle). rewrite <- H. clear H.
  assert (E : init_body name parent (endpoint "__init__" bs) = init_endpoint bs name parent).
  { unfold init_endpoint, endpoint. rewrite (leftmost_absent _ Finalize) by (intros c H; destruct c; by vm_compute in H). destruct (hasc DefaultInit bs) eqn:F.
    - rewrite (leftmost_is _ Override _ DefaultInit); [done|who|by apply hasc_is|by vm_compute].
    - apply hasc_not in F. rewrite (leftmost_absent _ Override) by (intros c H ?; assert (c = DefaultInit) as -> by (destruct c; try done; by vm_compute in H); done).
      by rewrite (leftmost_absent _ Default) by (intros c H; destruct c; by vm_compute in H). }
  rewrite E. generalize bs at 1 3 as all. intros all. clear. induction bs as [|b bs IH]; [done|].
  change (init_stack mk all (b :: bs) name parent) with (init_stage mk b (init_stack mk all bs name parent)). by rewrite IH.
Qed.
Theorem C59_detach : forall s x cls k, class_of s x = Some cls -> Nodify ∈ c_behs cls ->
  detach x k s = pipeline detach_stage detach_body "detach" (c_behs cls) x k s.
Proof.
  intros s x cls k Hc Hn. cls_of s x Hc. unfold detach. rewrite (bind_load _ _ _ _ Ho). unfold pipeline. rewrite <- (fold_hooks detach_stage) by idle.
  rewrite nodify_endpoint; [|only_nodify|by left; vm_compute|done]. change (detach_body (Some Nodify)) with detach_endpoint. generalize (c_behs (o_cls o)) as bs. clear.
  assert (G : forall bs, detach_stack bs = foldr detach_stage detach_endpoint bs).
  { induction bs as [|b bs IH]; [done|]. change (detach_stack (b :: bs)) with (detach_stage b (detach_stack bs)). by rewrite IH. }
  intros bs. by rewrite G.
Qed.
Theorem C59_copy : forall s x cls, class_of s x = Some cls -> Nodify ∈ c_behs cls ->
  copy x s = pipeline copy_stage copy_body "copy" (c_behs cls) x s.
Proof.
  intros s x cls Hc Hn. cls_of s x Hc. unfold copy. rewrite (bind_load _ _ _ _ Ho). unfold pipeline.
  assert (H : forall bs e, foldr copy_stage e bs = foldr copy_stage e (hooks "copy" bs)) by (intros; apply fold_hooks; idle). rewrite <- H. clear H.
  rewrite nodify_endpoint; [|only_nodify|by right; vm_compute|done]. change (copy_body (Some Nodify)) with shallow. generalize (c_behs (o_cls o)) as bs. clear.
  assert (G : forall bs, copy_stack bs = foldr copy_stage shallow bs).
  { induction bs as [|b bs IH]; [done|]. change (copy_stack (b :: bs)) with (copy_stage b (copy_stack bs)). by rewrite IH. }
  intros bs. by rewrite G.
Qed.
Theorem C59_deepcopy : forall s x cls, class_of s x = Some cls -> Nodify ∈ c_behs cls ->
  deepcopy x s = pipeline deepcopy_stage deepcopy_body "deepcopy" (c_behs cls) x s.
Proof.
  intros s x cls Hc Hn. cls_of s x Hc. unfold deepcopy. rewrite (bind_load _ _ _ _ Ho). unfold pipeline.
  assert (H : forall bs e, foldr deepcopy_stage e bs = foldr deepcopy_stage e (hooks "deepcopy" bs)) by (intros; apply fold_hooks; idle). rewrite <- H. clear H.
  rewrite nodify_endpoint; [|only_nodify|by right; vm_compute|done]. change (deepcopy_body (Some Nodify)) with deep. generalize (c_behs (o_cls o)) as bs. clear.
  assert (G : forall bs, deepcopy_stack bs = foldr deepcopy_stage deep bs).
  { induction bs as [|b bs IH]; [done|]. change (deepcopy_stack (b :: bs)) with (deepcopy_stage b (deepcopy_stack bs)). by rewrite IH. }
  intros bs. by rewrite G.
Qed.
Lemma invalidate_endpoint_is bs : invalidate_endpoint bs = invalidate_body (leftmost "invalidate" Default bs).
Proof. induction bs as [|b bs IH]; [done|]. rewrite leftmost_cons. destruct b; try exact IH; reflexivity. Qed.
Theorem C59_invalidate : forall s x cls k, class_of s x = Some cls ->
  invalidate x k s = pipeline invalidate_stage invalidate_body "invalidate" (c_behs cls) x k s.
Proof.
  intros s x cls k Hc. cls_of s x Hc. unfold invalidate. rewrite (bind_load _ _ _ _ Ho). unfold pipeline. rewrite <- (fold_hooks invalidate_stage) by idle.
  assert (E : invalidate_body (endpoint "invalidate" (c_behs (o_cls o))) = invalidate_endpoint (c_behs (o_cls o))).
  { rewrite invalidate_endpoint_is. unfold endpoint. rewrite (leftmost_absent _ Finalize) by (intros c H; destruct c; by vm_compute in H).
    by rewrite (leftmost_absent _ Override) by (intros c H; destruct c; by vm_compute in H). }
  rewrite E. generalize (c_behs (o_cls o)) at 1 3 as all. intros all. generalize (c_behs (o_cls o)) as bs. clear.
  assert (G : forall bs, invalidate_stack all bs = foldr invalidate_stage (invalidate_endpoint all) bs).
  { induction bs as [|b bs IH]; [done|]. change (invalidate_stack all (b :: bs)) with (invalidate_stage b (invalidate_stack all bs)). by rewrite IH. }
  intros bs. by rewrite G.
Qed.
Theorem C59_setdefault : forall s x cls k d, class_of s x = Some cls -> Nodify ∈ c_behs cls ->
  setdefault x k d s = pipeline setdefault_stage setdefault_body "setdefault" (c_behs cls) x k d s.
Proof.
  intros s x cls k d Hc Hn. unfold pipeline. rewrite nodify_endpoint; [|only_nodify|by right; vm_compute|done].
  generalize (hooks "setdefault" (c_behs cls)) as bs. clear. induction bs as [|b bs IH]; [done|]. destruct b; try exact IH. reflexivity.
Qed.
(** The other methods of nodes are the same whatever the class: no behavior hooks them or puts others in their place. *)
Definition common_methods : list string :=
  ["get"; "__contains__"; "keys"; "values"; "items"; "__len__"; "itervalues"; "iteritems"; "has_key"; "clear"; "update"; "pop"; "popitem";
   "name"; "parent"; "path"; "root"; "acquire"; "filtereditervalues"; "filteredvalues"; "filtereditems"; "noderepr"; "treerepr"; "printtree"; "__bool__"; "__repr__"; "__str__"].
Theorem C59_undisturbed : forall m bs, m ∈ common_methods -> Nodify ∈ bs -> hooks m bs = [] /\ endpoint m bs = Some Nodify.
Proof.
  intros m bs Hm Hn.
  assert (A : forallb (fun m => forallb (fun b => negb (declares m Plumb b) && (bool_decide (b = Nodify) || negb (declares m Finalize b || declares m Override b || declares m Default b)))
      [Adopt; AsAttrAccess; ChildFactory; FixedChildren; GetattrChildren; NodeChildValidate; UnicodeAware; UUIDAware; DefaultInit; Nodify; DictStorage; OdictStorage; Nodespaces;
       Attributes; Reference; Order; Alias; Cache; Invalidate; VolatileStorageInvalidate; Lifecycle; AttributesLifecycle; Fallback]
      && (declares m Override Nodify || declares m Default Nodify)) common_methods = true) by (vm_compute; reflexivity).
  rewrite forallb_forall in A. specialize (A m (proj1 (elem_of_list_In _ _) Hm)). apply andb_prop in A as [A B]. rewrite forallb_forall in A.
  assert (C : forall b, declares m Plumb b = false /\ (b = Nodify \/ forall d, d <> Plumb -> declares m d b = false)).
  { intros b. specialize (A b). assert (I : declares m Plumb b = false /\ (b = Nodify \/ declares m Finalize b || declares m Override b || declares m Default b = false)).
    { assert (A' := A (ltac:(clear; destruct b; simpl; tauto))). apply andb_prop in A' as [A1 A2]. split; [by apply negb_true_iff|].
      apply orb_prop in A2 as [A2|A2]; [left; by apply bool_decide_eq_true in A2|right; by apply negb_true_iff]. }
    destruct I as [I1 I2]. split; [done|]. destruct I2 as [I2|I2]; [by left|right]. apply orb_false_iff in I2 as [I2 I3]. apply orb_false_iff in I2 as [I2 I4]. intros []; done. }
  split.
  - unfold hooks. clear -C. induction bs as [|b bs IH]; [done|]. rewrite filter_cons. destruct (decide _) as [E|E]; [|done]. destruct (C b) as [C' _]. congruence.
  - apply nodify_endpoint; [|by apply orb_prop|done]. intros d c Hd H. destruct (C c) as [_ [|C']]; [done|]. rewrite C' in H by done. done.
Qed.

(** * Concrete classes *)
(** node.base.Node *)
Example C59_example_hooks :
  let bs := Node_behs in
  hooks "__setitem__" bs = [NodeChildValidate; Nodespaces; Adopt; Reference] /\ endpoint "__setitem__" bs = Some OdictStorage /\
  hooks "__iter__" bs = [] /\ endpoint "__iter__" bs = Some OdictStorage /\ endpoint "__init__" bs = Some DefaultInit /\
  hooks "copy" bs = [Nodify] /\ endpoint "copy" bs = Some Nodify /\ ~ endless bs.
Proof. repeat (split; [vm_compute; reflexivity|]). apply C59_possible; [by apply (bool_decide_unpack _)|]. intros H. exfalso. repeat (apply elem_of_cons in H as [H|H]; [discriminate H|]). by apply elem_of_nil in H. Qed.
(** FixedChildren's methods win over those of a storage wherever they stand; ChildFactory's __iter__ only if it stands left. *)
Example C59_example_endpoints :
  endpoint "__getitem__" [OdictStorage; Nodify; FixedChildren] = Some FixedChildren /\
  endpoint "__iter__" [ChildFactory; OdictStorage; Nodify] = Some ChildFactory /\
  endpoint "__iter__" [OdictStorage; ChildFactory; Nodify] = Some OdictStorage /\
  endpoint "uuid" [UUIDAware; Reference; Nodify] = Some Reference /\
  endpoint "invalidate" [VolatileStorageInvalidate; Invalidate; Cache; Nodify] = Some VolatileStorageInvalidate.
Proof. repeat (split; [vm_compute; reflexivity|]). vm_compute; reflexivity. Qed.
Example C59_example_endless : endless [Cache; Nodify; OdictStorage].
Proof. exists "invalidate", Cache. split; [by left|]. split; [vm_compute; reflexivity|]. split; vm_compute; reflexivity. Qed.
(** Which of two invalidate methods runs shows in the events: Invalidate deletes items, VolatileStorageInvalidate empties the storage;
    and in the same way where the keys of a node with ChildFactory come from. *)
Definition two_ways (n : string) (a b : behavior) := Class n [Lifecycle; a; b; ChildFactory; Adopt; DefaultInit; Nodify; OdictStorage] [(KStr "f", n)] [] None false n true None.
Definition C59_s := after_in [two_ways "IV" Invalidate VolatileStorageInvalidate; two_ways "VI" VolatileStorageInvalidate Invalidate;
    Class "SF" [OdictStorage; ChildFactory; Adopt; DefaultInit; Nodify] [(KStr "f", "SF")] [] None false "SF" true None]
  [ONew "IV" KNone None; ONew "VI" KNone None; ONew "SF" KNone None; OGet 0 (KStr "f"); OGet 1 (KStr "f")].
Example C59_example_order :
  map fst (entries_at C59_s 0) = [KStr "f"] /\ map fst (entries_at C59_s 1) = [KStr "f"] /\
  length (log (snd (invalidate 0 (KStr "f") C59_s))) = S (length (log C59_s)) /\
  length (log (snd (invalidate 1 (KStr "f") C59_s))) = length (log C59_s) /\
  fst (keys 0 C59_s) = Ret [KStr "f"] /\ fst (iter 2 C59_s) = Ret [].
Proof. vm_compute. repeat split; reflexivity. Qed.
(** A node the theorems speak about. *)
Example C59_example : exists cls, let s := after [ONew ON (KStr "r") None; OSet 0 (KStr "a") (VInt 1)] in
  class_of s 0 = Some cls /\ Nodify ∈ c_behs cls.
Proof. eexists. split; [vm_compute; reflexivity|]. by apply (bool_decide_unpack _). Qed.

Print Assumptions C59_no_collision.
Print Assumptions C59_possible.
Print Assumptions C59_setitem.
Print Assumptions C59_getitem.
Print Assumptions C59_delitem.
Print Assumptions C59_iter.
Print Assumptions C59_iterkeys.
Print Assumptions C59_init.
Print Assumptions C59_detach.
Print Assumptions C59_copy.
Print Assumptions C59_deepcopy.
Print Assumptions C59_invalidate.
Print Assumptions C59_setdefault.
Print Assumptions C59_undisturbed.
