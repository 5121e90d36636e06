(** C10, C11: nodespaces and attributes. *)
From Verif Require Import Py Odict Aliaser Heap Model Classes WF Views SpecMapping MappingProofs TreeOps NewEff Observe ObserveFacts SpecTree SpecUtils
  Reach MappingProps Play SpecPlace PlaceProofs PlayPlace P_Tree SpecSpaces AttrsEff SpaceProofs PlaySpaces.
From stdpp Require Import list.

(** * C10 *)
(** Reading a key that starts and ends with two underscores looks at the nodespaces only, any
    other at the entries only; nothing changes. *)
Theorem C10_reading : forall s x cls k, grown simple plain s -> class_of s x = Some cls -> Nodespaces ∈ c_behs cls ->
  exists s', same_world s s' /\
    (dunder k -> getitem x k s = (match value_at k (spaces_at s x) with Some v => Ret v | None => Exc (KeyError k) end, s')) /\
    (~ dunder k -> hashable k = true -> getitem x k s = (match value_at k (entries_at s x) with Some v => Ret v | None => Exc (KeyError k) end, s')).
Proof.
  intros s x cls k G Hc Hn. destruct (plain_ok s G) as [W T].
  destruct (getitem_looks s x cls k (wd_wf _ _ W) Hc (simple_trees s W x cls Hc)) as (s' & Sw & E). exists s'. split; [exact Sw|]. rewrite E. split.
  - intros Hd. rewrite decide_True by (by split). destruct Hd as (t & a & b & -> & _). reflexivity.
  - intros Hd Hh. rewrite decide_False by (by intros [_ ?]). by rewrite Hh.
Qed.
(** In every history of calls in which [x] is only assigned, deleted, popped, detached or invalidated at such
    keys, whatever is done to other nodes, calls that raise included, the children stay. *)
Theorem C10_dunder_calls_keep_children : forall s s' x cls, grown simple plain s -> class_of s x = Some cls -> Nodespaces ∈ c_behs cls ->
  later (fun s o => plain s o /\ forall k, touches cls o x k -> dunder k) s s' -> entries_at s' x = entries_at s x.
Proof.
  intros s s' x cls G Hc Hn L. exact (sp_entries cls x dunder s s' (later_spares cls x dunder s s' G Hc Hn L) (fun k H => conj Hn H)).
Qed.
(** and the other way round *)
Theorem C10_other_calls_keep_nodespaces : forall s s' x cls, grown simple plain s -> class_of s x = Some cls -> Nodespaces ∈ c_behs cls ->
  later (fun s o => plain s o /\ forall k, touches cls o x k -> ~ dunder k) s s' -> spaces_at s' x = spaces_at s x.
Proof.
  intros s s' x cls G Hc Hn L. refine (sp_spaces cls x (fun k => ~ dunder k) s s' (later_spares cls x (fun k => ~ dunder k) s s' G Hc Hn L) (fun k H => _)).
  exact (fun T => H (proj2 T)).
Qed.
(** A key that no call touches keeps its value. *)
Theorem C10_untouched_keys : forall s s' x cls k, grown simple plain s -> class_of s x = Some cls -> Nodespaces ∈ c_behs cls ->
  later (fun s o => plain s o /\ forall k', touches cls o x k' -> k' <> k) s s' ->
  value_at k (entries_at s' x) = value_at k (entries_at s x) /\ value_at k (spaces_at s' x) = value_at k (spaces_at s x).
Proof.
  intros s s' x cls k G Hc Hn L.
  exact (sp_keys cls x (fun k' => k' <> k) s s' (later_spares cls x (fun k' => k' <> k) s s' G Hc Hn L) k (fun H => H eq_refl)).
Qed.
(** They never show up when iterating. *)
Theorem C10_never_iterated : forall s x cls, grown simple plain s -> class_of s x = Some cls -> Nodespaces ∈ c_behs cls ->
  exists ks s', Model.iter x s = (Ret ks, s') /\ Forall (fun k => ~ dunder k) ks.
Proof.
  intros s x cls G Hc Hn. destruct (no_space_iterated s x cls G Hc) as (ks & s' & E & F). exists ks, s'. split; [exact E|].
  eapply Forall_impl; [exact F|]. intros k Hk Hd. exact (Hk (conj Hn Hd)).
Qed.
(** [node['__children__']] is the node itself until replaced or deleted. *)
Theorem C10_children : forall s cn c name parent, grown simple plain s -> classes s !! cn = Some c -> Nodespaces ∈ c_behs c ->
  (forall p, parent = Some p -> exists_node s p) ->
  exists x s1, new_node cn name parent s = (Ret x, s1) /\ forall s2,
    later (fun s o => plain s o /\ ~ touches c o x (KStr "__children__")) s1 s2 ->
    exists s3, getitem x (KStr "__children__") s2 = (Ret (VNode x), s3) /\ same_world s2 s3.
Proof.
  intros s cn c name parent G Ec Hn Hp. destruct (plain_ok s G) as [W T].
  destruct (new_children s cn c name parent W Ec Hp) as (x & s1 & E & Hv & Hc). exists x, s1. split; [exact E|]. intros s2 L.
  assert (G1 : grown simple plain s1).
  { eapply (grown_step simple plain s (ONew cn name parent) (Ret tt)); [exact G|exact Hp|exact I|]. cbn [run_op]. unfold ignore, bind. by rewrite E. }
  assert (L' : later (fun s o => plain s o /\ forall k', touches c o x k' -> k' <> KStr "__children__") s1 s2).
  { clear -L. induction L as [|s3 o r s4 L IH Hok [HD HK] E]; [by constructor|]. eapply later_step; [exact IH|exact Hok| |exact E].
    split; [done|]. intros k' Ht ->. done. }
  destruct (C10_untouched_keys s1 s2 x c (KStr "__children__") G1 Hc Hn L') as [_ E2]. rewrite Hv in E2.
  assert (G2 : grown simple plain s2) by (eapply (later_grown simple plain); [|exact G1|exact L]; by intros ? ? [? _]).
  assert (Hc2 : class_of s2 x = Some c) by (rewrite (sp_class _ _ _ _ _ (later_spares c x _ s1 s2 G1 Hc Hn L')); exact Hc).
  destruct (C10_reading s2 x c (KStr "__children__") G2 Hc2 Hn) as (s3 & Sw & H1 & _). exists s3. split; [|exact Sw].
  rewrite H1; [by rewrite E2|]. by apply (nskey_dunder [Nodespaces]).
Qed.

(** A Node with a child and a nodespace; then calls at dunder keys only, one of them raising. *)
Definition C10_s := lived plainb [Node; NodeAttributes; BaseNode] [ONew NN (KStr "root") None; ONew NN (KStr "c") None; ONew NN (KStr "n") None;
  OSet 0 (KStr "c") (VNode 2); OSet 0 (KStr "____") (VNode 4)].
Definition C10_dunderb (s : st) (o : op) : bool :=
  plainb s o && match o with OSet 0 k _ | ODel 0 k => nskey [Nodespaces] k | OSet 2 _ _ => true | OAttrs 0 | ODeepcopy _ => true | OSet _ _ _ | ONew _ _ _ => true | _ => false end.
Definition C10_s' := lived_on C10_dunderb C10_s [OAttrs 0; ODel 0 (KStr "____"); ODel 0 (KStr "____"); OSet 0 (KStr "__") (VNode 4); ONew NN (KStr "d") None;
  OSet 2 (KStr "d") (VNode 10); ODeepcopy 2].
Example C10_example : grown simple plain C10_s /\ class_of C10_s 0 = Some Node /\ Nodespaces ∈ c_behs Node /\
  entries_at C10_s 0 = [(KStr "c", VNode 2)] /\ map fst (spaces_at C10_s 0) = [KStr "__children__"; KStr "____"] /\
  later (fun s o => plain s o /\ forall k, touches Node o 0 k -> dunder k) C10_s C10_s' /\
  map fst (spaces_at C10_s' 0) = [KStr "__children__"; KStr "__attrs__"; KStr "__"].
Proof.
  split; [eapply lived_grown; [exact plainb_spec|by apply simple_all]|]. split; [by vm_compute|]. split; [repeat constructor|].
  split; [by vm_compute|]. split; [by vm_compute|]. split; [|by vm_compute].
  apply lived_on_later. intros s o [H1 H2]%andb_prop. split; [by apply plainb_spec|]. intros k Ht.
  destruct o as [| |x k' v|x k'| | | | | | | | | |x| | | | | | | | | | | | |]; cbn in H2, Ht; try done; try (destruct Ht as [-> Ht]).
  - subst k'. by apply (nskey_dunder [Nodespaces]).
  - subst k'. by apply (nskey_dunder [Nodespaces]).
  - subst k. by apply (nskey_dunder [Nodespaces]).
Qed.

(** The ordering API does not look at the kind of the name: a node with such a name, inserted
    through it, is iterated (order.py 15-31, 33-49). *)
Theorem C10_ordered_insertion_refuted : exists s x cls ks s', reach s /\ class_of s x = Some cls /\ Nodespaces ∈ c_behs cls /\
  Model.iter x s = (Ret ks, s') /\ KStr "__n__" ∈ ks /\ dunder (KStr "__n__").
Proof.
  set (s := after [ONew NN (KStr "root") None; ONew NN (KStr "c") None; OSet 0 (KStr "c") (VNode 2); ONew NN (KStr "__n__") None; OInsertEnd true 0 6]).
  exists s, 0, Node, [KStr "__n__"; KStr "c"], (snd (Model.iter 0 s)). split; [apply after_reach|]. split; [by vm_compute|]. split; [repeat constructor|].
  split; [by vm_compute|]. split; [repeat constructor|]. by apply (nskey_dunder [Nodespaces]).
Qed.

(** * C11 *)
(** [node.attrs] succeeds when the factory is there; what it returns is [node['__attrs__']],
    and the children are what they were. *)
Theorem C11_attrs_is_a_nodespace : forall s x cls, grown simple plain s -> class_of s x = Some cls -> Nodespaces ∈ c_behs cls ->
  (forall c, Attributes ∈ c_behs cls -> classes s !! c_attrs_factory cls = Some c -> exists v s', attrs_of x s = (Ret v, s')) /\
  forall v s', attrs_of x s = (Ret v, s') -> entries_at s' x = entries_at s x /\
    exists s'', getitem x (KStr "__attrs__") s' = (Ret v, s'') /\ same_world s' s''.
Proof.
  intros s x cls G Hc Hn. destruct (plain_ok s G) as [W T]. split; [intros c Ha Ec; exact (attrs_created s x cls c W Hc (with_attrs_spec _ Ha Hn) Ec)|]. intros v s' E.
  assert (Hx : exists_node s x) by (unfold class_of in Hc; destruct (nodes s !! x) as [o|] eqn:Ho; [by exists o|done]).
  pose proof (attrs_result s x v s' W Hx E) as Hv.
  assert (L : later (fun s o => plain s o /\ forall k, touches cls o x k -> dunder k) s s').
  { eapply (later_step _ s s (OAttrs x) (Ret tt)); [constructor|exact Hx| |cbn [run_op]; unfold ignore, bind; by rewrite E].
    split; [done|]. intros k [_ ->]. by apply (nskey_dunder [Nodespaces]). }
  split; [exact (C10_dunder_calls_keep_children s s' x cls G Hc Hn L)|].
  assert (G2 : grown simple plain s') by (eapply (later_grown simple plain); [|exact G|exact L]; by intros ? ? [? _]).
  assert (Hc2 : class_of s' x = Some cls) by (rewrite (sp_class _ _ _ _ _ (later_spares cls x _ s s' G Hc Hn L)); exact Hc).
  destruct (C10_reading s' x cls (KStr "__attrs__") G2 Hc2 Hn) as (s3 & Sw & H1 & _). exists s3. split; [|exact Sw].
  rewrite H1; [by rewrite Hv|]. by apply (nskey_dunder [Nodespaces]).
Qed.
(** Every later access returns the same object, whatever happens in between, as long as the
    nodespace is not assigned or deleted. *)
Theorem C11_same_object : forall s x cls v s1 s2, grown simple plain s -> class_of s x = Some cls -> Nodespaces ∈ c_behs cls ->
  attrs_of x s = (Ret v, s1) -> later (fun s o => plain s o /\ (touches cls o x (KStr "__attrs__") -> o = OAttrs x)) s1 s2 ->
  exists s3, attrs_of x s2 = (Ret v, s3) /\ same_world s2 s3.
Proof.
  intros s x cls v s1 s2 G Hc Hn E L. destruct (plain_ok s G) as [W T].
  assert (Hx : exists_node s x) by (unfold class_of in Hc; destruct (nodes s !! x) as [o|] eqn:Ho; [by exists o|done]).
  pose proof (attrs_result s x v s1 W Hx E) as Hv.
  assert (L1 : later (fun s o => plain s o /\ forall k, touches cls o x k -> dunder k) s s1).
  { eapply (later_step _ s s (OAttrs x) (Ret tt)); [constructor|exact Hx| |cbn [run_op]; unfold ignore, bind; by rewrite E].
    split; [done|]. intros k [_ ->]. by apply (nskey_dunder [Nodespaces]). }
  assert (G1 : grown simple plain s1) by (eapply (later_grown simple plain); [|exact G|exact L1]; by intros ? ? [? _]).
  assert (Hc1 : class_of s1 x = Some cls) by (rewrite (sp_class _ _ _ _ _ (later_spares cls x _ s s1 G Hc Hn L1)); exact Hc).
  destruct (attrs_stay s1 x cls v s2 G1 Hc1 Hn Hv L) as [Hc2 Hv2].
  assert (G2 : grown simple plain s2) by (eapply (later_grown simple plain); [|exact G1|exact L]; by intros ? ? [? _]).
  destruct (plain_ok s2 G2) as [W2 _]. exact (attrs_held s2 x cls v (wd_wf _ _ W2) Hc2 (attrs_with s x cls v s1 Hc E) Hv2).
Qed.
(** Calls on the attributes, or on any other nodes, leave the children of [x] alone. *)
Theorem C11_attributes_keep_children : forall s s' x cls, grown simple plain s -> class_of s x = Some cls -> Nodespaces ∈ c_behs cls ->
  later (fun s o => plain s o /\ forall k, touches cls o x k -> o = OAttrs x) s s' -> entries_at s' x = entries_at s x.
Proof.
  intros s s' x cls G Hc Hn L. apply (C10_dunder_calls_keep_children s s' x cls G Hc Hn). clear G Hc.
  induction L as [|s3 o r s4 L IH Hok [HD HK] E]; [by constructor|]. eapply later_step; [exact IH|exact Hok| |exact E].
  split; [done|]. intros k Ht. rewrite (HK k Ht) in Ht. destruct Ht as [_ ->]. by apply (nskey_dunder [Nodespaces]).
Qed.
(** In a history of careful assignments its name is [__attrs__] and its parent the node. *)
Theorem C11_name_and_parent : forall s x a s', grown adopting careful s -> exists_node s x -> attrs_of x s = (Ret (VNode a), s') ->
  name_at s' a = Some (KStr "__attrs__") /\ parent_at s' a = Some x.
Proof.
  intros s x a s' G Hx E. destruct (grown_ok s G) as [W T].
  assert (Ws : world simple s) by (destruct W as [H1 H2 H3 H4]; constructor; [exact H1|exact H2|intros ? ? H; by destruct (H3 _ _ H)|intros ? ? H; by destruct (H4 _ _ H)]).
  pose proof (attrs_result s x _ s' Ws Hx E) as Hv.
  assert (G' : grown adopting careful s').
  { eapply (grown_step adopting careful s (OAttrs x) (Ret tt)); [exact G|exact Hx|exact I|]. cbn [run_op]. unfold ignore, bind. by rewrite E. }
  apply (tk_cons _ (proj2 (grown_ok s' G')) x InSpaces). split; [exact Hv|]. by intros [? _].
Qed.
(** attrs of node 0 is created, an attribute set, attrs read again, a child moved to the attributes, [__children__] deleted *)
Definition C11_calls := [ONew NN (KStr "root") None; ONew NN (KStr "x") None; OSet 0 (KStr "a") (VNode 2)].
Definition C11_s := tended tree_classes C11_calls.
Definition C11_calmb (s : st) (o : op) : bool :=
  plainb s o && match o with
  | OAttrs _ => true
  | OSet x k _ | ODel x k => negb (x =? 0) || negb (bool_decide (k = KStr "__attrs__"))
  | _ => false
  end.
Definition C11_s1 := snd (attrs_of 0 C11_s).
Definition C11_s2 := lived_on C11_calmb C11_s1 [OSet 7 (KStr "title") (VStr "t"); OAttrs 0; ODel 0 (KStr "a"); OSet 7 (KStr "title") (VNode 2); ODel 0 (KStr "__children__")].
Lemma tended_plain cs l : Forall simple cs -> grown simple plain (tended cs l).
Proof.
  intros Hcs. pose proof (lived_grown plain plainb plainb_spec simple cs [] Hcs) as G. unfold lived in G. cbn [live_on default] in G.
  unfold tended. set (s := St _ _ _ _ _ _ _ _) in *. clearbody s. destruct (tend l s) as [s'|] eqn:E; [|exact G]. cbn [default].
  revert s G E. induction l as [|o l IH]; simpl; intros s R E; [congruence|].
  destruct (op_okb s o && carefulb s o) eqn:Hok; [|done]. apply andb_prop in Hok as [H1 H2]. eapply IH; [|exact E].
  eapply grown_step; [exact R|by apply op_okb_spec| |apply surjective_pairing]. apply plainb_spec. by destruct o.
Qed.
Example C11_example : grown adopting careful C11_s /\ grown simple plain C11_s /\ class_of C11_s 0 = Some Node /\ Nodespaces ∈ c_behs Node /\
  fst (attrs_of 0 C11_s) = Ret (VNode 7) /\
  later (fun s o => plain s o /\ (touches Node o 0 (KStr "__attrs__") -> o = OAttrs 0)) C11_s1 C11_s2 /\
  entries_at C11_s2 7 = [(KStr "title", VNode 2)] /\ spaces_at C11_s2 0 = [(KStr "__attrs__", VNode 7)].
Proof.
  split; [apply tended_grown; by apply adoptingb_spec|].
  split; [apply tended_plain; by apply simple_all|].
  split; [by vm_compute|]. split; [repeat constructor|]. split; [by vm_compute|]. split; [|by vm_compute].
  apply lived_on_later. intros s o [H1 H2]%andb_prop. split; [by apply plainb_spec|]. intros Ht.
  destruct o as [| |x k' v|x k'| | | | | | | | | |x| | | | | | | | | | | | |]; cbn in H2, Ht; try done; destruct Ht as [-> Ht]; [..|done];
    subst k'; rewrite bool_decide_eq_true_2 in H2 by done; done.
Qed.

(** Without the behavior Attributes there are no attrs, and without Nodespaces no place for them: the access
    raises AttributeError and creates nothing. (GetattrChildren would look for children named attrs and nodespaces;
    the model leaves that out, so the theorem does not speak about it.) *)
Theorem C11_refused_without : forall s x cls, class_of s x = Some cls -> GetattrChildren ∉ c_behs cls -> Attributes ∉ c_behs cls \/ Nodespaces ∉ c_behs cls ->
  attrs_of x s = (Exc AttributeError, s).
Proof.
  intros s x cls Hc _ H. destruct (class_view s x cls Hc) as (w & Hw & Hk). apply (attrs_none s x w Hw). rewrite Hk.
  apply not_true_is_false. unfold with_attrs. intros [H1%hasc_in H2%hasc_in]%andb_prop. by destruct H.
Qed.
Example C11_refused_example : class_of (after [ONew BN (KStr "b") None]) 0 = Some BaseNode /\ GetattrChildren ∉ c_behs BaseNode /\ Attributes ∉ c_behs BaseNode.
Proof. split; [by vm_compute|]. split; by apply (bool_decide_unpack _). Qed.

Print Assumptions C10_reading.
Print Assumptions C10_dunder_calls_keep_children.
Print Assumptions C10_other_calls_keep_nodespaces.
Print Assumptions C10_untouched_keys.
Print Assumptions C10_never_iterated.
Print Assumptions C10_children.
Print Assumptions C10_ordered_insertion_refuted.
Print Assumptions C11_attrs_is_a_nodespace.
Print Assumptions C11_refused_without.
Print Assumptions C11_same_object.
Print Assumptions C11_attributes_keep_children.
Print Assumptions C11_name_and_parent.
