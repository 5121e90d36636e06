(** Children and attributes read with Python's attribute syntax. *)
From Verif Require Import Py Odict OdictFacts Aliaser Heap Model MonadFacts WF WFOps Views SpecMapping MappingProofs StorageProofs Observe TreeOps SetEff
  DelEff DetachEff NewEff AttrsEff ObserveFacts SpecTree SpecOrder Utils SpecUtils MappingProps UtilsProofs OrderProofs SpecPlace PlaceProofs Reach RefTree SpecSpaces SpaceProofs.

Lemma node_getattr_eff own s x cls n : wf s -> class_of s x = Some cls -> tree_class (c_behs cls) = true -> GetattrChildren ∈ c_behs cls -> own n = false ->
  exists s', same_world s s' /\
    (~ to_spaces cls (KStr n) -> node_getattr own x n s =
       (match value_at (KStr n) (entries_at s x) with Some v => Ret (FromContext v) | None => Exc (KeyError (KStr n)) end, s')) /\
    (to_spaces cls (KStr n) -> node_getattr own x n s =
       (match value_at (KStr n) (spaces_at s x) with Some v => Ret (FromContext v) | None => Exc (KeyError (KStr n)) end, s')).
Proof.
  intros W Hc Ht Hg Ho. destruct (class_view _ _ _ Hc) as (w & Hw & Hwc). destruct (load_view _ _ _ Hw) as (o & El & Hn & Hv).
  destruct (getitem_eff s x w (KStr n) W Hw) as (s1 & E & Q & W1); [by rewrite Hwc|]. exists s1. split; [by apply same_world_eqv|].
  unfold node_getattr. rewrite (bind_Ret _ _ _ _ _ El), Ho. unfold has. replace (o_cls o) with cls by (rewrite <- Hwc, <- Hv; done).
  rewrite bool_decide_eq_true_2 by done. unfold bind. rewrite E. rewrite !value_at_spec, (view_entries _ _ _ Hw).
  assert (Hns : spaces_at s x = w_ns w) by (rewrite ob_spaces; unfold fld; by rewrite Hw). rewrite Hns.
  unfold get_res, look. rewrite Hwc. simpl. split.
  - intros Hsp. apply nskey_dunder_false in Hsp. rewrite Hsp. by destruct (dget (KStr n) (w_ent w)).
  - intros Hsp. apply nskey_dunder in Hsp. rewrite Hsp. by destruct (dget (KStr n) (w_ns w)).
Qed.
Lemma node_getattr_own own s x n : exists_node s x -> own n = true -> node_getattr own x n s = (Ret (OwnAttribute n), s).
Proof. intros [o Ho] H. unfold node_getattr. rewrite (bind_load _ _ _ _ Ho). by rewrite H. Qed.
Lemma node_getattr_none own s x cls n : class_of s x = Some cls -> GetattrChildren ∉ c_behs cls -> own n = false -> node_getattr own x n s = (Exc AttributeError, s).
Proof.
  intros Hc Hg H. destruct (class_view _ _ _ Hc) as (w & Hw & Hwc). destruct (load_view _ _ _ Hw) as (o & El & Hn & Hv).
  unfold node_getattr. rewrite (bind_Ret _ _ _ _ _ El), H. unfold has. replace (o_cls o) with cls by (rewrite <- Hwc, <- Hv; done).
  by rewrite bool_decide_eq_false_2.
Qed.
(** hasattr never answers False, and a default is never used *)
Lemma node_hasattr own s x cls n : wf s -> class_of s x = Some cls -> tree_class (c_behs cls) = true -> GetattrChildren ∈ c_behs cls ->
  fst (py_hasattr (node_getattr own x n) s) <> Ret false /\ forall d, fst (py_getattr (node_getattr own x n) d s) = fst (node_getattr own x n s).
Proof.
  intros W Hc Ht Hg. destruct (own n) eqn:Ho.
  { assert (Hx : exists_node s x) by (unfold class_of in Hc; destruct (nodes s !! x) as [o|] eqn:E; [by exists o|done]).
    unfold py_hasattr, py_getattr, try_catch, bind. rewrite (node_getattr_own own s x n Hx Ho). done. }
  destruct (node_getattr_eff own s x cls n W Hc Ht Hg Ho) as (s' & _ & H1 & H2). unfold py_hasattr, py_getattr, try_catch, bind.
  destruct (nskey (c_behs cls) (KStr n)) eqn:En.
  - apply nskey_dunder in En. rewrite (H2 En). by destruct (value_at (KStr n) (spaces_at s x)).
  - apply nskey_dunder_false in En. rewrite (H1 En). by destruct (value_at (KStr n) (entries_at s x)).
Qed.

(** * attrs wrapped in AttributeAccess *)
Lemma class_exists s x cls : class_of s x = Some cls -> exists_node s x.
Proof. unfold class_of. intros H. destruct (nodes s !! x) as [o|] eqn:E; [by exists o|done]. Qed.
Lemma attrs_step s x r s' : grown simple plain s -> exists_node s x -> attrs_of x s = (r, s') -> grown simple plain s'.
Proof.
  intros G Hx E. assert (run_op (OAttrs x) s = (match r with Ret _ => Ret tt | Exc e => Exc e end, s')).
  { cbn [run_op]. unfold ignore, bind. rewrite E. by destruct r. }
  by eapply (grown_step simple plain s (OAttrs x)).
Qed.
Lemma attrs_node s x v s' : wf s -> exists_node s x -> attrs_of x s = (Ret v, s') -> vok s' v /\ ext s s'.
Proof. intros W Hx E. destruct (safe_attrs_of s x Hx W) as (_ & X & P). rewrite E in X, P. done. Qed.
Lemma attrs_write s x cls n v s' : grown simple plain s -> class_of s x = Some cls -> Nodespaces ∈ c_behs cls -> known s v -> ~ dunder (KStr n) ->
  attrs_setattr x n v s = (Ret tt, s') ->
  exists a, value_at attrs_key (spaces_at s' x) = Some (VNode a) /\ value_at (KStr n) (entries_at s' a) = Some v /\
    (a <> x -> entries_at s' x = entries_at s x) /\
    forall own, fst (attrs_getattr own x n s') = Ret (if own n then OwnAttribute n else FromContext v).
Proof.
  intros G Hc Hs Hv Hd E. pose proof (class_exists _ _ _ Hc) as Hx. destruct (plain_ok s G) as [W T]. unfold attrs_setattr, bind in E.
  destruct (attrs_of x s) as [[u|e] s1] eqn:E1; [|done]. pose proof (attrs_step _ _ _ _ G Hx E1) as G1. destruct (plain_ok s1 G1) as [W1 T1].
  destruct (attrs_node s x u s1 (wd_wf _ _ W) Hx E1) as [Hu X]. destruct u as [| | | | | | |a| | | |]; try done.
  pose proof (attrs_result s x _ s1 W Hx E1) as Ha1. pose proof (attrs_with s x cls _ s1 Hc E1) as Hw.
  assert (Hc1 : class_of s1 x = Some cls /\ entries_at s1 x = entries_at s x).
  { assert (L : later (fun s o => plain s o /\ forall k, touches cls o x k -> dunder k) s s1).
    { eapply (later_step _ s s (OAttrs x) (Ret tt)); [constructor|exact Hx| |cbn [run_op]; unfold ignore, bind; by rewrite E1].
      split; [done|]. intros k [_ ->]. by apply (nskey_dunder [Nodespaces]). }
    pose proof (later_spares cls x _ s s1 G Hc Hs L) as [B1 B2 B3 B4]. split; [by rewrite B1|]. apply B3. intros k Hk. done. }
  destruct Hc1 as [Hc1 He1].
  assert (Ha : exists ca, class_of s1 a = Some ca). { destruct Hu as [o Ho]. exists (o_cls o). unfold class_of. by rewrite Ho. } destruct Ha as [ca Hca].
  pose proof (simple_trees s1 W1 a ca Hca) as Hta.
  assert (Hv1 : known s1 v). { destruct v as [| | | | | | |c| | | |]; try done. by apply (ext_live s s1). }
  destruct (aa_setattr_eff (fun _ => false) s1 a ca n v s' (wd_wf _ _ W1) Hca Hta Hv1 E) as [A Hr].
  assert (Hnd : forall c, ~ to_spaces c (KStr n)) by (intros c [_ ?]; done).
  destruct (as_entries _ _ _ _ _ _ A (Hnd ca)) as [Ae As].
  assert (G' : grown simple plain s'). { eapply (grown_step simple plain s1 (OSet a (KStr n) v)); [exact G1|split; [done|done]|done|exact E]. }
  destruct (plain_ok s' G') as [W' _].
  assert (Hsp : spaces_at s' x = spaces_at s1 x). { destruct (decide (x = a)) as [->|Hne]; [done|]. by destruct (as_others _ _ _ _ _ _ A x Hne). }
  exists a. rewrite Hsp. split; [done|]. split; [rewrite Ae, value_at_spec; rewrite <- wf_dset_put by apply W1; by rewrite dget_dset_eq|].
  split; [intros Hne; destruct (as_others _ _ _ _ _ _ A x) as [-> _]; [congruence|done]|]. intros own.
  assert (Hc' : class_of s' x = Some cls) by (by rewrite (as_class _ _ _ _ _ _ A)).
  destruct (attrs_held s' x cls (VNode a) (wd_wf _ _ W') Hc' Hw) as (s2 & E2 & Sw); [by rewrite Hsp|].
  unfold attrs_getattr, bind. rewrite E2. destruct (own n) eqn:Ho; [unfold aa_getattr; by rewrite Ho|].
  pose proof (attrs_step _ _ _ _ G' (class_exists _ _ _ Hc') E2) as G2. destruct (plain_ok s2 G2) as [W2 _]. destruct Sw as [Sw _ _].
  destruct (aa_getattr_eff own s2 a ca n (wd_wf _ _ W2)) as (s3 & _ & H1 & _); [|done|done|].
  { destruct (Sw a) as [-> _ _ _ _ _ _ _ _ _]. by rewrite (as_class _ _ _ _ _ _ A). }
  rewrite (H1 (Hnd ca)). destruct (Sw a) as [_ _ _ -> _ _ _ _ _ _]. rewrite Ae, value_at_spec. rewrite <- wf_dset_put by apply W1. by rewrite dget_dset_eq.
Qed.
(** A name that was never set raises AttributeError, not KeyError; the wrapper knows the entries only. *)
Lemma attrs_read own s x cls n a s1 : grown simple plain s -> class_of s x = Some cls -> Nodespaces ∈ c_behs cls -> own n = false -> ~ dunder (KStr n) ->
  attrs_of x s = (Ret (VNode a), s1) ->
  fst (attrs_getattr own x n s) = match value_at (KStr n) (entries_at s1 a) with Some v => Ret (FromContext v) | None => Exc AttributeError end.
Proof.
  intros G Hc Hs Ho Hd E1. pose proof (class_exists _ _ _ Hc) as Hx. destruct (plain_ok s G) as [W T]. pose proof (attrs_step _ _ _ _ G Hx E1) as G1. destruct (plain_ok s1 G1) as [W1 T1].
  destruct (attrs_node s x _ s1 (wd_wf _ _ W) Hx E1) as [[o Hu] X].
  assert (Hca : class_of s1 a = Some (o_cls o)) by (unfold class_of; by rewrite Hu).
  unfold attrs_getattr, bind. rewrite E1. destruct (aa_getattr_eff own s1 a (o_cls o) n (wd_wf _ _ W1) Hca (simple_trees s1 W1 a _ Hca) Ho) as (s2 & _ & H1 & _).
  rewrite H1; [done|]. by intros [_ ?].
Qed.
