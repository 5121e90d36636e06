(** Observable content of a heap: what is left of it when lazily created dicts
    and dict identities are abstracted away.  Every heap primitive is described
    by its effect on these views. *)
From Verif Require Import Py Odict OdictFacts Aliaser Heap Model MonadFacts WF WFOps.

Record view := View {
  w_cls : classdef;
  w_name : key;
  w_parent : option nat;
  w_ent : list (key * val);           (* storage entries *)
  w_cache : list (key * val);
  w_fixed : option (list (key * val));
  w_ns : list (key * val);            (* nodespaces *)
  w_index : option nat;
  w_uuid : option N;
  w_allow : bool;
  w_suppress : bool;
  w_fallback : option key
}.

Definition deref (s : st) (ol : option nat) (dflt : list (key * val)) : list (key * val) :=
  match ol with None => dflt | Some l => default [] (dicts s !! l) end.
Definition ns_default (x : nat) : list (key * val) := [(KStr "__children__", VNode x)].

Definition view_of (s : st) (x : nat) (o : obj) : view :=
  View (o_cls o) (o_name o) (o_parent o) (deref s (o_storage o) [])
    (deref s (o_cache o) []) ((fun l => default [] (dicts s !! l)) <$> o_children o)
    (deref s (o_nodespaces o) (ns_default x)) (o_index o) (o_uuid o) (o_allow o)
    (o_suppress o) (o_fallback o).

Definition views (s : st) : gmap nat view :=
  map_imap (fun x o => Some (view_of s x o)) (nodes s).

Definition vw_name k v := View (w_cls v) k (w_parent v) (w_ent v) (w_cache v) (w_fixed v) (w_ns v) (w_index v) (w_uuid v) (w_allow v) (w_suppress v) (w_fallback v).
Definition vw_parent p v := View (w_cls v) (w_name v) p (w_ent v) (w_cache v) (w_fixed v) (w_ns v) (w_index v) (w_uuid v) (w_allow v) (w_suppress v) (w_fallback v).
Definition vw_ent e v := View (w_cls v) (w_name v) (w_parent v) e (w_cache v) (w_fixed v) (w_ns v) (w_index v) (w_uuid v) (w_allow v) (w_suppress v) (w_fallback v).
Definition vw_cache e v := View (w_cls v) (w_name v) (w_parent v) (w_ent v) e (w_fixed v) (w_ns v) (w_index v) (w_uuid v) (w_allow v) (w_suppress v) (w_fallback v).
Definition vw_fixed e v := View (w_cls v) (w_name v) (w_parent v) (w_ent v) (w_cache v) e (w_ns v) (w_index v) (w_uuid v) (w_allow v) (w_suppress v) (w_fallback v).
Definition vw_ns e v := View (w_cls v) (w_name v) (w_parent v) (w_ent v) (w_cache v) (w_fixed v) e (w_index v) (w_uuid v) (w_allow v) (w_suppress v) (w_fallback v).
Definition vw_index i v := View (w_cls v) (w_name v) (w_parent v) (w_ent v) (w_cache v) (w_fixed v) (w_ns v) i (w_uuid v) (w_allow v) (w_suppress v) (w_fallback v).
Definition vw_uuid u v := View (w_cls v) (w_name v) (w_parent v) (w_ent v) (w_cache v) (w_fixed v) (w_ns v) (w_index v) u (w_allow v) (w_suppress v) (w_fallback v).
Definition vw_suppress b v := View (w_cls v) (w_name v) (w_parent v) (w_ent v) (w_cache v) (w_fixed v) (w_ns v) (w_index v) (w_uuid v) (w_allow v) b (w_fallback v).

Lemma views_lookup s x : views s !! x = view_of s x <$> nodes s !! x.
Proof. unfold views. rewrite map_lookup_imap. by destruct (nodes s !! x). Qed.
Lemma views_Some s x w : views s !! x = Some w <-> exists o, nodes s !! x = Some o /\ w = view_of s x o.
Proof. rewrite views_lookup, fmap_Some. naive_solver. Qed.
Lemma views_live s x : live s x <-> is_Some (views s !! x).
Proof. rewrite views_lookup. unfold live. by rewrite fmap_is_Some. Qed.
Lemma nodes_views s x o : nodes s !! x = Some o -> views s !! x = Some (view_of s x o).
Proof. intros H. rewrite views_lookup, H. done. Qed.

(** Everything observable is unchanged. *)
Record eqv (s s' : st) : Prop := Eqv {
  e_views : views s' = views s;
  e_idxs : idxs s' = idxs s;
  e_uuid : next_uuid s' = next_uuid s;
  e_log : log s' = log s;
  e_fb : fbcount s' = fbcount s;
  e_classes : classes s' = classes s;
  e_next : next_id s <= next_id s'
}.
Lemma eqv_refl s : eqv s s.
Proof. constructor; done. Qed.
Lemma eqv_trans s1 s2 s3 : eqv s1 s2 -> eqv s2 s3 -> eqv s1 s3.
Proof. intros [] []. constructor; try congruence. lia. Qed.
Lemma eqv_live s s' x : eqv s s' -> live s x -> live s' x.
Proof. intros E. rewrite !views_live. by rewrite (e_views _ _ E). Qed.

(** * Primitives *)
Lemma views_set_node s x o f g :
  nodes s !! x = Some o ->
  (forall s', dicts s' = dicts s -> view_of s' x (f o) = g (view_of s x o)) ->
  views (set_nodes <[x := f o]> s) = <[x := g (view_of s x o)]> (views s).
Proof.
  intros Ho Hf. apply map_eq. intros y. rewrite views_lookup. simpl.
  destruct (decide (x = y)) as [<-|Hne].
  - rewrite !lookup_insert. simpl. f_equal. by apply Hf.
  - rewrite !lookup_insert_ne by done. by rewrite views_lookup.
Qed.

Definition slot_default (a : slot) (x : nat) : list (key * val) :=
  match a with SNodespaces => ns_default x | _ => [] end.
Definition vw_slot (a : slot) (d : list (key * val)) (w : view) : view :=
  match a with
  | SStorage => vw_ent d w | SCache => vw_cache d w
  | SChildren => vw_fixed (Some d) w | SNodespaces => vw_ns d w
  end.

Lemma deref_frame s s' ol d :
  (forall l, ol = Some l -> dicts s' !! l = dicts s !! l) -> deref s' ol d = deref s ol d.
Proof. destruct ol; simpl; [|done]. intros H. by rewrite H. Qed.

Lemma view_of_frame s s' x o :
  (forall a l, get_slot a o = Some l -> dicts s' !! l = dicts s !! l) ->
  view_of s' x o = view_of s x o.
Proof.
  intros H. unfold view_of. f_equal.
  - apply deref_frame. apply (H SStorage).
  - apply deref_frame. apply (H SCache).
  - pose proof (H SChildren) as HC. simpl in HC. destruct (o_children o); simpl; [|done].
    by rewrite HC.
  - apply deref_frame. apply (H SNodespaces).
Qed.

Lemma wf_slot_lt s x o a l : wf s -> nodes s !! x = Some o -> get_slot a o = Some l -> l < next_id s.
Proof.
  intros W Ho Hs. destruct (dicts_of_slot _ _ _ _ _ W Ho Hs) as [d Hd].
  by destruct (wf_dicts _ W _ _ Hd) as [? _].
Qed.

(** allocating a missing dict: nothing observable *)
Lemma views_alloc_slot s x o a d :
  wf s -> nodes s !! x = Some o ->
  views (set_nodes <[x := with_slot a (Some (next_id s)) o]>
          (set_next_id S (set_dicts <[next_id s := d]> s)))
  = <[x := vw_slot a d (view_of s x o)]> (views s).
Proof.
  intros W Ho. apply map_eq. intros y. rewrite views_lookup. simpl.
  assert (Hfr : forall y o', nodes s !! y = Some o' -> forall a' l, get_slot a' o' = Some l ->
     <[next_id s := d]> (dicts s) !! l = dicts s !! l).
  { intros y' o' Hy' a' l Hl. rewrite lookup_insert_ne; [done|].
    pose proof (wf_slot_lt _ _ _ _ _ W Hy' Hl). lia. }
  destruct (decide (x = y)) as [<-|Hne].
  - rewrite !lookup_insert. simpl. f_equal. specialize (Hfr _ _ Ho).
    unfold view_of. destruct a; simpl; rewrite ?lookup_insert; simpl;
    pose proof (Hfr SStorage) as H1; pose proof (Hfr SCache) as H2;
    pose proof (Hfr SChildren) as H3; pose proof (Hfr SNodespaces) as H4; simpl in *;
    unfold vw_ent, vw_cache, vw_fixed, vw_ns; simpl; f_equal;
    destruct (o_storage o), (o_cache o), (o_children o), (o_nodespaces o); simpl; try done;
    repeat match goal with
    | H : forall l, Some ?n = Some l -> _ |- _ => specialize (H n eq_refl)
    | H : forall l, None = Some l -> _ |- _ => clear H end;
    repeat match goal with H : _ = dicts s !! _ |- _ => rewrite H; clear H end; done.
  - rewrite !lookup_insert_ne by done. rewrite views_lookup.
    destruct (nodes s !! y) as [o'|] eqn:Hy; simpl; [|done]. f_equal.
    apply view_of_frame. simpl. by apply (Hfr y).
Qed.
Lemma vw_slot_id s x o a : get_slot a o = None -> a <> SChildren ->
  vw_slot a (slot_default a x) (view_of s x o) = view_of s x o.
Proof.
  intros H Ha. destruct a; simpl in *; try done; unfold view_of, vw_ent, vw_cache, vw_ns; simpl; by rewrite H.
Qed.

Lemma views_write_dict s x o a l d :
  wf s -> nodes s !! x = Some o -> get_slot a o = Some l ->
  views (set_dicts <[l := d]> s) = <[x := vw_slot a d (view_of s x o)]> (views s).
Proof.
  intros W Ho Hs. apply map_eq. intros y. rewrite views_lookup. simpl.
  destruct (decide (x = y)) as [<-|Hne].
  - rewrite Ho, lookup_insert. simpl. f_equal.
    assert (Hfr : forall a' l', get_slot a' o = Some l' -> a' <> a -> <[l:=d]> (dicts s) !! l' = dicts s !! l').
    { intros a' l' Hl' Hna. rewrite lookup_insert_ne; [done|]. intros <-.
      by destruct (wf_own _ W x x o o a' a l Ho Ho Hl' Hs). }
    unfold view_of. destruct a; simpl in *; rewrite Hs; simpl; rewrite ?lookup_insert; simpl;
    pose proof (Hfr SStorage) as H1; pose proof (Hfr SCache) as H2;
    pose proof (Hfr SChildren) as H3; pose proof (Hfr SNodespaces) as H4; simpl in *;
    unfold vw_ent, vw_cache, vw_fixed, vw_ns; simpl; f_equal;
    destruct (o_storage o), (o_cache o), (o_children o), (o_nodespaces o); simpl; try done;
    repeat match goal with
    | H : forall l, Some ?n = Some l -> ?a <> ?a -> _ |- _ => clear H
    | H : forall l, Some ?n = Some l -> _ |- _ => specialize (H n eq_refl ltac:(done))
    | H : forall l, None = Some l -> _ |- _ => clear H end;
    repeat match goal with H : _ = dicts s !! _ |- _ => rewrite H; clear H end; done.
  - rewrite lookup_insert_ne by done. rewrite views_lookup.
    destruct (nodes s !! y) as [o'|] eqn:Hy; simpl; [|done]. f_equal.
    apply view_of_frame. simpl. intros a' l' Hl'. rewrite lookup_insert_ne; [done|].
    intros <-. by destruct (wf_own _ W x y o o' a a' l Ho Hy Hs Hl').
Qed.

Lemma views_set_idxs s f : views (set_idxs f s) = views s.
Proof. done. Qed.
Lemma views_set_log s f : views (set_log f s) = views s.
Proof. done. Qed.
Lemma views_set_uuid s f : views (set_next_uuid f s) = views s.
Proof. done. Qed.
Lemma views_set_fb s f : views (set_fbcount f s) = views s.
Proof. done. Qed.

(** a fresh node *)
Lemma views_alloc_node s o :
  wf s -> (forall a, get_slot a o = None) ->
  views (set_next_id S (set_nodes <[next_id s := o]> s)) =
  <[next_id s := view_of s (next_id s) o]> (views s).
Proof.
  intros W Hs. apply map_eq. intros y. rewrite views_lookup. simpl.
  destruct (decide (next_id s = y)) as [<-|Hne].
  - rewrite !lookup_insert. done.
  - rewrite !lookup_insert_ne by done. by rewrite views_lookup.
Qed.

(** * Monadic forms *)
Definition nextwf {A} (s : st) (m : M A) (r : res A) (s' : st) : Prop :=
  m s = (r, s') /\ wf s'.

Lemma safe_wf {A} s (m : M A) Q r s' : wf s -> safe s m Q -> m s = (r, s') -> wf s' /\ ext s s'.
Proof. intros W H E. destruct (H W) as (W' & E' & _). rewrite E in *. done. Qed.

Definition storage_class (bs : list behavior) : bool := hasc DictStorage bs || hasc OdictStorage bs.

Lemma lazy_slot_eff s x o a :
  wf s -> nodes s !! x = Some o -> get_slot a o = None -> a <> SChildren ->
  forall m : M nat, (m = (let! l := alloc_dict (slot_default a x) in
                     do! modify x (with_slot a (Some l)) in ret l)) ->
  exists l s', m s = (Ret l, s') /\ eqv s s' /\ wf s'
    /\ exists o', nodes s' !! x = Some o' /\ get_slot a o' = Some l /\ o_cls o' = o_cls o.
Proof.
  intros W Ho Hs Ha m ->.
  assert (Hd : NoDup (dkeys (slot_default a x)) /\ Forall (eok s) (slot_default a x)).
  { split; [destruct a; simpl; repeat constructor; set_solver|]. destruct a; simpl; repeat constructor; simpl; unfold live; eauto. }
  destruct Hd as [ND HF].
  pose proof (safe_lazy_slot a (slot_default a x) s x o Ho ND HF) as HS.
  unfold bind, alloc_dict, modify. simpl. rewrite Ho. simpl.
  eexists _, _. split; [reflexivity|]. split.
  - constructor; try done; simpl; try lia.
    rewrite views_alloc_slot by done. rewrite vw_slot_id by done.
    apply insert_id. by apply nodes_views.
  - split.
    + destruct (HS W) as [W' _]. unfold bind, alloc_dict, modify in W'. simpl in W'.
      rewrite Ho in W'. done.
    + exists (with_slot a (Some (next_id s)) o). simpl. rewrite lookup_insert. by destruct a.
Qed.

Lemma storage_of_eff s x o :
  wf s -> nodes s !! x = Some o -> storage_class (c_behs (o_cls o)) = true ->
  exists l s', storage_of x s = (Ret l, s') /\ eqv s s' /\ wf s'
    /\ exists o', nodes s' !! x = Some o' /\ o_storage o' = Some l /\ o_cls o' = o_cls o.
Proof.
  intros W Ho Hc. unfold storage_of. rewrite (bind_load _ _ _ _ Ho).
  unfold storage_class, hasc in Hc. unfold has. rewrite Hc.
  destruct (o_storage o) as [l|] eqn:El.
  - exists l, s. split; [done|]. split; [apply eqv_refl|]. split; [done|]. eauto.
  - by apply (lazy_slot_eff s x o SStorage).
Qed.
Lemma cache_of_eff s x o :
  wf s -> nodes s !! x = Some o ->
  exists l s', cache_of x s = (Ret l, s') /\ eqv s s' /\ wf s'
    /\ exists o', nodes s' !! x = Some o' /\ o_cache o' = Some l /\ o_cls o' = o_cls o.
Proof.
  intros W Ho. unfold cache_of. rewrite (bind_load _ _ _ _ Ho).
  destruct (o_cache o) as [l|] eqn:El.
  - exists l, s. split; [done|]. split; [apply eqv_refl|]. split; [done|]. eauto.
  - by apply (lazy_slot_eff s x o SCache).
Qed.
Lemma nodespaces_of_eff s x o :
  wf s -> nodes s !! x = Some o ->
  exists l s', nodespaces_of x s = (Ret l, s') /\ eqv s s' /\ wf s'
    /\ exists o', nodes s' !! x = Some o' /\ o_nodespaces o' = Some l /\ o_cls o' = o_cls o.
Proof.
  intros W Ho. unfold nodespaces_of. rewrite (bind_load _ _ _ _ Ho).
  destruct (o_nodespaces o) as [l|] eqn:El.
  - exists l, s. split; [done|]. split; [apply eqv_refl|]. split; [done|]. eauto.
  - by apply (lazy_slot_eff s x o SNodespaces).
Qed.

(** The content of the slot's dict. *)
Definition slot_ent (a : slot) (w : view) : list (key * val) :=
  match a with
  | SStorage => w_ent w | SCache => w_cache w
  | SChildren => default [] (w_fixed w) | SNodespaces => w_ns w
  end.
Lemma slot_dict s x o a l :
  wf s -> nodes s !! x = Some o -> get_slot a o = Some l ->
  dicts s !! l = Some (slot_ent a (view_of s x o)).
Proof.
  intros W Ho Hs. destruct (dicts_of_slot _ _ _ _ _ W Ho Hs) as [d Hd].
  destruct a; simpl in *; rewrite Hs; simpl; by rewrite Hd.
Qed.

Lemma slot_nodup s x w a : wf s -> views s !! x = Some w -> NoDup (dkeys (slot_ent a w)).
Proof.
  intros W (o & Ho & ->)%views_Some.
  destruct (get_slot a o) as [l|] eqn:Hs.
  - pose proof (slot_dict _ _ _ _ _ W Ho Hs) as Hd. by destruct (wf_dicts _ W _ _ Hd) as (_ & ? & _).
  - destruct a; simpl in *; rewrite Hs; simpl; try constructor; try set_solver. constructor.
Qed.
Lemma slot_vok s x w a : wf s -> views s !! x = Some w -> Forall (eok s) (slot_ent a w).
Proof.
  intros W (o & Ho & ->)%views_Some.
  destruct (get_slot a o) as [l|] eqn:Hs.
  - pose proof (slot_dict _ _ _ _ _ W Ho Hs) as Hd. by destruct (wf_dicts _ W _ _ Hd) as (_ & _ & ?).
  - destruct a; simpl in *; rewrite Hs; simpl; repeat constructor; simpl. unfold live. eauto.
Qed.

(** dict operations on the dict of a slot *)
Lemma dict_get_eff s x o a l k :
  wf s -> nodes s !! x = Some o -> get_slot a o = Some l ->
  dict_get l k s =
    (if hashable k then match dget k (slot_ent a (view_of s x o)) with
                        | Some v => Ret v | None => Exc (KeyError k) end
     else Exc TypeError, s).
Proof.
  intros W Ho Hs. unfold dict_get. destruct (hashable k); [|done].
  rewrite (bind_read_dict _ _ _ _ (slot_dict _ _ _ _ _ W Ho Hs)). by destruct (dget _ _).
Qed.

(** write to the dict of slot [a] of [x] *)
Record wrote (a : slot) (x : nat) (d : list (key * val)) (s s' : st) : Prop := Wrote {
  wr_views : exists w, views s !! x = Some w /\ views s' = <[x := vw_slot a d w]> (views s);
  wr_idxs : idxs s' = idxs s;
  wr_uuid : next_uuid s' = next_uuid s;
  wr_log : log s' = log s;
  wr_fb : fbcount s' = fbcount s;
  wr_classes : classes s' = classes s
}.

Lemma dict_set_eff s x o a l k v :
  wf s -> nodes s !! x = Some o -> get_slot a o = Some l -> vok s v -> hashable k = true ->
  exists s', dict_set l k v s = (Ret tt, s') /\ wf s'
    /\ wrote a x (dset k v (slot_ent a (view_of s x o))) s s'.
Proof.
  intros W Ho Hs Hv Hk.
  pose proof (slot_dict _ _ _ _ _ W Ho Hs) as Hd.
  pose proof (safe_dict_set s l k v) as HS.
  destruct (HS (ex_intro _ _ Hd) Hv W) as [W' _].
  unfold dict_set in *. rewrite Hk in *.
  rewrite (bind_read_dict _ _ _ _ Hd) in *. eexists. split; [reflexivity|]. split; [done|].
  constructor; try done. exists (view_of s x o). split; [by apply nodes_views|].
  by eapply views_write_dict.
Qed.
Lemma dict_set_fail l k v s : hashable k = false -> dict_set l k v s = (Exc TypeError, s).
Proof. intros H. unfold dict_set. by rewrite H. Qed.

Lemma dict_del_eff s x o a l k :
  wf s -> nodes s !! x = Some o -> get_slot a o = Some l ->
  exists r s', dict_del l k s = (r, s') /\ wf s' /\
    ( (hashable k = false /\ r = Exc TypeError /\ s' = s)
    \/ (hashable k = true /\ dget k (slot_ent a (view_of s x o)) = None /\ r = Exc (KeyError k) /\ s' = s)
    \/ (hashable k = true /\ is_Some (dget k (slot_ent a (view_of s x o))) /\ r = Ret tt
        /\ wrote a x (ddel k (slot_ent a (view_of s x o))) s s')).
Proof.
  intros W Ho Hs.
  pose proof (slot_dict _ _ _ _ _ W Ho Hs) as Hd.
  pose proof (safe_dict_del s l k (ex_intro _ _ Hd) W) as [W' _].
  unfold dict_del in *. destruct (hashable k); [|eauto 10].
  rewrite (bind_read_dict _ _ _ _ Hd) in *.
  destruct (dget k _) as [v|] eqn:E.
  - eexists _, _. split; [reflexivity|]. split; [done|]. right. right. split; [done|]. split; [eauto|].
    split; [done|]. constructor; try done. exists (view_of s x o). split; [by apply nodes_views|].
    by eapply views_write_dict.
  - eexists _, _. split; [reflexivity|]. split; [done|]. right. left. done.
Qed.

(** * modify *)
Record touched (x : nat) (g : view -> view) (s s' : st) : Prop := Touched {
  t_views : exists w, views s !! x = Some w /\ views s' = <[x := g w]> (views s);
  t_idxs : idxs s' = idxs s;
  t_uuid : next_uuid s' = next_uuid s;
  t_log : log s' = log s;
  t_fb : fbcount s' = fbcount s;
  t_classes : classes s' = classes s
}.
Lemma modify_eff f g s x :
  (forall s s' o, dicts s' = dicts s -> view_of s' x (f o) = g (view_of s x o)) ->
  live s x -> exists s', modify x f s = (Ret tt, s') /\ touched x g s s' /\
    next_id s' = next_id s /\ dicts s' = dicts s.
Proof.
  intros Hfg [o Ho]. rewrite (modify_Some _ _ _ _ Ho). eexists. split; [reflexivity|].
  split; [|done]. constructor; try done. exists (view_of s x o). split; [by apply nodes_views|].
  apply views_set_node; [done|]. intros s' E. by apply Hfg.
Qed.
Lemma view_of_dicts s s' x o : dicts s' = dicts s -> view_of s' x o = view_of s x o.
Proof. intros E. apply view_of_frame. intros. by rewrite E. Qed.
Ltac mfg := let E := fresh "E" in intros ? ? [] E; unfold view_of, deref; simpl; rewrite E; reflexivity.
Lemma modify_name_eff s x k : live s x -> wf s -> exists s', modify x (with_name k) s = (Ret tt, s')
  /\ wf s' /\ touched x (vw_name k) s s'.
Proof.
  intros H W. destruct (modify_eff (with_name k) (vw_name k) s x) as (s' & E & T & _); [mfg|done|].
  exists s'. split; [done|]. split; [|done].
  by eapply safe_wf in E as [? _]; [|done|by apply safe_modify_name].
Qed.
Lemma modify_parent_eff s x p : live s x -> wf s -> (forall q, p = Some q -> live s q) ->
  exists s', modify x (with_parent p) s = (Ret tt, s')
  /\ wf s' /\ touched x (vw_parent p) s s'.
Proof.
  intros H W Hp. destruct (modify_eff (with_parent p) (vw_parent p) s x) as (s' & E & T & _); [mfg|done|].
  exists s'. split; [done|]. split; [|done].
  by eapply safe_wf in E as [? _]; [|done|by apply safe_modify_parent].
Qed.
Lemma modify_index_eff s x i : live s x -> wf s -> is_Some (idxs s !! i) ->
  exists s', modify x (with_index (Some i)) s = (Ret tt, s')
  /\ wf s' /\ touched x (vw_index (Some i)) s s'.
Proof.
  intros H W Hp. destruct (modify_eff (with_index (Some i)) (vw_index (Some i)) s x) as (s' & E & T & _); [mfg|done|].
  exists s'. split; [done|]. split; [|done].
  by eapply safe_wf in E as [? _]; [|done|by apply safe_modify_index].
Qed.
Lemma modify_uuid_eff s x u : live s x -> wf s -> (forall n, u = Some n -> (n < next_uuid s)%N) ->
  exists s', modify x (with_uuid u) s = (Ret tt, s')
  /\ wf s' /\ touched x (vw_uuid u) s s'.
Proof.
  intros H W Hu. destruct (modify_eff (with_uuid u) (vw_uuid u) s x) as (s' & E & T & _); [mfg|done|].
  exists s'. split; [done|]. split; [|done].
  by eapply safe_wf in E as [? _]; [|done|by apply safe_modify_uuid].
Qed.
Lemma modify_suppress_eff s x u : live s x -> wf s ->
  exists s', modify x (with_suppress u) s = (Ret tt, s')
  /\ wf s' /\ touched x (vw_suppress u) s s'.
Proof.
  intros H W. destruct (modify_eff (with_suppress u) (vw_suppress u) s x) as (s' & E & T & _); [mfg|done|].
  exists s'. split; [done|]. split; [|done].
  by eapply safe_wf in E as [? _]; [|done|by apply safe_modify_suppress].
Qed.
