(** Calls on several caching nodes, in any order: what is done to one leaves the storages and
    caches of the others alone. *)
From Verif Require Import Py Odict Heap Model WF Views SpecMapping MappingProofs StorageProofs Observe SpecTree SpecCache CacheProofs.

(** * Calls on [x] do not touch the storage and the cache of [y] *)
Definition yslot (y : nat) (s : st) (l : nat) : Prop :=
  exists o a, nodes s !! y = Some o /\ get_slot a o = Some l.
(** The dicts of [y] are its own. *)
Definition owns (y : nat) (s : st) : Prop :=
  forall l, yslot y s l -> l < next_id s /\ forall z, z <> y -> ~ yslot z s l.
Record keep (y : nat) (s s' : st) : Prop := Keep {
  k_next : next_id s <= next_id s';
  k_obj : forall o, nodes s !! y = Some o -> exists o', nodes s' !! y = Some o' /\
    o_cls o' = o_cls o /\ o_allow o' = o_allow o /\ forall a, get_slot a o' = get_slot a o;
  k_none : nodes s !! y = None -> nodes s' !! y = None;
  k_dicts : forall l, yslot y s l -> dicts s' !! l = dicts s !! l
}.
Lemma keep_refl y s : keep y s s.
Proof. constructor; eauto 10. Qed.
Lemma keep_slot y s s' l : keep y s s' -> yslot y s' l <-> yslot y s l.
Proof.
  intros K. split.
  - intros (o' & a & Ho' & H). destruct (nodes s !! y) as [o|] eqn:Ho; [|by rewrite (k_none _ _ _ K Ho) in Ho'].
    destruct (k_obj _ _ _ K o Ho) as (o2 & E & _ & _ & E1). rewrite Ho' in E. injection E as <-. exists o, a. by rewrite <-E1.
  - intros (o & a & Ho & H). destruct (k_obj _ _ _ K o Ho) as (o2 & E & _ & _ & E1). exists o2, a. by rewrite E1.
Qed.
Lemma keep_trans y s1 s2 s3 : keep y s1 s2 -> keep y s2 s3 -> keep y s1 s3.
Proof.
  intros K1 K2. constructor.
  - etrans; [apply K1|apply K2].
  - intros o Ho. destruct (k_obj _ _ _ K1 o Ho) as (o1 & E1 & A1 & B1 & C1). destruct (k_obj _ _ _ K2 o1 E1) as (o2 & E2 & A2 & B2 & C2).
    exists o2. split; [done|]. split; [congruence|]. split; [congruence|]. intros a. by rewrite C2.
  - intros H. apply (k_none _ _ _ K2). by apply (k_none _ _ _ K1).
  - intros l Hl. rewrite (k_dicts _ _ _ K2) by (by apply (keep_slot _ _ _ _ K1)). by apply (k_dicts _ _ _ K1).
Qed.

Section frame.
Context (x y : nat) (Hne : x <> y).
Definition J (s : st) : Prop := owns y s /\ (forall l, yslot x s l -> l < next_id s) /\ forall o, nodes s !! x = Some o -> cache_class (c_behs (o_cls o)) = true.
Definition off (L : list nat) (s : st) : Prop := Forall (fun l => ~ yslot y s l) L.
Lemma off_keep L s s' : keep y s s' -> off L s -> off L s'.
Proof. intros K H. eapply Forall_impl; [exact H|]. intros l Hl Hy. apply Hl. by apply (keep_slot _ _ _ _ K). Qed.
Definition kd {A} (L : list nat) (m : M A) : Prop := forall s, J s -> off L s -> J (snd (m s)) /\ keep y s (snd (m s)).
(** ... and answers a dict that is none of [y]'s *)
Definition kdr (L : list nat) (m : M nat) : Prop := kd L m /\ forall s l, J s -> off L s -> fst (m s) = Ret l -> ~ yslot y (snd (m s)) l.

Lemma kd_pure {A} L (m : M A) : (forall s, snd (m s) = s) -> kd L m.
Proof. intros E s H _. rewrite E. split; [done|apply keep_refl]. Qed.
Lemma kd_bind {A B} L (m : M A) (f : A -> M B) : kd L m -> (forall a, kd L (f a)) -> kd L (bind m f).
Proof.
  intros Hm Hf s H Ho. unfold bind. destruct (Hm s H Ho) as [H1 K1]. destruct (m s) as [[a|e] s1]; simpl in *; [|done].
  destruct (Hf a s1 H1 (off_keep _ _ _ K1 Ho)) as [H2 K2]. split; [done|]. by eapply keep_trans.
Qed.
Lemma kd_bindr {B} L (m : M nat) (f : nat -> M B) : kdr L m -> (forall l, kd (l :: L) (f l)) -> kd L (bind m f).
Proof.
  intros [Hm Hr] Hf s H Ho. unfold bind. destruct (Hm s H Ho) as [H1 K1]. specialize (Hr s). destruct (m s) as [[a|e] s1]; simpl in *; [|done].
  destruct (Hf a s1 H1) as [H2 K2]. { apply Forall_cons. split; [by apply Hr|]. by eapply off_keep. } split; [done|]. by eapply keep_trans.
Qed.
Lemma kd_try {A} L (m : M A) p h : kd L m -> (forall e, kd L (h e)) -> kd L (try_catch m p h).
Proof.
  intros Hm Hf s H Ho. unfold try_catch. destruct (Hm s H Ho) as [H1 K1]. destruct (m s) as [[a|e] s1]; simpl in *; [done|].
  destruct (p e); [|done]. destruct (Hf e s1 H1 (off_keep _ _ _ K1 Ho)) as [H2 K2]. split; [done|]. by eapply keep_trans.
Qed.
Lemma kd_ret {A} L (a : A) : kd L (ret a).
Proof. by apply kd_pure. Qed.
Lemma kd_raise {A} L e : kd L (raise e : M A).
Proof. by apply kd_pure. Qed.
Lemma kd_load L n : kd L (load n).
Proof. apply kd_pure. intros s. unfold load. by destruct (nodes s !! n). Qed.
Lemma kd_loadx {B} L (f : obj -> M B) : (forall o, cache_class (c_behs (o_cls o)) = true -> kd L (f o)) -> kd L (bind (load x) f).
Proof.
  intros Hf s H Ho. unfold bind, load. destruct (nodes s !! x) as [o|] eqn:E; simpl; [|by split; [|apply keep_refl]].
  apply (Hf o); [|done|done]. by apply H.
Qed.
Lemma kd_iterM {A} L (f : A -> M unit) l : (forall a, kd L (f a)) -> kd L (iterM f l).
Proof. intros Hf. induction l as [|a l IH]; simpl; [apply kd_ret|]. apply kd_bind; auto. Qed.
Lemma kd_mapM {A B} L (f : A -> M B) l : (forall a, kd L (f a)) -> kd L (mapM_ f l).
Proof. intros Hf. induction l as [|a l IH]; simpl; [apply kd_ret|]. apply kd_bind; [auto|]. intros b. apply kd_bind; [auto|]. intros bs. apply kd_ret. Qed.
Lemma kd_if {A} L (b : bool) (m1 m2 : M A) : kd L m1 -> kd L m2 -> kd L (if b then m1 else m2).
Proof. by destruct b. Qed.

(** writing to names and parents, of any node *)
Lemma kd_modify L n f : (forall o, o_cls (f o) = o_cls o /\ o_allow (f o) = o_allow o /\ forall a, get_slot a (f o) = get_slot a o) -> kd L (modify n f).
Proof.
  intros Hf s (Ow & Bx & Hx) _. unfold modify. destruct (nodes s !! n) as [o|] eqn:E; simpl; [|split; [done|apply keep_refl]].
  set (s' := set_nodes <[n := f o]> s).
  assert (Hl : forall z l, yslot z s' l <-> yslot z s l).
  { intros z l. unfold yslot, s'. simpl. destruct (decide (z = n)) as [->|Hz].
    - rewrite lookup_insert, E. destruct (Hf o) as (_ & _ & E1). split; intros (o' & a & [= <-] & H); eexists _, a; (split; [reflexivity|]); [by rewrite E1 in H|by rewrite E1].
    - by rewrite lookup_insert_ne by done. }
  split; [split; [|split]|constructor].
  - intros l Hs. apply Hl in Hs. destruct (Ow l Hs) as [H1 H2]. split; [done|]. intros z Hz Hzl. apply (H2 z Hz). by apply Hl.
  - intros l Hs. apply Hl in Hs. by apply Bx.
  - intros o'. unfold s'. simpl. destruct (decide (x = n)) as [<-|Hxn].
    + rewrite lookup_insert. intros [= <-]. destruct (Hf o) as (-> & _). by apply Hx.
    + rewrite lookup_insert_ne by done. apply Hx.
  - done.
  - intros o' Ho'. unfold s'. simpl. destruct (decide (y = n)) as [<-|Hyn].
    + rewrite E in Ho'. injection Ho' as <-. exists (f o). rewrite lookup_insert. split; [done|apply Hf].
    + rewrite lookup_insert_ne by done. eauto 10.
  - unfold s'. simpl. intros Hn. destruct (decide (y = n)) as [<-|Hyn]; [congruence|]. by rewrite lookup_insert_ne.
  - done.
Qed.
Lemma kd_write L l d : l ∈ L -> kd L (write_dict l d).
Proof.
  intros Hin s (Ow & Bx & Hx) Ho. simpl. split; [split; [|split]|constructor].
  - intros l' Hl. apply (Ow l' Hl).
  - intros l' Hl. apply (Bx l' Hl).
  - apply Hx.
  - done.
  - simpl. eauto 10.
  - done.
  - intros l' Hl'. simpl. apply lookup_insert_ne. intros ->. unfold off in Ho. rewrite Forall_forall in Ho. exact (Ho _ Hin Hl').
Qed.
Lemma kd_read L l : kd L (read_dict l).
Proof. apply kd_pure. intros s. unfold read_dict. by destruct (dicts s !! l). Qed.
Lemma kd_dget L l k : kd L (dict_get l k).
Proof. unfold dict_get. apply kd_if; [|apply kd_raise]. apply kd_bind; [apply kd_read|]. intros d. destruct (dget k d); [apply kd_ret|apply kd_raise]. Qed.
Lemma kd_dset L l k v : l ∈ L -> kd L (dict_set l k v).
Proof. intros H. unfold dict_set. apply kd_if; [|apply kd_raise]. apply kd_bind; [apply kd_read|]. intros d. by apply kd_write. Qed.
Lemma kd_ddel L l k : l ∈ L -> kd L (dict_del l k).
Proof. intros H. unfold dict_del. apply kd_if; [|apply kd_raise]. apply kd_bind; [apply kd_read|]. intros d. destruct (dget k d); [by apply kd_write|apply kd_raise]. Qed.

(** the two slots of [x] *)
Lemma slot_new s (f : obj -> obj) o : nodes s !! x = Some o -> J s ->
  o_cls (f o) = o_cls o ->
  (forall a l, get_slot a (f o) = Some l -> l = next_id s \/ get_slot a o = Some l) ->
  let s' := set_nodes <[x := f o]> (set_next_id S (set_dicts <[next_id s := []]> s)) in
  J s' /\ keep y s s' /\ ~ yslot y s' (next_id s).
Proof.
  intros E (Ow & Bx & Hx) Hcl Hf s'.
  assert (Hy : forall l, yslot y s' l <-> yslot y s l) by (intros l; unfold yslot, s'; simpl; by rewrite lookup_insert_ne by done).
  assert (Hnew : ~ yslot y s (next_id s)) by (intros H; apply Ow in H as [H _]; lia).
  split; [split; [|split]|split; [constructor|]].
  - intros l Hl. apply Hy in Hl. destruct (Ow l Hl) as [H1 H2]. split; [unfold s'; simpl; lia|]. intros z Hz (oz & b & Hoz & Hzl). unfold s' in Hoz. simpl in Hoz.
    destruct (decide (z = x)) as [->|Hzx].
    + rewrite lookup_insert in Hoz. injection Hoz as <-. destruct (Hf b l Hzl) as [->|Hs]; [done|]. apply (H2 x Hne). exists o, b. done.
    + rewrite lookup_insert_ne in Hoz by done. apply (H2 z Hz). exists oz, b. done.
  - intros l (o' & b & Ho' & Hl). unfold s' in *. simpl in *. rewrite lookup_insert in Ho'. injection Ho' as <-.
    destruct (Hf b l Hl) as [->|Hs]; [lia|]. assert (l < next_id s); [|lia]. apply Bx. by exists o, b.
  - intros o' Ho'. unfold s' in Ho'. simpl in Ho'. rewrite lookup_insert in Ho'. injection Ho' as <-. rewrite Hcl. by apply Hx.
  - unfold s'. simpl. lia.
  - intros o' Ho'. exists o'. unfold s'. simpl. rewrite lookup_insert_ne by done. done.
  - intros Hn. unfold s'. simpl. by rewrite lookup_insert_ne.
  - intros l Hl. unfold s'. simpl. apply lookup_insert_ne. intros <-. done.
  - intros H. apply Hy in H. done.
Qed.
Lemma slot_old s o l a : nodes s !! x = Some o -> J s -> get_slot a o = Some l -> ~ yslot y s l.
Proof. intros E (Ow & _) H Hy. destruct (Ow l Hy) as [_ H2]. apply (H2 x Hne). exists o, a. done. Qed.
Lemma kdr_storage L : kdr L (storage_of x).
Proof.
  assert (H : forall s, J s -> J (snd (storage_of x s)) /\ keep y s (snd (storage_of x s)) /\ forall l, fst (storage_of x s) = Ret l -> ~ yslot y (snd (storage_of x s)) l).
  { intros s H. unfold storage_of, bind, load. destruct (nodes s !! x) as [o|] eqn:E; simpl; [|split; [done|]; split; [apply keep_refl|done]].
    destruct (has DictStorage o || has OdictStorage o); [|split; [done|]; split; [apply keep_refl|done]].
    destruct (o_storage o) as [l|] eqn:Es.
    - split; [done|]. split; [apply keep_refl|]. intros l' [= <-]. simpl. by apply (slot_old s o l SStorage).
    - simpl. unfold modify. simpl. rewrite E. simpl.
      destruct (slot_new s (with_storage (Some (next_id s))) o E H) as (H1 & H2 & H3); [done| |split; [done|]; split; [done|]; by intros l' [= <-]].
      intros [] l; simpl; auto. intros [= <-]. auto. }
  split; [intros s Hs _; destruct (H s Hs) as (H1 & H2 & _); done|]. intros s l Hs _. by apply H.
Qed.
Lemma kdr_cache L : kdr L (cache_of x).
Proof.
  assert (H : forall s, J s -> J (snd (cache_of x s)) /\ keep y s (snd (cache_of x s)) /\ forall l, fst (cache_of x s) = Ret l -> ~ yslot y (snd (cache_of x s)) l).
  { intros s H. unfold cache_of, bind, load. destruct (nodes s !! x) as [o|] eqn:E; simpl; [|split; [done|]; split; [apply keep_refl|done]].
    destruct (o_cache o) as [l|] eqn:Es.
    - split; [done|]. split; [apply keep_refl|]. intros l' [= <-]. simpl. by apply (slot_old s o l SCache).
    - simpl. unfold modify. simpl. rewrite E. simpl.
      destruct (slot_new s (with_cache (Some (next_id s))) o E H) as (H1 & H2 & H3); [done| |split; [done|]; split; [done|]; by intros l' [= <-]].
      intros [] l; simpl; auto. intros [= <-]. auto. }
  split; [intros s Hs _; destruct (H s Hs) as (H1 & H2 & _); done|]. intros s l Hs _. by apply H.
Qed.

(** * The methods *)
Ltac kd := repeat first [ apply kd_ret | apply kd_raise | apply kd_load | apply kd_read | apply kd_dget
  | apply kd_dset; set_solver | apply kd_ddel; set_solver | apply kd_if
  | apply kd_bindr; [apply kdr_storage|intros ?] | apply kd_bindr; [apply kdr_cache|intros ?]
  | apply kd_modify; intros []; split; [done|]; split; [done|]; intros []; done
  | apply kd_bind; [|intros ?] | apply kd_try; [|intros ?] | apply kd_iterM; intros ? | apply kd_mapM; intros ? ].
Lemma no_fixed all : forallb cache_beh all = true -> hasc FixedChildren all = false.
Proof. intros H. apply bool_decide_eq_false. intros Hin. rewrite forallb_forall in H. specialize (H FixedChildren). apply elem_of_list_In in Hin. by apply H in Hin. Qed.
Lemma kd_get_stack L fb all bs k : forallb cache_beh all = true -> forallb cache_beh bs = true -> kd L (get_stack fb all bs x k).
Proof.
  intros Ha. revert L. induction bs as [|b bs IH]; intros L Hb; simpl.
  - unfold get_endpoint. rewrite (no_fixed _ Ha). kd.
  - simpl in Hb. apply andb_true_iff in Hb as [Hb1 Hb2]. destruct b; try discriminate Hb1; simpl; try (by apply IH).
    kd. by apply IH.
Qed.
Lemma cache_behs bs : cache_class bs = true -> forallb cache_beh bs = true.
Proof. intros H. by apply andb_true_iff in H as [? _]. Qed.
Lemma kd_getitem L k : kd L (getitem x k).
Proof. unfold getitem. apply kd_loadx. intros o Ho%cache_behs. by apply kd_get_stack. Qed.
Lemma kd_set_stack L all bs k v : forallb cache_beh all = true -> forallb cache_beh bs = true -> kd L (set_stack all bs x k v).
Proof.
  intros Ha. revert L. induction bs as [|b bs IH]; intros L Hb; simpl.
  - unfold set_endpoint. rewrite (no_fixed _ Ha). kd.
  - simpl in Hb. apply andb_true_iff in Hb as [Hb1 Hb2]. destruct b; try discriminate Hb1; simpl; try (by apply IH).
    + destruct v; try (by apply IH). kd. by apply IH.
    + kd. by apply IH.
    + kd. by apply IH.
Qed.
Lemma kd_setitem L k v : kd L (setitem x k v).
Proof. unfold setitem. apply kd_loadx. intros o Ho%cache_behs. by apply kd_set_stack. Qed.
Lemma kd_del_stack L all bs k : forallb cache_beh all = true -> forallb cache_beh bs = true -> kd L (del_stack all bs x k).
Proof.
  intros Ha. revert L. induction bs as [|b bs IH]; intros L Hb; simpl.
  - unfold del_endpoint. rewrite (no_fixed _ Ha). kd.
  - simpl in Hb. apply andb_true_iff in Hb as [Hb1 Hb2]. destruct b; try discriminate Hb1; simpl; try (by apply IH).
    kd. by apply IH.
Qed.
Lemma kd_delitem L k : kd L (delitem x k).
Proof. unfold delitem. apply kd_loadx. intros o Ho%cache_behs. by apply kd_del_stack. Qed.
Lemma kd_iter_stack L all bs : forallb cache_beh all = true -> forallb cache_beh bs = true -> kd L (iter_stack all bs x).
Proof.
  intros Ha. induction bs as [|b bs IH]; intros Hb; simpl.
  - unfold iter_endpoint. rewrite (no_fixed _ Ha). clear Hb. induction all as [|b all IH]; simpl; [kd|].
    simpl in Ha. apply andb_true_iff in Ha as [Hb1 Hb2]. destruct b; try discriminate Hb1; simpl; try (by apply IH); kd.
  - simpl in Hb. apply andb_true_iff in Hb as [Hb1 Hb2]. destruct b; try discriminate Hb1; simpl; by apply IH.
Qed.
Lemma kd_iter L : kd L (iter x).
Proof. unfold iter. apply kd_loadx. intros o Ho%cache_behs. by apply kd_iter_stack. Qed.
Lemma kd_invalidate_endpoint L bs k : kd L (invalidate_endpoint bs x k).
Proof.
  induction bs as [|b bs IH]; simpl; [kd|]. destruct b; try done.
  - destruct (decide (k = KNone)); [|apply kd_delitem]. apply kd_bind; [apply kd_iter|]. intros ks. apply kd_iterM. intros k'. apply kd_delitem.
  - apply kd_bindr; [apply kdr_storage|]. intros l. destruct (decide (k = KNone)); [kd|]. apply kd_bind; [apply kd_iter|]. intros ks. kd.
Qed.
Lemma kd_invalidate_stack L all bs k : kd L (invalidate_stack all bs x k).
Proof.
  revert L k. induction bs as [|b bs IH]; intros L k; simpl; [apply kd_invalidate_endpoint|].
  destruct b; simpl; try done. apply kd_bindr; [apply kdr_cache|]. intros l. destruct (decide (k = KNone)); kd; apply IH.
Qed.
Lemma kd_invalidate L k : kd L (invalidate x k).
Proof. unfold invalidate. apply kd_loadx. intros o _. apply kd_invalidate_stack. Qed.

Lemma wrap_snd {A} (f : A -> answer) (m : M A) s : snd (wrap f m s) = snd (m s).
Proof. unfold wrap. by destruct (m s) as [[a|e] s']. Qed.
Lemma kd_icall c s : J s -> J (snd (run_icall x c s)) /\ keep y s (snd (run_icall x c s)).
Proof.
  intros H.
  assert (K : forall A (f : A -> answer) (m : M A), kd [] m -> J (snd (wrap f m s)) /\ keep y s (snd (wrap f m s))).
  { intros A f m Hm. rewrite wrap_snd. apply Hm; [done|]. by apply Forall_nil. }
  destruct c as [[]|k]; simpl; apply K; unfold get, contains, keys, values, items, len, pop, popitem, setdefault, update, clear, keys;
    try apply kd_invalidate; try apply kd_setitem; try apply kd_getitem; try apply kd_delitem; try apply kd_iter;
    repeat first [ apply kd_iter | apply kd_getitem | apply kd_setitem | apply kd_delitem | apply kd_ret | apply kd_raise
      | apply kd_bind; [|intros ?] | apply kd_try; [|intros ?] | apply kd_iterM; intros ? | apply kd_mapM; intros ?
      | match goal with |- kd _ (match ?z with _ => _ end) => destruct z end ].
Qed.
End frame.

(** * Histories on several nodes *)
Definition run_concert_step (c : nat * icall) (s : st) : (nat * answer) * st :=
  let '(a, s1) := run_icall (fst c) (snd c) s in ((fst c, a), s1).
Fixpoint run_concert (l : list (nat * icall)) (s : st) : list (nat * answer) * st :=
  match l with
  | [] => ([], s)
  | c :: r => let '(a, s1) := run_concert_step c s in let '(as_, s2) := run_concert r s1 in (a :: as_, s2)
  end.

Lemma keep_RC x cls al s s' d : keep x s s' -> RC x cls al s d -> RC x cls al s' d.
Proof.
  intros K (dc & [(o & Ho & H1 & H2 & H3 & H4 & H5) ND NDC] & Hs & Hu). exists dc. split; [|done]. constructor; [|done|done].
  destruct (k_obj _ _ _ K o Ho) as (o' & Ho' & E1 & E2 & E3). exists o'. split; [done|]. split; [congruence|]. split; [congruence|].
  pose proof (E3 SStorage) as Es. pose proof (E3 SCache) as Ec. simpl in Es, Ec. rewrite Es, Ec.
  pose proof (k_next _ _ _ K).
  split; [|split; [|done]].
  - destruct (o_storage o) as [l|] eqn:E; simpl in *; [|done]. destruct H3 as [H3 ?]. split; [|lia]. rewrite (k_dicts _ _ _ K); [done|]. by exists o, SStorage.
  - destruct (o_cache o) as [l|] eqn:E; simpl in *; [|done]. destruct H4 as [H4 ?]. split; [|lia]. rewrite (k_dicts _ _ _ K); [done|]. by exists o, SCache.
Qed.
(** one call on [x]; [y] another node *)
Definition cached_class (s : st) (x : nat) : Prop := forall o, nodes s !! x = Some o -> cache_class (c_behs (o_cls o)) = true.
Lemma RC_class x cls al s d : cache_class (c_behs cls) = true -> RC x cls al s d -> cached_class s x.
Proof. intros Hc H o Ho. destruct (RC_load _ _ _ _ _ H) as (o' & Ho' & E). rewrite Ho in Ho'. injection Ho' as <-. by rewrite E. Qed.
Lemma RC_icall x cls al i c s d : cache_class (c_behs cls) = true -> invalidator (c_behs cls) = Some i ->
  RC x cls al s d -> Forall (valid_val s) (icall_values c) ->
  match c with Invalidates k => k <> KNone /\ hashable k = true | _ => True end ->
  exists a d' s', icalls_spec i (pol cls al) [c] d = ([a], d') /\ run_icall x c s = (a, s') /\ RC x cls al s' d' /\ grows s s'.
Proof.
  intros Hcls Hi H Hv Hk. destruct (RC_icalls x cls al i [c] s d Hcls Hi H) as (s' & E & H' & G).
  { by apply Forall_singleton. } { by apply Forall_singleton. }
  cbn [run_icalls] in E. destruct (run_icall x c s) as [a s1]. destruct (icalls_spec i (pol cls al) [c] d) as [as_ d'] eqn:E2. simpl in E, H'.
  injection E as <- <-. exists a, d', s1. done.
Qed.
Lemma owns_after x s s' : (forall y, owns y s) -> (forall y, y <> x -> owns y s') -> (forall l, yslot x s' l -> l < next_id s') -> forall y, owns y s'.
Proof.
  intros H H' Hb y. destruct (decide (y = x)) as [->|Hy]; [|by apply H']. intros l Hl. split; [by apply Hb|].
  intros z Hz Hzl. destruct (H' z Hz l Hzl) as [_ Hn]. apply (Hn x); [done|done].
Qed.

Definition tuned (s : st) (x : nat) : Prop := exists cls i al d, cache_class (c_behs cls) = true /\ invalidator (c_behs cls) = Some i /\ RC x cls al s d.
Lemma run_icall_others x c s : (forall y, owns y s) -> cached_class s x ->
  (forall y, owns y (snd (run_icall x c s))) /\ forall y, y <> x -> keep y s (snd (run_icall x c s)).
Proof.
  intros Ow Hc.
  assert (H : forall y, y <> x -> J x y (snd (run_icall x c s)) /\ keep y s (snd (run_icall x c s))).
  { intros y Hy. apply kd_icall; [done|]. split; [apply Ow|]. split; [|exact Hc]. intros l Hl. by apply (Ow x l). }
  split; [|intros y Hy; by apply H]. apply (owns_after x s _ Ow).
  - intros y Hy. apply (H y Hy).
  - intros l. by apply (H (S x)).
Qed.
Definition concert_ok (s : st) (l : list (nat * icall)) : Prop :=
  Forall (fun c => Forall (valid_val s) (icall_values (snd c)) /\
    match snd c with Invalidates k => k <> KNone /\ hashable k = true | _ => True end) l.
Lemma icalls_cons i p c l d a d' : icalls_spec i p [c] d = ([a], d') ->
  icalls_spec i p (c :: l) d = (a :: fst (icalls_spec i p l d'), snd (icalls_spec i p l d')).
Proof.
  cbn [icalls_spec]. destruct (match c with Call c => call_spec p c d | Invalidates k => invalidate_spec i p k d end) as [a1 d1].
  intros [= <- <-]. by destruct (icalls_spec i p l d1).
Qed.
Lemma concert l : forall s, (forall y, owns y s) -> (forall c, c ∈ l -> tuned s (fst c)) -> concert_ok s l ->
  (forall x cls i al d, cache_class (c_behs cls) = true -> invalidator (c_behs cls) = Some i -> RC x cls al s d ->
    at_node x (fst (run_concert l s)) = fst (icalls_spec i (pol cls al) (at_node x l) d) /\
    RC x cls al (snd (run_concert l s)) (snd (icalls_spec i (pol cls al) (at_node x l) d))) /\
  (forall y, y ∉ map fst l -> keep y s (snd (run_concert l s))).
Proof.
  induction l as [|[z c] l IH]; intros s Ow Ht Hok; cbn [run_concert].
  - split; [|intros; apply keep_refl]. intros x cls i al d _ _ H. done.
  - apply Forall_cons in Hok as [[Hv Hk] Hok]. simpl in Hv, Hk.
    destruct (Ht (z, c)) as (zcls & zi & zal & zd & Hzc & Hzi & Hz); [by left|]. simpl in Hz.
    unfold run_concert_step. cbn [fst snd].
    destruct (RC_icall z zcls zal zi c s zd Hzc Hzi Hz Hv Hk) as (a & d' & s1 & E1 & E2 & H1 & G1).
    pose proof (run_icall_others z c s Ow (RC_class _ _ _ _ _ Hzc Hz)) as [Ow1 Hoth]. rewrite E2 in Ow1, Hoth |- *. simpl in Ow1, Hoth.
    assert (Hok1 : concert_ok s1 l).
    { eapply Forall_impl; [exact Hok|]. intros c' [Hc' Hk']. split; [|done]. eapply Forall_impl; [exact Hc'|]. intros v. by apply valid_val_grows. }
    assert (Ht1 : forall c', c' ∈ l -> tuned s1 (fst c')).
    { intros c' Hc'. destruct (decide (fst c' = z)) as [->|Hn]; [exists zcls, zi, zal, d'; done|].
      destruct (Ht c') as (cls & i & al & d & ? & ? & ?); [by right|]. exists cls, i, al, d. split; [done|]. split; [done|].
      eapply keep_RC; [|done]. by apply Hoth. }
    destruct (IH s1 Ow1 Ht1 Hok1) as [IH1 IH2]. destruct (run_concert l s1) as [as_ s2]. cbn [fst snd] in *. split.
    + intros x cls i al d Hc Hi H. unfold at_node. cbn [List.filter fst snd]. destruct (Nat.eqb_spec z x) as [->|Hn].
      * destruct (RC_icall x cls al i c s d Hc Hi H Hv Hk) as (a' & d2 & s1' & E1' & E2' & H1' & _). rewrite E2 in E2'. injection E2' as <- <-.
        cbn [map snd]. rewrite (icalls_cons _ _ _ _ _ _ _ E1'). cbn [fst snd]. destruct (IH1 x cls i al d2 Hc Hi H1') as [I1 I2].
        split; [f_equal; exact I1|exact I2].
      * apply IH1; [done|done|]. eapply keep_RC; [|done]. apply Hoth. done.
    + intros y Hy. simpl in Hy. apply not_elem_of_cons in Hy as [Hy1 Hy2]. eapply keep_trans; [by apply Hoth|]. by apply IH2.
Qed.

Lemma owns_wf s y : wf s -> owns y s.
Proof.
  intros W l (o & a & Ho & Hl). split.
  - destruct (wf_nodes _ W _ _ Ho) as [_ Ook]. assert (is_Some (dicts s !! l)) as [d Hd] by (by eapply (ok_slot _ _ Ook)).
    by apply (wf_dicts _ W) in Hd as [? _].
  - intros z Hz (oz & b & Hoz & Hzl). by destruct (wf_own _ W _ _ _ _ _ _ _ Hoz Ho Hzl Hl).
Qed.

Lemma keep_slot_at s s' y o o' a : keep y s s' -> nodes s !! y = Some o -> get_slot a o' = get_slot a o ->
  (get_slot a o' ≫= fun l => dicts s' !! l) = (get_slot a o ≫= fun l => dicts s !! l).
Proof. intros K Ho ->. destruct (get_slot a o) as [l|] eqn:E; [|done]. simpl. apply (k_dicts _ _ _ K). by exists o, a. Qed.
Lemma keep_seen s s' y : keep y s s' -> same_contents s s' y.
Proof.
  intros K. destruct (nodes s !! y) as [o|] eqn:Ho.
  - destruct (k_obj _ _ _ K o Ho) as (o' & Ho' & E1 & E2 & E3).
    pose proof (keep_slot_at s s' y o o' SStorage K Ho (E3 _)) as H1. pose proof (keep_slot_at s s' y o o' SCache K Ho (E3 _)) as H2.
    pose proof (keep_slot_at s s' y o o' SChildren K Ho (E3 _)) as H3. pose proof (keep_slot_at s s' y o o' SNodespaces K Ho (E3 _)) as H4. pose proof (E3 SNodespaces) as E4. simpl in H1, H2, H3, H4, E4.
    constructor; unfold class_of, entries_at, cache_at, fixed_at, spaces_at; rewrite Ho, Ho'; simpl; try congruence.
    rewrite E4 in *. destruct (o_nodespaces o); [simpl in H4; by rewrite H4|done].
  - pose proof (k_none _ _ _ K Ho) as Ho'. constructor; unfold class_of, entries_at, cache_at, fixed_at, spaces_at; by rewrite Ho, Ho'.
Qed.

(** A node of mapping behaviors and an invalidator, whose cache (if it has one) is up to date. *)
Record in_tune (s : st) (x : nat) (cls : classdef) (i : invalidation) : Prop := InTune {
  it_class : class_of s x = Some cls;
  it_behs : cache_class (c_behs cls) = true;
  it_invalidator : invalidator (c_behs cls) = Some i;
  it_cache : up_to_date (cache_at s x) (entries_at s x);
  it_uncached : Cache ∉ c_behs cls -> cache_at s x = []
}.
Lemma in_tune_RC s x cls i : wf s -> in_tune s x cls i -> RC x cls (allows s x) s (entries_at s x).
Proof.
  intros W [H1 H2 H3 H4 H5]. apply RC_of_wf; [done|done|done|]. destruct (decide (Cache ∈ c_behs cls)) as [Hi|Hi]; [by left|right; by apply H5].
Qed.
Lemma concert_history s l : wf s -> Forall (fun c => exists cls i, in_tune s (fst c) cls i) l ->
  Forall (fun c => Forall (known s) (icall_values (snd c))) l -> inval_keys_ok (map snd l) ->
  let s' := snd (run_concert l s) in
  (forall x cls i, in_tune s x cls i ->
    at_node x (fst (run_concert l s)) = fst (icalls_spec i (pol cls (allows s x)) (at_node x l) (entries_at s x)) /\
    entries_at s' x = snd (icalls_spec i (pol cls (allows s x)) (at_node x l) (entries_at s x)) /\ in_tune s' x cls i) /\
  (forall y, y ∉ map fst l -> same_contents s s' y).
Proof.
  intros W Ht Hv Hk s'. destruct (concert l s) as [H1 H2].
  - intros y. by apply owns_wf.
  - intros c Hc. rewrite Forall_forall in Ht. destruct (Ht c Hc) as (cls & i & T). exists cls, i, (allows s (fst c)), (entries_at s (fst c)).
    split; [apply T|]. split; [apply T|]. by eapply in_tune_RC.
  - unfold inval_keys_ok in Hk. rewrite Forall_map in Hk. apply Forall_forall. intros c Hc. rewrite Forall_forall in Hv, Hk. specialize (Hv c Hc). specialize (Hk c Hc).
    split; [|exact Hk]. eapply Forall_impl; [exact Hv|]. intros v. apply known_valid.
  - split.
    + intros x cls i T. destruct (H1 x cls i (allows s x) (entries_at s x)) as [E (dc & Hr & Hs & Hu)]; [apply T|apply T|by eapply in_tune_RC|].
      split; [done|]. destruct (cst_entries _ _ _ _ _ _ Hr) as (E1 & E2 & E3 & _). split; [done|]. constructor; [done|apply T|apply T| |].
      * unfold s'. rewrite E1, E2. by apply sub_iff.
      * intros Hn. unfold s'. rewrite E2. by destruct Hu.
    + intros y Hy. apply keep_seen. by apply H2.
Qed.
