(** Proofs about the modified events of attributes. *)
From Verif Require Import Py Odict Aliaser Heap Model WF Observe SpecTree StorageProofs Reach MonadFacts Quiet SpecLifecycle SilenceProofs.

(** No event, and the node [x] keeps its parent. *)
Record still (x : nat) (s s' : st) : Prop := Still {
  st_log : log s' = log s;
  st_quiet : quiet s s';
  st_parent : x < next_id s -> (o_parent <$> nodes s' !! x) = (o_parent <$> nodes s !! x)
}.
Lemma still_refl x s : still x s s.
Proof. constructor; [done|apply quiet_refl|done]. Qed.
Lemma still_trans x s s1 s2 : still x s s1 -> still x s1 s2 -> still x s s2.
Proof.
  intros [L1 Q1 P1] [L2 Q2 P2]. constructor; [congruence|by eapply quiet_trans|]. intros Hx. rewrite P2, P1; [done..|]. destruct Q1. lia.
Qed.
Definition kt {A} (x : nat) (m : M A) : Prop := forall s, still x s (snd (m s)).
Lemma kt_bind {A B} x (m : M A) (f : A -> M B) : kt x m -> (forall a, kt x (f a)) -> kt x (bind m f).
Proof. intros Hm Hf s. specialize (Hm s). unfold bind. destruct (m s) as [[a|e] s1]; simpl in *; [|done]. eapply still_trans; [exact Hm|apply Hf]. Qed.
Lemma kt_try {A} x (m : M A) p h : kt x m -> (forall e, kt x (h e)) -> kt x (try_catch m p h).
Proof. intros Hm Hf s. specialize (Hm s). unfold try_catch. destruct (m s) as [[a|e] s1]; simpl in *; [done|]. destruct (p e); simpl; [|done]. eapply still_trans; [exact Hm|apply Hf]. Qed.
Lemma kt_same {A} x (m : M A) : (forall s, snd (m s) = s) -> kt x m.
Proof. intros H s. rewrite H. apply still_refl. Qed.
Lemma kt_load x y : kt x (load y).
Proof. apply kt_same. intros s. unfold load. by destruct (nodes s !! y). Qed.
Lemma kt_modify x y f : (forall o, o_suppress (f o) = o_suppress o) -> (forall o, o_cls (f o) = o_cls o) ->
  (forall o, x = y -> o_parent (f o) = o_parent o) -> kt x (modify y f).
Proof.
  intros H1 H2 H3 s. constructor; [unfold modify; by destruct (nodes s !! y)|by apply ks_modify|].
  intros _. unfold modify. destruct (nodes s !! y) as [o|] eqn:E; [|done]. simpl.
  destruct (decide (y = x)) as [->|]; [|by rewrite lookup_insert_ne]. rewrite lookup_insert, E. simpl. by rewrite H3.
Qed.
Lemma kt_nodes x s s' : log s' = log s -> nodes s' = nodes s -> next_id s <= next_id s' -> still x s s'.
Proof. intros H1 H2 H3. constructor; [done|by apply quiet_nodes|]. by rewrite H2. Qed.
Lemma kt_storage_of x y : kt x (storage_of y).
Proof.
  unfold storage_of. apply kt_bind; [apply kt_load|]. intros o. destruct (_ || _); [|by apply kt_same]. destruct (o_storage o); [by apply kt_same|].
  apply kt_bind. { intros s. apply kt_nodes; simpl; [done|done|lia]. }
  intros l. apply kt_bind; [by apply kt_modify|]. intros _. by apply kt_same.
Qed.
Lemma kt_dict_set x l k v : kt x (dict_set l k v).
Proof.
  unfold dict_set. destruct (hashable k); [|by apply kt_same]. apply kt_bind; [apply kt_same; intros s; unfold read_dict; by destruct (dicts s !! l)|].
  intros d s. by apply kt_nodes.
Qed.
Lemma kt_dict_del x l k : kt x (dict_del l k).
Proof.
  unfold dict_del. destruct (hashable k); [|by apply kt_same]. apply kt_bind; [apply kt_same; intros s; unfold read_dict; by destruct (dicts s !! l)|].
  intros d. destruct (dget k d); [|by apply kt_same]. intros s. by apply kt_nodes.
Qed.
Lemma kt_set all bs x k v : forallb plain_beh bs = true -> v <> VNode x -> kt x (set_stack all bs x k v).
Proof.
  intros Hp Hv. induction bs as [|b bs IH]; simpl.
  - unfold set_endpoint. destruct (hasc FixedChildren all); [by apply kt_same|]. destruct (_ || _); [|by apply kt_same].
    apply kt_bind; [apply kt_storage_of|]. intros l. apply kt_dict_set.
  - simpl in Hp. apply andb_prop in Hp as [Hb Hp]. specialize (IH Hp). destruct b; try done; try exact IH; simpl.
    + destruct v as [| | | | | | |c| | | |]; try exact IH. assert (x <> c) as Hc by (by intros ->).
      apply kt_bind; [apply kt_load|]. intros old. apply kt_bind; [by apply kt_modify|]. intros _.
      apply kt_bind; [by apply kt_modify|]. intros _. apply kt_try; [exact IH|]. intros e.
      apply kt_bind; [by apply kt_modify|]. intros _. apply kt_bind; [by apply kt_modify|]. intros _. by apply kt_same.
    + apply kt_bind; [apply kt_load|]. intros o. destruct (_ && _); [by apply kt_same|]. destruct (_ && _); [by apply kt_same|exact IH].
Qed.
Lemma kt_del all bs x k : forallb plain_beh bs = true -> kt x (del_stack all bs x k).
Proof.
  intros Hp. induction bs as [|b bs IH]; simpl.
  - unfold del_endpoint. destruct (hasc FixedChildren all); [by apply kt_same|]. destruct (_ || _); [|by apply kt_same].
    apply kt_bind; [apply kt_storage_of|]. intros l. apply kt_dict_del.
  - simpl in Hp. apply andb_prop in Hp as [Hb Hp]. specialize (IH Hp). destruct b; done.
Qed.

(** The event of the owner [p]. *)
Definition tells (x p : nat) (own : bool) (s : st) (r : res unit) (s' : st) : Prop :=
  match r with
  | Ret _ => own = true /\ told p [EvModified p] s s'
  | Exc _ => log s' = log s
  end /\ quiet s s' /\ (x < next_id s -> (o_parent <$> nodes s' !! x) = (o_parent <$> nodes s !! x)).
Lemma notify_tells s x o p po : nodes s !! x = Some o -> o_parent o = Some p -> nodes s !! p = Some po ->
  tells x p (has Lifecycle po) s (fst (notify_modified x s)) (snd (notify_modified x s)).
Proof.
  intros Ho Hp Hpo. unfold notify_modified. rewrite (bind_load _ _ _ _ Ho), Hp, (bind_load _ _ _ _ Hpo).
  destruct (has Lifecycle po); [|split; [done|]; split; [apply quiet_refl|done]]. unfold tells, told, suppressed. rewrite Hpo. destruct (o_suppress po); simpl.
  - split; [|split; [apply quiet_refl|done]]. split; [done|]. by rewrite app_nil_r.
  - split; [done|]. split; [by apply quiet_nodes|done].
Qed.
Lemma still_tells x p own s s1 r s' : still x s s1 -> p < next_id s -> x < next_id s -> tells x p own s1 r s' -> tells x p own s r s'.
Proof.
  intros [L Q P] Hp Hx (H1 & H2 & H3). split; [|split; [by eapply quiet_trans|]].
  - destruct r; [|congruence]. destruct H1 as [-> H1]. split; [done|]. unfold told in *. rewrite H1, L. destruct (quiet_sup _ _ p Q Hp) as [-> _]. done.
  - intros _. rewrite H3, P; [done..|]. destruct Q. lia.
Qed.
(** Anything done after a failure that is not an event keeps the story. *)
Lemma tells_still x p own s e s1 s' : x < next_id s -> tells x p own s (Exc e) s1 -> still x s1 s' -> tells x p own s (Exc e) s'.
Proof.
  intros Hx (H1 & H2 & H3) [L Q P]. split; [congruence|]. split; [by eapply quiet_trans|]. intros _. rewrite P, H3; [done..|]. destruct H2. lia.
Qed.
Lemma mid_tells x p cls own s s1 : still x s s1 -> x < next_id s -> p < next_id s -> (exists o, nodes s !! x = Some o /\ o_parent o = Some p) ->
  (exists po, nodes s !! p = Some po /\ o_cls po = cls) -> bool_decide (Lifecycle ∈ c_behs cls) = own ->
  tells x p own s (fst (notify_modified x s1)) (snd (notify_modified x s1)).
Proof.
  intros S Hx Hp (o & Ho & Hop) (po & Hpo & Hc) Hw. eapply still_tells; [exact S|done|done|].
  destruct S as [L Q P]. specialize (P Hx). rewrite Ho in P. destruct (nodes s1 !! x) as [o1|] eqn:Ho1; [|done]. injection P as P. rewrite Hop in P.
  destruct (quiet_sup _ _ p Q Hp) as [_ Hcl]. unfold class_of in Hcl. rewrite Hpo in Hcl. destruct (nodes s1 !! p) as [po1|] eqn:Hpo1; [|done]. injection Hcl as Hcl.
  rewrite <- Hw, <- Hc, <- Hcl. by apply (notify_tells s1 x o1 p po1).
Qed.
Lemma set_tells all pre post x k v p cls own : forallb plain_beh pre = true -> forallb plain_beh post = true -> v <> VNode x ->
  bool_decide (Lifecycle ∈ c_behs cls) = own ->
  forall s, x < next_id s -> p < next_id s -> (exists o, nodes s !! x = Some o /\ o_parent o = Some p) -> (exists po, nodes s !! p = Some po /\ o_cls po = cls) ->
  tells x p own s (fst (set_stack all (pre ++ AttributesLifecycle :: post) x k v s)) (snd (set_stack all (pre ++ AttributesLifecycle :: post) x k v s)).
Proof.
  intros Hpre Hpost Hv Hw. induction pre as [|b pre IH]; intros s Hx Hp Ho Hpo; simpl app; cbn [set_stack].
  - simpl. pose proof (kt_set all post x k v Hpost Hv s) as S. unfold bind. destruct (set_stack all post x k v s) as [[[]|e] s1]; simpl in S.
    + by apply (mid_tells x p cls).
    + destruct S as [L Q P]. by split.
  - simpl in Hpre. apply andb_prop in Hpre as [Hb Hpre]. specialize (IH Hpre). destruct b; try done; try (by apply IH); simpl.
    + destruct v as [| | | | | | |c| | | |]; try (by apply IH). assert (x <> c) as Hc by (by intros ->).
      assert (G : forall m : M unit, kt x m -> forall f : unit -> M unit, (forall u s0, still x s s0 -> tells x p own s0 (fst (f u s0)) (snd (f u s0))) ->
        forall s0, still x s s0 -> tells x p own s0 (fst (bind m f s0)) (snd (bind m f s0))).
      { intros m Km f Hf s0 S0. specialize (Km s0). unfold bind. destruct (m s0) as [[u|e] s1]; simpl in *.
        - assert (S1 : still x s s1) by (by eapply still_trans). eapply still_tells; [exact Km| | |by apply Hf]; destruct S0 as [_ [? _] _]; lia.
        - destruct Km as [L Q P]. by split. }
      destruct (nodes s !! c) as [old|] eqn:Hold.
      2: { assert (EL : load c s = (Exc Dangling, s)) by (unfold load; by rewrite Hold). rewrite (bind_Exc _ _ _ _ _ EL). split; [done|split; [apply quiet_refl|done]]. }
      rewrite (bind_load _ _ _ _ Hold).
      apply G; [by apply kt_modify| |apply still_refl]. intros _ s1 S1. apply G; [by apply kt_modify| |done]. clear s1 S1. intros _ s1 S1.
      assert (T : tells x p own s1 (fst (set_stack all (pre ++ AttributesLifecycle :: post) x k (VNode c) s1)) (snd (set_stack all (pre ++ AttributesLifecycle :: post) x k (VNode c) s1))).
      { assert (N : next_id s <= next_id s1) by (by destruct S1 as [_ [? _] _]). destruct S1 as [_ Q P]. apply IH; [lia|lia| |].
        - destruct Ho as (o & Ho & Hop). specialize (P Hx). rewrite Ho in P. destruct (nodes s1 !! x) as [o1|]; [|done]. exists o1. split; [done|]. injection P as P. congruence.
        - destruct Hpo as (po & Hpo & Hcp). destruct (quiet_sup _ _ p Q Hp) as [_ Hcl]. unfold class_of in Hcl. rewrite Hpo in Hcl. destruct (nodes s1 !! p) as [po1|]; [|done].
          exists po1. split; [done|]. injection Hcl as Hcl. congruence. }
      unfold try_catch. destruct (set_stack all (pre ++ AttributesLifecycle :: post) x k (VNode c) s1) as [[u|e] s2]; simpl in *; [done|].
      destruct (adopt_catches e); [|done]. simpl.
      assert (K : kt x (do! modify c (with_name (o_name old)) in do! modify c (with_parent (o_parent old)) in raise (A := unit) e)).
      { apply kt_bind; [by apply kt_modify|]. intros _. apply kt_bind; [by apply kt_modify|]. intros _. by apply kt_same. }
      specialize (K s2). assert (R : exists e', fst ((do! modify c (with_name (o_name old)) in do! modify c (with_parent (o_parent old)) in raise (A := unit) e) s2) = Exc e').
      { unfold bind, modify. destruct (nodes s2 !! c); simpl; [|by eexists]. rewrite lookup_insert. simpl. by eexists. }
      destruct R as (e' & R). rewrite R. destruct T as (T1 & T2 & T3). destruct K as [KL KQ KP]. split; [congruence|]. split; [by eapply quiet_trans|].
      intros H1. rewrite KP, T3; [done..|]. destruct T2. lia.
    + destruct Ho as (o & Ho & Hop). rewrite (bind_load _ _ _ _ Ho). destruct (_ && _); [split; [done|split; [apply quiet_refl|done]]|].
      destruct (_ && _); [split; [done|split; [apply quiet_refl|done]]|]. apply IH; eauto.
Qed.
Lemma del_tells all pre post x k p cls own : forallb plain_beh pre = true -> forallb plain_beh post = true ->
  bool_decide (Lifecycle ∈ c_behs cls) = own ->
  forall s, x < next_id s -> p < next_id s -> (exists o, nodes s !! x = Some o /\ o_parent o = Some p) -> (exists po, nodes s !! p = Some po /\ o_cls po = cls) ->
  tells x p own s (fst (del_stack all (pre ++ AttributesLifecycle :: post) x k s)) (snd (del_stack all (pre ++ AttributesLifecycle :: post) x k s)).
Proof.
  intros Hpre Hpost Hw. induction pre as [|b pre IH]; intros s Hx Hp Ho Hpo; simpl app; cbn [del_stack].
  - simpl. pose proof (kt_del all post x k Hpost s) as S. unfold bind. destruct (del_stack all post x k s) as [[[]|e] s1]; simpl in S.
    + by apply (mid_tells x p cls).
    + destruct S as [L Q P]. by split.
  - simpl in Hpre. apply andb_prop in Hpre as [Hb Hpre]. specialize (IH Hpre). destruct b; try done; by apply IH.
Qed.
