(** Derived mapping methods simulate the specification whenever the four
    primitives (iterate, get, set, delete) do. *)
From Verif Require Import Py Odict OdictFacts Aliaser Heap Model MonadFacts SpecMapping.

(** Running a client's call on a node of the model. *)
Definition wrap {A} (f : A -> answer) (m : M A) : st -> answer * st :=
  fun s => match m s with
           | (Ret a, s') => (f a, s')
           | (Exc e, s') => (AExc e, s')
           end.

Definition run_call (self : nat) (c : call) : st -> answer * st :=
  match c with
  | CSet k v => wrap (fun _ => ANone) (setitem self k v)
  | CGet k => wrap AVal (getitem self k)
  | CDel k => wrap (fun _ => ANone) (delitem self k)
  | CGetDefault k d => wrap AVal (get self k d)
  | CIn k => wrap ABool (contains self k)
  | CKeys => wrap AKeys (keys self)
  | CValues => wrap AVals (values self)
  | CItems => wrap AItems (items self)
  | CLen => wrap ALen (len self)
  | CPop k d => wrap AVal (pop self k d)
  | CPopitem => wrap (fun kv => AItem (fst kv) (snd kv)) (popitem self)
  | CSetdefault k d => wrap AVal (setdefault self k d)
  | CUpdate args kw => wrap (fun _ => ANone) (update self args kw)
  | CClear => wrap (fun _ => ANone) (clear self)
  end.

Fixpoint run_calls (self : nat) (l : list call) (s : st) : list answer * st :=
  match l with
  | [] => ([], s)
  | c :: r =>
      let '(a, s1) := run_call self c s in
      let '(as_, s2) := run_calls self r s1 in (a :: as_, s2)
  end.

(** Every node among the values exists. *)
Definition valid_val (s : st) (v : val) : Prop :=
  match v with VNode c => is_Some (nodes s !! c) | _ => True end.

Definition grows (s s' : st) : Prop := dom (nodes s) ⊆ dom (nodes s').
Lemma grows_refl s : grows s s. Proof. unfold grows. done. Qed.
Lemma grows_trans s1 s2 s3 : grows s1 s2 -> grows s2 s3 -> grows s1 s3.
Proof. unfold grows. set_solver. Qed.
Lemma valid_val_grows s s' v : grows s s' -> valid_val s v -> valid_val s' v.
Proof.
  unfold grows, valid_val. destruct v; try done.
  intros H1 H2. apply elem_of_dom. apply H1. by apply elem_of_dom.
Qed.

(** * The specification's list functions against the model's dict *)
Lemma held_spec k (d : entries) : held k d = bool_decide (k ∈ dkeys d).
Proof.
  unfold held. apply eq_true_iff_eq. rewrite existsb_exists, bool_decide_eq_true.
  rewrite elem_of_dkeys. split.
  - intros [[k' v'] [H1 H2]]. apply bool_decide_eq_true in H2. simpl in H2. subst.
    exists v'. by apply elem_of_list_In.
  - intros [v H]. exists (k, v). split; [by apply elem_of_list_In|].
    by apply bool_decide_eq_true.
Qed.

Lemma value_at_spec k (d : entries) : value_at k d = dget k d.
Proof.
  unfold value_at. induction d as [|[k' v'] r IH]; [done|].
  simpl. case_decide as E.
  - rewrite bool_decide_eq_true_2 by done. done.
  - rewrite bool_decide_eq_false_2 by congruence. done.
Qed.

Lemma put_spec k v (d : entries) : NoDup (dkeys d) -> put k v d = dset k v d.
Proof.
  intros ND. unfold put. rewrite held_spec. case_bool_decide as E.
  - rewrite dset_in_map by done. apply map_ext. intros [k' v']. simpl.
    case_bool_decide; case_decide; done.
  - by rewrite dset_notin.
Qed.

Lemma remove_spec k (d : entries) : NoDup (dkeys d) -> remove k d = ddel k d.
Proof.
  intros ND. rewrite ddel_filter by done. unfold remove. clear ND.
  induction d as [|[k' v'] r IH]; [done|]. simpl.
  case_bool_decide as E; simpl.
  - rewrite filter_cons_False by naive_solver. done.
  - rewrite filter_cons_True by done. by f_equal.
Qed.

Local Arguments remove : simpl never.
Local Arguments put : simpl never.
Local Arguments held : simpl never.
Section derived.
Context (self : nat) (p : policy) (R : st -> entries -> Prop).
Hypothesis R_nodup : forall s d, R s d -> NoDup (dkeys d).
Hypothesis R_iter : forall s d, R s d ->
  exists s', iter self s = (Ret (dkeys d), s') /\ R s' d /\ grows s s'.
Hypothesis R_get : forall s d k, R s d ->
  exists s', getitem self k s = (do_get p k d, s') /\ R s' d /\ grows s s'.
Hypothesis R_set : forall s d k v, R s d -> valid_val s v ->
  exists s', setitem self k v s =
    (match fst (do_set p k v d) with None => Ret tt | Some e => Exc e end, s')
    /\ R s' (snd (do_set p k v d)) /\ grows s s'.
Hypothesis R_del : forall s d k, R s d ->
  exists s', delitem self k s =
    (match fst (do_del p k d) with None => Ret tt | Some e => Exc e end, s')
    /\ R s' (snd (do_del p k d)) /\ grows s s'.

Ltac done_ := eexists; split; [reflexivity|]; split; eauto using grows_trans, grows_refl.

Lemma d_values_list s d ks : R s d ->
  exists s', mapM_ (getitem self) ks s =
    (match do_values p ks d with Ret l => Ret l | Exc e => Exc e end, s')
    /\ R s' d /\ grows s s'.
Proof.
  revert s. induction ks as [|k ks IH]; intros s HR; simpl.
  - exists s. split; [done|]. split; [done|apply grows_refl].
  - destruct (R_get s d k HR) as (s1 & E1 & HR1 & G1).
    destruct (do_get p k d) as [v|e].
    + rewrite (bind_Ret _ _ _ _ _ E1).
      destruct (IH s1 HR1) as (s2 & E2 & HR2 & G2).
      destruct (do_values p ks d) as [vs|e].
      * rewrite (bind_Ret _ _ _ _ _ E2). done_.
      * rewrite (bind_Exc _ _ _ _ _ E2). done_.
    + rewrite (bind_Exc _ _ _ _ _ E1). done_.
Qed.

Lemma d_items_list s d ks : R s d ->
  exists s', mapM_ (fun k => let! v := getitem self k in ret (k, v)) ks s =
    (match do_values p ks d with Ret l => Ret (zip ks l) | Exc e => Exc e end, s')
    /\ R s' d /\ grows s s'.
Proof.
  revert s. induction ks as [|k ks IH]; intros s HR; simpl.
  - exists s. split; [done|]. split; [done|apply grows_refl].
  - destruct (R_get s d k HR) as (s1 & E1 & HR1 & G1). rewrite bind_assoc.
    destruct (do_get p k d) as [v|e].
    + rewrite (bind_Ret _ _ _ _ _ E1), bind_ret.
      destruct (IH s1 HR1) as (s2 & E2 & HR2 & G2).
      destruct (do_values p ks d) as [vs|e].
      * rewrite (bind_Ret _ _ _ _ _ E2). done_.
      * rewrite (bind_Exc _ _ _ _ _ E2). done_.
    + rewrite (bind_Exc _ _ _ _ _ E1). done_.
Qed.

Lemma d_update s d l : R s d -> Forall (valid_val s) (map snd l) ->
  exists s', iterM (fun kv : key * val => setitem self (fst kv) (snd kv)) l s =
    (match fst (do_update p l d) with None => Ret tt | Some e => Exc e end, s')
    /\ R s' (snd (do_update p l d)) /\ grows s s'.
Proof.
  revert s d. induction l as [|[k v] l IH]; intros s d HR Hv; simpl in *.
  - exists s. split; [done|]. split; [done|apply grows_refl].
  - apply Forall_cons in Hv as [Hv1 Hv2].
    destruct (R_set s d k v HR Hv1) as (s1 & E1 & HR1 & G1).
    destruct (do_set p k v d) as [[e|] d'] eqn:Ed; simpl in *.
    + rewrite (bind_Exc _ _ _ _ _ E1). done_.
    + rewrite (bind_Ret _ _ _ _ _ E1).
      destruct (IH s1 d' HR1) as (s2 & E2 & HR2 & G2).
      { eapply Forall_impl; [exact Hv2|]. intros x. by apply valid_val_grows. }
      rewrite E2. done_.
Qed.

Lemma iterM_app {A} (f : A -> M unit) l1 l2 s :
  iterM f (l1 ++ l2) s = bind (iterM f l1) (fun _ => iterM f l2) s.
Proof.
  revert s. induction l1 as [|a l1 IH]; intros s; simpl; [done|].
  rewrite bind_assoc. unfold bind at 1 2. destruct (f a s) as [[u|e] s']; [apply IH|done].
Qed.

Lemma remove_first k v (d : entries) : NoDup (dkeys ((k, v) :: d)) -> remove k ((k, v) :: d) = d.
Proof. intros H. rewrite remove_spec by done. simpl. by rewrite decide_True. Qed.

Lemma d_clear s d : R s d ->
  exists s', iterM (delitem self) (dkeys d) s =
    (match fst (do_clear p d) with None => Ret tt | Some e => Exc e end, s')
    /\ R s' (snd (do_clear p d)) /\ grows s s'.
Proof.
  revert s. induction d as [|[k v] d IH]; intros s HR; simpl.
  - exists s. split; [done|]. split; [done|apply grows_refl].
  - destruct (R_del s _ k HR) as (s1 & E1 & HR1 & G1).
    pose proof (R_nodup _ _ HR) as ND. unfold do_del in *.
    destruct (p_del p k) as [e|] eqn:Ep; simpl in *.
    + rewrite (bind_Exc _ _ _ _ _ E1). done_.
    + rewrite held_spec, bool_decide_eq_true_2 in E1, HR1 by left. simpl in *.
      rewrite (bind_Ret _ _ _ _ _ E1).
      rewrite remove_first in HR1 by done.
      destruct (IH s1 HR1) as (s2 & E2 & HR2 & G2).
      rewrite E2. done_.
Qed.

Theorem run_call_sim s d c :
  R s d -> Forall (valid_val s) (call_values c) ->
  exists s', run_call self c s = (fst (call_spec p c d), s')
    /\ R s' (snd (call_spec p c d)) /\ grows s s'.
Proof.
  intros HR Hv. destruct c; simpl; unfold wrap.
  - (* set *)
    apply Forall_cons in Hv as [Hv _].
    destruct (R_set s d k v HR Hv) as (s1 & E1 & HR1 & G1). rewrite E1.
    destruct (do_set p k v d) as [[e|] d']; simpl in *; done_.
  - destruct (R_get s d k HR) as (s1 & E1 & HR1 & G1). rewrite E1.
    destruct (do_get p k d); done_.
  - destruct (R_del s d k HR) as (s1 & E1 & HR1 & G1). rewrite E1.
    destruct (do_del p k d) as [[e|] d']; simpl in *; done_.
  - (* get default *)
    destruct (R_get s d k HR) as (s1 & E1 & HR1 & G1). unfold get.
    destruct (do_get p k d) as [v|e].
    + rewrite (try_catch_Ret _ _ _ _ _ _ E1). done_.
    + rewrite (try_catch_Exc _ _ _ _ _ _ E1). destruct e; simpl; done_.
  - (* in *)
    destruct (R_get s d k HR) as (s1 & E1 & HR1 & G1). unfold contains.
    destruct (do_get p k d) as [v|e].
    + erewrite (try_catch_Ret _ _ _ _ _ _); [|rewrite (bind_Ret _ _ _ _ _ E1); reflexivity].
      done_.
    + erewrite (try_catch_Exc _ _ _ _ _ _); [|rewrite (bind_Exc _ _ _ _ _ E1); reflexivity].
      destruct e; simpl; done_.
  - destruct (R_iter s d HR) as (s1 & E1 & HR1 & G1). unfold keys. rewrite E1. done_.
  - (* values *)
    destruct (R_iter s d HR) as (s1 & E1 & HR1 & G1). unfold values.
    rewrite (bind_Ret _ _ _ _ _ E1).
    destruct (d_values_list s1 d (dkeys d) HR1) as (s2 & E2 & HR2 & G2). rewrite E2.
    fold (dkeys d). destruct (do_values p (dkeys d) d); done_.
  - (* items *)
    destruct (R_iter s d HR) as (s1 & E1 & HR1 & G1). unfold items.
    rewrite (bind_Ret _ _ _ _ _ E1).
    destruct (d_items_list s1 d (dkeys d) HR1) as (s2 & E2 & HR2 & G2). rewrite E2.
    fold (dkeys d). destruct (do_values p (dkeys d) d); done_.
  - destruct (R_iter s d HR) as (s1 & E1 & HR1 & G1). unfold len, keys.
    rewrite (bind_Ret _ _ _ _ _ E1). simpl. unfold dkeys. rewrite map_length. done_.
  - (* pop *)
    rename d0 into dv.
    destruct (R_get s d k HR) as (s1 & E1 & HR1 & G1). unfold pop.
    destruct (do_get p k d) as [v|e].
    + destruct (R_del s1 d k HR1) as (s2 & E2 & HR2 & G2).
      destruct (do_del p k d) as [[e|] d'] eqn:Ed; simpl in *.
      * erewrite (try_catch_Exc _ _ _ _ _ _);
          [|rewrite (bind_Ret _ _ _ _ _ E1), (bind_Exc _ _ _ _ _ E2); reflexivity].
        destruct e, dv as [[]|]; simpl; done_.
      * erewrite (try_catch_Ret _ _ _ _ _ _);
          [|rewrite (bind_Ret _ _ _ _ _ E1), (bind_Ret _ _ _ _ _ E2); reflexivity].
        done_.
    + erewrite (try_catch_Exc _ _ _ _ _ _);
        [|rewrite (bind_Exc _ _ _ _ _ E1); reflexivity].
      destruct e, dv as [[]|]; simpl; done_.
  - (* popitem *)
    destruct (R_iter s d HR) as (s1 & E1 & HR1 & G1). unfold popitem, keys.
    rewrite (bind_Ret _ _ _ _ _ E1).
    destruct d as [|[k0 v0] d0 _] using rev_ind.
    + simpl. done_.
    + rewrite dkeys_app. simpl. rewrite rev_app_distr. simpl.
      rewrite last_snoc.
      destruct (R_get s1 _ k0 HR1) as (s2 & E2 & HR2 & G2).
      destruct (do_get p k0 (d0 ++ [(k0, v0)])) as [v|e].
      * rewrite (bind_Ret _ _ _ _ _ E2).
        destruct (R_del s2 _ k0 HR2) as (s3 & E3 & HR3 & G3).
        destruct (do_del p k0 (d0 ++ [(k0, v0)])) as [[e|] d']; simpl in *.
        -- rewrite (bind_Exc _ _ _ _ _ E3). done_.
        -- rewrite (bind_Ret _ _ _ _ _ E3). simpl. done_.
      * rewrite (bind_Exc _ _ _ _ _ E2). done_.
  - (* setdefault *)
    rename d0 into dv. apply Forall_cons in Hv as [Hv _].
    destruct (R_get s d k HR) as (s1 & E1 & HR1 & G1). unfold setdefault.
    destruct (do_get p k d) as [v|e].
    + rewrite (try_catch_Ret _ _ _ _ _ _ E1). done_.
    + rewrite (try_catch_Exc _ _ _ _ _ _ E1). destruct e; simpl; try done_.
      destruct (R_set s1 d k dv HR1) as (s2 & E2 & HR2 & G2).
      { eapply valid_val_grows; eauto. }
      destruct (do_set p k dv d) as [[e|] d']; simpl in *.
      * rewrite (bind_Exc _ _ _ _ _ E2). done_.
      * rewrite (bind_Ret _ _ _ _ _ E2). done_.
  - (* update *)
    assert (Hm : forall args0, Forall (valid_val s) (map snd (concat args0 ++ kw)) ->
      exists s',
      (do! iterM (fun kv : key * val => setitem self (fst kv) (snd kv)) (concat args0) in
       iterM (fun kv : key * val => setitem self (fst kv) (snd kv)) kw) s =
      (match fst (do_update p (concat args0 ++ kw) d) with None => Ret tt | Some e => Exc e end, s')
      /\ R s' (snd (do_update p (concat args0 ++ kw) d)) /\ grows s s').
    { intros args0 Hv0. rewrite <- iterM_app. by apply d_update. }
    unfold update. destruct args as [|a1 [|a2 args]].
    + destruct (Hm [] Hv) as (s1 & E1 & HR1 & G1). rewrite E1.
      destruct (do_update p (concat [] ++ kw) d) as [[e|] d']; simpl in *; done_.
    + destruct (Hm [a1] Hv) as (s1 & E1 & HR1 & G1). rewrite E1.
      destruct (do_update p (concat [a1] ++ kw) d) as [[e|] d']; simpl in *; done_.
    + done_.
  - (* clear *)
    destruct (R_iter s d HR) as (s1 & E1 & HR1 & G1). unfold clear, keys.
    rewrite (bind_Ret _ _ _ _ _ E1).
    destruct (d_clear s1 d HR1) as (s2 & E2 & HR2 & G2). rewrite E2.
    destruct (do_clear p d) as [[e|] d']; simpl in *; done_.
Qed.

Theorem run_calls_sim l : forall s d,
  R s d -> Forall (fun c => Forall (valid_val s) (call_values c)) l ->
  exists s', run_calls self l s = (fst (calls_spec p l d), s')
    /\ R s' (snd (calls_spec p l d)) /\ grows s s'.
Proof.
  induction l as [|c l IH]; intros s d HR Hv; simpl.
  - exists s. split; [done|]. split; [done|apply grows_refl].
  - apply Forall_cons in Hv as [Hv1 Hv2].
    destruct (run_call_sim s d c HR Hv1) as (s1 & E1 & HR1 & G1).
    rewrite E1. destruct (call_spec p c d) as [a d1]; simpl in *.
    destruct (IH s1 d1 HR1) as (s2 & E2 & HR2 & G2).
    { eapply Forall_impl; [exact Hv2|]. intros x Hx. simpl in Hx.
      eapply Forall_impl; [exact Hx|]. intros v. by apply valid_val_grows. }
    rewrite E2. destruct (calls_spec p l d1) as [as_ d2]; simpl in *. done_.
Qed.
End derived.
