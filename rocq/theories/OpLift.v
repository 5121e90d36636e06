(** Mapping calls are made of item lookups, iterations, assignments and deletions: what each
    of these preserves, every mapping call preserves. *)
From Verif Require Import Py Odict OdictFacts Heap Model MonadFacts WF Views TreeOps Observe SpecTree Reach MappingProps.

(** the node a mapping operation is called on, the assignments it makes, the keys it deletes
    other than iterated ones *)
Definition op_target (o : op) : option nat :=
  match o with
  | OGet x _ | OSet x _ _ | ODel x _ | OUpdate x _ _ | OSetdefault x _ _ | OPop x _ _ | OPopitem x | OClear x
  | OIter x | OValues x | OItems x => Some x
  | _ => None
  end.
Definition op_sets (o : op) : list (key * val) :=
  match o with
  | OSet _ k v | OSetdefault _ k v => [(k, v)]
  | OUpdate _ a kw => concat a ++ kw
  | _ => []
  end.
Definition op_dels (o : op) : list key :=
  match o with ODel _ k | OPop _ k _ => [k] | _ => [] end.
(** does it delete the keys it iterates *)
Definition op_dels_iterated (o : op) : bool :=
  match o with OPopitem _ | OClear _ => true | _ => false end.

Section lift.
  (** [P l s]: the invariant while the assignments [l] are still to be made. *)
  Context (x : nat) (P : list (key * val) -> st -> Prop) (K : key -> Prop).
  Context (Hget : forall s k, P [] s -> P [] (snd (getitem x k s))).
  Context (Hget1 : forall s k v, P [(k, v)] s -> P [(k, v)] (snd (getitem x k s))).
  Context (Hiter : forall s, P [] s -> P [] (snd (Model.iter x s))).
  Context (Hset : forall l s k v, P ((k, v) :: l) s -> P l (snd (setitem x k v s))).
  Context (Hdel : forall s k, K k -> P [] s -> P [] (snd (delitem x k s))).
  Context (Hweak : forall l s, P l s -> P [] s).

  Definition run_to {A} l l' (m : M A) : Prop := forall s, P l s -> P l' (snd (m s)).
  Lemma run_bind {A B} l l' (m : M A) (f : A -> M B) : run_to l l' m -> (forall a, run_to l' [] (f a)) -> run_to l [] (bind m f).
  Proof.
    intros Hm Hf s H. specialize (Hm s H). unfold bind. destruct (m s) as [[a|e] s1]; simpl in Hm |- *; [by apply Hf|by eapply Hweak].
  Qed.
  Lemma run_ret {A} (a : A) : run_to [] [] (ret a). Proof. by intros s H. Qed.
  Lemma run_raise {A} l e : run_to l [] (@raise A e). Proof. intros s H. by eapply Hweak. Qed.
  Lemma run_try {A} l l' (m : M A) p h : run_to l l' m -> (forall e, run_to l' [] (h e)) -> run_to l [] (try_catch m p h).
  Proof.
    intros Hm Hf s H. specialize (Hm s H). unfold try_catch. destruct (m s) as [[a|e] s1]; simpl in Hm |- *; [by eapply Hweak|].
    destruct (p e); [by apply Hf|by eapply Hweak].
  Qed.
  Lemma run_mapM {A B} (f : A -> M B) l : (forall a, run_to [] [] (f a)) -> run_to [] [] (mapM_ f l).
  Proof. intros H. induction l as [|a l IH]; [apply run_ret|]. simpl. eapply run_bind; [apply H|]. intros b. eapply run_bind; [apply IH|]. intros bs. apply run_ret. Qed.
  Lemma run_dels ks : Forall K ks -> run_to [] [] (iterM (delitem x) ks).
  Proof.
    induction 1 as [|k ks Hk _ IH]; [apply run_ret|]. simpl. eapply run_bind; [intros s; by apply Hdel|]. intros _. apply IH.
  Qed.
  Lemma run_sets_all l : run_to l [] (iterM (fun kv : key * val => setitem x (fst kv) (snd kv)) l).
  Proof.
    induction l as [|[k v] l IH]; [apply run_ret|]. simpl. eapply run_bind; [intros s H; by apply Hset in H|]. intros _. apply IH.
  Qed.

  Lemma lift_op o s : op_target o = Some x -> Forall K (op_dels o) ->
    (op_dels_iterated o = true -> forall s ks, P [] s -> fst (Model.iter x s) = Ret ks -> Forall K ks) ->
    P (op_sets o) s -> P [] (snd (run_op o s)).
  Proof.
    intros Ht Hd HK. revert s.
    assert (G : forall k, run_to [] [] (getitem x k)) by (intros k s; apply Hget).
    assert (I : run_to [] [] (Model.iter x)) by (intros s; apply Hiter).
    destruct o; try discriminate Ht; injection Ht as ->; simpl in Hd |- *; unfold ignore.
    - change (run_to [] [] (do! getitem x k in ret tt)). eapply run_bind; [apply G|]. intros _. apply run_ret.
    - intros s H. by apply Hset in H.
    - intros s H. apply Hdel; [|done]. by apply Forall_cons in Hd as [? _].
    - intros s H. destruct (decide (length args <= 1)) as [Hl|Hl].
      + rewrite update_is_iter by done. by apply run_sets_all in H.
      + rewrite update_too_many by lia. by eapply Hweak.
    - change (run_to [(k, v)] [] (do! setdefault x k v in ret tt)). eapply run_bind; [|intros _; apply run_ret].
      unfold setdefault. eapply run_try; [intros s; apply Hget1|]. intros _. eapply run_bind; [intros s H; by apply Hset in H|]. intros _. apply run_ret.
    - change (run_to [] [] (do! pop x k d in ret tt)). eapply run_bind; [|intros _; apply run_ret]. apply Forall_cons in Hd as [Hk _].
      unfold pop. eapply run_try.
      + eapply run_bind; [apply G|]. intros v. eapply run_bind; [intros s; by apply Hdel|]. intros _. apply run_ret.
      + intros e. destruct d as [[]|]; first [apply run_ret|apply run_raise].
    - intros s H. unfold bind at 1, popitem, keys. unfold bind at 1. pose proof (Hiter s H) as H1. pose proof (HK eq_refl s) as H2.
      destruct (Model.iter x s) as [[ks|e] s1]; simpl in H1 |- *; [|done]. specialize (H2 ks H eq_refl).
      destruct (rev ks) as [|k r] eqn:Er; [done|]. assert (Hk : K k).
      { rewrite Forall_forall in H2. apply H2. apply elem_of_list_In, in_rev. rewrite Er. by left. }
      assert (R : run_to [] [] (let! v := getitem x k in do! delitem x k in ret (k, v))).
      { eapply run_bind; [apply G|]. intros v. eapply run_bind; [intros s2; by apply Hdel|]. intros _. apply run_ret. }
      specialize (R s1 H1). by destruct ((let! v := getitem x k in do! delitem x k in ret (k, v)) s1) as [[?|?] ?].
    - intros s H. unfold clear, keys, bind. pose proof (Hiter s H) as H1. pose proof (HK eq_refl s) as H2.
      destruct (Model.iter x s) as [[ks|e] s1]; simpl in H1 |- *; [|done]. specialize (H2 ks H eq_refl). by apply run_dels.
    - change (run_to [] [] (do! Model.iter x in ret tt)). eapply run_bind; [apply I|]. intros _. apply run_ret.
    - change (run_to [] [] (do! values x in ret tt)). eapply run_bind; [|intros _; apply run_ret]. unfold values.
      eapply run_bind; [apply I|]. intros ks. apply run_mapM. apply G.
    - change (run_to [] [] (do! items x in ret tt)). eapply run_bind; [|intros _; apply run_ret]. unfold items.
      eapply run_bind; [apply I|]. intros ks. apply run_mapM. intros k. eapply run_bind; [apply G|]. intros v. apply run_ret.
  Qed.
End lift.
