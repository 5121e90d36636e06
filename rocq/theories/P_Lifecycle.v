(** C18, C19, C20: lifecycle events. *)
From Verif Require Import Py Odict Aliaser Heap Model Classes WF Views SpecMapping StorageProofs TreeOps SetEff NewEff Observe ObserveFacts SpecTree
  Reach MappingProps Play Quiet SpecLifecycle LifecycleProofs SilenceProofs AttrEvents.

Lemma outcome {A} (p : res A * st) r : fst p = r -> p = (r, snd p).
Proof. intros <-. apply surjective_pairing. Qed.

(** * C18 *)
(** Creating a node sends one created event. *)
Theorem C18_created : forall s cn cls n p,
  reach s -> classes s !! cn = Some cls -> new_class (c_behs cls) = true -> once Lifecycle (c_behs cls) ->
  (forall q, p = Some q -> exists_node s q) ->
  exists x s', new_node cn n p s = (Ret x, s') /\ log s' = log s ++ [EvCreated x] /\ suppressed s' x = false.
Proof. intros s cn cls n p R. exact (new_told s cn cls n p (reach_wf s R) (reach_uuid s R)). Qed.
(** A successful assignment sends one added event with the child, the new parent and the key; a
    failing one sends none. (Keys for the nodespaces are no item keys: see below.) *)
Theorem C18_added : forall s x cls k v r s',
  reach s -> class_of s x = Some cls -> tree_class (c_behs cls) = true -> once Lifecycle (c_behs cls) -> known s v ->
  ~ to_spaces cls k -> setitem x k v s = (r, s') ->
  match r with
  | Ret _ => told x [EvAdded v x k] s s' /\ entries_at s' x = put k v (entries_at s x)
  | Exc _ => untold s s' /\ entries_at s' x = entries_at s x
  end.
Proof. intros s x cls k v r s' R Hc Ht Ho Hv Hn E. by destruct (set_told s x cls k v r s' (reach_wf s R) Hc Ht Ho Hv Hn E) as (_ & _ & _ & H). Qed.
(** A successful deletion sends one removed event with the deleted child. *)
Theorem C18_removed : forall s x cls k r s',
  reach s -> class_of s x = Some cls -> tree_class (c_behs cls) = true -> once Lifecycle (c_behs cls) ->
  (Reference ∈ c_behs cls -> all_tree_classes s) -> ~ to_spaces cls k -> delitem x k s = (r, s') ->
  match r with
  | Ret _ => exists v, value_at k (entries_at s x) = Some v /\ told x [EvRemoved v x k] s s' /\ entries_at s' x = SpecMapping.remove k (entries_at s x)
  | Exc _ => untold s s' /\ entries_at s' x = entries_at s x
  end.
Proof. intros s x cls k r s' R Hc Ht Ho Ha Hn E. by destruct (del_told s x cls k r s' (reach_wf s R) Hc Ht Ho Ha Hn E) as (_ & _ & _ & H). Qed.
(** A successful detach sends one detached event and nothing else, suppressed or not. *)
Theorem C18_detached : forall s x cls k v s',
  reach s -> class_of s x = Some cls -> tree_class (c_behs cls) = true -> once Lifecycle (c_behs cls) ->
  (Reference ∈ c_behs cls -> all_tree_classes s) -> detach x k s = (Ret v, s') -> log s' = log s ++ [EvDetached v x k].
Proof. intros s x cls k v s' R. exact (detach_told s x cls k v s' (reach_wf s R)). Qed.
Theorem C18_detach_failed : forall s x cls k e s',
  reach s -> class_of s x = Some cls -> tree_class (c_behs cls) = true -> Reference ∉ c_behs cls ->
  detach x k s = (Exc e, s') -> untold s s'.
Proof. intros s x cls k e s' R. exact (detach_untold s x cls k e s' (reach_wf s R)). Qed.
(** The compound calls send one event per entry they change, in order, up to the first failure:
    update, setdefault, pop, popitem, clear. *)
Theorem C18_update : forall s x cls a kw r s',
  reach s -> class_of s x = Some cls -> tree_class (c_behs cls) = true -> once Lifecycle (c_behs cls) ->
  length a <= 1 -> Forall (fun e => known s (snd e) /\ ~ to_spaces cls (fst e)) (concat a ++ kw) -> update x a kw s = (r, s') ->
  exists n, n <= length (concat a ++ kw) /\ told x (map (added x) (take n (concat a ++ kw))) s s' /\
    entries_at s' x = put_all (take n (concat a ++ kw)) (entries_at s x) /\ (is_ret r = true <-> n = length (concat a ++ kw)).
Proof. intros s x cls a kw r s' R. exact (update_told s x cls a kw r s' (reach_wf s R)). Qed.
Theorem C18_setdefault : forall s x cls k v r s',
  reach s -> class_of s x = Some cls -> tree_class (c_behs cls) = true -> once Lifecycle (c_behs cls) -> known s v ->
  ~ to_spaces cls k -> setdefault x k v s = (r, s') ->
  untold s s' /\ entries_at s' x = entries_at s x \/
  r = Ret v /\ value_at k (entries_at s x) = None /\ told x [EvAdded v x k] s s' /\ entries_at s' x = put k v (entries_at s x).
Proof. intros s x cls k v r s' R. exact (setdefault_told s x cls k v r s' (reach_wf s R)). Qed.
Theorem C18_pop : forall s x cls k d r s',
  reach s -> class_of s x = Some cls -> tree_class (c_behs cls) = true -> once Lifecycle (c_behs cls) ->
  (Reference ∈ c_behs cls -> all_tree_classes s) -> ~ to_spaces cls k -> pop x k d s = (r, s') ->
  untold s s' /\ entries_at s' x = entries_at s x \/
  exists v, r = Ret v /\ value_at k (entries_at s x) = Some v /\ told x [EvRemoved v x k] s s' /\
    entries_at s' x = SpecMapping.remove k (entries_at s x).
Proof. intros s x cls k d r s' R. exact (pop_told s x cls k d r s' (reach_wf s R)). Qed.
Theorem C18_popitem : forall s x cls r s',
  reach s -> class_of s x = Some cls -> tree_class (c_behs cls) = true -> once Lifecycle (c_behs cls) ->
  (Reference ∈ c_behs cls -> all_tree_classes s) -> (forall k, held k (entries_at s x) = true -> ~ to_spaces cls k) -> popitem x s = (r, s') ->
  match r with
  | Ret (k, v) => value_at k (entries_at s x) = Some v /\ told x [EvRemoved v x k] s s' /\ entries_at s' x = SpecMapping.remove k (entries_at s x)
  | Exc _ => untold s s' /\ entries_at s' x = entries_at s x
  end.
Proof. intros s x cls r s' R. exact (popitem_told s x cls r s' (reach_wf s R)). Qed.
Theorem C18_clear : forall s x cls r s',
  reach s -> class_of s x = Some cls -> tree_class (c_behs cls) = true -> once Lifecycle (c_behs cls) ->
  (Reference ∈ c_behs cls -> all_tree_classes s) -> (forall k, held k (entries_at s x) = true -> ~ to_spaces cls k) -> clear x s = (r, s') ->
  exists n, n <= length (entries_at s x) /\ told x (map (dropped x) (take n (entries_at s x))) s s' /\
    entries_at s' x = drop n (entries_at s x) /\ (is_ret r = true <-> n = length (entries_at s x)).
Proof. intros s x cls r s' R. exact (clear_told s x cls r s' (reach_wf s R)). Qed.

(** A root with two children. *)
Definition LN := "LifecycleNode".
Definition C18_s := after [ONew LN (KStr "root") None; ONew LN (KStr "a") None; ONew LN (KStr "b") None; OSet 0 (KStr "a") (VNode 1); OSet 0 (KStr "b") (VNode 2)].
Lemma LN_once : once Lifecycle (c_behs LifecycleNode).
Proof. exists [Nodespaces; Attributes], [DefaultInit; Nodify; DictStorage]. split; [done|]. split; set_solver. Qed.
Lemma LN_plain t : reserved t = false -> ~ to_spaces LifecycleNode (KStr t).
Proof. intros H. apply nskey_dunder_false. unfold nskey. simpl. by rewrite H. Qed.
Example C18_example : reach C18_s /\ class_of C18_s 0 = Some LifecycleNode /\ tree_class (c_behs LifecycleNode) = true /\
  once Lifecycle (c_behs LifecycleNode) /\ Reference ∉ c_behs LifecycleNode /\ new_class (c_behs LifecycleNode) = true /\ classes C18_s !! LN = Some LifecycleNode /\
  suppressed C18_s 0 = false /\ known C18_s (VNode 2) /\ ~ to_spaces LifecycleNode (KStr "c") /\
  log C18_s = [EvCreated 0; EvCreated 1; EvCreated 2; EvAdded (VNode 1) 0 (KStr "a"); EvAdded (VNode 2) 0 (KStr "b")] /\
  log (snd (setitem 0 (KStr "c") (VNode 2) C18_s)) = log C18_s ++ [EvAdded (VNode 2) 0 (KStr "c")] /\
  log (snd (delitem 0 (KStr "a") C18_s)) = log C18_s ++ [EvRemoved (VNode 1) 0 (KStr "a")] /\
  log (snd (delitem 0 (KStr "c") C18_s)) = log C18_s /\
  log (snd (detach 0 (KStr "b") C18_s)) = log C18_s ++ [EvDetached (VNode 2) 0 (KStr "b")] /\
  log (snd (clear 0 C18_s)) = log C18_s ++ [EvRemoved (VNode 1) 0 (KStr "a"); EvRemoved (VNode 2) 0 (KStr "b")].
Proof.
  split; [apply after_reach|]. split; [done|]. split; [done|]. split; [apply LN_once|]. split; [set_solver|]. split; [done|]. split; [vm_compute; done|].
  split; [vm_compute; done|]. split; [vm_compute; by eexists|]. split; [by apply LN_plain|]. vm_compute. done.
Qed.
(** A refused assignment and a failing deletion behind the Lifecycle stage send nothing. *)
Definition LV := mkclass "LV" [Lifecycle; NodeChildValidate; Adopt; DefaultInit; Nodify; OdictStorage].
Definition C18_v := after_in [LV] [ONew "LV" KNone None].
Example C18_failure_example : reach C18_v /\ class_of C18_v 0 = Some LV /\ tree_class (c_behs LV) = true /\ log C18_v = [EvCreated 0] /\
  fst (setitem 0 (KStr "a") (VInt 1) C18_v) = Exc (ValueError "Non-node childs are not allowed.") /\ log (snd (setitem 0 (KStr "a") (VInt 1) C18_v)) = [EvCreated 0] /\
  fst (delitem 0 (KStr "a") C18_v) = Exc (KeyError (KStr "a")) /\ log (snd (delitem 0 (KStr "a") C18_v)) = [EvCreated 0].
Proof. split; [apply after_in_reach|]. vm_compute. done. Qed.
(** The claim does not extend to the nodespaces of LifecycleNode (its Nodespaces comes first), nor
    to a failing detach when Reference is plumbed before Lifecycle: it fails after the event. *)
Theorem C18_nodespace_silent_refuted : exists s x k v s', reach s /\ class_of s x = Some LifecycleNode /\ suppressed s x = false /\
  setitem x k v s = (Ret tt, s') /\ value_at k (spaces_at s' x) = Some v /\ log s' = log s.
Proof. exists C18_s, 0, (KStr "__x__"), (VNode 1). eexists. split; [apply after_reach|]. split; [done|]. split; [vm_compute; done|]. split; [apply surjective_pairing|vm_compute; done]. Qed.
Definition RL := mkclass "RL" [Reference; Lifecycle; DefaultInit; Nodify; OdictStorage].
Definition C18_r := after_in [RL] [ONew "RL" (KStr "root") None; OSet 0 (KStr "a") (VInt 1)].
Theorem C18_failing_detach_sends_refuted : exists s x k v e s', reach s /\ class_of s x = Some RL /\ detach x k s = (Exc e, s') /\
  log s' = log s ++ [EvDetached v x k].
Proof.
  exists C18_r, 0, (KStr "a"), (VInt 1), AttributeError, (snd (detach 0 (KStr "a") C18_r)).
  split; [apply after_in_reach|]. split; [vm_compute; done|]. split; [exact (outcome _ _ ltac:(vm_compute; reflexivity))|vm_compute; done].
Qed.

(** * C19 *)
Definition C19_s1 := snd (detach 0 (KStr "zz") C18_s).
Definition C19_s2 := snd (setitem 0 (KStr "zz") (VNode 1) C19_s1).
Definition C19_s3 := snd (delitem 0 (KStr "zz") C19_s2).
(** The claim is false. After the failing detach, adding and deleting succeed silently. *)
Theorem C19_failing_detach_silences_refuted : exists s x k e s1 v s2 s3,
  reach s /\ class_of s x = Some LifecycleNode /\ suppressed s x = false /\ value_at k (entries_at s x) = None /\ detach x k s = (Exc e, s1) /\
  setitem x k v s1 = (Ret tt, s2) /\ log s2 = log s1 /\ delitem x k s2 = (Ret tt, s3) /\ log s3 = log s2.
Proof.
  exists C18_s, 0, (KStr "zz"), (KeyError (KStr "zz")), C19_s1, (VNode 1), C19_s2, C19_s3.
  split; [apply after_reach|]. split; [done|]. split; [vm_compute; done|]. split; [vm_compute; done|].
  split; [exact (outcome (detach 0 (KStr "zz") C18_s) _ ltac:(vm_compute; reflexivity))|].
  split; [exact (outcome (setitem 0 (KStr "zz") (VNode 1) C19_s1) _ ltac:(vm_compute; reflexivity))|]. split; [vm_compute; done|].
  split; [exact (outcome (delitem 0 (KStr "zz") C19_s2) _ ltac:(vm_compute; reflexivity))|]. vm_compute; done.
Qed.
(** Exactly: over any history of calls on whatever nodes, failing or not, a node with one Lifecycle
    (not wrapped by a Reference) is silent at the end if and only if its last detach failed, or
    there was none and it was silent at the beginning. *)
Theorem C19_silent_exactly : forall x cls s l pre post,
  reach s -> class_of s x = Some cls -> c_behs cls = pre ++ Lifecycle :: post -> Reference ∉ pre -> Lifecycle ∉ pre -> Lifecycle ∉ post ->
  suppressed (run_all l s) x = true <-> detach_failed_last x l s \/ Forall (not_detach x) l /\ suppressed s x = true.
Proof. intros x cls s l pre post R Hc. apply (history_sup x cls s l pre post). by apply reach_loud. Qed.
(** Under any plumbing order a successful detach ends the silence. *)
Theorem C19_detach_ends_silence : forall s x k cls v,
  reach s -> class_of s x = Some cls -> once Lifecycle (c_behs cls) -> fst (detach x k s) = Ret v -> suppressed (snd (detach x k s)) x = false.
Proof.
  intros s x k cls v R Hc Ho Hr. destruct (reach_loud s x cls R Hc) as [_ Hx]. unfold class_of in Hc. destruct (nodes s !! x) as [o|] eqn:E; [|done].
  injection Hc as <-. exact (detach_sup_ret s x k o v E Hx Ho Hr).
Qed.
Definition C19_l := [ODetach 0 (KStr "zz"); OSet 0 (KStr "c") (VNode 1); ODetach 1 (KStr "q"); ODel 0 (KStr "c")].
Example C19_example : reach C18_s /\ class_of C18_s 0 = Some LifecycleNode /\ c_behs LifecycleNode = [Nodespaces; Attributes] ++ Lifecycle :: [DefaultInit; Nodify; DictStorage] /\
  detach_failed_last 0 C19_l C18_s /\ suppressed (run_all C19_l C18_s) 0 = true /\ log (run_all C19_l C18_s) = log C18_s /\
  suppressed (run_all (C19_l ++ [ODetach 0 (KStr "b")]) C18_s) 0 = false /\
  log (run_all (C19_l ++ [ODetach 0 (KStr "b"); OSet 0 (KStr "c") (VNode 1)]) C18_s) = log C18_s ++ [EvDetached (VNode 2) 0 (KStr "b"); EvAdded (VNode 1) 0 (KStr "c")].
Proof.
  split; [apply after_reach|]. split; [done|]. split; [done|]. split; [|vm_compute; done].
  exists [], (KStr "zz"), [OSet 0 (KStr "c") (VNode 1); ODetach 1 (KStr "q"); ODel 0 (KStr "c")]. eexists. split; [done|].
  split; [repeat constructor; by intros k [=]|vm_compute; reflexivity].
Qed.

(** * C20 *)
(** [x] is the attributes node, [p] its owner. Either the owner has Lifecycle and every successful
    assignment or deletion sends one modified event for it (none if it suppresses), or none succeeds;
    failing ones never send an event. *)
Theorem C20_set_modified : forall s x cls p clsp pre post k v r s',
  reach s -> class_of s x = Some cls -> c_behs cls = pre ++ AttributesLifecycle :: post -> forallb plain_beh (pre ++ post) = true ->
  parent_at s x = Some p -> class_of s p = Some clsp -> v <> VNode x -> setitem x k v s = (r, s') ->
  match r with
  | Ret _ => Lifecycle ∈ c_behs clsp /\ told p [EvModified p] s s'
  | Exc _ => untold s s'
  end.
Proof.
  intros s x cls p clsp pre post k v r s' R Hc Hb Hp Hpa Hcp Hv E. destruct (reach_loud s x cls R Hc) as [_ Hx]. destruct (reach_loud s p clsp R Hcp) as [_ Hpx].
  rewrite forallb_app in Hp. apply andb_prop in Hp as [Hp1 Hp2]. unfold class_of, parent_at in *. destruct (nodes s !! x) as [o|] eqn:Ho; [|done].
  injection Hc as <-. destruct (nodes s !! p) as [po|] eqn:Hpo; [|done]. injection Hcp as <-. simpl in Hpa.
  destruct (set_tells (c_behs (o_cls o)) pre post x k v p (o_cls po) _ Hp1 Hp2 Hv eq_refl s Hx Hpx) as (T & _ & _); [eauto..|].
  unfold setitem in E. rewrite (MonadFacts.bind_load _ _ _ _ Ho), Hb in E. rewrite Hb, E in T. simpl in T. destruct r; [|done].
  destruct T as [T1 T2]. by apply bool_decide_eq_true in T1.
Qed.
Theorem C20_del_modified : forall s x cls p clsp pre post k r s',
  reach s -> class_of s x = Some cls -> c_behs cls = pre ++ AttributesLifecycle :: post -> forallb plain_beh (pre ++ post) = true ->
  parent_at s x = Some p -> class_of s p = Some clsp -> delitem x k s = (r, s') ->
  match r with
  | Ret _ => Lifecycle ∈ c_behs clsp /\ told p [EvModified p] s s'
  | Exc _ => untold s s'
  end.
Proof.
  intros s x cls p clsp pre post k r s' R Hc Hb Hp Hpa Hcp E. destruct (reach_loud s x cls R Hc) as [_ Hx]. destruct (reach_loud s p clsp R Hcp) as [_ Hpx].
  rewrite forallb_app in Hp. apply andb_prop in Hp as [Hp1 Hp2]. unfold class_of, parent_at in *. destruct (nodes s !! x) as [o|] eqn:Ho; [|done].
  injection Hc as <-. destruct (nodes s !! p) as [po|] eqn:Hpo; [|done]. injection Hcp as <-. simpl in Hpa.
  destruct (del_tells (c_behs (o_cls o)) pre post x k p (o_cls po) _ Hp1 Hp2 eq_refl s Hx Hpx) as (T & _ & _); [eauto..|].
  unfold delitem in E. rewrite (MonadFacts.bind_load _ _ _ _ Ho), Hb in E. rewrite Hb, E in T. simpl in T. destruct r; [|done].
  destruct T as [T1 T2]. by apply bool_decide_eq_true in T1.
Qed.
(** Attributes of a LifecycleNode. *)
Definition C20_s := after [ONew LN (KStr "root") None; OAttrs 0; OSet 2 (KStr "title") (VStr "t")].
Example C20_example : reach C20_s /\ value_at (KStr "__attrs__") (spaces_at C20_s 0) = Some (VNode 2) /\ class_of C20_s 2 = Some LifecycleNodeAttributes /\
  c_behs LifecycleNodeAttributes = [] ++ AttributesLifecycle :: [NodeChildValidate; Adopt; DefaultInit; Nodify; OdictStorage] /\
  forallb plain_beh [NodeChildValidate; Adopt; DefaultInit; Nodify; OdictStorage] = true /\ parent_at C20_s 2 = Some 0 /\ class_of C20_s 0 = Some LifecycleNode /\
  log C20_s = [EvCreated 0; EvModified 0] /\ log (snd (delitem 2 (KStr "title") C20_s)) = log C20_s ++ [EvModified 0] /\
  log (snd (delitem 2 (KStr "zz") C20_s)) = log C20_s /\ fst (delitem 2 (KStr "zz") C20_s) = Exc (KeyError (KStr "zz")).
Proof. split; [apply after_reach|]. vm_compute. done. Qed.
(** Failing does not mean that nothing happened: where the owner has no Lifecycle, the assignment
    fails after the value was stored. *)
Definition C20_r := after [ONew "LifecycleNodeAttributes" KNone None].
Theorem C20_failed_set_stores_refuted : exists s x k v e s', reach s /\ class_of s x = Some LifecycleNodeAttributes /\
  value_at k (entries_at s x) = None /\ setitem x k v s = (Exc e, s') /\ value_at k (entries_at s' x) = Some v.
Proof.
  exists C20_r, 0, (KStr "x"), (VInt 2), AttributeError, (snd (setitem 0 (KStr "x") (VInt 2) C20_r)).
  split; [apply after_reach|]. split; [done|]. split; [vm_compute; done|]. split; [exact (outcome _ _ ltac:(vm_compute; reflexivity))|vm_compute; done].
Qed.

Print Assumptions C18_created.
Print Assumptions C18_added.
Print Assumptions C18_removed.
Print Assumptions C18_detached.
Print Assumptions C18_detach_failed.
Print Assumptions C18_update.
Print Assumptions C18_setdefault.
Print Assumptions C18_pop.
Print Assumptions C18_popitem.
Print Assumptions C18_clear.
Print Assumptions C18_nodespace_silent_refuted.
Print Assumptions C18_failing_detach_sends_refuted.
Print Assumptions C19_failing_detach_silences_refuted.
Print Assumptions C19_silent_exactly.
Print Assumptions C19_detach_ends_silence.
Print Assumptions C20_set_modified.
Print Assumptions C20_del_modified.
Print Assumptions C20_failed_set_stores_refuted.
