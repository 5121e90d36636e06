(** Facts about insertion ordered association lists. *)
From Verif Require Import Py Odict.

Lemma sublist_NoDup {B} (l k : list B) : sublist l k -> NoDup k -> NoDup l.
Proof.
  induction 1 as [|x l1 l2 H IH|x l1 l2 H IH]; intros ND; [constructor| |].
  - apply NoDup_cons in ND as [Hn ND]. apply NoDup_cons. split; [|auto].
    intros Hx. apply Hn. eapply elem_of_submseteq; [exact Hx|]. by apply sublist_submseteq.
  - apply NoDup_cons in ND as [Hn ND]. auto.
Qed.

Section facts.
Context {A : Type}.
Implicit Types (d : list (key * A)) (k : key) (v : A).

Lemma dkeys_app d1 d2 : dkeys (d1 ++ d2) = dkeys d1 ++ dkeys d2.
Proof. apply map_app. Qed.

Lemma dget_None k d : dget k d = None <-> k ∉ dkeys d.
Proof.
  induction d as [|[k' v'] r IH]; simpl.
  - split; [intros _ H; inversion H|done].
  - case_decide as E.
    + subst. split; [done|]. intros H. exfalso. apply H. left.
    + rewrite IH. rewrite not_elem_of_cons. naive_solver.
Qed.

Lemma dget_Some_in k d v : dget k d = Some v -> (k, v) ∈ d.
Proof.
  induction d as [|[k' v'] r IH]; simpl; [done|].
  case_decide as E; [intros [= ->]; subst; left|]. intros H. right. auto.
Qed.

Lemma dget_is_Some k d : is_Some (dget k d) <-> k ∈ dkeys d.
Proof.
  pose proof (dget_None k d). destruct (decide (k ∈ dkeys d)) as [i|i].
  - split; [done|]. intros _. destruct (dget k d) eqn:E; [eauto|]. naive_solver.
  - split; [intros [x Hx]|done]. rewrite (proj2 H) in Hx; [discriminate|done].
Qed.

Lemma elem_of_dkeys k d : k ∈ dkeys d <-> exists v, (k, v) ∈ d.
Proof.
  unfold dkeys. rewrite (elem_of_list_fmap (fst : key * A -> key)). split.
  - intros [[k' v'] [-> H]]. eauto.
  - intros [v H]. exists (k, v). auto.
Qed.

Lemma in_dget k v d : NoDup (dkeys d) -> (k, v) ∈ d -> dget k d = Some v.
Proof.
  induction d as [|[k' v'] r IH]; simpl; intros ND H; [inversion H|].
  apply NoDup_cons in ND as [Hn ND]. apply elem_of_cons in H as [[= -> ->]|H].
  - by rewrite decide_True.
  - rewrite decide_False; [auto|]. intros ->. apply Hn. apply elem_of_dkeys. eauto.
Qed.

Lemma dget_dset_eq k v d : dget k (dset k v d) = Some v.
Proof.
  induction d as [|[k' v'] r IH]; simpl.
  - by rewrite decide_True.
  - case_decide; simpl; [by rewrite decide_True|by rewrite decide_False].
Qed.

Lemma dget_dset_ne k k' v d : k' <> k -> dget k' (dset k v d) = dget k' d.
Proof.
  intros Hne. induction d as [|[k0 v0] r IH]; simpl.
  - by rewrite decide_False.
  - case_decide as E; subst; simpl.
    + by rewrite !decide_False by done.
    + case_decide; [done|]. apply IH.
Qed.

Lemma dkeys_dset_in k v d : k ∈ dkeys d -> dkeys (dset k v d) = dkeys d.
Proof.
  induction d as [|[k0 v0] r IH]; simpl; intros H; [inversion H|].
  case_decide as E; [done|]. simpl. f_equal. apply IH.
  apply elem_of_cons in H as [->|H]; [done|done].
Qed.

Lemma dset_notin k v d : k ∉ dkeys d -> dset k v d = d ++ [(k, v)].
Proof.
  induction d as [|[k0 v0] r IH]; simpl; intros H; [done|].
  rewrite not_elem_of_cons in H. destruct H as [H1 H2].
  rewrite decide_False by done. f_equal. by apply IH.
Qed.

Lemma dkeys_dset k v d :
  dkeys (dset k v d) = if decide (k ∈ dkeys d) then dkeys d else dkeys d ++ [k].
Proof.
  case_decide.
  - by apply dkeys_dset_in.
  - rewrite dset_notin by done. by rewrite dkeys_app.
Qed.

Lemma elem_of_dkeys_dset k k' v d : k' ∈ dkeys (dset k v d) <-> k' = k \/ k' ∈ dkeys d.
Proof.
  rewrite dkeys_dset. case_decide as E.
  - split; [auto|]. intros [->|?]; done.
  - rewrite elem_of_app, elem_of_list_singleton. naive_solver.
Qed.

Lemma NoDup_dset k v d : NoDup (dkeys d) -> NoDup (dkeys (dset k v d)).
Proof.
  intros H. rewrite dkeys_dset. case_decide; [done|].
  apply NoDup_app. split; [done|]. split.
  - intros x Hx ->%elem_of_list_singleton. done.
  - apply NoDup_singleton.
Qed.

Lemma ddel_notin k d : k ∉ dkeys d -> ddel k d = d.
Proof.
  induction d as [|[k0 v0] r IH]; simpl; intros H; [done|].
  rewrite not_elem_of_cons in H. destruct H as [H1 H2].
  rewrite decide_False by done. f_equal. by apply IH.
Qed.

Lemma ddel_sublist k d : sublist (ddel k d) d.
Proof.
  induction d as [|[k0 v0] r IH]; simpl; [constructor|].
  case_decide; constructor; done.
Qed.

Lemma dkeys_ddel_sublist k d : sublist (dkeys (ddel k d)) (dkeys d).
Proof.
  induction d as [|[k0 v0] r IH]; simpl; [constructor|].
  case_decide; simpl; constructor; done.
Qed.

Lemma NoDup_ddel k d : NoDup (dkeys d) -> NoDup (dkeys (ddel k d)).
Proof. intros H. eapply sublist_NoDup; [|exact H]. apply dkeys_ddel_sublist. Qed.

Lemma ddel_filter k d :
  NoDup (dkeys d) -> ddel k d = filter (fun e => fst e <> k) d.
Proof.
  induction d as [|[k0 v0] r IH]; simpl; intros ND; [done|].
  apply NoDup_cons in ND as [Hn ND]. case_decide as E.
  - subst. rewrite filter_cons_False by naive_solver.
    rewrite <- IH by done. symmetry. apply ddel_notin. done.
  - rewrite filter_cons_True by (simpl; congruence). f_equal. by apply IH.
Qed.

Lemma elem_of_ddel k d e : NoDup (dkeys d) -> e ∈ ddel k d <-> e ∈ d /\ fst e <> k.
Proof. intros H. rewrite ddel_filter by done. rewrite elem_of_list_filter. naive_solver. Qed.

Lemma elem_of_dkeys_ddel k k' d :
  NoDup (dkeys d) -> k' ∈ dkeys (ddel k d) <-> k' ∈ dkeys d /\ k' <> k.
Proof.
  intros H. rewrite !elem_of_dkeys. setoid_rewrite (elem_of_ddel k d _ H). naive_solver.
Qed.

Lemma dget_ddel_eq k d : NoDup (dkeys d) -> dget k (ddel k d) = None.
Proof. intros H. apply dget_None. rewrite elem_of_dkeys_ddel by done. naive_solver. Qed.

Lemma dget_ddel_ne k k' d : k' <> k -> dget k' (ddel k d) = dget k' d.
Proof.
  intros Hne. induction d as [|[k0 v0] r IH]; simpl; [done|].
  case_decide as E.
  - subst. by rewrite decide_False.
  - simpl. case_decide; [done|]. apply IH.
Qed.

Lemma elem_of_dset k v d e :
  NoDup (dkeys d) -> e ∈ dset k v d <-> e = (k, v) \/ (e ∈ d /\ fst e <> k).
Proof.
  induction d as [|[k0 v0] r IH]; simpl; intros ND.
  - rewrite elem_of_list_singleton, elem_of_nil. naive_solver.
  - apply NoDup_cons in ND as [Hn ND]. case_decide as E.
    + subst. rewrite !elem_of_cons. split; [|naive_solver].
      intros [?|H]; [auto|]. right. split; [auto|]. intros <-.
      apply Hn. apply elem_of_dkeys. exists (snd e). by destruct e.
    + rewrite !elem_of_cons, IH by done. naive_solver.
Qed.

(** replacing in place, for the independent specification *)
Lemma dset_in_map k v d :
  NoDup (dkeys d) -> k ∈ dkeys d ->
  dset k v d = map (fun e => if decide (fst e = k) then (k, v) else e) d.
Proof.
  induction d as [|[k0 v0] r IH]; simpl; intros ND Hin; [inversion Hin|].
  apply NoDup_cons in ND as [Hn ND]. destruct (decide (k = k0)) as [->|Hne].
  - rewrite decide_True by done. f_equal.
    rewrite <- (map_id r) at 1. apply map_ext_in. intros [k' v'] H. simpl.
    rewrite decide_False; [done|]. intros ->. apply Hn.
    apply elem_of_dkeys. exists v'. by apply elem_of_list_In.
  - rewrite (decide_False (P := k0 = k)) by congruence. f_equal. apply IH; [done|].
    apply elem_of_cons in Hin as [->|?]; done.
Qed.

Lemma dset_same k v d : NoDup (dkeys d) -> dget k d = Some v -> dset k v d = d.
Proof.
  induction d as [|[k0 v0] r IH]; simpl; intros ND H; [done|].
  apply NoDup_cons in ND as [Hn ND]. case_decide; [naive_solver|].
  f_equal. auto.
Qed.

End facts.
