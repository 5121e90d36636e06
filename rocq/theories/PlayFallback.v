(** Checking of concrete trees with fallback keys. *)
From Verif Require Import Py Odict OdictFacts Heap Model MonadFacts WF WFOps Views SpecMapping MappingProofs StorageProofs Observe TreeOps
  ObserveFacts SpecTree MappingProps Reach Play SpecPlace PlaceProofs PathTree SpecFallback.

Definition heldb (s : st) (p : nat) (d : list (key * val)) : bool :=
  forallb (fun e => match snd e with
                    | VNode c => bool_decide (fst e = KStr "__children__" /\ c = p) ||
                        (bool_decide (name_at s c = Some (fst e)) && bool_decide (parent_at s c = Some p))
                    | _ => true
                    end) d.
Definition nochildb (d : list (key * val)) : bool := forallb (fun e => negb (bool_decide (fst e = KStr "__children__"))) d.
Definition consistentb (s : st) : bool :=
  forallb (fun p => heldb s p (entries_at s p) && nochildb (entries_at s p) && heldb s p (spaces_at s p)) (map fst (map_to_list (nodes s))).
Fixpoint rooted (f : nat) (s : st) (x : nat) : bool :=
  match f with
  | O => false
  | S f => match nodes s !! x with Some o => match o_parent o with None => true | Some p => rooted f s p end | None => false end
  end.
Definition treeb (s : st) : bool :=
  consistentb s && forallb (fun p => rooted (fuel_of s) s (fst p) && fb_class (c_behs (o_cls (snd p))) &&
    bool_decide (o_fallback (snd p) <> Some (KStr "__children__"))) (map_to_list (nodes s)).

Lemma value_in k (d : list (key * val)) v : value_at k d = Some v -> In (k, v) d.
Proof.
  unfold value_at. destruct (List.find _ d) as [[k' v']|] eqn:E; [|done]. intros [= <-]. apply find_some in E as [H1 H2]. simpl in H2. apply bool_decide_eq_true in H2. by subst.
Qed.
Lemma heldb_spec s p d k c : heldb s p d = true -> value_at k d = Some (VNode c) -> ~ (k = KStr "__children__" /\ c = p) -> name_at s c = Some k /\ parent_at s c = Some p.
Proof.
  intros H E Hn. apply value_in in E. unfold heldb in H. rewrite forallb_forall in H. apply H in E. simpl in E.
  rewrite orb_true_iff, andb_true_iff, !bool_decide_eq_true in E. naive_solver.
Qed.
Lemma rooted_chain f s : forall x, rooted f s x = true -> exists l, chain s x l.
Proof.
  induction f as [|f IH]; intros x H; simpl in H; [done|]. destruct (nodes s !! x) as [o|] eqn:E; [|done]. destruct (o_parent o) as [p|] eqn:Ep.
  - destruct (IH p H) as [l C]. exists (x :: l). apply chain_up with p; [|done]. unfold parent_at. by rewrite E.
  - exists [x]. constructor; [by exists o|]. unfold parent_at. by rewrite E.
Qed.
Lemma in_nodes s x o : nodes s !! x = Some o -> In (x, o) (map_to_list (nodes s)).
Proof. intros H. apply elem_of_list_In. by apply elem_of_map_to_list. Qed.
Lemma treeb_spec s : reach s -> treeb s = true -> fallback_tree s.
Proof.
  intros R H. unfold treeb, consistentb in H. apply andb_prop in H as [H1 H2]. rewrite forallb_forall in H1, H2. constructor; [done|..].
  - intros x cls Hc. unfold class_of in Hc. destruct (nodes s !! x) as [o|] eqn:E; [|done]. injection Hc as <-. apply in_nodes in E. apply H2 in E. simpl in E. rewrite !andb_true_iff in E. apply E.
  - intros p pl k c Hh. assert (Hp : exists_node s p) by (by eapply holds_holder). destruct Hp as [o Ho]. apply in_nodes in Ho. apply (in_map fst) in Ho. apply H1 in Ho. simpl in Ho. rewrite !andb_true_iff in Ho. destruct Ho as [[A A'] B]. destruct pl; simpl in Hh.
    + apply (heldb_spec s p _ k c A Hh). intros [-> _]. apply value_in in Hh. unfold nochildb in A'. rewrite forallb_forall in A'. apply A' in Hh. simpl in Hh. done.
    + destruct Hh as [Hv Hn]. by eapply heldb_spec.
  - intros x [o Ho]. apply in_nodes in Ho. apply H2 in Ho. cbn [fst snd] in Ho. rewrite !andb_true_iff in Ho. destruct Ho as [[A _] _]. by eapply rooted_chain.
  - intros p [(o & Ho & Ef) _]. apply in_nodes in Ho. apply H2 in Ho. simpl in Ho. rewrite !andb_true_iff, bool_decide_eq_true in Ho. destruct Ho as [_ Ho]. done.
Qed.
(** [own] by computation *)
Lemma own_entries s p cls k v : class_of s p = Some cls -> hasc Nodespaces (c_behs cls) && res_key k = false -> value_at k (entries_at s p) = Some v -> own s p k v.
Proof. intros Hc Hn Hv. exists cls. split; [done|]. right. split; [|done]. unfold to_spaces. by apply nskey_dunder_false. Qed.
Lemma own_spaces s p cls k v : class_of s p = Some cls -> hasc Nodespaces (c_behs cls) && res_key k = true -> value_at k (spaces_at s p) = Some v -> own s p k v.
Proof. intros Hc Hn Hv. exists cls. split; [done|]. left. split; [|done]. unfold to_spaces. by apply nskey_dunder. Qed.
Lemma lacks_entries s p cls k : class_of s p = Some cls -> hasc Nodespaces (c_behs cls) && res_key k = false -> value_at k (entries_at s p) = None -> lacks s p k.
Proof. intros Hc Hn Hv v (cls' & Hc' & [[H _]|[_ H]]); [|congruence]. assert (cls' = cls) as -> by congruence. apply nskey_dunder_false in Hn. done. Qed.
Lemma falls_spec s p o fk : nodes s !! p = Some o -> o_fallback o = Some fk -> key_truthy fk = true -> falls s p fk.
Proof.
  intros Ho Hf Ht. split; [by exists o|]. destruct fk as [t| |z|u]; try done. destruct (String.eqb_spec t ""); [|naive_solver]. by subst.
  destruct (Z.eqb_spec z 0); [|naive_solver]. by subst.
Qed.
Definition soundb (s : st) (ks : list key) : bool :=
  forallb (fun p => match o_fallback (snd p) with
                    | Some fk => negb (key_truthy fk) || (negb (hasc Nodespaces (c_behs (o_cls (snd p))) && res_key fk) &&
                        match value_at fk (entries_at s (fst p)) with Some (VNode _) => true | _ => false end)
                    | None => true
                    end &&
    forallb (fun e => match snd e with VNode _ => true | _ => negb (bool_decide (fst e ∈ ks)) end) (entries_at s (fst p) ++ spaces_at s (fst p))) (map_to_list (nodes s)).
Lemma soundb_spec s ks : soundb s ks = true -> sound_keys s ks.
Proof.
  intros H. unfold soundb in H. rewrite forallb_forall in H. constructor.
  - intros p fk [(o & Ho & Ef) Hne]. pose proof (in_nodes _ _ _ Ho) as Hi. apply H in Hi. cbn [fst snd] in Hi. rewrite Ef in Hi. apply andb_prop in Hi as [Hi _].
    assert (Ht : key_truthy fk = true).
    { destruct fk as [t| |z|u]; simpl; try done; [|naive_solver|]. destruct (String.eqb_spec t ""); naive_solver. destruct (Z.eqb_spec z 0); naive_solver. }
    rewrite Ht in Hi. simpl in Hi. apply andb_prop in Hi as [Hn Hv]. apply negb_true_iff in Hn. destruct (value_at fk (entries_at s p)) as [[]|] eqn:Ev; try done.
    eexists. eapply own_entries; [|exact Hn|exact Ev]. unfold class_of. by rewrite Ho.
  - intros p n v Hn (cls & Hc & Hv). assert (Hi : exists o, nodes s !! p = Some o). { unfold class_of in Hc. destruct (nodes s !! p) as [o|]; [by exists o|done]. }
    destruct Hi as [o Ho]. apply in_nodes in Ho. apply H in Ho. cbn [fst snd] in Ho. apply andb_prop in Ho as [_ Ho]. rewrite forallb_forall in Ho.
    assert (Hin : In (n, v) (entries_at s p ++ spaces_at s p)). { apply in_app_iff. destruct Hv as [[_ Hv]|[_ Hv]]; apply value_in in Hv; auto. }
    apply Ho in Hin. simpl in Hin. destruct v; try (by eexists); rewrite bool_decide_eq_true_2 in Hin by done; done.
Qed.
