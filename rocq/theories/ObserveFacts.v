(** The observations of Observe.v in terms of views. *)
From Verif Require Import Py Odict OdictFacts Aliaser Heap Model MonadFacts WF WFOps Views
  StrFacts SpecMapping MappingProofs StorageProofs Observe TreeOps SetEff DelEff DetachEff.

Lemma ob_class s x : class_of s x = fld w_cls s x.
Proof. unfold class_of, fld. rewrite views_lookup. by destruct (nodes s !! x). Qed.
Lemma ob_name s x : name_at s x = fld w_name s x.
Proof. unfold name_at, fld. rewrite views_lookup. by destruct (nodes s !! x). Qed.
Lemma ob_parent s x : parent_at s x = fld w_parent s x ≫= id.
Proof. unfold parent_at, fld. rewrite views_lookup. by destruct (nodes s !! x). Qed.
Lemma ob_entries s x : entries_at s x = default [] (fld w_ent s x).
Proof.
  unfold entries_at, fld. rewrite views_lookup. destruct (nodes s !! x) as [o|]; simpl; [|done].
  by destruct (o_storage o).
Qed.
Lemma ob_spaces s x : spaces_at s x = default [] (fld w_ns s x).
Proof.
  unfold spaces_at, fld. rewrite views_lookup. destruct (nodes s !! x) as [o|]; simpl; [|done].
  by destruct (o_nodespaces o).
Qed.
Lemma ob_cache s x : cache_at s x = default [] (fld w_cache s x).
Proof.
  unfold cache_at, fld. rewrite views_lookup. destruct (nodes s !! x) as [o|]; simpl; [|done].
  by destruct (o_cache o).
Qed.
Lemma ob_fixed s x : fixed_at s x = default [] (fld w_fixed s x ≫= id).
Proof.
  unfold fixed_at, fld. rewrite views_lookup. destruct (nodes s !! x) as [o|]; simpl; [|done].
  by destruct (o_children o).
Qed.
Lemma ob_uuid s x : uuid_at s x = fld w_uuid s x ≫= id.
Proof. unfold uuid_at, fld. rewrite views_lookup. by destruct (nodes s !! x). Qed.
Lemma ob_index_id s x : index_id s x = fld w_index s x ≫= id.
Proof. unfold index_id, fld. rewrite views_lookup. by destruct (nodes s !! x). Qed.
Lemma ob_suppressed s x : suppressed s x = default false (fld w_suppress s x).
Proof. unfold suppressed, fld. rewrite views_lookup. by destruct (nodes s !! x). Qed.

Lemma fld_Some_view {B} (F : view -> B) s x w : views s !! x = Some w -> fld F s x = Some (F w).
Proof. unfold fld. by intros ->. Qed.

Lemma same_node_views s s' x : views s' !! x = views s !! x -> same_node s s' x.
Proof.
  intros H. assert (HF : forall B (F : view -> B), fld F s' x = fld F s x) by (intros; unfold fld; by rewrite H).
  constructor; rewrite ?ob_class, ?ob_name, ?ob_parent, ?ob_entries, ?ob_spaces, ?ob_cache, ?ob_fixed, ?ob_uuid, ?ob_index_id, ?ob_suppressed;
    by rewrite HF.
Qed.
Lemma same_world_eqv s s' : eqv s s' -> same_world s s'.
Proof. intros []. constructor; try done. intros x. apply same_node_views. by rewrite e_views. Qed.

Lemma entries_nodup s x : wf s -> NoDup (dkeys (entries_at s x)).
Proof.
  intros W. unfold entries_at. destruct (nodes s !! x) as [o|] eqn:Ho; simpl; [|apply NoDup_nil_2].
  destruct (o_storage o) as [l|] eqn:Hl; simpl; [|apply NoDup_nil_2].
  destruct (dicts s !! l) as [d|] eqn:Hd; simpl; [|apply NoDup_nil_2]. by destruct (wf_dicts _ W _ _ Hd) as (_ & ? & _).
Qed.
Lemma entries_known s x : wf s -> Forall (fun e => hashable (fst e) = true /\ known s (snd e)) (entries_at s x).
Proof.
  intros W. unfold entries_at. destruct (nodes s !! x) as [o|] eqn:Ho; simpl; [|done].
  destruct (o_storage o) as [l|] eqn:Hl; simpl; [|done].
  destruct (dicts s !! l) as [d|] eqn:Hd; simpl; [|done]. by destruct (wf_dicts _ W _ _ Hd) as (_ & _ & ?).
Qed.

(** a well-formed state describes the content of a plain node *)
Lemma wf_Rplain s x o : wf s -> nodes s !! x = Some o -> plain_class (c_behs (o_cls o)) = true ->
  Rplain x (negb (hasc NodeChildValidate (c_behs (o_cls o))) || o_allow o) s (entries_at s x).
Proof.
  intros W Ho Hp. split.
  - exists o. split; [done|]. split; [by apply plain_class_inv in Hp as [_ ?]|]. split; [by apply entries_nodup|].
    unfold entries_at. rewrite Ho. simpl. destruct (o_storage o) as [l|] eqn:Hl; simpl; [|done].
    destruct (wf_nodes _ W _ _ Ho) as [_ [_ K _ _]]. destruct (K SStorage l Hl) as [d ->]. done.
  - exists o. split; [done|]. split; [done|]. done.
Qed.
Lemma Rplain_entries x a s d : Rplain x a s d -> entries_at s x = d.
Proof.
  intros [(o & Ho & _ & _ & H) _]. unfold entries_at. rewrite Ho. simpl. destruct (o_storage o); simpl; [by rewrite H|done].
Qed.

Lemma dunder_reserved t : dunder (KStr t) <-> reserved t = true.
Proof.
  unfold reserved. rewrite andb_true_iff, startswith_spec, endswith_spec. unfold dunder. naive_solver.
Qed.
Lemma dunder_res_key k : dunder k <-> res_key k = true.
Proof.
  destruct k; simpl; try (split; [intros (? & ? & ? & ? & ?); done|done]). apply dunder_reserved.
Qed.
Lemma nskey_dunder bs k : nskey bs k = true <-> Nodespaces ∈ bs /\ dunder k.
Proof. unfold nskey, hasc. by rewrite andb_true_iff, bool_decide_eq_true, dunder_res_key. Qed.
Lemma nskey_dunder_false bs k : nskey bs k = false <-> ~ (Nodespaces ∈ bs /\ dunder k).
Proof. rewrite <- nskey_dunder. by destruct (nskey bs k). Qed.
