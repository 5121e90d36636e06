(** Deserialization creates new objects only. *)
From Coq Require Import Ascii.
From Verif Require Import Py Odict OdictFacts Aliaser Heap Model MonadFacts WF Reach Refs SpecRegion RefsProofs Region RegionOps RegionDeep Observe Serializer.

Section serial.
  Context (A : nat -> Prop).
  Notation nn := (fun _ => True).

  Lemma w_resolve ev j : within A (resolve ev j) nn.
  Proof. destruct j; simpl; try apply w_raise. apply w_same; [done|done]. Qed.
  Lemma w_node_factory ev data p : (forall q, p = Some q -> A q) -> within A (node_factory ev data p) A.
  Proof.
    intros Hp. unfold node_factory. destruct data as [| | | | |d]; try apply w_raise.
    destruct (member "class" d) as [c|]; [|apply w_raise].
    eapply w_bind; [apply w_resolve|]. intros n _.
    assert (G : within A match member "name" d with
         | None => raise (KeyError (KStr "name"))
         | Some nm => match name_key nm with
           | None => raise Unspecified
           | Some k =>
             let! cs := (fun s => (Ret (classes s), s)) in
             match cs !! n with
             | None => raise Unspecified
             | Some _ => let! x := new_node n KNone None in
                match p with
                | Some p => do! setitem p k (VNode x) in ret x
                | None => do! modify x (with_name k) in ret x end
             end end end A).
    { destruct (member "name" d) as [nm|]; [|apply w_raise]. destruct (name_key nm) as [k|]; [|apply w_raise].
      eapply (w_bind A _ _ (fun _ => True)); [apply w_same; done|]. intros cs _. destruct (cs !! n); [|apply w_raise].
      eapply w_bind; [apply w_new_node; by intros q [=]|]. intros x Hx. destruct p as [p|].
      - eapply w_bind; [apply w_setitem; [by apply Hp|by apply vin_node]|]. intros _ _. by apply w_ret.
      - eapply w_bind; [apply w_modify; [done|]; intros o; apply oin_name|]. intros _ _. by apply w_ret. }
    destruct (member "kw" d) as [[| | | | |[|]]|]; try apply w_raise; exact G.
  Qed.

  Definition cb_within (cb : desercb) : Prop :=
    forall dec, (forall p j, (forall q, p = Some q -> A q) -> within A (dec p j) (in_val A)) ->
    forall x data, A x -> within A (cb dec x data) nn.
  Lemma w_deserialize_node : cb_within deserialize_node.
  Proof.
    intros dec Hd x data Hx. unfold deserialize_node. destruct (member "children" data) as [j|]; [|by apply w_ret].
    destruct (truthy j); [|by apply w_ret]. destruct j; try (by apply w_ret); try apply w_raise;
      apply w_iterM; intros a _; (eapply w_bind; [apply Hd; by apply some_in|]); intros; by apply w_ret.
  Qed.
  Lemma w_deserialize_attrs : cb_within deserialize_node_attributes.
  Proof.
    intros dec Hd x data Hx. unfold deserialize_node_attributes. destruct (member "attrs" data) as [j|]; [|by apply w_ret].
    destruct (truthy j); [|by apply w_ret]. destruct j; try apply w_raise.
    apply w_iterM. intros kc _. eapply w_bind; [apply Hd; by intros q [=]|]. intros v Hv.
    eapply w_bind; [by apply w_attrs|]. intros a Ha. destruct a as [| | | | | | |a| | | |]; try apply w_raise.
    apply w_setitem; [by apply vin_elim|done].
  Qed.

  Lemma holds_raw j x : holds (raw j) x -> False.
  Proof.
    intros H. remember (raw j) as w eqn:E. revert j E.
    induction H as [x|l w x Hw H IH|l k w x Hw H IH]; intros j E.
    - by destruct j.
    - destruct j; try discriminate E. injection E as ->. apply elem_of_list_fmap in Hw as (v0 & -> & _). by eapply IH.
    - destruct j; try discriminate E. injection E as ->. apply elem_of_list_fmap in Hw as ([k0 v0] & E & _).
      injection E as _ ->. by eapply IH.
  Qed.
  Lemma vin_raw j : in_val A (raw j).
  Proof. intros x H. by apply holds_raw in H. Qed.
  Lemma vin_list vs : Forall (in_val A) vs -> in_val A (VList vs).
  Proof. intros H x Hx. inversion Hx; subst. rewrite Forall_forall in H. by eapply H. Qed.
  Lemma vin_plain v : match v with VNode _ | VList _ | VDict _ => False | _ => True end -> in_val A v.
  Proof. intros H x Hx. by destruct Hx. Qed.
  Lemma w_decode_list d l : (forall j, within A (d j) (in_val A)) -> within A (decode_list d l) (Forall (in_val A)).
  Proof.
    intros H. induction l as [|j l IH]; simpl; [by apply w_ret|].
    eapply w_bind; [apply H|]. intros v Hv. eapply w_bind; [exact IH|]. intros vs Hvs. apply w_ret. by constructor.
  Qed.
  Lemma w_decode ev f : Forall (fun kc => cb_within (snd kc)) (v_deser ev) ->
    forall p j, (forall q, p = Some q -> A q) -> within A (decode f ev p j) (in_val A).
  Proof.
    intros Hcb. induction f as [|f IH]; intros p j Hp; [apply w_raise|].
    destruct j as [|b|z|s|l|l]; cbn [decode]; try (apply w_ret, vin_raw).
    - destruct (String.eqb s "<UNSET>"); [apply w_ret; by apply vin_plain|].
      destruct (startswith _ s); [|apply w_ret; by apply vin_plain].
      destruct (uuid_parse _); [apply w_ret; by apply vin_plain|apply w_raise].
    - eapply w_bind; [apply w_decode_list; intros; by apply IH|]. intros vs Hvs. apply w_ret. by apply vin_list.
    - destruct (member "__ob__" l) as [n|].
      { eapply w_bind; [apply w_resolve|]. intros n' _. apply w_ret. by apply vin_plain. }
      destruct (member "__node__" l) as [data|]; [|apply w_ret, vin_raw].
      eapply w_bind; [by apply w_node_factory|]. intros x Hx. eapply w_bind; [by apply w_load|]. intros o _.
      eapply w_bind; [|intros _ _; apply w_ret; by apply vin_node].
      apply w_iterM. intros cb Hin. assert (T : cb_within cb).
      { unfold matching in Hin. apply elem_of_list_In, in_flat_map in Hin as ([k c] & Hk & Hc). simpl in Hc.
        apply elem_of_list_In in Hk. rewrite Forall_forall in Hcb. specialize (Hcb _ Hk). simpl in Hcb.
        destruct (v_provides ev (o_cls o) k); simpl in Hc; [|done]. by destruct Hc as [<-|[]]. }
      by apply T.
  Qed.
  Lemma std_within ot : Forall (fun kc => cb_within (snd kc)) (v_deser (std_env ot)).
  Proof.
    simpl. vm_compute registered. constructor; [apply w_deserialize_node|]. constructor; [apply w_deserialize_attrs|constructor].
  Qed.
End serial.

Lemma same_node_of s s' x y :
  (forall i, reaches s x i -> untouched s s' i) -> reaches s x y -> Observe.same_node s s' y.
Proof.
  intros U Hy. destruct (U y Hy) as (Hn & _ & _).
  assert (D : forall o l, nodes s !! y = Some o -> points s y l -> dicts s' !! l = dicts s !! l).
  { intros o l Ho Hp. assert (Hl : reaches s x l) by (by eapply rtc_r). apply (U l Hl). }
  constructor; unfold Observe.class_of, Observe.name_at, Observe.parent_at, Observe.entries_at, Observe.spaces_at, Observe.cache_at,
    Observe.fixed_at, Observe.uuid_at, Observe.index_id, Observe.suppressed; rewrite Hn; try done;
    destruct (nodes s !! y) as [o|] eqn:Ho; simpl; try done.
  - destruct (o_storage o) as [l|] eqn:E; simpl; [|done]. erewrite D; [done|done|]. by eapply to_storage.
  - destruct (o_nodespaces o) as [l|] eqn:E; simpl; [|done]. erewrite D; [done|done|]. by eapply to_nodespaces.
  - destruct (o_cache o) as [l|] eqn:E; simpl; [|done]. erewrite D; [done|done|]. by eapply to_cache.
  - destruct (o_children o) as [l|] eqn:E; simpl; [|done]. erewrite D; [done|done|]. by eapply to_children.
Qed.
Lemma same_below s s' y : wf s -> (forall i, i < next_id s -> untouched s s' i) -> y < next_id s -> Observe.same_node s s' y.
Proof.
  intros W U Hy. destruct (U y Hy) as (Hn & _ & _).
  assert (D : forall o a l, nodes s !! y = Some o -> get_slot a o = Some l -> dicts s' !! l = dicts s !! l).
  { intros o a l Ho Ha. destruct (wf_nodes _ W _ _ Ho) as [_ K]. destruct (ok_slot _ _ K _ _ Ha) as [d Hd].
    destruct (wf_dicts _ W _ _ Hd) as [Hl _]. apply (U l Hl). }
  constructor; unfold Observe.class_of, Observe.name_at, Observe.parent_at, Observe.entries_at, Observe.spaces_at, Observe.cache_at,
    Observe.fixed_at, Observe.uuid_at, Observe.index_id, Observe.suppressed; rewrite Hn; try done;
    destruct (nodes s !! y) as [o|] eqn:Ho; simpl; try done.
  - destruct (o_storage o) as [l|] eqn:E; simpl; [|done]. by rewrite (D o SStorage l eq_refl E).
  - destruct (o_nodespaces o) as [l|] eqn:E; simpl; [|done]. by rewrite (D o SNodespaces l eq_refl E).
  - destruct (o_cache o) as [l|] eqn:E; simpl; [|done]. by rewrite (D o SCache l eq_refl E).
  - destruct (o_children o) as [l|] eqn:E; simpl; [|done]. by rewrite (D o SChildren l eq_refl E).
Qed.

Section since.
  (** after a step which made new objects only, programs with nodes made since *)
  Context (s s' : st) (W : wf s).
  Hypothesis C : closed (fun i => next_id s <= i) s'.
  Hypothesis O : outside (fun i => next_id s <= i) s s'.

  Lemma since_program l i : Forall (given (fun i => next_id s <= i)) l -> i < next_id s -> untouched s (run_ops l s') i.
  Proof.
    intros Hl Hi. destruct (w_run_ops _ l s' C Hl) as [_ O2]. apply (out_trans _ _ _ _ O O2). lia.
  Qed.
  Lemma since_separate x y : sound s -> x < next_id s -> next_id s <= y -> separate s' x y.
  Proof.
    intros S Hx Hy i H1 H2.
    assert (R : reaches s x i).
    { apply (reaches_same s s' x); [|exact H1]. intros k Hk. apply O. pose proof (reaches_lt s x k W S Hx Hk). lia. }
    pose proof (reaches_lt s x i W S Hx R). pose proof (closed_reaches _ s' y i C Hy H2) as G. simpl in G. lia.
  Qed.
End since.

Lemma copy_since s x r s' :
  wf s -> deepcopy x s = (r, s') ->
  closed (fun i => next_id s <= i) s' /\ outside (fun i => next_id s <= i) s s' /\ forall c, r = Ret c -> next_id s <= c.
Proof.
  intros W E. destruct (w_deepcopy_any _ x s (new_closed s W)) as (C & O & Q). rewrite E in *. done.
Qed.
Lemma new_since s cn n r s' :
  wf s -> new_node cn n None s = (r, s') ->
  closed (fun i => next_id s <= i) s' /\ outside (fun i => next_id s <= i) s s' /\ forall c, r = Ret c -> next_id s <= c.
Proof.
  intros W E. destruct (w_new_node _ cn n None (none_in _) s (new_closed s W)) as (C & O & Q). rewrite E in *. done.
Qed.
Lemma deserialize_since s f ot j r s' :
  wf s -> deserialize f (std_env ot) j None s = (r, s') ->
  closed (fun i => next_id s <= i) s' /\ outside (fun i => next_id s <= i) s s' /\
  forall v y, r = Ret v -> holds v y -> next_id s <= y.
Proof.
  intros W E.
  destruct (w_decode _ (std_env ot) f (std_within (fun i => next_id s <= i) ot) None (loads j) (none_in _) s (new_closed s W)) as (C & O & Q).
  unfold deserialize in E. rewrite E in *. split; [done|]. split; [done|]. intros v y Hv Hy. exact (Q v Hv y Hy).
Qed.

Lemma shared_storage s x y i :
  (nodes s !! x ≫= o_storage) = Some i -> (nodes s !! y ≫= o_storage) = Some i -> ~ separate s x y.
Proof.
  intros Hx Hy H. apply bind_Some in Hx as (o & Ho & Eo). apply bind_Some in Hy as (p & Hp & Ep).
  apply (H i); apply rtc_once; by eapply to_storage.
Qed.
Lemma child_of s p c : parent_at s c = Some p -> ~ separate s p c.
Proof.
  intros Hp H. apply bind_Some in Hp as (o & Ho & Eo). apply (H p); [apply rtc_refl|]. apply rtc_once. by eapply to_parent.
Qed.
(** separateness and soundness of a concrete state, by listing what is reached *)
Lemma separate_listed s x y (A B : list nat) :
  x ∈ A -> y ∈ B -> (forall i j, i ∈ A -> points s i j -> j ∈ A) -> (forall i j, i ∈ B -> points s i j -> j ∈ B) ->
  (forall i, i ∈ A -> i ∈ B -> False) -> separate s x y.
Proof.
  intros HA HB CA CB D i H1 H2. apply (D i).
  - clear H2. induction H1 as [|a b c Hp _ IH]; [done|]. apply IH. by eapply CA.
  - clear H1. induction H2 as [|a b c Hp _ IH]; [done|]. apply IH. by eapply CB.
Qed.
Lemma separate_computed s x y (A B : list nat) :
  bool_decide (x ∈ A) && bool_decide (y ∈ B) && forallb (fun i => forallb (fun j => bool_decide (j ∈ A)) (refs s i)) A &&
  forallb (fun i => forallb (fun j => bool_decide (j ∈ B)) (refs s i)) B && forallb (fun i => bool_decide (i ∉ B)) A = true ->
  separate s x y.
Proof.
  rewrite !andb_true_iff, !forallb_forall. intros ((((H1 & H2) & H3) & H4) & H5).
  apply bool_decide_eq_true in H1, H2. apply (separate_listed s x y A B); [done|done| | |].
  - intros i j Hi Hp. apply refs_spec in Hp. apply elem_of_list_In in Hi. specialize (H3 i Hi). rewrite forallb_forall in H3.
    apply elem_of_list_In in Hp. specialize (H3 j Hp). by apply bool_decide_eq_true in H3.
  - intros i j Hi Hp. apply refs_spec in Hp. apply elem_of_list_In in Hi. specialize (H4 i Hi). rewrite forallb_forall in H4.
    apply elem_of_list_In in Hp. specialize (H4 j Hp). by apply bool_decide_eq_true in H4.
  - intros i Hi Hb. apply elem_of_list_In in Hi. specialize (H5 i Hi). apply bool_decide_eq_true in H5. done.
Qed.
Lemma sound_computed s :
  forallb (fun ld => forallb (fun kv => forallb (fun j => bool_decide (is_Some (nodes s !! j))) (held (snd kv))) (snd ld))
    (map_to_list (dicts s)) = true -> sound s.
Proof.
  rewrite forallb_forall. intros H i d k v j Hd Hk Hj. apply elem_of_map_to_list, elem_of_list_In in Hd. specialize (H _ Hd).
  simpl in H. rewrite forallb_forall in H. apply elem_of_list_In in Hk. specialize (H _ Hk). simpl in H. rewrite forallb_forall in H.
  apply held_spec, elem_of_list_In in Hj. specialize (H _ Hj). by apply bool_decide_eq_true in H.
Qed.
