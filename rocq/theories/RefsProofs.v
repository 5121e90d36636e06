(** [refs] and [reached] are what SpecRegion calls [points] and [reaches]. *)
From Verif Require Import Py Heap Model WF WFOps Reach SpecRegion Refs.

Lemma held_spec v j : holds v j -> j ∈ held v.
Proof.
  induction 1 as [x|l v x Hv H IH|l k v x Hv H IH]; simpl; [by left| |].
  - apply elem_of_list_In, in_concat. exists (held v). split; [|by apply elem_of_list_In].
    apply in_map. by apply elem_of_list_In.
  - apply elem_of_list_In, in_concat. exists (held v). split; [|by apply elem_of_list_In].
    apply in_map_iff. exists (k, v). split; [done|]. by apply elem_of_list_In.
Qed.
Lemma refs_spec s i j : points s i j -> j ∈ refs s i.
Proof.
  assert (S : forall (l : list (option nat)) r, r ∈ l -> r = Some j ->
    j ∈ concat (map (fun r : option nat => match r with Some j => [j] | None => [] end) l)).
  { intros l r Hr ->. apply elem_of_list_In, in_concat. exists [j]. split; [|by left].
    apply in_map_iff. exists (Some j). split; [done|]. by apply elem_of_list_In. }
  intros H. unfold refs. rewrite !elem_of_app. revert S.
  destruct H as [i o j Ho E|i o j Ho E|i o j Ho E|i o j Ho E|i o j Ho E|i o j Ho E|i d k v j Hd Hk Hj|i m u j Hm E]; intros S.
  1-6: left; rewrite Ho; eapply S; [|exact E]; rewrite !elem_of_cons; tauto.
  - right; left. rewrite Hd. apply elem_of_list_In, in_concat. exists (held v). split; [|by apply elem_of_list_In, held_spec].
    apply in_map_iff. exists (k, v). split; [done|]. by apply elem_of_list_In.
  - right; right. rewrite Hm. apply elem_of_list_fmap. exists (u, j). split; [done|]. by apply elem_of_map_to_list.
Qed.
Lemma held_holds v : forall j, j ∈ held v -> holds v j.
Proof.
  revert v. fix IH 1. intros v j. destruct v as [| | | | | | |x| |l|d|m]; simpl; try (intros H; by apply elem_of_nil in H).
  - intros ->%elem_of_list_singleton. constructor.
  - intros H. assert (K : exists v, v ∈ l /\ holds v j).
    { revert H. induction l as [|v l IHl]; simpl; [intros H; by apply elem_of_nil in H|]. rewrite elem_of_app. intros [H|H].
      - exists v. split; [left|by apply IH].
      - destruct (IHl H) as (v' & Hv & H'). exists v'. split; [by right|done]. }
    destruct K as (v & Hv & H'). by eapply holds_list.
  - intros H. assert (K : exists k v, (k, v) ∈ d /\ holds v j).
    { revert H. induction d as [|[k v] d IHd]; simpl; [intros H; by apply elem_of_nil in H|]. rewrite elem_of_app. intros [H|H].
      - exists k, v. split; [left|by apply IH].
      - destruct (IHd H) as (k' & v' & Hv & H'). exists k', v'. split; [by right|done]. }
    destruct K as (k & v & Hv & H'). by eapply holds_dict.
Qed.
Lemma refs_points s i j : j ∈ refs s i -> points s i j.
Proof.
  unfold refs. rewrite !elem_of_app. intros [H|[H|H]].
  - destruct (nodes s !! i) as [o|] eqn:Ho; [|by apply elem_of_nil in H]. simpl in H. rewrite !elem_of_app in H.
    assert (K : forall r : option nat, j ∈ (match r with Some j => [j] | None => [] end) -> r = Some j).
    { intros [r|] Hr; [by apply elem_of_list_singleton in Hr as ->|by apply elem_of_nil in Hr]. }
    destruct H as [H|[H|[H|[H|[H|[H|H]]]]]]; try apply K in H.
    + by eapply to_parent.
    + by eapply to_storage.
    + by eapply to_cache.
    + by eapply to_children.
    + by eapply to_nodespaces.
    + by eapply to_index.
    + by apply elem_of_nil in H.
  - destruct (dicts s !! i) as [d|] eqn:Hd; [|by apply elem_of_nil in H].
    apply elem_of_list_In, in_concat in H as (l & Hl & Hj). apply in_map_iff in Hl as ([k v] & <- & Hk).
    eapply to_value; [exact Hd|by apply elem_of_list_In|]. by apply held_holds, elem_of_list_In.
  - destruct (idxs s !! i) as [m|] eqn:Hm; [|by apply elem_of_nil in H].
    apply elem_of_list_fmap in H as ([u y] & -> & Hy). apply elem_of_map_to_list in Hy. by eapply to_indexed.
Qed.

Lemma grow_in s l j : j ∈ grow s l <-> j ∈ l \/ j < next_id s /\ exists i, i ∈ l /\ points s i j.
Proof.
  unfold grow. rewrite elem_of_remove_dups, elem_of_app. split.
  - intros [H|H]; [|by left]. right. apply elem_of_list_In, filter_In in H as [H Hj]. apply Nat.ltb_lt in Hj. split; [done|].
    apply in_concat in H as (r & Hr & H). apply in_map_iff in Hr as (i & <- & Hi). exists i. split; [by apply elem_of_list_In|].
    apply refs_points. by apply elem_of_list_In.
  - intros [H|(Hj & i & Hi & Hp)]; [by right|]. left. apply elem_of_list_In, filter_In. split; [|by apply Nat.ltb_lt].
    apply in_concat. exists (refs s i). split; [apply in_map; by apply elem_of_list_In|]. by apply elem_of_list_In, refs_spec.
Qed.
Lemma grow_nodup s l : NoDup (grow s l).
Proof. apply NoDup_remove_dups. Qed.
(** after [n] rounds either nothing is missing or there are more than [n] *)
Definition full (s : st) (l : list nat) : Prop := forall i j, i ∈ l -> points s i j -> j < next_id s -> j ∈ l.
Lemma rounds s x n : let l := Nat.iter n (grow s) [x] in
  NoDup l /\ x ∈ l /\ (forall i, i ∈ l -> i = x \/ i < next_id s) /\ (full s l \/ n < length l).
Proof.
  induction n as [|n (N & X & B & F)]; cbn zeta.
  - simpl. split; [apply NoDup_singleton|]. split; [left|]. split; [|right; lia]. intros i ->%elem_of_list_singleton. by left.
  - change (Nat.iter (S n) (grow s) [x]) with (grow s (Nat.iter n (grow s) [x])). set (l := Nat.iter n (grow s) [x]) in *.
    split; [apply grow_nodup|]. split; [apply grow_in; by left|]. split.
    { intros i Hi. apply grow_in in Hi as [Hi|[Hi _]]; [by apply B|by right]. }
    destruct F as [F|F].
    + left. intros i j Hi Hp Hj. apply grow_in. left. apply grow_in in Hi as [Hi|(Hi & i0 & Hi0 & Hp0)]; [by eapply F|].
      eapply F; [by eapply F|done|done].
    + destruct (decide (Forall (fun j => j ∈ l) (grow s l))) as [H|H].
      * left. rewrite Forall_forall in H. intros i j Hi Hp Hj. apply grow_in. left. apply H. apply grow_in. right. split; [done|]. exists i. split; [by apply H|done].
      * right. apply not_Forall_Exists in H; [|intros ?; apply _]. apply Exists_exists in H as (j & Hj & Hnot).
        assert (S : l ⊆+ grow s l). { apply NoDup_submseteq; [done|]. intros i Hi. apply grow_in. by left. }
        assert (length (j :: l) <= length (grow s l)); [|simpl in *; lia]. apply submseteq_length, NoDup_submseteq.
        -- by constructor.
        -- intros i [->|Hi]%elem_of_cons; [done|]. apply grow_in. by left.
Qed.
Lemma reached_full s x : x < next_id s -> full s (reached s x).
Proof.
  intros Hx. destruct (rounds s x (next_id s)) as (N & X & B & [F|F]); [exact F|]. exfalso.
  assert (length (Nat.iter (next_id s) (grow s) [x]) <= length (seq 0 (next_id s))); [|rewrite seq_length in *; lia].
  apply submseteq_length, NoDup_submseteq; [done|]. intros i Hi. apply elem_of_seq. destruct (B i Hi) as [->|?]; lia.
Qed.
Lemma reached_reaches s x i : i ∈ reached s x -> reaches s x i.
Proof.
  unfold reached. revert i. induction (next_id s) as [|n IH]; intros i.
  - intros ->%elem_of_list_singleton. apply rtc_refl.
  - change (Nat.iter (S n) (grow s) [x]) with (grow s (Nat.iter n (grow s) [x])). intros H. apply grow_in in H as [H|(_ & j & Hj & Hp)]; [by apply IH|].
    eapply rtc_r; [by apply IH|done].
Qed.
(** objects that exist are found if they can be reached *)
Lemma reaches_reached s x i : wf s -> x < next_id s -> i < next_id s -> reaches s x i -> i ∈ reached s x.
Proof.
  intros W Hx Hi Hr. assert (K : forall j, reaches s x j -> j ∈ reached s x \/ next_id s <= j).
  { intros j Hj. revert j Hj. apply rtc_ind_r.
    - left. by destruct (rounds s x (next_id s)) as (_ & X & _).
    - intros a b Ha Hp [IH|IH].
      + destruct (decide (b < next_id s)) as [Hb|Hb]; [left|right; lia]. by apply (reached_full s x Hx a b).
      + exfalso. assert (a < next_id s); [|lia]. destruct Hp as [a o j Ho E|a o j Ho E|a o j Ho E|a o j Ho E|a o j Ho E|a o j Ho E|a d k v j Hd Hk Hj|a m u j Hm E].
        1-6: by destruct (wf_nodes _ W _ _ Ho).
        * by destruct (wf_dicts _ W _ _ Hd).
        * by destruct (wf_idxs _ W _ _ Hm). }
  destruct (K i Hr) as [?|?]; [done|lia].
Qed.
