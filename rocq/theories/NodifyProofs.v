(** Proofs about acquire and filteredvalues. *)
From Verif Require Import Py Odict Aliaser Heap Model WF Views MonadFacts SpecMapping MappingProofs TreeOps Observe ObserveFacts SpecTree SpecOrder Reach
  MappingProps DelEff DetachEff SpecPlace PlaceProofs PathTree RefTree AliasProofs SpecNodify.

Lemma wf_parent s : wf s -> forall x o q, nodes s !! x = Some o -> o_parent o = Some q -> exists_node s q.
Proof. intros W x o q Ho Hq. destruct (wf_nodes s W x o Ho) as [_ []]. by apply ok_parent. Qed.
Lemma up_add s m : forall n x, up s (n + m) x = match up s m x with Some y => up s n y | None => None end.
Proof.
  induction n as [|n IH]; intros x; simpl; [by destruct (up s m x)|]. rewrite IH. by destruct (up s m x).
Qed.
Lemma up_S s n x : up s (S n) x = match parent_at s x with Some y => up s n y | None => None end.
Proof. pose proof (up_add s 1 n x) as H. rewrite Nat.add_1_r in H. rewrite H. done. Qed.
Lemma up_some s n m x y : up s n x = Some y -> m <= n -> exists z, up s m x = Some z.
Proof.
  intros H L. replace n with ((n - m) + m) in H by lia. rewrite up_add in H. destruct (up s m x) as [z|]; [|done]. by exists z.
Qed.
Lemma up_live s n x y : wf s -> exists_node s x -> up s n x = Some y -> exists_node s y.
Proof.
  intros W Hx. revert y. induction n as [|n IH]; intros y; simpl; [by intros [= <-]|].
  destruct (up s n x) as [z|]; [|done]. intros H. 
  assert (exists_node s z) by (by apply IH). unfold parent_at in H. destruct (nodes s !! z) as [o|] eqn:Ho; [|done].
  by apply (wf_parent s W z o y).
Qed.

(** A walk without repetition is shorter than the number of nodes. *)
Lemma walk_short s x n : wf s -> exists_node s x ->
  (forall m, m < n -> exists y, up s (S m) x = Some y) ->
  (forall i j y, i < j -> j < n -> up s (S i) x = Some y -> up s (S j) x = Some y -> False) ->
  n <= size (nodes s).
Proof.
  intros W Hx Hall Hinj.
  set (l := omap (fun m => up s (S m) x) (seq 0 n)).
  assert (El : forall k n0, k + n0 <= n -> length (omap (fun m => up s (S m) x) (seq k n0)) = n0 /\
     NoDup (omap (fun m => up s (S m) x) (seq k n0)) /\ forall y, y ∈ omap (fun m => up s (S m) x) (seq k n0) -> exists m, k <= m < k + n0 /\ up s (S m) x = Some y).
  { intros k n0. revert k. induction n0 as [|n0 IH]; intros k Hk.
    { split; [done|]. split; [constructor|]. intros y Hy. by apply elem_of_nil in Hy. }
    destruct (IH (S k) ltac:(lia)) as (A & B & C). destruct (Hall k ltac:(lia)) as [y Hy].
    change (omap (fun m => up s (S m) x) (seq k (S n0))) with
      (match up s (S k) x with Some y => y :: omap (fun m => up s (S m) x) (seq (S k) n0) | None => omap (fun m => up s (S m) x) (seq (S k) n0) end).
    rewrite Hy. split; [change (S (length (omap (fun m => up s (S m) x) (seq (S k) n0))) = S n0); by rewrite A|]. split.
    - constructor; [|done]. intros Hin. destruct (C _ Hin) as (m & Hm & Em). exact (Hinj k m y ltac:(lia) ltac:(lia) Hy Em).
    - intros z [->|Hin]%elem_of_cons; [exists k; split; [lia|done]|]. destruct (C _ Hin) as (m & Hm & Em). exists m. split; [lia|done]. }
  destruct (El 0 n ltac:(lia)) as (A & B & C). rewrite <- A at 1.
  rewrite <- size_dom, <- (size_list_to_set (C := gset nat) _ B).
  apply subseteq_size. intros y Hy. apply elem_of_list_to_set in Hy. apply elem_of_dom. destruct (C y Hy) as (m & _ & Em).
  by apply (up_live s (S m) x).
Qed.

Lemma loop_some s (p : obj -> bool) n : forall f x y, wf s -> exists_node s x -> n < f ->
  up s n x = Some y -> satisfies s p y -> (forall m z, m < n -> up s m x = Some z -> ~ satisfies s p z) ->
  acquire_loop f p (Some x) s = (Ret (Some y), s).
Proof.
  induction n as [|n IH]; intros f x y W [o Ho] Hf; (destruct f as [|f]; [lia|]).
  - simpl. intros [= ->] (o' & Ho' & Hp) _. rewrite (bind_load _ _ _ _ Ho'). by rewrite Hp.
  - intros Hup Hy Hno. simpl. rewrite (bind_load _ _ _ _ Ho). destruct (p o) eqn:Hp.
    { exfalso. apply (Hno 0 x); [lia|done|]. by exists o. }
    rewrite up_S in Hup. destruct (parent_at s x) as [q|] eqn:Hq; [|done]. pose proof Hq as Hq'. unfold parent_at in Hq'. rewrite Ho in Hq'. simpl in Hq'. rewrite Hq'.
    apply IH; try done; [by apply (wf_parent s W x o q)|lia|]. intros m z Hm Ez. apply (Hno (S m)); [lia|]. by rewrite up_S, Hq.
Qed.
Lemma loop_none s (p : obj -> bool) n : forall f x, wf s -> exists_node s x -> n <= f ->
  up s n x = None -> (forall m z, up s m x = Some z -> ~ satisfies s p z) ->
  acquire_loop f p (Some x) s = (Ret None, s).
Proof.
  induction n as [|n IH]; intros f x W [o Ho] Hf; [done|]. destruct f as [|f]; [lia|].
  intros Hup Hno. simpl. rewrite (bind_load _ _ _ _ Ho). destruct (p o) eqn:Hp.
  { exfalso. apply (Hno 0 x); [done|]. by exists o. }
  rewrite up_S in Hup. destruct (parent_at s x) as [q|] eqn:Hq; unfold parent_at in Hq; rewrite Ho in Hq; simpl in Hq; rewrite Hq.
  - apply IH; try done; [by apply (wf_parent s W x o q)|lia|]. intros m z Ez. apply (Hno (S m)). rewrite up_S. unfold parent_at. rewrite Ho. simpl. by rewrite Hq.
  - by destruct f.
Qed.
Lemma loop_sound s (p : obj -> bool) : forall f x r s', wf s -> exists_node s x -> acquire_loop f p (Some x) s = (r, s') -> s' = s /\
  match r with
  | Ret (Some y) => exists n, up s n x = Some y /\ satisfies s p y /\ forall m z, m < n -> up s m x = Some z -> ~ satisfies s p z
  | Ret None => (exists n, up s n x = None) /\ forall m z, up s m x = Some z -> ~ satisfies s p z
  | Exc e => e = OutOfFuel /\ forall m, m < f -> exists z, up s m x = Some z /\ ~ satisfies s p z
  end.
Proof.
  induction f as [|f IH]; intros x r s' W [o Ho]; simpl.
  { intros [= <- <-]. split; [done|]. split; [done|]. intros m Hm. lia. }
  rewrite (bind_load _ _ _ _ Ho). destruct (p o) eqn:Hp.
  { intros [= <- <-]. split; [done|]. exists 0. split; [done|]. split; [by exists o|]. intros m z Hm. lia. }
  assert (Hx : ~ satisfies s p x) by (intros (o' & Ho' & Hp'); congruence).
  destruct (o_parent o) as [q|] eqn:Hq.
  2: { assert (Eq : parent_at s x = None) by (unfold parent_at; by rewrite Ho). intros H.
       assert (E : acquire_loop f p None s = (Ret None, s)) by (by destruct f). rewrite E in H. injection H as <- <-.
       split; [done|]. split; [exists 1; by rewrite up_S, Eq|]. intros [|m] z; [by intros [= <-]|]. by rewrite up_S, Eq. }
  assert (Eq : parent_at s x = Some q) by (unfold parent_at; by rewrite Ho).
  intros H. destruct (IH q r s' W) as [-> H']; [by apply (wf_parent s W x o q)|done|]. split; [done|].
  destruct r as [[y|]|e].
  - destruct H' as (n & A & B & C). exists (S n). rewrite up_S, Eq. split; [done|]. split; [done|].
    intros [|m] z Hm; [by intros [= <-]|]. rewrite up_S, Eq. apply C. lia.
  - destruct H' as [[n A] B]. split; [exists (S n); by rewrite up_S, Eq|]. intros [|m] z; [by intros [= <-]|]. rewrite up_S, Eq. apply B.
  - destruct H' as [A B]. split; [done|]. intros [|m] Hm; [by exists x|]. rewrite up_S, Eq. apply B. lia.
Qed.

Lemma acquire_unfold s p x o : nodes s !! x = Some o -> acquire p x s = acquire_loop (fuel_of s) p (o_parent o) s.
Proof. intros Ho. unfold acquire, with_fuel. by rewrite (bind_load _ _ _ _ Ho). Qed.

Lemma first_in_fuel s x (P : nat -> Prop) n y : wf s -> exists_node s x -> up s (S n) x = Some y -> P y ->
  (forall m z, m < n -> up s (S m) x = Some z -> ~ P z) -> S n <= size (nodes s).
Proof.
  intros W Hx Hy HP Hno. apply (walk_short s x); [done|done| |].
  - intros m Hm. apply (up_some s (S n)) with (y := y); [done|lia].
  - intros i j z Hij Hj Ei Ej. 
    assert (E : up s (S (n - (j - i))) x = Some y).
    { replace (S (n - (j - i))) with ((n - j) + S i) by lia. rewrite up_add, Ei.
      replace (S n) with ((n - j) + S j) in Hy by lia. rewrite up_add, Ej in Hy. done. }
    apply (Hno (n - (j - i)) y); [lia|done|done].
Qed.
Lemma end_in_fuel s x : wf s -> exists_node s x -> forall n, up s (S n) x = None -> exists m, m <= size (nodes s) /\ up s (S m) x = None.
Proof.
  intros W Hx n. induction (lt_wf n) as [n _ IH]. intros Hn.
  destruct n as [|n]; [exists 0; split; [lia|done]|].
  destruct (up s (S n) x) as [y|] eqn:Hy; [|by apply (IH n); [lia|]].
  exists (S n). split; [|done]. apply (walk_short s x); [done|done| |].
  - intros m Hm. apply (up_some s (S n)) with (y := y); [done|lia].
  - intros i j z Hij Hj Ei Ej.
    assert (E : up s (S (S n - (j - i))) x = None).
    { replace (S (S n - (j - i))) with ((S n - j) + S i) by lia. rewrite up_add, Ei.
      replace (S (S n)) with ((S n - j) + S j) in Hn by lia. rewrite up_add, Ej in Hn. done. }
    destruct (up_some s (S n) (S (S n - (j - i))) x y Hy) as [z' Ez']; [lia|]. congruence.
Qed.

Theorem acquire_some s p x y : wf s -> exists_node s x ->
  acquire p x s = (Ret (Some y), s) <-> first_above s (satisfies s p) x y.
Proof.
  intros W Hx. pose proof Hx as [o Ho]. rewrite (acquire_unfold _ _ _ _ Ho).
  assert (Ep : parent_at s x = o_parent o) by (unfold parent_at; by rewrite Ho).
  split.
  - destruct (o_parent o) as [q|] eqn:Hq; [|by destruct (fuel_of s)]. intros H.
    apply loop_sound in H as [_ (n & A & B & C)]; [|done|by apply (wf_parent s W x o q)].
    exists n. rewrite up_S, Ep. split; [done|]. split; [done|]. intros m z Hm. rewrite up_S, Ep. by apply C.
  - intros (n & A & B & C). pose proof (first_in_fuel s x _ n y W Hx A B C) as Hn.
    rewrite up_S, Ep in A. destruct (o_parent o) as [q|] eqn:Hq; [|done].
    apply (loop_some s p n); try done; [by apply (wf_parent s W x o q)|unfold fuel_of; lia|].
    intros m z Hm Ez. apply (C m); [done|]. by rewrite up_S, Ep.
Qed.
Theorem acquire_none s p x : wf s -> exists_node s x ->
  acquire p x s = (Ret None, s) <-> none_above s (satisfies s p) x.
Proof.
  intros W Hx. pose proof Hx as [o Ho]. rewrite (acquire_unfold _ _ _ _ Ho).
  assert (Ep : parent_at s x = o_parent o) by (unfold parent_at; by rewrite Ho).
  split.
  - destruct (o_parent o) as [q|] eqn:Hq.
    2: { intros _. split; [exists 0; by rewrite up_S, Ep|]. intros m z. by rewrite up_S, Ep. }
    intros H. apply loop_sound in H as [_ [[n A] C]]; [|done|by apply (wf_parent s W x o q)].
    split; [exists n; by rewrite up_S, Ep|]. intros m z. rewrite up_S, Ep. apply C.
  - intros [[n A] C]. destruct (end_in_fuel s x W Hx n A) as (m & Hm & Em). clear n A.
    rewrite up_S, Ep in Em. destruct (o_parent o) as [q|] eqn:Hq; [|by destruct (fuel_of s)].
    apply (loop_none s p m); try done; [by apply (wf_parent s W x o q)|unfold fuel_of; lia|].
    intros j z Ez. apply (C j). by rewrite up_S, Ep.
Qed.
Theorem acquire_runs s p x r s' : wf s -> exists_node s x -> acquire p x s = (r, s') -> s' = s /\
  (r = Exc OutOfFuel -> forall n, exists z, up s n x = Some z).
Proof.
  intros W Hx. pose proof Hx as [o Ho]. rewrite (acquire_unfold _ _ _ _ Ho).
  assert (Ep : parent_at s x = o_parent o) by (unfold parent_at; by rewrite Ho).
  destruct (o_parent o) as [q|] eqn:Hq; [|by intros [= <- <-]]. intros H.
  apply loop_sound in H as [-> H]; [|done|by apply (wf_parent s W x o q)]. split; [done|]. intros ->. destruct H as [_ H].
  intros n. destruct (up s n x) as [z|] eqn:E; [by exists z|]. exfalso. destruct n as [|n]; [done|].
  destruct (end_in_fuel s x W Hx n E) as (m & Hm & Em). rewrite up_S, Ep in Em.
  destruct (H m) as (z & Ez & _); [unfold fuel_of; lia|]. congruence.
Qed.
Lemma up_chain s x l : chain s x l -> forall n, up s n x = l !! n.
Proof.
  induction 1 as [x Hx Hp|x p l Hp C IH]; intros [|n]; [done| |done|]; rewrite up_S, Hp; [by destruct n|]. by rewrite IH.
Qed.
(** With a parent chain that ends, the answer is an ancestor other than the node. *)
Theorem acquire_chain s p x l : wf s -> exists_node s x -> chain s x l ->
  exists r, acquire p x s = (Ret r, s) /\ r <> Some x /\
    match r with
    | Some y => exists l1 l2, l = x :: l1 ++ y :: l2 /\ satisfies s p y /\ Forall (fun z => ~ satisfies s p z) l1
    | None => exists l', l = x :: l' /\ Forall (fun z => ~ satisfies s p z) l'
    end.
Proof.
  intros W Hx C. assert (Hl : exists l', l = x :: l') by (inversion C; eauto). destruct Hl as [l' ->].
  assert (D : forall z, {satisfies s p z} + {~ satisfies s p z}).
  { intros z. unfold satisfies. destruct (nodes s !! z) as [o|]; [|right; by intros (o & ? & _)].
    destruct (p o) eqn:E; [left; by exists o|right]. intros (o' & [= <-] & E'). congruence. }
  assert (Hup : forall n, up s (S n) x = l' !! n) by (intros n; by rewrite (up_chain _ _ _ C)).
  assert (S : (exists l1 y l2, l' = l1 ++ y :: l2 /\ satisfies s p y /\ Forall (fun z => ~ satisfies s p z) l1) \/ Forall (fun z => ~ satisfies s p z) l').
  { clear C Hup. induction l' as [|z l' IH]; [right; constructor|]. destruct (D z) as [Hz|Hz].
    - left. by exists [], z, l'.
    - destruct IH as [(l1 & y & l2 & -> & A & B)|B]; [left; exists (z :: l1), y, l2; split; [done|]; split; [done|by constructor]|right; by constructor]. }
  destruct S as [(l1 & y & l2 & -> & Hy & Hno)|Hno].
  - exists (Some y). split; [|split; [|by exists l1, l2]].
    + apply acquire_some; try done. exists (length l1). rewrite Hup. split; [by rewrite list_lookup_middle|]. split; [done|].
      intros m z Hm. rewrite Hup, lookup_app_l by done. intros Hz. rewrite Forall_forall in Hno. apply Hno. by apply elem_of_list_lookup_2 in Hz.
    + intros [= ->]. apply chain_nodup, NoDup_cons in C as [C _]. apply C. set_solver.
  - exists None. split; [|split; [done|by exists l']]. apply acquire_none; try done. split.
    + exists (length l'). rewrite Hup. by apply lookup_ge_None.
    + intros m z. rewrite Hup. intros Hz. rewrite Forall_forall in Hno. apply Hno. by apply elem_of_list_lookup_2 in Hz.
Qed.

(** * filteredvalues *)
Lemma filter_struck p vs : struck_out p vs (List.filter p vs).
Proof. induction vs as [|v vs IH]; simpl; [constructor|]. destruct (p v) eqn:E; by constructor. Qed.
Lemma filtered_of_values s p x r s' : values x s = (r, s') ->
  match r with
  | Ret vs => exists l, filteredvalues p x s = (Ret l, s') /\ struck_out p vs l
  | Exc e => filteredvalues p x s = (Exc e, s')
  end.
Proof.
  intros H. unfold filteredvalues. destruct r as [vs|e].
  - rewrite (bind_Ret _ _ _ _ _ H). eexists. split; [done|apply filter_struck].
  - by rewrite (bind_Exc _ _ _ _ _ H).
Qed.
Lemma mapr_values w : NoDup (dkeys (w_ent w)) -> Forall (fun e => hashable (fst e) = true) (w_ent w) ->
  Forall (fun e => nskey (c_behs (w_cls w)) (fst e) = false) (w_ent w) ->
  mapr (get_res w) (dkeys (w_ent w)) = Ret (map snd (w_ent w)).
Proof.
  intros Hn Hh Hk.
  assert (Hall : forall k v, (k, v) ∈ w_ent w -> get_res w k = Ret v).
  { intros k v Hin. unfold get_res, look. rewrite Forall_forall in Hk, Hh. pose proof (Hk _ Hin) as A. pose proof (Hh _ Hin) as B. simpl in A, B. rewrite A, B.
    by rewrite (proj2 (dget_in k _ v Hn) Hin). }
  clear Hn Hh Hk. unfold dkeys. induction (w_ent w) as [|[k v] d IH]; [done|]. simpl.
  rewrite (Hall k v) by (by left). rewrite IH; [done|]. intros k' v' Hin. apply Hall. by right.
Qed.

Theorem values_entries s x cls : wf s -> class_of s x = Some cls -> tree_class (c_behs cls) = true ->
  Forall (fun e => ~ to_spaces cls (fst e)) (entries_at s x) ->
  exists s', values x s = (Ret (map snd (entries_at s x)), s') /\ same_world s s'.
Proof.
  intros W Hc Ht Hd. destruct (class_view s x cls Hc) as (w & Hw & Ew). subst cls.
  rewrite (view_entries _ _ _ Hw) in *. pose proof (entries_known s x W) as Hk. pose proof (entries_nodup s x W) as Hn.
  rewrite (view_entries _ _ _ Hw) in Hk, Hn.
  destruct (values_eff s x w W Hw Ht) as (s' & E & Q & _). exists s'. split; [|by apply same_world_eqv].
  rewrite E. f_equal. apply mapr_values; [done| |].
  - eapply Forall_impl; [exact Hk|]. by intros e [? _].
  - eapply Forall_impl; [exact Hd|]. intros e He. by apply nskey_dunder_false.
Qed.
Theorem filtered_entries s p x cls : wf s -> class_of s x = Some cls -> tree_class (c_behs cls) = true ->
  Forall (fun e => ~ to_spaces cls (fst e)) (entries_at s x) ->
  exists l s', filteredvalues p x s = (Ret l, s') /\ struck_out p (map snd (entries_at s x)) l /\ same_world s s'.
Proof.
  intros W Hc Ht Hd. destruct (values_entries s x cls W Hc Ht Hd) as (s' & E & Q).
  destruct (filtered_of_values s p x _ _ E) as (l & El & Hl). by exists l, s'.
Qed.
