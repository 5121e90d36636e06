(** C60: loops over a node while it is changed. *)
From Verif Require Import Py Odict OdictFacts Aliaser Heap Model Classes MonadFacts WF Views TreeOps SpecMapping Observe ObserveFacts Slots Reach Play Plumber P_Plumbing P_Mapping Loops SpecLoops LoopProofs RefTree SpecTree SpecTree MappingProps.

Lemma started s x cls kind : reach s -> class_of s x = Some cls -> Nodify ∈ c_behs cls -> loops_over kind cls ->
  exists c s1 l, iter_start x s = (Ret c, s1) /\ same_world s s1 /\ reach s1 /\ on s1 x l /\ keys_at s1 x = keys_at s x /\
    c = match kind with DictStorage => DictIter l (keys_at s x) 0 true | _ => OdictFresh l end.
Proof.
  intros R Hc Hn HL. pose proof (reach_wf _ R) as W. assert (exists o, nodes s !! x = Some o /\ o_cls o = cls) as (o & Ho & Eo).
  { unfold class_of in Hc. destruct (nodes s !! x) as [o|]; [|done]. exists o. split; [done|]. by injection Hc. }
  destruct (start_eff s x o kind W Ho) as (l & s1 & On & Q & W1 & E); [rewrite Eo; by apply loops_stored|].
  destruct (start_iter s x cls kind _ s1 W Hc Hn HL E) as (Ei & _). eexists _, s1, l. split; [exact E|]. split; [by apply same_world_eqv|].
  split; [|split; [done|split; [|done]]].
  - assert (H : run_op (OIter x) s = (Ret tt, s1)) by (unfold run_op, ignore, bind; by rewrite Ei). refine (reach_step s (OIter x) _ s1 R _ H). by exists o.
  - unfold keys_at. rewrite !ob_entries. unfold fld. by rewrite (e_views _ _ Q).
Qed.
(** As long as no key of the node is added or removed, the loop gets every key once, in order; values may be
    replaced, and everything else may change. *)
Theorem C60_undisturbed : forall s x cls kind, reach s -> class_of s x = Some cls -> Nodify ∈ c_behs cls -> loops_over kind cls ->
  exists c s1, iter_start x s = (Ret c, s1) /\ same_world s s1 /\
    forall acts, every_call (fun t t' => keys_at t' x = keys_at t x) s1 acts -> answers c s1 acts = one_by_one (keys_at s x) (asked acts).
Proof.
  intros s x cls kind R Hc Hn HL. destruct (started s x cls kind R Hc Hn HL) as (c & s1 & l & E & Sw & R1 & On & K & ->). eexists _, s1. split; [exact E|]. split; [done|].
  intros acts H. unfold one_by_one. destruct HL as ([-> | ->] & _).
  - by apply (calm_dict x l (keys_at s x) acts s1 0 On K).
  - rewrite <- K. change (OdictFresh l) with (reached l (keys_at s1 x) 0). rewrite (odict_adds x l acts s1 0 R1 On); [|lia|by apply keeps_adds]. apply by_position_calm; [done|done|lia].
Qed.
(** A dict: after a call that changes the number of keys the loop ends with RuntimeError, also if all
    keys were given before. *)
Theorem C60_dict_changed : forall s x cls, reach s -> class_of s x = Some cls -> Nodify ∈ c_behs cls -> loops_over DictStorage cls ->
  exists c s1, iter_start x s = (Ret c, s1) /\ same_world s s1 /\
    forall acts o n, every_call (fun t t' => keys_at t' x = keys_at t x) s1 acts -> asked acts <= length (keys_at s x) ->
      length (keys_at (snd (run_op o (state_after s1 acts))) x) <> length (keys_at s x) ->
      answers c s1 (acts ++ Call o :: replicate n Next) = one_by_one (keys_at s x) (asked acts) ++ replicate n (Exc RuntimeError).
Proof.
  intros s x cls R Hc Hn HL. destruct (started s x cls DictStorage R Hc Hn HL) as (c & s1 & l & E & Sw & R1 & On & K & ->). eexists _, s1. split; [exact E|]. split; [done|].
  intros acts o n H Ha HL'. by apply (dict_broken x l (keys_at s x) o acts n s1 0 On K H).
Qed.
(** An odict: whatever was called, the loop goes on with the key that now follows the last one it gave. If
    that one is gone, KeyError. *)
Theorem C60_odict_follows : forall s x cls, reach s -> class_of s x = Some cls -> Nodify ∈ c_behs cls -> loops_over OdictStorage cls ->
  exists c s1, iter_start x s = (Ret c, s1) /\ same_world s s1 /\
    forall acts, answers c s1 (acts ++ [Next]) = answers c s1 acts ++ [follow (last (answers c s1 acts)) (keys_at (state_after s1 acts) x)].
Proof.
  intros s x cls R Hc Hn HL. destruct (started s x cls OdictStorage R Hc Hn HL) as (c & s1 & l & E & Sw & R1 & On & K & ->). eexists _, s1. split; [exact E|]. split; [done|].
  intros acts. change (OdictFresh l) with (suspended l None). rewrite (odict_more x l acts s1 None On). by destruct (last _).
Qed.
(** So keys added while looping are visited too: a loop that adds a key each time does not end. *)
Theorem C60_odict_adds : forall s x cls, reach s -> class_of s x = Some cls -> Nodify ∈ c_behs cls -> loops_over OdictStorage cls ->
  exists c s1, iter_start x s = (Ret c, s1) /\ same_world s s1 /\
    forall acts, every_call (fun t t' => exists new, keys_at t' x = keys_at t x ++ new) s1 acts -> answers c s1 acts = by_position x 0 s1 acts.
Proof.
  intros s x cls R Hc Hn HL. destruct (started s x cls OdictStorage R Hc Hn HL) as (c & s1 & l & E & Sw & R1 & On & K & ->). eexists _, s1. split; [exact E|]. split; [done|].
  intros acts H. change (OdictFresh l) with (reached l (keys_at s1 x) 0). apply (odict_adds x l acts s1 0 R1 On); [lia|done].
Qed.
(** A loop that came to its end stays there. *)
Lemma exhausted_stays s acts : snd (fst (loop Exhausted s acts)) = Exhausted.
Proof. revert s. induction acts as [|[|o] acts IH]; intros s; [done| |by apply IH]. simpl. specialize (IH s). by destruct (loop Exhausted s acts) as [[al c2] s2]. Qed.
Lemma ended acts : forall c s, last (answers c s acts) = Some (Ret None) -> snd (fst (loop c s acts)) = Exhausted.
Proof.
  induction acts as [|[|o] acts IH]; intros c s H; [done| |by apply IH]. rewrite answers_next, last_cons in H. simpl. destruct (iter_next c s) as [a c1] eqn:E. simpl in H.
  destruct (last (answers c1 s acts)) as [b|] eqn:F.
  - injection H as ->. specialize (IH c1 s F). by destruct (loop c1 s acts) as [[al c2] s2].
  - injection H as ->. assert (c1 = Exhausted) as ->. { destruct c; simpl in E; repeat case_match; by injection E. }
    pose proof (exhausted_stays s acts). by destruct (loop Exhausted s acts) as [[al c2] s2].
Qed.
Lemma loop_app a1 a2 : forall c s, loop c s (a1 ++ a2) = let '(al, c1, s1) := loop c s a1 in let '(bl, c2, s2) := loop c1 s1 a2 in (al ++ bl, c2, s2).
Proof.
  induction a1 as [|[|o] a1 IH]; intros c s; simpl.
  - by destruct (loop c s a2) as [[bl c2] s2].
  - destruct (iter_next c s) as [a c1]. rewrite IH. destruct (loop c1 s a1) as [[al c2] s2]. by destruct (loop c2 s2 a2) as [[bl c3] s3].
  - apply IH.
Qed.
Theorem C60_ended : forall c s acts more, last (answers c s acts) = Some (Ret None) ->
  answers c s (acts ++ more) = answers c s acts ++ replicate (asked more) (Ret None).
Proof.
  intros c s acts more H. pose proof (ended acts c s H) as E. unfold answers in *. rewrite loop_app. destruct (loop c s acts) as [[al c1] s1]. simpl in *. subst.
  pose proof (answers_done s1 more) as D. unfold answers in D. destruct (loop Exhausted s1 more) as [[bl c2] s2]. simpl in *. by subst.
Qed.
(** keys, values and items are loops consumed at once: they never run into one of these. *)
Theorem C60_keys : forall s x cls kind, reach s -> class_of s x = Some cls -> Nodify ∈ c_behs cls -> loops_over kind cls ->
  exists n, forall f, n <= f -> keys_loop f x s = keys x s.
Proof.
  intros s x cls kind R Hc Hn HL. destruct (started s x cls kind R Hc Hn HL) as (c & s1 & l & E & Sw & R1 & On & K & Ec).
  destruct (start_iter s x cls kind c s1 (reach_wf _ R) Hc Hn HL E) as (Ei & _). exists (S (length (keys_at s x))). intros f Hf. unfold keys_loop, keys. rewrite Ei. unfold bind at 1. rewrite E, Ec.
  rewrite (draw_all x l (keys_at s x) ret (fun t => t = s1)); [|by intros ? ->|by intros ? ->|by intros ? ? ->| |done|by destruct HL|lia].
  - clear. induction (keys_at s x) as [|k ks IH]; [done|]. simpl. unfold bind, ret in *. by rewrite IH.
  - apply (entries_nodup s x), reach_wf, R.
Qed.
Theorem C60_values_and_items : forall s x cls kind, reach s -> class_of s x = Some cls -> Nodify ∈ c_behs cls -> tree_class (c_behs cls) = true -> loops_over kind cls ->
  exists n, forall f, n <= f -> values_loop f x s = values x s /\ items_loop f x s = items x s.
Proof.
  intros s x cls kind R Hc Hn Ht HL. destruct (started s x cls kind R Hc Hn HL) as (c & s1 & l & E & Sw & R1 & On & K & Ec).
  destruct (start_iter s x cls kind c s1 (reach_wf _ R) Hc Hn HL E) as (Ei & W1 & Q1 & _). exists (S (length (keys_at s x))). intros f Hf.
  assert (St : forall t k, on t x l /\ wf t /\ eqv s1 t -> let t' := snd (getitem x k t) in on t' x l /\ wf t' /\ eqv s1 t').
  { intros t k (Ot & Wt & Qt). assert (exists w, views t !! x = Some w /\ w_cls w = cls) as (w & Hw & Ew).
    { rewrite (e_views _ _ Qt), (e_views _ _ Q1). destruct (class_view s x cls Hc) as (w & Hw & Ew). by exists w. }
    destruct (getitem_eff t x w k Wt Hw) as (t' & Et & Qt' & Wt'); [by rewrite Ew|]. rewrite Et. simpl. split; [|split; [done|by eapply eqv_trans]].
    pose proof (kp_getitem x k t) as Kp. rewrite Et in Kp. eapply on_stays; [apply kept_stays, Kp|done]. }
  assert (Ks : forall t, on t x l /\ wf t /\ eqv s1 t -> keys_at t x = keys_at s x).
  { intros t (_ & _ & Qt). rewrite <- K. unfold keys_at. rewrite !ob_entries. unfold fld. by rewrite (e_views _ _ Qt). }
  assert (I1 : on s1 x l /\ wf s1 /\ eqv s1 s1) by (split; [done|split; [done|apply eqv_refl]]).
  assert (ND : NoDup (keys_at s x)) by (apply (entries_nodup s x), reach_wf, R).
  assert (B : forall A B (m : M A) (g : A -> M B) a t t', m t = (Ret a, t') -> (let! y := m in g y) t = g a t') by (intros A B m g a t t' Em; unfold bind; by rewrite Em).
  unfold values_loop, items_loop, values, items. rewrite !(B _ _ _ _ _ _ _ E), !(B _ _ _ _ _ _ _ Ei), Ec. split.
  - apply (draw_all x l (keys_at s x) (getitem x) (fun t => on t x l /\ wf t /\ eqv s1 t)); [by intros t []|done|done|done|done|by destruct HL|lia].
  - apply (draw_all x l (keys_at s x) _ (fun t => on t x l /\ wf t /\ eqv s1 t)); [by intros t []|done| |done|done|by destruct HL|lia].
    intros t k It. pose proof (St t k It) as H. unfold bind. by destruct (getitem x k t) as [[v|e] t'].
Qed.
(** The usual mistake: deleting the children of a node in a loop over the node. *)
Theorem C60_deleting : forall s x cls kind k, reach s -> class_of s x = Some cls -> Nodify ∈ c_behs cls -> tree_class (c_behs cls) = true -> (Reference ∈ c_behs cls -> all_tree_classes s) ->
  loops_over kind cls -> head (keys_at s x) = Some k -> ~ to_spaces cls k ->
  exists c s1, iter_start x s = (Ret c, s1) /\ same_world s s1 /\
    (forall s2, delitem x k s1 = (Ret tt, s2) -> answers c s1 [Next; Call (ODel x k); Next] =
      [Ret (Some k); Exc (match kind with DictStorage => RuntimeError | _ => KeyError k end)]).
Proof.
  intros s x cls kind k R Hc Hn Ht Ha HL Hk Hs. destruct (started s x cls kind R Hc Hn HL) as (c & s1 & l & E & Sw & R1 & On & K & ->). eexists _, s1. split; [exact E|]. split; [done|].
  intros s2 D. assert (Hc1 : class_of s1 x = Some cls) by (rewrite <- Hc; apply (sw_nodes _ _ Sw)).
  assert (Ha1 : Reference ∈ c_behs cls -> all_tree_classes s1).
  { intros Hr y cy Hy. apply (Ha Hr y). rewrite <- Hy. symmetry. apply (sw_nodes _ _ Sw). }
  pose proof (C02_deletion s1 x cls k s2 R1 Hc1 Ht Ha1 D) as Rm. destruct (rm_entries _ _ _ _ _ Rm Hs) as (_ & Ee & _).
  assert (K2 : keys_at s2 x = List.filter (fun k' => negb (bool_decide (k' = k))) (keys_at s x)).
  { rewrite <- K. unfold keys_at. rewrite Ee. unfold remove. clear. induction (entries_at s1 x) as [|[k' v] d IH]; [done|]. simpl. destruct (bool_decide (k' = k)); simpl; by rewrite IH. }
  assert (N : k ∉ keys_at s2 x). { rewrite K2, elem_of_list_In, filter_In. intros [_ H]. by rewrite bool_decide_true in H. }
  assert (On2 : on s2 x l) by (pose proof (on_run (ODel x k) _ _ _ On) as H; simpl in H; by rewrite D in H).
  destruct (keys_at s x) as [|k0 ks] eqn:Ek; [done|]. injection Hk as ->.
  rewrite answers_next. assert (F : iter_next (match kind with DictStorage => DictIter l (k :: ks) 0 true | _ => OdictFresh l end) s1 =
      (Ret (Some k), match kind with DictStorage => DictIter l (k :: ks) 1 true | _ => OdictAt l k end)).
  { destruct HL as ([-> | ->] & _); simpl; rewrite (on_keys _ _ _ On), K; [|done]. by rewrite decide_False by (intros H; by apply H). }
  rewrite F. cbn [fst snd]. f_equal. rewrite answers_call. cbn [run_op]. rewrite D. cbn [snd]. rewrite answers_next. destruct HL as ([-> | ->] & _); cbn [iter_watch iter_next]; rewrite (on_keys _ _ _ On2).
  - rewrite decide_True; [done|]. rewrite K2. simpl. rewrite bool_decide_true by done. simpl. assert (H : forall g (q : list key), length (List.filter g q) <= length q) by (intros g q; induction q as [|a q IH]; simpl; [lia|]; destruct (g a); simpl; lia). specialize (H (fun k' => negb (bool_decide (k' = k))) ks). lia.
  - rewrite decide_False by done. done.
Qed.

(** * Concrete loops *)
(** A dict node and an odict node with the keys a and b; the loops assign b, then delete a. *)
Definition C60_s := after [ONew BN (KStr "d") None; ONew ON (KStr "o") None; OSetAllow 0 true; OSetAllow 1 true;
  OSet 0 (KStr "a") (VInt 1); OSet 0 (KStr "b") (VInt 2); OSet 1 (KStr "a") (VInt 1); OSet 1 (KStr "b") (VInt 2)].
Definition C60_it (x : nat) : cursor := match fst (iter_start x C60_s) with Ret c => c | _ => Exhausted end.
Definition C60_s1 (x : nat) : st := snd (iter_start x C60_s).
Example C60_example : reach C60_s /\ class_of C60_s 0 = Some BaseNode /\ class_of C60_s 1 = Some OrderedNode /\ Nodify ∈ c_behs BaseNode /\ Nodify ∈ c_behs OrderedNode /\
  loops_over DictStorage BaseNode /\ loops_over OdictStorage OrderedNode /\ keys_at C60_s 0 = [KStr "a"; KStr "b"] /\
  fst (iter_start 0 C60_s) = Ret (C60_it 0) /\ fst (iter_start 1 C60_s) = Ret (C60_it 1) /\
  every_call (fun t t' => keys_at t' 0 = keys_at t 0) (C60_s1 0) [Next; Call (OSet 0 (KStr "b") (VInt 5)); Next; Next].
Proof.
  split; [apply after_reach|]. split; [vm_compute; reflexivity|]. split; [vm_compute; reflexivity|]. split; [by apply (bool_decide_unpack _)|]. split; [by apply (bool_decide_unpack _)|].
  split; [split; [by left|]; split; [vm_compute; reflexivity|by apply (bool_decide_unpack _)]|]. split; [split; [by right|]; split; [vm_compute; reflexivity|by apply (bool_decide_unpack _)]|].
  split; [vm_compute; reflexivity|]. split; [vm_compute; reflexivity|]. split; [vm_compute; reflexivity|].
  split; [split; [vm_compute; eexists; reflexivity|exact I]|]. split; [vm_compute; reflexivity|exact I].
Qed.
Example C60_dict_example :
  answers (C60_it 0) (C60_s1 0) [Next; Call (OSet 0 (KStr "b") (VInt 5)); Next; Next] = [Ret (Some (KStr "a")); Ret (Some (KStr "b")); Ret None] /\
  answers (C60_it 0) (C60_s1 0) [Next; Next; Call (OSet 0 (KStr "c") (VInt 5)); Next; Next] = [Ret (Some (KStr "a")); Ret (Some (KStr "b")); Exc RuntimeError; Exc RuntimeError] /\
  answers (C60_it 0) (C60_s1 0) [Next; Next; Next; Call (OSet 0 (KStr "c") (VInt 5)); Next] = [Ret (Some (KStr "a")); Ret (Some (KStr "b")); Ret None; Ret None].
Proof. split; [vm_compute; reflexivity|]. split; vm_compute; reflexivity. Qed.
Example C60_odict_example :
  answers (C60_it 1) (C60_s1 1) [Next; Next; Call (OSet 1 (KStr "c") (VInt 5)); Next; Next] = [Ret (Some (KStr "a")); Ret (Some (KStr "b")); Ret (Some (KStr "c")); Ret None] /\
  answers (C60_it 1) (C60_s1 1) [Next; Call (ODel 1 (KStr "b")); Next] = [Ret (Some (KStr "a")); Ret None] /\
  answers (C60_it 1) (C60_s1 1) [Next; Call (ODel 1 (KStr "a")); Call (OSet 1 (KStr "a") (VInt 9)); Next] = [Ret (Some (KStr "a")); Ret None] /\
  answers (C60_it 1) (C60_s1 1) [Next; Call (ODetach 1 (KStr "a")); Next; Next] = [Ret (Some (KStr "a")); Exc (KeyError (KStr "a")); Ret None] /\
  answers (C60_it 1) (C60_s1 1) [Next; Next; Next; Call (OSet 1 (KStr "c") (VInt 5)); Next] = [Ret (Some (KStr "a")); Ret (Some (KStr "b")); Ret None; Ret None] /\
  fst (values_loop 5 1 C60_s) = Ret [VInt 1; VInt 2].
Proof. split; [vm_compute; reflexivity|]. split; [vm_compute; reflexivity|]. split; [vm_compute; reflexivity|]. split; [vm_compute; reflexivity|]. split; vm_compute; reflexivity. Qed.

Print Assumptions C60_undisturbed.
Print Assumptions C60_dict_changed.
Print Assumptions C60_odict_follows.
Print Assumptions C60_odict_adds.
Print Assumptions C60_ended.
Print Assumptions C60_keys.
Print Assumptions C60_values_and_items.
Print Assumptions C60_deleting.
