(** Proofs about subscribers. *)
From Verif Require Import Py Odict OdictFacts Aliaser Heap Model MonadFacts WF WFOps Views SpecMapping MappingProofs StorageProofs TreeOps SetEff DelEff DetachEff NewEff
  Observe ObserveFacts SpecTree Reach MappingProps RefTree Quiet SpecLifecycle LifecycleProofs Handlers.

Lemma bind_ext {A B} (m m' : M A) (f f' : A -> M B) s : m s = m' s -> (forall a s', f a s' = f' a s') -> bind m f s = bind m' f' s.
Proof. intros H1 H2. unfold bind. rewrite H1. destruct (m' s) as [[a|e] s']; [apply H2|done]. Qed.
Lemma try_ext {A} (m m' : M A) p f f' s : m s = m' s -> (forall a s', f a s' = f' a s') -> try_catch m p f s = try_catch m' p f' s.
Proof. intros H1 H2. unfold try_catch. rewrite H1. destruct (m' s) as [[a|e] s']; [done|]. by destruct (p e). Qed.
Lemma iterM_ext {A} (f g : A -> M unit) l : (forall a s, f a s = g a s) -> forall s, iterM f l s = iterM g l s.
Proof. intros H. induction l as [|a l IH]; intros s; [done|]. cbn [iterM]. by apply bind_ext. Qed.
Ltac ext := repeat first [reflexivity | assumption | progress intros | apply bind_ext | apply try_ext |
   match goal with H : forall x k v s, ?n1 x k v s = _ |- ?n1 _ _ _ _ = _ => apply H
                 | H : forall x k s, ?n1 x k s = _ |- ?n1 _ _ _ = _ => apply H
                 | H : forall x s, ?n1 x s = _ |- ?n1 _ _ = _ => apply H
   | |- (match ?d with _ => _ end) _ = _ => destruct d
   | |- (if ?d then _ else _) _ = _ => destruct d end].

(** * Stages with equal continuations *)
Lemma set_stage_ext b n1 n2 self k v s : (forall x k v s, n1 x k v s = n2 x k v s) -> set_stage b n1 self k v s = set_stage b n2 self k v s.
Proof. intros H. destruct b; cbn [set_stage]; ext. Qed.
Lemma del_stage_ext b n1 n2 self k s : (forall x k s, n1 x k s = n2 x k s) -> del_stage b n1 self k s = del_stage b n2 self k s.
Proof. intros H. destruct b; cbn [del_stage]; ext. Qed.
Lemma detach_stage_ext b n1 n2 self k s : (forall x k s, n1 x k s = n2 x k s) -> detach_stage b n1 self k s = detach_stage b n2 self k s.
Proof. intros H. destruct b; cbn [detach_stage]; ext. Qed.
Lemma init_stage_ext mk1 mk2 b n1 n2 self s : (forall cn s, mk1 cn s = mk2 cn s) -> (forall x s, n1 x s = n2 x s) -> init_stage mk1 b n1 self s = init_stage mk2 b n2 self s.
Proof.
  intros Hm H. destruct b; cbn [init_stage]; try ext.
  apply iterM_ext. intros e s0. apply bind_ext; [apply Hm|done].
Qed.

(** * Subscribers that do nothing *)
Lemma send_silent e s : send (fun _ => ret tt) e s = notify e s.
Proof. done. Qed.
Lemma set_silent all bs : forall self k v s, set_stack_h (fun _ => ret tt) all bs self k v s = set_stack all bs self k v s.
Proof.
  induction bs as [|b bs IH]; intros self k v s; [done|]. cbn [set_stack_h set_stack].
  assert (E : set_stage_h (fun _ => ret tt) b (set_stack_h (fun _ => ret tt) all bs) self k v s = set_stage b (set_stack_h (fun _ => ret tt) all bs) self k v s).
  { destruct b; try done. }
  rewrite E. by apply set_stage_ext.
Qed.
Lemma del_silent all bs : forall self k s, del_stack_h (fun _ => ret tt) all bs self k s = del_stack all bs self k s.
Proof.
  induction bs as [|b bs IH]; intros self k s; [done|]. cbn [del_stack_h del_stack].
  assert (E : del_stage_h (fun _ => ret tt) b (del_stack_h (fun _ => ret tt) all bs) self k s = del_stage b (del_stack_h (fun _ => ret tt) all bs) self k s).
  { destruct b; try done. }
  rewrite E. by apply del_stage_ext.
Qed.
Lemma setitem_silent self k v s : setitem_h (fun _ => ret tt) self k v s = setitem self k v s.
Proof. apply bind_ext; [done|]. intros o s'. apply set_silent. Qed.
Lemma delitem_silent self k s : delitem_h (fun _ => ret tt) self k s = delitem self k s.
Proof. apply bind_ext; [done|]. intros o s'. apply del_silent. Qed.
Lemma detach_silent self k s : detach_h (fun _ => ret tt) self k s = detach self k s.
Proof.
  apply bind_ext; [done|]. intros o s'. generalize (c_behs (o_cls o)). clear. intros bs. revert self k s'.
  induction bs as [|b bs IH]; intros self k s; cbn [detach_stack_h detach_stack].
  - apply bind_ext; [done|]. intros v s'. apply bind_ext; [apply delitem_silent|done].
  - assert (E : forall n, detach_stage_h (fun _ => ret tt) b n self k s = detach_stage b n self k s) by (intros n; by destruct b).
    rewrite E. by apply detach_stage_ext.
Qed.
Lemma instantiate_silent f : forall cn name parent s, instantiate_h (fun _ => ret tt) f cn name parent s = instantiate f cn name parent s.
Proof.
  induction f as [|f IH]; intros cn name parent s; [done|]. cbn [instantiate_h instantiate].
  apply bind_ext; [done|]. intros c s1. apply bind_ext; [done|]. intros x s2. apply bind_ext; [|done].
  generalize (c_behs c) at 1 3 as all. generalize (c_behs c) as bs. clear -IH. intros bs all. revert x s2.
  induction bs as [|b bs IHb]; intros x s; [done|]. cbn [init_stack_h init_stack].
  assert (E : forall mk n, init_stage_h (fun _ => ret tt) mk b n x s = init_stage mk b n x s) by (intros mk n; by destruct b).
  rewrite E. apply init_stage_ext; [intros; apply IH|intros; apply IHb].
Qed.

(** * Other stages do not care *)
Definition keeps_np (s s' : st) : Prop := forall y o, nodes s !! y = Some o -> exists o', nodes s' !! y = Some o' /\ o_name o' = o_name o /\ o_parent o' = o_parent o.
Definition kn {A} (m : M A) : Prop := forall s, keeps_np s (snd (m s)).
Lemma np_refl s : keeps_np s s.
Proof. intros y o H. eauto. Qed.
Lemma np_trans s s1 s2 : keeps_np s s1 -> keeps_np s1 s2 -> keeps_np s s2.
Proof. intros H1 H2 y o Hy. destruct (H1 y o Hy) as (o1 & A & B & C). destruct (H2 y o1 A) as (o2 & D & E & F). exists o2. split; [done|]. split; congruence. Qed.
Lemma kn_bind {A B} (m : M A) (f : A -> M B) : kn m -> (forall a, kn (f a)) -> kn (bind m f).
Proof. intros H1 H2 s. specialize (H1 s). unfold bind. destruct (m s) as [[a|e] s1]; simpl in *; [|done]. eapply np_trans; [exact H1|apply H2]. Qed.
Lemma kn_ret {A} (a : A) : kn (ret a). Proof. intros s. apply np_refl. Qed.
Lemma kn_raise {A} e : kn (@raise A e). Proof. intros s. apply np_refl. Qed.
Lemma kn_of_res {A} (r : res A) : kn (of_res r). Proof. intros s. destruct r; apply np_refl. Qed.
Lemma kn_load x : kn (load x). Proof. intros s. unfold load. destruct (nodes s !! x); apply np_refl. Qed.
Lemma kn_modify x f : (forall o, o_name (f o) = o_name o /\ o_parent (f o) = o_parent o) -> kn (modify x f).
Proof.
  intros Hf s. unfold modify. destruct (nodes s !! x) as [o|] eqn:Ho; [|apply np_refl]. intros y o' Hy. simpl.
  destruct (decide (y = x)) as [->|Hn]; [|rewrite lookup_insert_ne by done; eauto]. rewrite lookup_insert. assert (o' = o) as -> by congruence. eexists. split; [done|]. apply Hf.
Qed.
Lemma kn_nodes {A} (m : M A) : (forall s, nodes (snd (m s)) = nodes s) -> kn m.
Proof. intros H s y o Hy. rewrite H. eauto. Qed.
Lemma kn_read_dict l : kn (read_dict l). Proof. apply kn_nodes. intros s. unfold read_dict. by destruct (dicts s !! l). Qed.
Lemma kn_read_idx l : kn (read_idx l). Proof. apply kn_nodes. intros s. unfold read_idx. by destruct (idxs s !! l). Qed.
Lemma kn_write_idx l d : kn (write_idx l d). Proof. by apply kn_nodes. Qed.
Lemma kn_alloc_dict d : kn (alloc_dict d). Proof. by apply kn_nodes. Qed.
Ltac kn := repeat first [apply kn_ret | apply kn_raise | apply kn_of_res | apply kn_load | apply kn_read_dict | apply kn_read_idx | apply kn_write_idx | apply kn_alloc_dict
  | apply kn_modify; done | apply kn_bind | progress intros | match goal with |- kn (match ?d with _ => _ end) => destruct d | |- kn (if ?d then _ else _) => destruct d end].
Lemma kn_storage x : kn (storage_of x). Proof. unfold storage_of. kn. Qed.
Lemma kn_fixed x : kn (fixed_of x). Proof. unfold fixed_of. kn. Qed.
Lemma kn_index x : kn (index_of x). Proof. unfold index_of. kn. Qed.
Lemma kn_iter_override bs x : kn (iter_override bs x).
Proof. induction bs as [|b bs IH]; [apply kn_raise|]. destruct b; cbn [iter_override]; try exact IH; kn; try apply kn_storage; kn. Qed.
Lemma kn_iter_stack all bs x : kn (iter_stack all bs x).
Proof.
  induction bs as [|b bs IH]; cbn [iter_stack].
  - unfold iter_endpoint. destruct (hasc FixedChildren all); [|apply kn_iter_override]. apply kn_bind; [apply kn_fixed|]. kn.
  - destruct b; cbn [iter_stage]; try exact IH. apply kn_bind; [exact IH|]. kn.
Qed.
Lemma kn_iterkeys x : kn (iterkeys x).
Proof. unfold iterkeys. apply kn_bind; [apply kn_load|]. intros o. destruct (has _ _); [kn|]. unfold iter. apply kn_bind; [kn|]. intros. apply kn_iter_stack. Qed.

(** A stage of [set_stage] before the rest either raises or goes on to the rest, whatever that is;
    names and parents are as they were. *)
Definition passes {A} (run : (nat -> key -> val -> M A) -> res A * st) (self : nat) (k : key) (v : val) (s : st) : Prop :=
  (exists e s', forall n, run n = (Exc e, s')) \/ (exists s', (forall n, run n = n self k v s') /\ keeps_np s s').
Lemma passes_bind {B A} (m : M B) (f : B -> (nat -> key -> val -> M A) -> M A) self k v s : kn m ->
  (forall b s', m s = (Ret b, s') -> passes (fun n => f b n s') self k v s') -> passes (fun n => bind m (fun b => f b n) s) self k v s.
Proof.
  intros Hm Hf. specialize (Hm s). unfold passes, bind in *. destruct (m s) as [[b|e] s1]; simpl in Hm.
  - destruct (Hf b s1 eq_refl) as [H|(s' & H & K)]; [by left|]. right. exists s'. split; [done|]. by eapply np_trans.
  - left. eauto.
Qed.
Lemma passes_next {A} self k v s : passes (A := A) (fun n => n self k v s) self k v s.
Proof. right. exists s. split; [done|apply np_refl]. Qed.
Lemma passes_raise {A} e self k v s : passes (A := A) (fun n => (Exc e, s)) self k v s.
Proof. left. eauto. Qed.
Lemma set_stage_passes b self k v s : tree_beh b = true -> b <> Lifecycle -> (b = Adopt -> is_node v = false) -> (b = Nodespaces -> res_key k = false) ->
  passes (fun n => set_stage b n self k v s) self k v s.
Proof.
  intros Ht Hl Ha Hn. destruct b; try done; cbn [set_stage]; try apply passes_next.
  - specialize (Ha eq_refl). destruct v; try done; apply passes_next.
  - apply passes_bind; [kn|]. intros o s1 _. destruct (negb (o_allow o) && is_class v); [apply passes_raise|]. destruct (negb (o_allow o) && negb (is_node v)); [apply passes_raise|apply passes_next].
  - specialize (Hn eq_refl). destruct k; try apply passes_raise. simpl in Hn. rewrite Hn. apply passes_next.
  - destruct v; try apply passes_next. apply passes_bind; [apply kn_iterkeys|]. intros ks s1 _.
    apply passes_bind; [destruct ks; [kn|]; repeat (apply kn_bind; [apply kn_index || apply kn_read_idx|intros ?]); kn|]. intros [] s2 _.
    apply passes_bind; [apply kn_index|]. intros i s3 _. apply passes_bind; [kn|]. intros mi s4 _.
    apply passes_bind; [apply kn_index|]. intros j s5 _. apply passes_bind; [kn|]. intros mj s6 _.
    apply passes_bind; [kn|]. intros [] s7 _. apply passes_bind; [kn|]. intros [] s8 _. apply passes_next.
Qed.

(** * Assignment *)
Definition no_events (bs : list behavior) : Prop := Lifecycle ∉ bs /\ AttributesLifecycle ∉ bs.
Lemma set_stack_quiet h all bs : no_events bs -> forall self k v s, set_stack_h h all bs self k v s = set_stack all bs self k v s.
Proof.
  induction bs as [|b bs IH]; intros [H1 H2] self k v s; [done|]. apply not_elem_of_cons in H1 as [N1 H1]. apply not_elem_of_cons in H2 as [N2 H2]. cbn [set_stack_h set_stack].
  assert (E : forall n, set_stage_h h b n self k v s = set_stage b n self k v s) by (intros n; by destruct b).
  rewrite E. apply set_stage_ext. by apply IH.
Qed.
(** what comes after a successful assignment *)
Definition tell (h : event -> M unit) (x : nat) (e : event) : M unit := let! o := load x in if o_suppress o then ret tt else h e.
Lemma tell_log h x e f s : tell h x e (set_log f s) = (let! o := load x in if o_suppress o then ret tt else h e) (set_log f s).
Proof. done. Qed.
Lemma set_life h all post self k v s : no_events post ->
  set_stack_h h all (Lifecycle :: post) self k v s = (do! set_stack all (Lifecycle :: post) self k v in tell h self (EvAdded v self k)) s.
Proof.
  intros Hp. cbn [set_stack_h set_stack set_stage_h set_stage]. rewrite bind_assoc. apply bind_ext; [by apply set_stack_quiet|].
  intros [] s1. rewrite bind_assoc. unfold tell, bind, load. destruct (nodes s1 !! self) as [o|] eqn:Ho; [|done]. destruct (o_suppress o) eqn:Hs.
  - simpl. rewrite Ho, Hs. done.
  - unfold send, bind, notify. simpl. rewrite Ho, Hs. done.
Qed.
Lemma set_through h all pre post self k v : forallb tree_beh pre = true -> no_events pre -> no_events post -> (Adopt ∈ pre -> is_node v = false) -> (Nodespaces ∈ pre -> res_key k = false) ->
  forall s, set_stack_h h all (pre ++ Lifecycle :: post) self k v s = (do! set_stack all (pre ++ Lifecycle :: post) self k v in tell h self (EvAdded v self k)) s.
Proof.
  intros Ht [H1 _] Hpost. revert Ht H1. induction pre as [|b pre IH]; intros Ht H1 Ha Hn s; [by apply set_life|].
  simpl in Ht. apply andb_true_iff in Ht as [Hb Ht]. apply not_elem_of_cons in H1 as [N1 H1]. cbn [app set_stack_h set_stack].
  assert (E : forall n, set_stage_h h b n self k v s = set_stage b n self k v s) by (intros n; by destruct b).
  rewrite E. destruct (set_stage_passes b self k v s) as [(e & s' & P)|(s' & P & _)]; try done.
  { intros ->. apply Ha. by left. } { intros ->. apply Hn. by left. }
  - unfold bind. by rewrite !P.
  - rewrite P. rewrite IH; [|done|done|intros ?; apply Ha; by right|intros ?; apply Hn; by right]. unfold bind. by rewrite P.
Qed.
(** Adopt before Lifecycle *)
Definition take_back (c : nat) (n : key) (p : option nat) (e : exc) : M unit :=
  if adopt_catches e then do! modify c (with_name n) in do! modify c (with_parent p) in raise e else raise e.
Lemma set_back h all pre mid post self k c o : forallb tree_beh (pre ++ mid) = true -> no_events (pre ++ mid) -> no_events post -> Adopt ∉ pre ++ mid ->
  (Nodespaces ∈ pre ++ mid -> res_key k = false) -> forall s, nodes s !! c = Some o -> forall n p, o_name o = n -> o_parent o = p ->
  set_stack_h h all (pre ++ Adopt :: mid ++ Lifecycle :: post) self k (VNode c) s =
  (do! set_stack all (pre ++ Adopt :: mid ++ Lifecycle :: post) self k (VNode c) in
   try_catch (tell h self (EvAdded (VNode c) self k)) (fun _ => true) (take_back c n p)) s.
Proof.
  intros Ht Hne Hpost Ha Hn s Hc n p Ho1 Ho2. revert s o Hc Ho1 Ho2. induction pre as [|b pre IH]; intros s o Hc Ho1 Ho2.
  - cbn [app set_stack_h set_stack set_stage_h set_stage] in *. rewrite !bind_assoc, !(bind_load _ _ _ _ Hc), !bind_assoc, !(bind_modify _ _ _ _ _ Hc).
    assert (Hc1 : nodes (set_nodes <[c:=with_name k o]> s) !! c = Some (with_name k o)) by (simpl; by rewrite lookup_insert).
    rewrite !bind_assoc, !(bind_modify _ _ _ _ _ Hc1). set (s2 := set_nodes _ (set_nodes _ s)). clearbody s2. clear -Ht Hne Hpost Ha Hn Ho1 Ho2.
    unfold try_catch, bind at 1. rewrite set_through; [|done|done|done|done|done]. unfold bind.
    destruct (set_stack all (mid ++ Lifecycle :: post) self k (VNode c) s2) as [[[]|e] s3].
    + destruct (tell h self (EvAdded (VNode c) self k) s3) as [[[]|e] s4]; [done|]. unfold take_back. rewrite Ho1, Ho2. by destruct (adopt_catches e).
    + destruct (adopt_catches e); [|done]. unfold bind. destruct (modify c (with_name (o_name o)) s3) as [[[]|?] ?]; [|done]. by destruct (modify c (with_parent (o_parent o)) s) as [[[]|?] ?].
  - simpl in Ht. apply andb_true_iff in Ht as [Hb Ht]. destruct Hne as [H1 H2]. simpl in H1, H2. apply not_elem_of_cons in H1 as [N1 H1]. apply not_elem_of_cons in H2 as [N2 H2].
    simpl in Ha. apply not_elem_of_cons in Ha as [N3 Ha]. cbn [app set_stack_h set_stack].
    assert (E : forall n, set_stage_h h b n self k (VNode c) s = set_stage b n self k (VNode c) s) by (intros m; by destruct b).
    rewrite E. destruct (set_stage_passes b self k (VNode c) s) as [(e & s' & P)|(s' & P & K)]; try done.
    { intros ->. apply Hn. by left. }
    + unfold bind. by rewrite !P.
    + destruct (K c o Hc) as (o' & Hc' & E1 & E2). rewrite P. erewrite IH; [|done|done|done|intros ?; apply Hn; by right|exact Hc'|congruence|congruence]. unfold bind. by rewrite P.
Qed.

(** * Deletion *)
Definition goes_on {N A} (run : N -> res A * st) (last : N -> st -> res A * st) : Prop :=
  (exists e s', forall n, run n = (Exc e, s')) \/ (exists s', forall n, run n = last n s').
Lemma goes_bind {N A B} (m : M B) (f : B -> N -> M A) last s :
  (forall b s', m s = (Ret b, s') -> goes_on (fun n => f b n s') last) -> goes_on (fun n => bind m (fun b => f b n) s) last.
Proof. intros Hf. unfold goes_on, bind in *. destruct (m s) as [[b|e] s1]; [by apply Hf|left; eauto]. Qed.
Lemma del_stage_goes b self k s : tree_beh b = true -> b <> Lifecycle -> (b = Nodespaces -> res_key k = false) ->
  goes_on (fun n => del_stage b n self k s) (fun n s' => n self k s').
Proof.
  assert (N : forall s', goes_on (fun n : nat -> key -> M unit => n self k s') (fun n s' => n self k s')) by (intros s'; right; eauto).
  intros Ht Hl Hn. destruct b; try done; cbn [del_stage]; try apply N.
  - specialize (Hn eq_refl). destruct k; try (left; eexists _, _; done). simpl in Hn. rewrite Hn. apply N.
  - apply goes_bind. intros v s1 _. apply goes_bind. intros [] s2 _. apply N.
Qed.
Lemma del_stack_quiet h all bs : no_events bs -> forall self k s, del_stack_h h all bs self k s = del_stack all bs self k s.
Proof.
  induction bs as [|b bs IH]; intros [H1 H2] self k s; [done|]. apply not_elem_of_cons in H1 as [N1 H1]. apply not_elem_of_cons in H2 as [N2 H2]. cbn [del_stack_h del_stack].
  assert (E : forall n, del_stage_h h b n self k s = del_stage b n self k s) by (intros n; by destruct b).
  rewrite E. apply del_stage_ext. by apply IH.
Qed.
(** what the subscribers are told after a deletion is what the log says *)
Lemma del_through h all pre post self k : forallb tree_beh pre = true -> no_events pre -> no_events post -> (Nodespaces ∈ pre -> res_key k = false) ->
  forall s, exists v,
    (forall s1, del_stack all (pre ++ Lifecycle :: post) self k s = (Ret tt, s1) -> suppressed s1 self = false -> exists l, log s1 = l ++ [EvRemoved v self k]) /\
    del_stack_h h all (pre ++ Lifecycle :: post) self k s = (do! del_stack all (pre ++ Lifecycle :: post) self k in tell h self (EvRemoved v self k)) s.
Proof.
  intros Ht [H1 _] Hpost. revert Ht H1. induction pre as [|b pre IH]; intros Ht H1 Hn s.
  - cbn [app del_stack_h del_stack del_stage_h del_stage]. destruct (getitem self k s) as [[v|e] s1] eqn:E.
    + exists v. rewrite !bind_assoc, !(bind_Ret _ _ _ _ _ E). split.
      * intros s2. unfold bind at 1. destruct (del_stack all post self k s1) as [[[]|e] s3]; [|done]. unfold bind, load. destruct (nodes s3 !! self) as [o|] eqn:Ho; [|done].
        destruct (o_suppress o) eqn:Hs; intros [= <-]; unfold suppressed; simpl; rewrite Ho; [congruence|]. intros _. by eexists.
      * rewrite bind_assoc. apply bind_ext; [by apply del_stack_quiet|]. intros [] s2. rewrite bind_assoc. unfold tell, bind, load.
        destruct (nodes s2 !! self) as [o|] eqn:Ho; [|done]. destruct (o_suppress o) eqn:Hs.
        -- simpl. rewrite Ho, Hs. done.
        -- unfold send, bind, notify. simpl. rewrite Ho, Hs. done.
    + exists VNone. unfold bind. rewrite E. split; [|done]. intros s2. done.
  - simpl in Ht. apply andb_true_iff in Ht as [Hb Ht]. apply not_elem_of_cons in H1 as [N1 H1]. cbn [app del_stack_h del_stack].
    assert (E : forall n, del_stage_h h b n self k s = del_stage b n self k s) by (intros n; by destruct b).
    destruct (del_stage_goes b self k s) as [(e & s' & P)|(s' & P)]; try done.
    { intros ->. apply Hn. by left. }
    + exists VNone. rewrite E. unfold bind. rewrite !P. split; [|done]. intros s2. done.
    + destruct (IH Ht H1) with (s := s') as (v & L & R); [intros ?; apply Hn; by right|]. exists v. rewrite E. split.
      * intros s1. rewrite P. apply L.
      * rewrite P, R. unfold bind. by rewrite P.
Qed.

(** * Detaching *)
Lemma detach_stage_at b n1 n2 self k s : b <> Lifecycle -> n1 self k s = n2 self k s -> detach_stage b n1 self k s = detach_stage b n2 self k s.
Proof. intros Hb H. destruct b; cbn [detach_stage]; try done. by apply bind_ext. Qed.
Lemma delitem_suppressed h x k s cls pre post : (x < next_id s)%nat -> class_of s x = Some cls -> suppressed s x = true -> c_behs cls = pre ++ Lifecycle :: post ->
  forallb tree_beh pre = true -> no_events pre -> no_events post -> (Nodespaces ∈ pre -> res_key k = false) -> delitem_h h x k s = delitem x k s.
Proof.
  intros Hx Hc Hs Hb Ht H1 H2 Hn. unfold class_of in Hc. destruct (nodes s !! x) as [o|] eqn:Ho; [|done]. injection Hc as Hc.
  unfold delitem_h. rewrite (bind_load _ _ _ _ Ho). pose proof (ks_delitem x k s) as Q. unfold delitem in *. rewrite (bind_load _ _ _ _ Ho) in *. rewrite Hc in *.
  assert (E0 : del_stack_h h (c_behs cls) (c_behs cls) x k s = del_stack_h h (c_behs cls) (pre ++ Lifecycle :: post) x k s) by (by rewrite <- Hb). rewrite E0.
  destruct (del_through h (c_behs cls) pre post x k Ht H1 H2 Hn s) as (v & _ & ->). unfold bind.
  assert (E : del_stack (c_behs cls) (pre ++ Lifecycle :: post) x k s = del_stack (c_behs cls) (c_behs cls) x k s) by (by rewrite <- Hb). rewrite E in *.
  destruct (del_stack (c_behs cls) (c_behs cls) x k s) as [[[]|e] s1]; [|done].
  simpl in Q. destruct Q as [_ Q]. destruct (Q x Hx) as [Q1 _]. rewrite Ho in Q1. unfold tell, bind, load. destruct (nodes s1 !! x) as [o1|]; [|done].
  simpl in Q1. injection Q1 as ->. unfold suppressed in Hs. rewrite Ho in Hs. by rewrite Hs.
Qed.
Lemma detach_quiet h x k cls pre post : c_behs cls = pre ++ Lifecycle :: post -> forallb tree_beh pre = true -> no_events pre -> no_events post -> (Nodespaces ∈ pre -> res_key k = false) ->
  forall bs s, Lifecycle ∉ bs -> (x < next_id s)%nat -> class_of s x = Some cls -> suppressed s x = true -> detach_stack_h h bs x k s = detach_stack bs x k s.
Proof.
  intros Hb Ht H1 H2 Hn bs. induction bs as [|b bs IH]; intros s Hl Hx Hc Hs; cbn [detach_stack_h detach_stack].
  - unfold detach_endpoint, bind at 1 3. pose proof (ks_getitem x k s) as [L Q]. destruct (Q x Hx) as [Q1 Q2]. destruct (getitem x k s) as [[v|e] s1]; [|done]. simpl in *.
    apply bind_ext; [|done]. apply (delitem_suppressed h x k s1 cls pre post); try done; [lia| |].
    + unfold class_of in *. by rewrite Q2.
    + unfold suppressed in *. destruct (nodes s !! x), (nodes s1 !! x); try done. simpl in Q1. congruence.
  - apply not_elem_of_cons in Hl as [N Hl].
    assert (E : forall n, detach_stage_h h b n x k s = detach_stage b n x k s) by (intros n; by destruct b).
    rewrite E. apply detach_stage_at; [done|]. by apply IH.
Qed.
Lemma detach_through h x k cls pre post s : (x < next_id s)%nat -> class_of s x = Some cls -> c_behs cls = pre ++ Lifecycle :: post -> forallb tree_beh pre = true -> Reference ∉ pre ->
  no_events pre -> no_events post -> (Nodespaces ∈ pre -> res_key k = false) ->
  detach_h h x k s = (let! v := detach x k in do! h (EvDetached v x k) in ret v) s.
Proof.
  intros Hx Hc Hb Ht Hr H1 H2 Hn. pose proof Hc as Hc0. unfold class_of in Hc. destruct (nodes s !! x) as [o|] eqn:Ho; [|done]. injection Hc as Hc.
  unfold detach_h, detach. rewrite bind_assoc, !(bind_load _ _ _ _ Ho), Hc, Hb.
  assert (P : forall l, (forall b, b ∈ l -> b ∈ pre) -> forall g, detach_stack_h g (l ++ Lifecycle :: post) x k s = detach_stack_h g (Lifecycle :: post) x k s /\
     detach_stack (l ++ Lifecycle :: post) x k s = detach_stack (Lifecycle :: post) x k s).
  { induction l as [|b l IH]; intros Hl g; [done|]. destruct (IH ltac:(intros b0 Hb0; apply Hl; by right) g) as [E1 E2]. cbn [app detach_stack_h detach_stack].
    assert (Hbp : b ∈ pre) by (apply Hl; by left). assert (b <> Lifecycle) by (intros ->; by destruct H1). assert (b <> Reference) by congruence.
    assert (tree_beh b = true) by (rewrite forallb_forall in Ht; by apply Ht, elem_of_list_In).
    split; destruct b; done. }
  destruct (P pre ltac:(done) h) as [E1 E2]. rewrite E1. unfold bind at 1. rewrite E2. cbn [detach_stack_h detach_stack detach_stage_h detach_stage].
  rewrite !(bind_modify _ _ _ _ _ Ho). set (s1 := set_nodes _ s).
  assert (Q : detach_stack_h h post x k s1 = detach_stack post x k s1).
  { apply (detach_quiet h x k cls pre post); try done; [apply H2| |].
    - unfold class_of, s1. simpl. by rewrite lookup_insert, <- Hc.
    - unfold suppressed, s1. simpl. by rewrite lookup_insert. }
  clearbody s1. unfold bind, send. rewrite Q. destruct (detach_stack post x k s1) as [[v|e] s2]; [|done].
  destruct (modify x (with_suppress false) s2) as [[[]|e] s3]; [|done]. done.
Qed.

(** * Creation *)
Lemma init_stage_goes mk b self s : tree_beh b = true -> b <> Lifecycle -> b <> UUIDAware -> goes_on (fun n => init_stage mk b n self s) (fun n s' => n self s').
Proof.
  assert (N : forall s', goes_on (fun n : nat -> M unit => n self s') (fun n s' => n self s')) by (intros s'; right; eauto).
  intros Ht Hl Hu. destruct b; try done; cbn [init_stage]; try apply N. do 4 (apply goes_bind; intros ? ? _). apply N.
Qed.
Lemma init_stack_quiet h mk mk' all bs n p : forallb tree_beh bs = true -> Lifecycle ∉ bs -> forall x s, init_stack_h h mk all bs n p x s = init_stack mk' all bs n p x s.
Proof.
  induction bs as [|b bs IH]; intros Ht H1 x s; [done|]. simpl in Ht. apply andb_true_iff in Ht as [Hb Ht]. apply not_elem_of_cons in H1 as [N1 H1]. cbn [init_stack_h init_stack].
  specialize (IH Ht H1). assert (E : forall g, init_stage_h h mk b g x s = init_stage mk' b g x s) by (intros g; by destruct b).
  rewrite E. by apply init_stage_ext.
Qed.
Lemma init_through h mk mk' all pre post n p x : forallb tree_beh (pre ++ post) = true -> UUIDAware ∉ pre -> Lifecycle ∉ pre -> Lifecycle ∉ post ->
  forall s, init_stack_h h mk all (pre ++ Lifecycle :: post) n p x s = (do! init_stack mk' all (pre ++ Lifecycle :: post) n p x in h (EvCreated x)) s.
Proof.
  rewrite forallb_app, andb_true_iff. intros [Ht Hp] Hu H1 H2. revert Ht Hu H1. induction pre as [|b pre IH]; intros Ht Hu H1 s.
  - cbn [app init_stack_h init_stack init_stage_h init_stage]. rewrite bind_assoc. apply bind_ext; [by apply init_stack_quiet|done].
  - simpl in Ht. apply andb_true_iff in Ht as [Hb Ht]. apply not_elem_of_cons in H1 as [N1 H1]. apply not_elem_of_cons in Hu as [N2 Hu]. cbn [app init_stack_h init_stack].
    assert (E : forall g, init_stage_h h mk b g x s = init_stage mk' b g x s) by (intros g; by destruct b).
    rewrite E. destruct (init_stage_goes mk' b x s) as [(e & s' & P)|(s' & P)]; try done.
    + unfold bind. by rewrite !P.
    + rewrite P, IH by done. unfold bind. by rewrite P.
Qed.
Lemma new_through h cn n p s cls pre post : classes s !! cn = Some cls -> c_behs cls = pre ++ Lifecycle :: post -> forallb tree_beh (c_behs cls) = true -> UUIDAware ∉ pre ->
  Lifecycle ∉ pre -> Lifecycle ∉ post -> new_node_h h cn n p s = (let! x := new_node cn n p in do! h (EvCreated x) in ret x) s.
Proof.
  intros Hc Hb Ht Hu H1 H2. unfold new_node_h. unfold bind at 1. unfold new_node. cbn [instantiate_h instantiate].
  assert (E : get_class cn s = (Ret cls, s)) by (unfold get_class; by rewrite Hc). rewrite !(bind_Ret _ _ _ _ _ E).
  unfold bind, alloc_node. rewrite Hb in *.
  rewrite (init_through h _ (fun cn0 => instantiate (size (classes s)) cn0 KNone None)); [|rewrite forallb_app in *; simpl in Ht; by rewrite !andb_true_iff in *|done..].
  unfold bind. destruct (init_stack _ _ _ _ _ _ _) as [[[]|e] s2]; done.
Qed.

(** * Attributes: the modified event of the owner *)
Definition tell_modified (h : event -> M unit) (x : nat) : M unit :=
  let! o := load x in
  match o_parent o with
  | None => raise AttributeError
  | Some p => let! po := load p in if has Lifecycle po then if o_suppress po then ret tt else h (EvModified p) else raise AttributeError
  end.
Lemma send_modified_twice h x s : send_modified h x s = (do! notify_modified x in tell_modified h x) s.
Proof.
  unfold send_modified, notify_modified, tell_modified, send, bind, load. destruct (nodes s !! x) as [o|] eqn:Ho; [|done].
  destruct (o_parent o) as [p|] eqn:Hp; [|done]. destruct (nodes s !! p) as [po|] eqn:Hpo; [|done].
  destruct (has Lifecycle po) eqn:Hl; [|done]. destruct (o_suppress po) eqn:Hs; simpl; rewrite Ho, Hp; cbn [nodes set_log]; by rewrite Hpo, Hl, Hs.
Qed.
Lemma plain_events bs : forallb plain_beh bs = true -> no_events bs.
Proof.
  rewrite forallb_forall. intros H. split; intros Hi; apply elem_of_list_In, H in Hi; done.
Qed.
Lemma set_modified h all pre post x k v : forallb plain_beh pre = true -> forallb plain_beh post = true -> (Adopt ∈ pre -> is_node v = false) ->
  forall s, set_stack_h h all (pre ++ AttributesLifecycle :: post) x k v s = (do! set_stack all (pre ++ AttributesLifecycle :: post) x k v in tell_modified h x) s.
Proof.
  intros Hpre Hpost. apply plain_events in Hpost. revert Hpre. induction pre as [|b pre IH]; intros Hpre Ha s.
  - cbn [app set_stack_h set_stack set_stage_h set_stage]. rewrite bind_assoc. apply bind_ext; [by apply set_stack_quiet|]. intros [] s1. apply send_modified_twice.
  - simpl in Hpre. apply andb_true_iff in Hpre as [Hb Hpre]. cbn [app set_stack_h set_stack].
    assert (E : forall g, set_stage_h h b g x k v s = set_stage b g x k v s) by (intros g; by destruct b).
    assert (Hp : passes (fun n => set_stage b n x k v s) x k v s).
    { destruct b; try done; cbn [set_stage]; try apply passes_next.
      - specialize (Ha ltac:(by left)). destruct v; try done; apply passes_next.
      - unfold bind, load. destruct (nodes s !! x) as [o|]; [|apply passes_raise]. destruct (_ && _); [apply passes_raise|]. destruct (_ && _); [apply passes_raise|]. apply passes_next. }
    rewrite E. destruct Hp as [(e & s' & P)|(s' & P & _)].
    + unfold bind. by rewrite !P.
    + rewrite P, IH; [|done|intros Hi; apply Ha; by right]. unfold bind. by rewrite P.
Qed.
Lemma del_modified h all pre post x k : forallb plain_beh pre = true -> forallb plain_beh post = true ->
  forall s, del_stack_h h all (pre ++ AttributesLifecycle :: post) x k s = (do! del_stack all (pre ++ AttributesLifecycle :: post) x k in tell_modified h x) s.
Proof.
  intros Hpre Hpost. apply plain_events in Hpost. revert Hpre. induction pre as [|b pre IH]; intros Hpre s.
  - cbn [app del_stack_h del_stack del_stage_h del_stage]. rewrite bind_assoc. apply bind_ext; [by apply del_stack_quiet|]. intros [] s1. apply send_modified_twice.
  - simpl in Hpre. apply andb_true_iff in Hpre as [Hb Hpre]. specialize (IH Hpre s). destruct b; try done.
Qed.
