(** Proofs about locking. *)
From Verif Require Import Py Lock SpecLock.
From stdpp Require Import list.

Definition is_rel (l : nat) (f : frame) : bool := match f with KRelease l' _ => bool_decide (l' = l) | _ => false end.
Definition rels (l : nat) (K : list frame) : nat := length (List.filter (is_rel l) K).
Lemma rels_cons l f K : rels l (f :: K) = (if is_rel l f then 1 else 0) + rels l K.
Proof. unfold rels. simpl. by destruct (is_rel l f). Qed.
Definition rels_of (c : cfg) (t l : nat) : nat := match g_thr c !! t with Some (K, _) => rels l K | None => 0 end.
Record linv (c : cfg) : Prop := LInv {
  li_count : forall t l, holds c t l = rels_of c t l;
  li_pos : forall l o k, g_held c !! l = Some (o, k) -> 1 <= k;
  li_mode : forall t K m, g_thr c !! t = Some (K, m) -> m <> RuntimeErr
}.
Lemma rels_of_insert rt a h nx thr t x t' l :
  rels_of (Cfg rt a h nx (<[t := x]> thr)) t' l = if decide (t' = t) then rels l (fst x) else match thr !! t' with Some (K, _) => rels l K | None => 0 end.
Proof. unfold rels_of. simpl. case_decide; [subst; rewrite lookup_insert; by destruct x|by rewrite lookup_insert_ne]. Qed.
Lemma linv_put rt a nx c t K m : linv c -> (forall l, rels l K = rels_of c t l) -> m <> RuntimeErr ->
  linv (Cfg rt a (g_held c) nx (<[t := (K, m)]> (g_thr c))).
Proof.
  intros [I1 I2 I3] H Hm. split; simpl; [|done|].
  - intros t' l. rewrite rels_of_insert. change (holds _ t' l) with (holds c t' l). rewrite I1. case_decide; [subst; simpl; by rewrite H|done].
  - intros t' K' m'. rewrite lookup_insert_Some. intros [[_ [= _ <-]]|[_ H']]; eauto.
Qed.
Lemma acquire_inv t l h h' : acquire t l h = Some h' -> forall c, linv c -> g_held c = h ->
  (forall l' o k, h' !! l' = Some (o, k) -> 1 <= k) /\
  forall t' l', match h' !! l' with Some (o, k) => if decide (o = t') then k else 0 | None => 0 end =
     holds c t' l' + (if decide (t' = t /\ l' = l) then 1 else 0).
Proof.
  intros E c I Eh. unfold acquire in E. unfold holds. rewrite Eh. pose proof (li_pos c I) as Hp. rewrite Eh in Hp.
  destruct (h !! l) as [[o k]|] eqn:El; [case_decide; [subst o|done]|]; injection E as <-; (split;
  [intros l' o' k'; rewrite lookup_insert_Some; intros [[_ [= _ <-]]|[_ H]]; [lia|eauto]|]).
  - intros t' l'. destruct (decide (l' = l)) as [->|Hl].
    + rewrite lookup_insert, El. destruct (decide (t' = t)) as [->|Ht]; [rewrite !decide_True by done; lia|]. rewrite !decide_False by naive_solver. done.
    + rewrite lookup_insert_ne by done. rewrite (decide_False (P := _ /\ _)) by naive_solver. lia.
  - intros t' l'. destruct (decide (l' = l)) as [->|Hl].
    + rewrite lookup_insert, El. destruct (decide (t' = t)) as [->|Ht]; [rewrite !decide_True by done; lia|]. rewrite !decide_False by naive_solver. done.
    + rewrite lookup_insert_ne by done. rewrite (decide_False (P := _ /\ _)) by naive_solver. lia.
Qed.
Lemma release_inv t l c : linv c -> 1 <= holds c t l -> exists h', release t l (g_held c) = Some h' /\
  (forall l' o k, h' !! l' = Some (o, k) -> 1 <= k) /\
  forall t' l', match h' !! l' with Some (o, k) => if decide (o = t') then k else 0 | None => 0 end =
     holds c t' l' - (if decide (t' = t /\ l' = l) then 1 else 0).
Proof.
  intros I Hh. unfold release. pose proof (li_pos c I) as Hp. unfold holds in *.
  destruct (g_held c !! l) as [[o k]|] eqn:El; [|lia]. destruct (decide (o = t)) as [->|]; [|lia]. destruct k as [|k]; [lia|].
  eexists. split; [done|]. destruct k as [|k].
  - split. { intros l' o' k'. rewrite lookup_delete_Some. intros [_ H]. eauto. }
    intros t' l'. destruct (decide (l' = l)) as [->|Hl].
    + rewrite lookup_delete, El. destruct (decide (t' = t)) as [->|]; [by rewrite !decide_True by done|]. by rewrite !decide_False by naive_solver.
    + rewrite lookup_delete_ne by done. rewrite (decide_False (P := _ /\ _)) by naive_solver. lia.
  - split. { intros l' o' k'. rewrite lookup_insert_Some. intros [[_ [= _ <-]]|[_ H]]; [lia|eauto]. }
    intros t' l'. destruct (decide (l' = l)) as [->|Hl].
    + rewrite lookup_insert, El. destruct (decide (t' = t)) as [->|]; [rewrite !decide_True by done; lia|]. by rewrite !decide_False by naive_solver.
    + rewrite lookup_insert_ne by done. rewrite (decide_False (P := _ /\ _)) by naive_solver. lia.
Qed.
Lemma release_step c t l n K m : linv c -> g_thr c !! t = Some (KRelease l n :: K, m) ->
  exists h, lstep t c = Some (Cfg (g_root c) (g_attr c) h (g_next c) (<[t := (K, m)]> (g_thr c))) /\
    linv (Cfg (g_root c) (g_attr c) h (g_next c) (<[t := (K, m)]> (g_thr c))) /\
    holds c t l = S (holds (Cfg (g_root c) (g_attr c) h (g_next c) (<[t := (K, m)]> (g_thr c))) t l) /\
    forall t' l', (t', l') <> (t, l) -> holds (Cfg (g_root c) (g_attr c) h (g_next c) (<[t := (K, m)]> (g_thr c))) t' l' = holds c t' l'.
Proof.
  intros I Ht. assert (Hr : rels_of c t l = S (rels l K)).
  { unfold rels_of. rewrite Ht, rels_cons. simpl. by rewrite bool_decide_eq_true_2. }
  assert (Hh : holds c t l = S (rels l K)) by (by rewrite (li_count c I)).
  destruct (release_inv t l c I) as (h & E & Hp & Hc); [lia|]. exists h.
  assert (E' : lstep t c = Some (Cfg (g_root c) (g_attr c) h (g_next c) (<[t := (K, m)]> (g_thr c)))).
  { unfold lstep. rewrite Ht. destruct m; rewrite E; done. }
  split; [done|]. split; [split|split].
  - intros t' l'. unfold holds at 1. simpl. rewrite Hc. rewrite (li_count c I). rewrite rels_of_insert. simpl.
    destruct (decide (t' = t)) as [->|Hne].
    + unfold rels_of. rewrite Ht, rels_cons. simpl. destruct (decide (l' = l)) as [->|Hl].
      * rewrite decide_True by done. rewrite bool_decide_eq_true_2 by done. lia.
      * rewrite decide_False by naive_solver. rewrite bool_decide_eq_false_2 by done. lia.
    + rewrite decide_False by naive_solver. unfold rels_of. rewrite Nat.sub_0_r. done.
  - exact Hp.
  - simpl. intros t' K' m'. rewrite lookup_insert_Some. intros [[_ [= _ <-]]|[_ H']]; eapply (li_mode c I); eauto.
  - unfold holds at 2. simpl. rewrite Hc, decide_True by done. lia.
  - intros t' l' Hne. unfold holds at 1. simpl. rewrite Hc, decide_False by naive_solver. lia.
Qed.
Lemma linv_step c t c' : linv c -> lstep t c = Some c' -> linv c'.
Proof.
  intros I E. destruct (g_thr c !! t) as [[K0 m]|] eqn:Ht; [|unfold lstep in E; by rewrite Ht in E].
  destruct K0 as [|f K]; [unfold lstep in E; rewrite Ht in E; by destruct m|].
  assert (Hrel : forall l, rels_of c t l = rels l (f :: K)) by (intros l; unfold rels_of; by rewrite Ht).
  assert (Hm : m <> RuntimeErr) by (eapply (li_mode c I); eauto).
  assert (Hd : (exists l n, f = KRelease l n) \/ ~ (exists l n, f = KRelease l n)) by (destruct f; naive_solver).
  destruct Hd as [(l & n & ->)|Hnr].
  { destruct (release_step c t l n K m I Ht) as (h & E' & I' & _). congruence. }
  assert (Hput : forall K', (forall l, rels l K' = rels l (f :: K)) -> forall rt a nx m', m' <> RuntimeErr -> linv (Cfg rt a (g_held c) nx (<[t := (K', m')]> (g_thr c)))).
  { intros K' HK rt a nx m' Hm'. apply linv_put; [done| |done]. intros l. by rewrite HK, Hrel. }
  unfold lstep in E. rewrite Ht in E. destruct m; [|destruct f; try (exfalso; naive_solver); injection E as <-; apply Hput; try done; intros l'; rewrite ?rels_cons; done|done].
  destruct f as [[|a p]|r n b|r n b|r l n b|l n b|l n|].
  - injection E as <-. by apply Hput.
  - destruct a; injection E as <-; apply Hput; done.
  - destruct (g_attr c !! r); injection E as <-; by apply Hput.
  - injection E as <-. by apply Hput.
  - injection E as <-. by apply Hput.
  - destruct (acquire t l (g_held c)) as [h|] eqn:Ea; [|done]. injection E as <-.
    destruct (acquire_inv t l (g_held c) h Ea c I eq_refl) as [Hp Hc]. split.
    + intros t' l'. unfold holds at 1. simpl. rewrite Hc. rewrite (li_count c I). rewrite rels_of_insert. simpl.
      destruct (decide (t' = t)) as [->|Hne].
      * rewrite Hrel. rewrite !rels_cons. simpl. destruct (decide (l' = l)) as [->|Hl].
        -- rewrite decide_True by done. rewrite bool_decide_eq_true_2 by done. lia.
        -- rewrite decide_False by naive_solver. rewrite bool_decide_eq_false_2 by done. lia.
      * rewrite decide_False by naive_solver. rewrite Nat.add_0_r. done.
    + exact Hp.
    + simpl. intros t' K' m'. rewrite lookup_insert_Some. intros [[_ [= _ <-]]|[_ H']]; [done|]. eapply (li_mode c I); eauto.
  - exfalso. naive_solver.
  - injection E as <-. by apply Hput.
Qed.
Lemma lreach_inv root attr next c : lreach root attr next c -> linv c.
Proof.
  induction 1 as [|c t p _ IH Ht|c t c' _ IH E].
  - split; done.
  - apply linv_put; [done| |done]. intros l. unfold rels_of. by rewrite Ht.
  - by eapply linv_step.
Qed.
Lemma rels_in l K : 1 <= rels l K <-> exists n, KRelease l n ∈ K.
Proof.
  induction K as [|f K IH]; [split; [unfold rels; simpl; lia|intros (n & H); by apply elem_of_nil in H]|].
  rewrite rels_cons. split.
  - destruct (is_rel l f) eqn:Ef.
    + intros _. destruct f; try done. simpl in Ef. apply bool_decide_eq_true in Ef as ->. eexists. left.
    + intros H. simpl in H. apply IH in H as (n & H). exists n. by right.
  - intros (n & H). apply elem_of_cons in H as [<-|H].
    + simpl. rewrite bool_decide_eq_true_2 by done. lia.
    + assert (1 <= rels l K) by (apply IH; eauto). lia.
Qed.
Lemma exclusive c l t1 t2 K1 m1 n1 K2 m2 n2 : linv c ->
  g_thr c !! t1 = Some (K1, m1) -> KRelease l n1 ∈ K1 -> g_thr c !! t2 = Some (K2, m2) -> KRelease l n2 ∈ K2 -> t1 = t2.
Proof.
  intros I H1 R1 H2 R2.
  assert (A1 : 1 <= holds c t1 l) by (rewrite (li_count c I); unfold rels_of; rewrite H1; apply rels_in; eauto).
  assert (A2 : 1 <= holds c t2 l) by (rewrite (li_count c I); unfold rels_of; rewrite H2; apply rels_in; eauto).
  unfold holds in *. destruct (g_held c !! l) as [[o k]|]; [|lia]. destruct (decide (o = t1)), (decide (o = t2)); try lia.
Qed.

(** * One tree *)
Lemma keeps_tree_all r (b : list stmt) : (fix all l := match l with [] => True | x :: q => keeps_tree r x /\ all q end) b <-> Forall (keeps_tree r) b.
Proof. induction b as [|a b IH]; [by split; [constructor|]|]. rewrite Forall_cons, <- IH. done. Qed.
(** frames of threads that respect the tree: lock l0 for its nodes *)
Definition frame_ok (r l0 : nat) (root : nat -> nat) (f : frame) : Prop :=
  match f with
  | KStmts p => Forall (keeps_tree r) p
  | KGetattr r' n b => (r' = r <-> root n = r) /\ Forall (keeps_tree r) b
  | KCreate r' n b | KStore r' _ n b => r' <> r /\ root n <> r /\ Forall (keeps_tree r) b
  | KAcquire l n b => (root n = r -> l = l0) /\ Forall (keeps_tree r) b
  | KRelease l n => root n = r -> l = l0
  | KTry => True
  end.
Definition tree_inv (r l0 : nat) (c : cfg) : Prop :=
  g_attr c !! r = Some l0 /\ forall t K m, g_thr c !! t = Some (K, m) -> Forall (frame_ok r l0 (g_root c)) K.
Lemma frame_ok_root r l0 f g fr : (forall n, g n = r <-> f n = r) -> frame_ok r l0 f fr -> frame_ok r l0 g fr.
Proof. intros H. destruct fr; simpl; rewrite ?H; done. Qed.
Lemma tree_put r l0 c rt a h nx t K m : tree_inv r l0 c -> (forall n, rt n = r <-> g_root c n = r) -> a !! r = Some l0 -> Forall (frame_ok r l0 rt) K ->
  tree_inv r l0 (Cfg rt a h nx (<[t := (K, m)]> (g_thr c))).
Proof.
  intros [T1 T2] Hr Ha HK. split; [done|]. simpl. intros t' K' m'. rewrite lookup_insert_Some. intros [[_ [= <- _]]|[_ H]]; [done|].
  eapply Forall_impl; [by eapply T2|]. intros fr. by apply frame_ok_root.
Qed.
Lemma tree_step r l0 c t c' : tree_inv r l0 c -> lstep t c = Some c' -> tree_inv r l0 c'.
Proof.
  intros T E. pose proof T as [T1 T2]. unfold lstep in E. destruct (g_thr c !! t) as [[K0 m]|] eqn:Ht; [|done].
  destruct K0 as [|f K]; [by destruct m|]. pose proof (T2 _ _ _ Ht) as HK. apply Forall_cons in HK as [Hf HK].
  destruct m.
  - destruct f as [[|a p]|r' n b|r' n b|r' l n b|l n b|l n|]; simpl in Hf.
    + injection E as <-. by apply tree_put.
    + apply Forall_cons in Hf as [Ha Hp]. destruct a as [n b|g| |e|b]; injection E as <-.
      * simpl in Ha. apply keeps_tree_all in Ha. apply tree_put; try done. repeat (constructor; [done|]); done.
      * simpl in Ha. apply tree_put; try done. constructor; [done|].
        eapply Forall_impl; [exact HK|]. intros fr. apply frame_ok_root. intros n. apply Ha.
      * apply tree_put; try done. by constructor.
      * apply tree_put; try done. by constructor.
      * simpl in Ha. apply keeps_tree_all in Ha. apply tree_put; try done. repeat (constructor; [done|]); done.
    + destruct Hf as [Hf1 Hf2]. destruct (g_attr c !! r') as [l|] eqn:Ea; injection E as <-; apply tree_put; try done; constructor; try done.
      * simpl. split; [|done]. intros Hn. apply Hf1 in Hn as ->. congruence.
      * simpl. assert (r' <> r) by congruence. naive_solver.
    + injection E as <-. apply tree_put; try done. by constructor.
    + destruct Hf as (Hf1 & Hf2 & Hf3). injection E as <-. apply tree_put; try done; [by rewrite lookup_insert_ne|]. constructor; [|done]. simpl. done.
    + destruct Hf as [Hf1 Hf2]. destruct (acquire t l (g_held c)); [|done]. injection E as <-. apply tree_put; try done. by repeat (constructor; [done|]).
    + destruct (release t l (g_held c)); injection E as <-; by apply tree_put.
    + injection E as <-. by apply tree_put.
  - destruct f; try (injection E as <-; by apply tree_put). destruct (release t l (g_held c)); injection E as <-; by apply tree_put.
  - destruct f; try (injection E as <-; by apply tree_put). destruct (release t l (g_held c)); injection E as <-; by apply tree_put.
Qed.
Lemma lreach_in_inv r root attr next l0 c : attr !! r = Some l0 -> lreach_in r root attr next c -> linv c /\ tree_inv r l0 c.
Proof.
  intros Ha. induction 1 as [|c t p _ [I T] Ht Hp|c t c' _ [I T] E].
  - split; [by split|]. by split.
  - split.
    + apply linv_put; [done| |done]. intros l. unfold rels_of. by rewrite Ht.
    + apply tree_put; try done; [apply T|]. by constructor.
  - split; [by eapply linv_step|by eapply tree_step].
Qed.
Lemma tree_exclusive r root attr next l0 c t1 t2 : attr !! r = Some l0 -> lreach_in r root attr next c ->
  inside_block c t1 (fun n => g_root c n = r) -> inside_block c t2 (fun n => g_root c n = r) -> t1 = t2.
Proof.
  intros Ha Hre (K1 & m1 & l1 & n1 & H1 & R1 & N1) (K2 & m2 & l2 & n2 & H2 & R2 & N2).
  destruct (lreach_in_inv r root attr next l0 c Ha Hre) as [I [_ T]].
  pose proof (T _ _ _ H1) as F1. pose proof (T _ _ _ H2) as F2. rewrite Forall_forall in F1. rewrite Forall_forall in F2.
  specialize (F1 _ R1 N1). specialize (F2 _ R2 N2). subst l1 l2. by eapply exclusive.
Qed.
(** ** No deadlock *)
Lemma step_or_blocked c t f K m : g_thr c !! t = Some (f :: K, m) -> (exists c', lstep t c = Some c') \/
  (m = Normal /\ exists l n b o k, f = KAcquire l n b /\ g_held c !! l = Some (o, k) /\ o <> t).
Proof.
  intros Ht. unfold lstep. rewrite Ht. destruct m.
  - destruct f as [[|[] p]|r n b|r n b|r l n b|l n b|l n|]; eauto.
    + destruct (g_attr c !! r); eauto.
    + unfold acquire. destruct (g_held c !! l) as [[o k]|] eqn:El; [|eauto]. case_decide; [eauto|]. right. split; [done|]. by exists l, n, b, o, k.
    + destruct (release t l (g_held c)); eauto.
  - destruct f; eauto. destruct (release t l (g_held c)); eauto.
  - destruct f; eauto. destruct (release t l (g_held c)); eauto.
Qed.
Lemma no_deadlock r root attr next l0 c t K m : attr !! r = Some l0 -> lreach_in r root attr next c ->
  (forall n, g_root c n = r) -> g_thr c !! t = Some (K, m) -> K <> [] -> exists t' c', lstep t' c = Some c'.
Proof.
  intros Ha Hre Hr Ht HK. destruct (lreach_in_inv r root attr next l0 c Ha Hre) as [I [_ T]].
  destruct K as [|f K]; [done|]. destruct (step_or_blocked c t f K m Ht) as [[c' E]|(-> & l & n & b & o & k & -> & Hh & Ho)]; [eauto|].
  assert (Hl : l = l0). { pose proof (T _ _ _ Ht) as F. apply Forall_cons in F as [[F _] _]. by apply F. }
  assert (Hk : 1 <= rels_of c o l). { rewrite <- (li_count c I). unfold holds. rewrite Hh, decide_True by done. by eapply (li_pos c I). }
  unfold rels_of in Hk. destruct (g_thr c !! o) as [[K' m']|] eqn:Ht'; [|lia]. destruct K' as [|f' K']; [unfold rels in Hk; simpl in Hk; lia|].
  exists o. destruct (step_or_blocked c o f' K' m' Ht') as [?|(-> & l' & n' & b' & o' & k' & -> & Hh' & Ho')]; [done|]. exfalso.
  assert (Hl' : l' = l0). { pose proof (T _ _ _ Ht') as F. apply Forall_cons in F as [[F _] _]. by apply F. }
  subst. rewrite Hh in Hh'. injection Hh' as <- <-. done.
Qed.
(** ** A tree without a lock *)
Lemma race c t1 t2 n1 n2 b1 b2 p1 p2 K1 K2 r : t1 <> t2 -> g_attr c !! r = None -> g_root c n1 = r -> g_root c n2 = r ->
  g_held c !! g_next c = None -> g_held c !! S (g_next c) = None ->
  g_thr c !! t1 = Some (KStmts (Locked n1 b1 :: p1) :: K1, Normal) -> g_thr c !! t2 = Some (KStmts (Locked n2 b2 :: p2) :: K2, Normal) ->
  exists ts c', sched ts c = Some c' /\ g_root c' = g_root c /\
    inside_block c' t1 (fun n => n = n1) /\ inside_block c' t2 (fun n => n = n2).
Proof.
  intros Hne Ha Hr1 Hr2 Hh1 Hh2 H1 H2. exists [t1; t1; t2; t2; t1; t1; t1; t2; t2; t2]. destruct c as [rt a h nx thr]. simpl in *.
  unfold lstep at 1. simpl. rewrite H1. unfold put. simpl. rewrite Hr1.
  unfold lstep at 1. simpl. rewrite lookup_insert, Ha. unfold put. simpl. rewrite insert_insert.
  unfold lstep at 1. simpl. rewrite lookup_insert_ne, H2 by done. unfold put. simpl. rewrite Hr2.
  unfold lstep at 1. simpl. rewrite lookup_insert, Ha. unfold put. simpl. rewrite insert_insert.
  unfold lstep at 1. simpl. rewrite lookup_insert_ne, lookup_insert by done.
  unfold lstep at 1. simpl. rewrite lookup_insert.
  unfold lstep at 1. simpl. rewrite lookup_insert. unfold acquire at 1. rewrite Hh1.
  unfold lstep at 1. simpl. rewrite !lookup_insert_ne, lookup_insert by done.
  unfold lstep at 1. simpl. rewrite lookup_insert.
  unfold lstep at 1. simpl. rewrite lookup_insert. unfold acquire. rewrite lookup_insert_ne, Hh2 by lia.
  eexists. split; [done|]. split; [done|]. split.
  - eexists _, _, _, n1. split; [simpl; rewrite !lookup_insert_ne by done; by rewrite lookup_insert|]. split; [right; left|done].
  - eexists _, _, _, n2. split; [simpl; by rewrite lookup_insert|]. split; [right; left|done].
Qed.
Lemma open_blocks l K : rels l K = length (List.filter (fun f => match f with KRelease l' _ => Nat.eqb l' l | _ => false end) K).
Proof.
  unfold rels. f_equal. apply List.filter_ext. intros [| | | | |l' n|]; try done. simpl. destruct (Nat.eqb_spec l' l); [by apply bool_decide_eq_true_2|by apply bool_decide_eq_false_2].
Qed.
Lemma release_prop root attr next c t l n K m :
  lreach root attr next c -> g_thr c !! t = Some (KRelease l n :: K, m) ->
  exists c', lstep t c = Some c' /\ g_thr c' !! t = Some (K, m) /\ holds c t l = S (holds c' t l) /\
    (forall t' l', (t', l') <> (t, l) -> holds c' t' l' = holds c t' l') /\
    (forall t', t' <> t -> g_thr c' !! t' = g_thr c !! t') /\ g_root c' = g_root c /\ g_attr c' = g_attr c.
Proof.
  intros H Ht. destruct (release_step c t l n K m (lreach_inv _ _ _ _ H) Ht) as (h & E & _ & H1 & H2).
  eexists. split; [exact E|]. split; [simpl; by rewrite lookup_insert|]. split; [done|]. split; [done|].
  split; [|done]. intros t' Hne. simpl. by rewrite lookup_insert_ne.
Qed.
Lemma balanced_prop root attr next c t K m l :
  lreach root attr next c -> g_thr c !! t = Some (K, m) ->
  holds c t l = length (List.filter (fun f => match f with KRelease l' _ => Nat.eqb l' l | _ => false end) K).
Proof. intros H Ht. rewrite (li_count c (lreach_inv _ _ _ _ H)). unfold rels_of. rewrite Ht. apply open_blocks. Qed.
Lemma neutral_prop root attr next c c' t n b p K m m' l :
  lreach root attr next c -> lreach root attr next c' ->
  g_thr c !! t = Some (KStmts (Locked n b :: p) :: K, m) -> g_thr c' !! t = Some (KStmts p :: K, m') ->
  holds c' t l = holds c t l.
Proof. intros H H' E E'. by rewrite (balanced_prop _ _ _ _ _ _ _ l H E), (balanced_prop _ _ _ _ _ _ _ l H' E'). Qed.
Lemma finished_prop root attr next c t l : lreach root attr next c -> finished c t -> holds c t l = 0.
Proof. intros H [m E]. by rewrite (balanced_prop _ _ _ _ _ _ _ l H E). Qed.
