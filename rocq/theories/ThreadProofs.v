(** Proofs about threads that work inside the blocks of a tree's lock. *)
From Verif Require Import Py Lock SpecLock LockProofs Threads SpecThreads.
From stdpp Require Import list relations.

Lemma inner_all r root (b : list stmt) :
  (fix all l := match l with [] => True | x :: q => inner r root x /\ all q end) b <-> Forall (inner r root) b.
Proof. induction b as [|a b IH]; [by split; [constructor|]|]. rewrite Forall_cons, <- IH. done. Qed.
Lemma outer_all r root (b : list stmt) :
  (fix all l := match l with [] => True | x :: q => outer r root x /\ all q end) b <-> Forall (outer r root) b.
Proof. induction b as [|a b IH]; [by split; [constructor|]|]. rewrite Forall_cons, <- IH. done. Qed.
Fixpoint inner_keeps r root (a : stmt) {struct a} : inner r root a -> keeps_tree r a.
Proof.
  destruct a as [n b|g| |e|b]; simpl; try done; [intros [_ H]; revert H|intros H; revert H]; induction b as [|x q IH]; simpl; try done.
  - intros [H1 H2]. split; [by apply (inner_keeps r root)|by apply IH].
  - intros [H1 H2]. split; [by apply (inner_keeps r root)|by apply IH].
Qed.
Lemma inner_keeps_all r root b : Forall (inner r root) b -> Forall (keeps_tree r) b.
Proof. intros H. eapply Forall_impl; [exact H|]. intros x. apply inner_keeps. Qed.
Fixpoint outer_keeps r root (a : stmt) {struct a} : outer r root a -> keeps_tree r a.
Proof.
  destruct a as [n b|g| |e|b]; simpl; try done.
  - intros [_ H]. apply keeps_tree_all. by apply (inner_keeps_all r root).
  - induction b as [|x q IH]; simpl; try done. intros [H1 H2]. split; [by apply (outer_keeps r root)|by apply IH].
Qed.
Lemma outer_keeps_all r root b : Forall (outer r root) b -> Forall (keeps_tree r) b.
Proof. intros H. eapply Forall_impl; [exact H|]. intros x. apply outer_keeps. Qed.

Section Proofs.
Context {L D : Type} (start : starts L) (act : work L D) (r : nat) (root : nat -> nat) (attr : gmap nat nat) (next : nat) (d0 : D) (l0 : nat).
Context (Hstart : forall t p l, start t p l -> Forall (outer r root) p).
Context (Hact : forall t l d, Forall (inner r root) (snd (act t l d))).
Context (Hattr : attr !! r = Some l0).

Definition oframe (f : frame) : Prop := match f with KStmts p => Forall (outer r root) p | KTry => True | _ => False end.
Definition lockframe (n : nat) (b : list stmt) (f : frame) : Prop :=
  match f with KGetattr _ n' b' | KCreate _ n' b' | KStore _ _ n' b' | KAcquire _ n' b' => n' = n /\ b' = b | _ => False end.
Definition iframe (f : frame) : Prop :=
  match f with
  | KStmts p => Forall (inner r root) p
  | KGetattr _ n b | KCreate _ n b | KStore _ _ n b | KAcquire _ n b => root n = r /\ Forall (inner r root) b
  | KRelease _ n => root n = r
  | KTry => True
  end.
Definition erase1 (f : frame) : list frame :=
  match f with
  | KStmts _ | KTry => [f]
  | KGetattr _ _ b | KCreate _ _ b | KStore _ _ _ b | KAcquire _ _ b => [KStmts b]
  | KRelease _ _ => []
  end.
Definition erase (K : list frame) : list frame := flat_map erase1 K.

(** a thread outside of blocks, perhaps about to enter one *)
Inductive idle : list frame -> lmode -> list frame -> lmode -> Prop :=
| idle_out K m : Forall oframe K -> idle K m K m
| idle_taking f n b p K : lockframe n b f -> root n = r -> Forall (inner r root) b -> Forall oframe (KStmts p :: K) ->
    idle (f :: KStmts p :: K) Normal (KStmts (Locked n b :: p) :: K) Normal.
Definition busy (t : nat) (K : list frame) (m : lmode) (l : L) (d : D) (Kz : list frame) (lz : L) (dz : D) : Prop :=
  exists Kin lk n' p K0 n b, K = Kin ++ KRelease lk n' :: KStmts p :: K0 /\ Forall iframe Kin /\ root n' = r /\
    Forall oframe (KStmts p :: K0) /\ root n = r /\ Forall (inner r root) b /\
    Kz = KStmts (Locked n b :: p) :: K0 /\ alone act t (Solo [KStmts b] Normal lz dz) (Solo (erase Kin) m l d).

Definition at_rest (w : world L D) (z : serial L D) (t : nat) : Prop :=
  match g_thr (w_cfg w) !! t with
  | None => z_thr z !! t = None /\ w_loc w !! t = None /\ z_loc z !! t = None
  | Some (K, m) => exists l Kz mz, w_loc w !! t = Some l /\ z_loc z !! t = Some l /\ z_thr z !! t = Some (Kz, mz) /\ idle K m Kz mz
  end.
Definition at_work (w : world L D) (z : serial L D) (t : nat) : Prop :=
  exists K m l Kz lz, g_thr (w_cfg w) !! t = Some (K, m) /\ w_loc w !! t = Some l /\ z_loc z !! t = Some lz /\
    z_thr z !! t = Some (Kz, Normal) /\ busy t K m l (w_data w) Kz lz (z_data z).
Record sim (w : world L D) (z : serial L D) (o : option nat) : Prop := Sim {
  sm_lock : linv (w_cfg w);
  sm_tree : tree_inv r l0 (w_cfg w);
  sm_root : forall n, g_root (w_cfg w) n = r <-> root n = r;
  sm_rest : forall t, o <> Some t -> at_rest w z t;
  sm_one : match o with Some t => at_work w z t | None => w_data w = z_data z end
}.

(** steps of a world keep the invariants of the locks *)
Lemma wstep_cases t w w' : wstep act t w = Some w' ->
  (exists p K l, g_thr (w_cfg w) !! t = Some (KStmts (Work :: p) :: K, Normal) /\ w_loc w !! t = Some l /\
     w' = World (put t (KStmts (snd (act t l (w_data w))) :: KStmts p :: K, Normal) (w_cfg w))
            (<[t := fst (fst (act t l (w_data w)))]> (w_loc w)) (snd (fst (act t l (w_data w))))) \/
  (exists c, lstep t (w_cfg w) = Some c /\ w' = World c (w_loc w) (w_data w) /\
     ~ (exists p K l, g_thr (w_cfg w) !! t = Some (KStmts (Work :: p) :: K, Normal) /\ w_loc w !! t = Some l)).
Proof.
  unfold wstep. intros E.
  assert (Hd : (exists p K l, g_thr (w_cfg w) !! t = Some (KStmts (Work :: p) :: K, Normal) /\ w_loc w !! t = Some l) \/
    ~ (exists p K l, g_thr (w_cfg w) !! t = Some (KStmts (Work :: p) :: K, Normal) /\ w_loc w !! t = Some l)).
  { destruct (g_thr (w_cfg w) !! t) as [[K m]|]; [|right; naive_solver].
    destruct K as [|[[|[] p]| | | | | |] K]; destruct m; try (right; naive_solver).
    destruct (w_loc w !! t) as [l|]; [left; naive_solver|right; naive_solver]. }
  destruct Hd as [(p & K & l & Ht & Hl)|Hn].
  - left. exists p, K, l. split; [done|]. split; [done|]. rewrite Ht, Hl in E. destruct (act t l (w_data w)) as [[l' d'] q]. by injection E as <-.
  - right.
    assert (E' : match lstep t (w_cfg w) with Some c => Some (World c (w_loc w) (w_data w)) | None => None end = Some w').
    { destruct (g_thr (w_cfg w) !! t) as [[K m]|]; [|done].
      destruct K as [|[[|[] p]| | | | | |] K]; destruct m; try done.
      destruct (w_loc w !! t) as [l|]; [|done]. exfalso. naive_solver. }
    destruct (lstep t (w_cfg w)) as [c|]; [|done]. injection E' as <-. eauto.
Qed.
Lemma locks_step t w w' : linv (w_cfg w) -> tree_inv r l0 (w_cfg w) -> wstep act t w = Some w' ->
  linv (w_cfg w') /\ tree_inv r l0 (w_cfg w').
Proof.
  intros I T E. destruct (wstep_cases t w w' E) as [(p & K & l & Ht & Hl & ->)|(c & El & -> & _)]; simpl.
  - split.
    + apply linv_put; [done| |done]. intros lk. unfold rels_of. by rewrite Ht, !rels_cons.
    + destruct T as [T1 T2]. apply tree_put; [done|done|done|]. pose proof (T2 _ _ _ Ht) as F. apply Forall_cons in F as [F1 F2].
      constructor; [|constructor; [|done]]; simpl.
      * apply (inner_keeps_all r root). apply Hact.
      * simpl in F1. by apply Forall_cons in F1 as [_ F1].
  - split; [by eapply linv_step|by eapply tree_step].
Qed.

(** a step of a thread outside of blocks *)
Lemma out_step t c c' K m l d : g_thr c !! t = Some (K, m) -> Forall oframe K -> m <> RuntimeErr -> lstep t c = Some c' ->
  exists K' m', g_thr c' = <[t := (K', m')]> (g_thr c) /\ (forall n, g_root c' n = r <-> g_root c n = r) /\
    ((at_block K m = false /\ alone_step act t (Solo K m l d) = Some (Solo K' m' l d) /\ Forall oframe K') \/
     (m = Normal /\ m' = Normal /\ idle K' m' K m)).
Proof.
  intros Ht HK Hm E. unfold lstep in E. rewrite Ht in E. destruct K as [|f K]; [by destruct m|].
  apply Forall_cons in HK as [Hf HK]. destruct m as [|e|]; [| |done].
  - destruct f as [[|a p]| | | | | |]; simpl in Hf; try done.
    + injection E as <-. eexists _, _. split; [done|]. split; [done|]. left. split; [done|]. split; done.
    + apply Forall_cons in Hf as [Ha Hp]. destruct a as [n b|g| |e|b]; simpl in Ha; try done; injection E as <-.
      * eexists _, _. split; [done|]. split; [done|]. right. split; [done|]. split; [done|]. destruct Ha. apply idle_taking; try done. by constructor.
      * eexists _, _. split; [done|]. split; [simpl; intros n; apply Ha|]. left. split; [done|]. split; [done|]. by constructor.
      * eexists _, _. split; [done|]. split; [done|]. left. split; [done|]. split; [done|]. by constructor.
      * eexists _, _. split; [done|]. split; [done|]. left. split; [done|]. split; [done|]. apply outer_all in Ha.
        constructor; [done|]. constructor; [done|]. by constructor.
    + injection E as <-. eexists _, _. split; [done|]. split; [done|]. left. split; [done|]. split; done.
  - destruct f as [p| | | | | |]; simpl in Hf; try done; injection E as <-.
    + eexists _, _. split; [done|]. split; [done|]. left. split; [by destruct p as [|[]]|].
      split; [destruct p; reflexivity|done].
    + eexists _, _. split; [done|]. split; [done|]. left. split; [done|]. split; done.
Qed.
(** a step of a thread about to enter a block *)
Lemma taking_step t c c' f n b p K : g_thr c !! t = Some (f :: KStmts p :: K, Normal) -> lockframe n b f -> lstep t c = Some c' ->
  (forall x, g_root c' x = g_root c x) /\
  ((exists f', lockframe n b f' /\ g_thr c' = <[t := (f' :: KStmts p :: K, Normal)]> (g_thr c)) \/
   (exists lk, f = KAcquire lk n b /\ g_thr c' = <[t := (KStmts b :: KRelease lk n :: KStmts p :: K, Normal)]> (g_thr c))).
Proof.
  intros Ht Hf E. unfold lstep in E. rewrite Ht in E. destruct f as [ |r' n' b'|r' n' b'|r' l n' b'|l n' b'| | ]; simpl in Hf; try done; destruct Hf as [-> ->].
  - destruct (g_attr c !! r') as [l|]; injection E as <-; (split; [done|]); left; eexists; (split; [|reflexivity]); done.
  - injection E as <-. split; [done|]. left. eexists. split; [|reflexivity]. done.
  - injection E as <-. split; [done|]. left. eexists. split; [|reflexivity]. done.
  - destruct (acquire t l (g_held c)); [|done]. injection E as <-. split; [done|]. right. by exists l.
Qed.
(** a step of a thread inside a block *)
Lemma erase_app K K' : erase (K ++ K') = erase K ++ erase K'.
Proof. unfold erase. apply flat_map_app. Qed.
Lemma in_step t w w' K m l f Kin : linv (w_cfg w) -> g_thr (w_cfg w) !! t = Some ((f :: Kin) ++ K, m) -> w_loc w !! t = Some l ->
  Forall iframe (f :: Kin) -> m <> RuntimeErr -> wstep act t w = Some w' ->
  exists Kin' m' l', g_thr (w_cfg w') = <[t := (Kin' ++ K, m')]> (g_thr (w_cfg w)) /\ w_loc w' = <[t := l']> (w_loc w) /\ Forall iframe Kin' /\
    (forall n, g_root (w_cfg w') n = r <-> g_root (w_cfg w) n = r) /\
    alone act t (Solo (erase (f :: Kin)) m l (w_data w)) (Solo (erase Kin') m' l' (w_data w')).
Proof.
  intros I Ht Hl HK Hm E. apply Forall_cons in HK as [Hf HK].
  destruct (wstep_cases t w w' E) as [(p & K1 & l1 & Ht1 & Hl1 & ->)|(c & El & -> & Hn)].
  { rewrite Ht1 in Ht. simpl in Ht. injection Ht as <- -> <-. rewrite Hl in Hl1. injection Hl1 as <-.
    simpl. destruct (act t l (w_data w)) as [[l' d'] q] eqn:Ea. pose proof (Hact t l (w_data w)) as Hq. rewrite Ea in Hq. simpl in Hq. simpl.
    eexists (KStmts q :: KStmts p :: Kin), _, _. split; [done|]. split; [done|]. split.
    { simpl in Hf. apply Forall_cons in Hf as [_ Hf]. by repeat constructor. }
    split; [done|]. apply rtc_once. unfold alone_step. simpl. by rewrite Ea. }
  assert (Hloc : w_loc w = <[t := l]> (w_loc w)) by (by rewrite insert_id).
  pose proof El as El0. simpl. unfold lstep in El. rewrite Ht in El. simpl in El. destruct m as [|e|]; [| |done].
  - destruct f as [[|a p]|r' n b|r' n b|r' lk n b|lk n b|lk n|]; simpl in Hf.
    + injection El as <-. exists Kin, Normal, l. do 4 (split; [done|]). apply rtc_once. done.
    + apply Forall_cons in Hf as [Ha Hp]. destruct a as [n b|g| |e|b]; simpl in Ha.
      * injection El as <-. destruct Ha as [Hn1 Hb]. apply inner_all in Hb. exists (KGetattr (g_root (w_cfg w) n) n b :: KStmts p :: Kin), Normal, l.
        do 2 (split; [done|]). split; [by repeat constructor|]. split; [done|]. apply rtc_once. done.
      * injection El as <-. exists (KStmts p :: Kin), Normal, l. do 2 (split; [done|]). split; [by constructor|]. split; [simpl; intros n; apply Ha|]. apply rtc_once. done.
      * exfalso. apply Hn. rewrite Ht, Hl. naive_solver.
      * injection El as <-. exists (KStmts p :: Kin), (Raising e), l. do 2 (split; [done|]). split; [by constructor|]. split; [done|]. apply rtc_once. done.
      * injection El as <-. apply inner_all in Ha. exists (KStmts b :: KTry :: KStmts p :: Kin), Normal, l. do 2 (split; [done|]).
        split; [by repeat constructor|]. split; [done|]. apply rtc_once. done.
    + destruct (g_attr (w_cfg w) !! r') as [lk|]; injection El as <-.
      * exists (KAcquire lk n b :: Kin), Normal, l. do 2 (split; [done|]). split; [by constructor|]. split; [done|]. apply rtc_refl.
      * exists (KCreate r' n b :: Kin), Normal, l. do 2 (split; [done|]). split; [by constructor|]. split; [done|]. apply rtc_refl.
    + injection El as <-. eexists (KStore r' _ n b :: Kin), Normal, l. do 2 (split; [done|]). split; [by constructor|]. split; [done|]. apply rtc_refl.
    + injection El as <-. exists (KAcquire lk n b :: Kin), Normal, l. do 2 (split; [done|]). split; [by constructor|]. split; [done|]. apply rtc_refl.
    + destruct (acquire t lk (g_held (w_cfg w))); [|done]. injection El as <-. exists (KStmts b :: KRelease lk n :: Kin), Normal, l. do 2 (split; [done|]).
      destruct Hf. split; [by repeat constructor|]. split; [done|]. apply rtc_refl.
    + destruct (release_step (w_cfg w) t lk n (Kin ++ K) Normal I Ht) as (h & E' & _).
      rewrite E' in El0. injection El0 as <-. exists Kin, Normal, l. do 4 (split; [done|]). apply rtc_refl.
    + injection El as <-. exists Kin, Normal, l. do 4 (split; [done|]). apply rtc_once. done.
  - destruct f as [p|r' n b|r' n b|r' lk n b|lk n b|lk n|];
      try (injection El as <-; exists Kin, (Raising e), l; do 4 (split; [done|]); apply rtc_once; done).
    + injection El as <-; exists Kin, (Raising e), l; do 4 (split; [done|]); apply rtc_once. by destruct p.
    + injection El as <-; exists Kin, (Raising e), l; do 4 (split; [done|]); apply rtc_once. by destruct b.
    + injection El as <-; exists Kin, (Raising e), l; do 4 (split; [done|]); apply rtc_once. by destruct b.
    + injection El as <-; exists Kin, (Raising e), l; do 4 (split; [done|]); apply rtc_once. by destruct b.
    + injection El as <-; exists Kin, (Raising e), l; do 4 (split; [done|]); apply rtc_once. by destruct b.
    + destruct (release_step (w_cfg w) t lk n (Kin ++ K) (Raising e) I Ht) as (h & E' & _).
      rewrite E' in El0. injection El0 as <-. exists Kin, (Raising e), l. do 4 (split; [done|]). apply rtc_refl.
    + injection El as <-. exists Kin, Normal, l. do 4 (split; [done|]). apply rtc_once. done.
Qed.

Lemma rest_same w z w' z' t : g_thr (w_cfg w') !! t = g_thr (w_cfg w) !! t -> w_loc w' !! t = w_loc w !! t ->
  z_thr z' !! t = z_thr z !! t -> z_loc z' !! t = z_loc z !! t -> at_rest w z t -> at_rest w' z' t.
Proof. unfold at_rest. intros -> -> -> ->. done. Qed.
Lemma work_same w z w' z' t : g_thr (w_cfg w') !! t = g_thr (w_cfg w) !! t -> w_loc w' !! t = w_loc w !! t -> w_data w' = w_data w ->
  z_thr z' !! t = z_thr z !! t -> z_loc z' !! t = z_loc z !! t -> z_data z' = z_data z -> at_work w z t -> at_work w' z' t.
Proof. unfold at_work. intros -> -> -> -> -> ->. done. Qed.
Lemma one_same w z w' z' o : (forall t, o = Some t -> g_thr (w_cfg w') !! t = g_thr (w_cfg w) !! t /\ w_loc w' !! t = w_loc w !! t /\
     z_thr z' !! t = z_thr z !! t /\ z_loc z' !! t = z_loc z !! t) -> w_data w' = w_data w -> z_data z' = z_data z ->
  match o with Some t => at_work w z t | None => w_data w = z_data z end ->
  match o with Some t => at_work w' z' t | None => w_data w' = z_data z' end.
Proof.
  intros H E1 E2. destruct o as [t|]; [|by rewrite E1, E2]. destruct (H t eq_refl) as (? & ? & ? & ?). by apply work_same.
Qed.

Lemma sim_step w z o t w' : serial_reach start act d0 z -> sim w z o -> wstep act t w = Some w' ->
  exists z' o', serial_reach start act d0 z' /\ sim w' z' o'.
Proof.
  intros Z S E. pose proof S as [I T Rt Hrest Hone].
  destruct (locks_step t w w' I T E) as [I' T'].
  destruct (decide (o = Some t)) as [->|Ho].
  - (* inside *)
    destruct Hone as (K & m & l & Kz & lz & Ht & Hl & Hlz & Htz & Kin & lk & n' & p & K0 & n & b & -> & HKin & Hn' & HK0 & Hn & Hb & -> & Hal).
    assert (Hm : m <> RuntimeErr) by (by eapply (li_mode (w_cfg w) I)).
    destruct Kin as [|f Kin].
    + (* leaving *)
      simpl in Ht, Hal. destruct (release_step (w_cfg w) t lk n' (KStmts p :: K0) m I Ht) as (h & E' & _).
      destruct (wstep_cases t w w' E) as [(p1 & K1 & l1 & Ht1 & _)|(c & El & -> & _)]; [congruence|].
      rewrite E' in El. injection El as <-.
      exists (Serial (<[t := (KStmts p :: K0, m)]> (z_thr z)) (<[t := l]> (z_loc z)) (w_data w)), None.
      split; [by eapply sr_block|]. split; [done|done|done| |done].
      intros t' _. destruct (decide (t' = t)) as [->|Hne].
      * unfold at_rest. simpl. rewrite !lookup_insert. exists l, (KStmts p :: K0), m. do 3 (split; [done|]). by apply idle_out.
      * eapply (rest_same w z); [..|apply Hrest; congruence]; simpl; by rewrite ?lookup_insert_ne by done.
    + destruct (in_step t w w' _ m l f Kin I Ht Hl HKin Hm E) as (Kin' & m' & l' & Ht' & Hl' & HKin' & Hr' & Hal').
      exists z, (Some t). split; [done|]. split; [done|done| | |].
      * intros x. by rewrite Hr', Rt.
      * intros t' Hne. assert (t' <> t) by congruence. eapply (rest_same w z); [..|by apply Hrest]; rewrite ?Ht', ?Hl'; by rewrite ?lookup_insert_ne by done.
      * eexists _, m', l', _, lz. split; [rewrite Ht'; by rewrite lookup_insert|]. split; [rewrite Hl'; by rewrite lookup_insert|]. split; [done|]. split; [done|].
        eexists Kin', lk, n', p, K0, n, b. do 7 (split; [done|]). unfold alone in *. by etrans.
  - (* outside *)
    pose proof (Hrest t Ho) as Hrt. unfold at_rest in Hrt.
    destruct (g_thr (w_cfg w) !! t) as [[K m]|] eqn:Ht.
    2:{ destruct (wstep_cases t w w' E) as [(p1 & K1 & l1 & Ht1 & _)|(c & El & _)]; [congruence|]. unfold lstep in El. by rewrite Ht in El. }
    destruct Hrt as (l & Kz & mz & Hl & Hlz & Htz & Hid).
    assert (Hm : m <> RuntimeErr) by (by eapply (li_mode (w_cfg w) I)).
    destruct Hid as [K m HK|f n b p K Hf Hn Hb HK].
    + destruct (wstep_cases t w w' E) as [(p1 & K1 & l1 & Ht1 & _)|(c & El & -> & _)].
      { rewrite Ht in Ht1. injection Ht1 as -> ->. apply Forall_cons in HK as [HK _]. simpl in HK. by apply Forall_cons in HK as [HK _]. }
      destruct (out_step t (w_cfg w) c K m l (z_data z) Ht HK Hm El) as (K' & m' & Ht' & Hr' & [(Hab & Hst & HK')|(-> & -> & Hid)]).
      * exists (Serial (<[t := (K', m')]> (z_thr z)) (z_loc z) (z_data z)), o. split; [by eapply sr_other|].
        split; [done|done|intros x; simpl; by rewrite Hr', Rt| |].
        -- intros t' Hne. destruct (decide (t' = t)) as [->|Hne'].
           ++ unfold at_rest. simpl. rewrite Ht', !lookup_insert. exists l, K', m'. do 3 (split; [done|]). by apply idle_out.
           ++ eapply (rest_same w z); [..|by apply Hrest]; simpl; rewrite ?Ht'; by rewrite ?lookup_insert_ne by done.
        -- eapply (one_same w z); [|done|done|exact Hone]. intros t' ->. assert (t' <> t) by congruence. simpl. rewrite Ht'. by rewrite !lookup_insert_ne by done.
      * exists z, o. split; [done|]. split; [done|done|intros x; simpl; by rewrite Hr', Rt| |].
        -- intros t' Hne. destruct (decide (t' = t)) as [->|Hne'].
           ++ unfold at_rest. simpl. rewrite Ht', !lookup_insert. exists l, K, Normal. done.
           ++ eapply (rest_same w z); [..|by apply Hrest]; simpl; rewrite ?Ht'; by rewrite ?lookup_insert_ne by done.
        -- eapply (one_same w z); [|done|done|exact Hone]. intros t' ->. assert (t' <> t) by congruence. simpl. rewrite Ht'. by rewrite !lookup_insert_ne by done.
    + destruct (wstep_cases t w w' E) as [(p1 & K1 & l1 & Ht1 & _)|(c & El & -> & _)].
      { rewrite Ht in Ht1. injection Ht1 as -> _. by destruct Hf. }
      destruct (taking_step t (w_cfg w) c f n b p K Ht Hf El) as (Hr' & [(f' & Hf' & Ht')|(lk & -> & Ht')]).
      * exists z, o. split; [done|]. split; [done|done|intros x; simpl; by rewrite Hr', Rt| |].
        -- intros t' Hne. destruct (decide (t' = t)) as [->|Hne'].
           ++ unfold at_rest. simpl. rewrite Ht', !lookup_insert. eexists l, _, Normal. do 3 (split; [done|]). by apply idle_taking.
           ++ eapply (rest_same w z); [..|by apply Hrest]; simpl; rewrite ?Ht'; by rewrite ?lookup_insert_ne by done.
        -- eapply (one_same w z); [|done|done|exact Hone]. intros t' ->. assert (t' <> t) by congruence. simpl. rewrite Ht'. by rewrite !lookup_insert_ne by done.
      * (* entering *)
        assert (Hlk : lk = l0).
        { destruct T as [_ T]. pose proof (T _ _ _ Ht) as F. apply Forall_cons in F as [F _]. apply F. by apply Rt. }
        destruct o as [t1|].
        { exfalso. destruct Hone as (K1 & m1 & l1 & Kz1 & lz1 & Ht1 & _ & _ & _ & Kin & lk1 & n1 & p1 & K01 & _ & _ & -> & _ & Hn1 & _).
          assert (Hne : t1 <> t) by congruence.
          assert (Hlk1 : lk1 = l0).
          { destruct T as [_ T]. pose proof (T _ _ _ Ht1) as F. apply Forall_app in F as [_ F]. apply Forall_cons in F as [F _]. apply F. by apply Rt. }
          apply Hne. eapply (exclusive c l0 t1 t _ _ n1 _ _ n I'); [| |rewrite Ht', lookup_insert; done|].
          - simpl. rewrite Ht', lookup_insert_ne by done. exact Ht1.
          - subst lk1. apply elem_of_app. right. left.
          - subst lk. right. left. }
        simpl in Hone. exists z, (Some t). split; [done|]. split; [done|done|intros x; simpl; by rewrite Hr', Rt| |].
        -- intros t' Hne'. assert (t' <> t) by congruence. eapply (rest_same w z); [..|by apply Hrest]; simpl; rewrite ?Ht'; by rewrite ?lookup_insert_ne by done.
        -- eexists _, Normal, l, _, l. simpl. rewrite Ht', lookup_insert. split; [done|]. split; [done|]. split; [done|]. split; [done|].
           exists [KStmts b], lk, n, p, K, n, b. do 2 (split; [done || by repeat constructor|]). do 5 (split; [done|]). rewrite Hone. apply rtc_refl.
Qed.
Lemma sim_reach w : threads_reach start act root attr next d0 w -> exists z o, serial_reach start act d0 z /\ sim w z o.
Proof.
  induction 1 as [|w t p l Hw (z & o & Z & S) Ht Hp|w t w' Hw (z & o & Z & S) E].
  - exists (Serial ∅ ∅ d0), None. split; [constructor|]. split; [by split|by split|done| |done].
    intros t _. unfold at_rest. simpl. by rewrite !lookup_empty.
  - pose proof S as [I T Rt Hrest Hone].
    assert (Ho : o <> Some t). { intros ->. destruct Hone as (K & m & _ & _ & _ & Ht' & _). congruence. }
    pose proof (Hrest t Ho) as Hr. unfold at_rest in Hr. rewrite Ht in Hr. destruct Hr as (Hz1 & Hz2 & Hz3).
    exists (Serial (<[t := ([KStmts p], Normal)]> (z_thr z)) (<[t := l]> (z_loc z)) (z_data z)), o.
    split; [exact (sr_spawn start act d0 z t p l Z Hz1 Hp)|]. split; simpl.
    + apply linv_put; [done| |done]. intros lk. unfold rels_of. by rewrite Ht.
    + apply tree_put; try done; [apply T|]. constructor; [|done]. simpl. apply (outer_keeps_all r root). by eapply Hstart.
    + done.
    + intros t' Hne. destruct (decide (t' = t)) as [->|Hne'].
      * unfold at_rest. simpl. rewrite !lookup_insert. eexists l, _, _. do 3 (split; [done|]). apply idle_out. constructor; [|done]. by eapply Hstart.
      * eapply (rest_same w z); [..|by apply Hrest]; simpl; by rewrite ?lookup_insert_ne by done.
    + eapply (one_same w z (spawn t p l w) (Serial (<[t := ([KStmts p], Normal)]> (z_thr z)) (<[t := l]> (z_loc z)) (z_data z)) o); [|done|done|exact Hone]. intros t' ->. assert (t' <> t) by congruence. simpl. by rewrite !lookup_insert_ne by done.
  - by eapply sim_step.
Qed.

(** no thread is inside a block *)
Lemma rest_locs w z : (forall t, at_rest w z t) -> z_loc z = w_loc w.
Proof.
  intros H. apply map_eq. intros t. specialize (H t). unfold at_rest in H. destruct (g_thr (w_cfg w) !! t) as [[K m]|]; [destruct H as (? & ? & ? & ? & ? & _)|destruct H as (_ & ? & ?)]; congruence.
Qed.
Lemma rest_done w z t m : at_rest w z t -> g_thr (w_cfg w) !! t = Some ([], m) -> z_thr z !! t = Some ([], m).
Proof.
  unfold at_rest. intros H E. rewrite E in H. destruct H as (l & Kz & mz & _ & _ & Hz & Hi). rewrite Hz. by inversion Hi; subst.
Qed.
Lemma blocks_atomic w : threads_reach start act root attr next d0 w -> (forall t, ~ inside_block (w_cfg w) t (fun _ => True)) ->
  exists z, serial_reach start act d0 z /\ z_data z = w_data w /\ z_loc z = w_loc w /\
    (forall t m, g_thr (w_cfg w) !! t = Some ([], m) -> z_thr z !! t = Some ([], m)) /\
    (forall t, z_thr z !! t = None <-> g_thr (w_cfg w) !! t = None).
Proof.
  intros H Hn. destruct (sim_reach w H) as (z & o & Z & S). exists z. split; [done|]. destruct S as [_ _ _ Hrest Hone].
  assert (o = None) as ->.
  { destruct o as [t|]; [|done]. exfalso. apply (Hn t).
    destruct Hone as (K & m & l & Kz & lz & Ht & _ & _ & _ & Kin & lk & n' & p & K0 & n & b & -> & _). eexists _, m, lk, n'. split; [done|]. split; [|done].
    apply elem_of_app. right. left. }
  split; [done|]. split; [apply rest_locs; intros t; by apply Hrest|]. split; [intros t m; apply rest_done; by apply Hrest|].
  intros t. assert (Hr : at_rest w z t) by (by apply Hrest). unfold at_rest in Hr.
  destruct (g_thr (w_cfg w) !! t) as [[K m]|]; [destruct Hr as (l & Kz & mz & _ & _ & Hz & _); rewrite Hz; done|destruct Hr as (Hz & _); rewrite Hz; done].
Qed.
Lemma block_isolated w t : threads_reach start act root attr next d0 w -> inside_block (w_cfg w) t (fun _ => True) ->
  exists z n b p K l K' m l', serial_reach start act d0 z /\
    z_thr z !! t = Some (KStmts (Locked n b :: p) :: K, Normal) /\ z_loc z !! t = Some l /\ w_loc w !! t = Some l' /\
    alone act t (Solo [KStmts b] Normal l (z_data z)) (Solo K' m l' (w_data w)) /\
    (forall t', t' <> t -> z_loc z !! t' = w_loc w !! t') /\
    (forall t' m', g_thr (w_cfg w) !! t' = Some ([], m') -> z_thr z !! t' = Some ([], m')).
Proof.
  intros H (K & m & lk & n & Ht & Hin & _). destruct (sim_reach w H) as (z & o & Z & S). destruct S as [_ _ _ Hrest Hone].
  assert (o = Some t) as ->.
  { destruct (decide (o = Some t)) as [|Hne]; [done|]. exfalso. specialize (Hrest t Hne). unfold at_rest in Hrest. rewrite Ht in Hrest.
    destruct Hrest as (l & Kz & mz & _ & _ & _ & Hi). destruct Hi as [K m HK|f n' b p K Hf _ _ HK].
    - rewrite Forall_forall in HK. by apply HK in Hin.
    - apply elem_of_cons in Hin as [<-|Hin]; [done|]. rewrite Forall_forall in HK. by apply HK in Hin. }
  destruct Hone as (K1 & m1 & l & Kz & lz & Ht1 & Hl & Hlz & Htz & Kin & lk1 & n1 & p & K0 & n2 & b & -> & _ & _ & _ & _ & _ & -> & Hal).
  exists z, n2, b, p, K0, lz, (erase Kin), m1, l. do 5 (split; [done|]). split.
  - intros t' Hne. assert (Hr : at_rest w z t') by (apply Hrest; congruence). unfold at_rest in Hr.
    destruct (g_thr (w_cfg w) !! t') as [[K3 m']|]; [destruct Hr as (? & ? & ? & ? & ? & _)|destruct Hr as (_ & ? & ?)]; congruence.
  - intros t' m' Ht'. eapply rest_done; [|exact Ht']. apply Hrest. intros [= ->]. rewrite Ht in Ht'. injection Ht' as -> _. by apply elem_of_nil in Hin.
Qed.
End Proofs.

(** * What blocks keep *)
Lemma bodies_all Q (b : list stmt) :
  (fix all l := match l with [] => True | x :: q => bodies Q x /\ all q end) b <-> Forall (bodies Q) b.
Proof. induction b as [|a b IH]; [by split; [constructor|]|]. rewrite Forall_cons, <- IH. done. Qed.
Lemma serial_keeps {L D} (start : starts L) (act : work L D) d0 (P : D -> Prop) (Q : list stmt -> Prop) z :
  (forall t p l, start t p l -> Forall (bodies Q) p) -> P d0 ->
  (forall t b l d m l' d', Q b -> P d -> alone act t (Solo [KStmts b] Normal l d) (Solo [] m l' d') -> P d') ->
  serial_reach start act d0 z -> P (z_data z) /\
    forall t K m, z_thr z !! t = Some (K, m) -> Forall (fun f => match f with KStmts p => Forall (bodies Q) p | KTry => True | _ => False end) K.
Proof.
  intros Hs H0 Hb. induction 1 as [|z t p l Z [IH1 IH2] Ht Hp|z t n b p K m l l' d' Z [IH1 IH2] Ht Hl Hal|z t K m l K' m' Z [IH1 IH2] Ht Hl Hab Hst]; simpl.
  - split; [done|]. intros t K m H. by rewrite lookup_empty in H.
  - split; [done|]. intros t' K m. rewrite lookup_insert_Some. intros [[_ [= <- _]]|[_ H]]; [|by eapply IH2].
    constructor; [by eapply Hs|constructor].
  - pose proof (IH2 _ _ _ Ht) as F. apply Forall_cons in F as [F1 F2]. apply Forall_cons in F1 as [F1 F3]. simpl in F1. split; [by eapply Hb|].
    intros t' K1 m1. rewrite lookup_insert_Some. intros [[_ [= <- _]]|[_ H]]; [|by eapply IH2]. by constructor.
  - split; [done|]. intros t' K1 m1. rewrite lookup_insert_Some. intros [[_ [= <- _]]|[_ H]]; [|by eapply IH2].
    pose proof (IH2 _ _ _ Ht) as F. unfold alone_step in Hst. simpl in Hst. destruct K as [|f K]; [by destruct m|].
    apply Forall_cons in F as [F1 F2]. destruct f as [p| | | | | |]; try done.
    + destruct m; [destruct p as [|a p]|by destruct p; injection Hst as <- _|by destruct p; injection Hst as <- _]; [by injection Hst as <- _|].
      apply Forall_cons in F1 as [F1 F3]. destruct a; simpl in F1; try done; injection Hst as <- _; repeat (constructor; try done). by apply bodies_all.
    + by destruct m; injection Hst as <- _.
Qed.
