(** Proofs about calls from several threads. *)
From Verif Require Import Py Odict Aliaser Heap Model SpecMapping MappingProofs Observe TreeOps Reach AnyMapping SpecAny Lock SpecLock LockProofs Threads SpecThreads ThreadProofs ThreadCalls.
From stdpp Require Import list relations.

Lemma run_calls_app x l l' s : run_calls x (l ++ l') s =
  let '(a, s1) := run_calls x l s in let '(a', s2) := run_calls x l' s1 in (a ++ a', s2).
Proof.
  revert s. induction l as [|c l IH]; intros s; simpl; [by destruct (run_calls x l' s)|].
  destruct (run_call x c s) as [a s1]. rewrite IH. destruct (run_calls x l s1) as [a1 s2]. by destruct (run_calls x l' s2).
Qed.
Lemma calls_spec_app p l l' d : calls_spec p (l ++ l') d =
  let '(a, d1) := calls_spec p l d in let '(a', d2) := calls_spec p l' d1 in (a ++ a', d2).
Proof.
  revert d. induction l as [|c l IH]; intros d; simpl; [by destruct (calls_spec p l' d)|].
  destruct (call_spec p c d) as [a d1]. rewrite IH. destruct (calls_spec p l d1) as [a1 d2]. by destruct (calls_spec p l' d2).
Qed.
Lemma run_calls_length x l s : length (fst (run_calls x l s)) = length l.
Proof. revert s. induction l as [|c l IH]; intros s; simpl; [done|]. destruct (run_call x c s) as [a s1]. specialize (IH s1). destruct (run_calls x l s1). simpl in *. by rewrite IH. Qed.
Lemma calls_spec_length p l d : length (fst (calls_spec p l d)) = length l.
Proof. revert d. induction l as [|c l IH]; intros d; simpl; [done|]. destruct (call_spec p c d) as [a d1]. specialize (IH d1). destruct (calls_spec p l d1). simpl in *. by rewrite IH. Qed.

(** the heap's side of [in_turn] *)
Fixpoint turns (x : nat) (order : list (nat * list call)) (s : st) : list (nat * list answer) * st :=
  match order with
  | [] => ([], s)
  | (t, cs) :: r =>
      let '(ans, s1) := run_calls x cs s in
      let '(rest, s2) := turns x r s1 in ((t, ans) :: rest, s2)
  end.
Lemma turns_snoc x order t cs s : turns x (order ++ [(t, cs)]) s =
  let '(a, s1) := turns x order s in let '(ans, s2) := run_calls x cs s1 in (a ++ [(t, ans)], s2).
Proof.
  revert s. induction order as [|[t' cs'] order IH]; intros s; simpl; [by destruct (run_calls x cs s)|].
  destruct (run_calls x cs' s) as [a s1]. rewrite IH. destruct (turns x order s1) as [a1 s2]. by destruct (run_calls x cs s2).
Qed.
(** both sides agree if they agree on all calls in a row *)
Lemma turns_spec x p : forall order s d ans s' d',
  run_calls x (concat (map snd order)) s = (fst (calls_spec p (concat (map snd order)) d), s') ->
  turns x order s = (ans, d') -> ans = fst (in_turn p order d) /\ d' = s' /\ snd (calls_spec p (concat (map snd order)) d) = snd (in_turn p order d).
Proof.
  induction order as [|[t cs] order IH]; intros s d ans s' d'; simpl; [by intros [= <-] [= <- <-]|].
  rewrite run_calls_app, calls_spec_app. pose proof (run_calls_length x cs s) as L1. pose proof (calls_spec_length p cs d) as L2.
  destruct (run_calls x cs s) as [a s1]. destruct (calls_spec p cs d) as [b d1]. simpl in L1, L2.
  destruct (run_calls x (concat (map snd order)) s1) as [a' s2] eqn:E1. destruct (calls_spec p (concat (map snd order)) d1) as [b' d2] eqn:E2. simpl.
  intros [= Eab <-]. apply app_inj_1 in Eab as [-> ->]; [|lia].
  destruct (turns x order s1) as [ans' d''] eqn:E3. intros [= <- <-].
  destruct (IH s1 d1 ans' s2 d'') as (-> & -> & H); [by rewrite E1, E2|done|]. rewrite E2 in H. simpl in H. subst d2.
  by destruct (in_turn p order d1).
Qed.
Lemma of_thread_snoc {A} t (l : list (nat * list A)) t' a :
  of_thread t (l ++ [(t', a)]) = of_thread t l ++ (if decide (t' = t) then [a] else []).
Proof.
  unfold of_thread. rewrite List.filter_app, map_app. f_equal. simpl. destruct (decide (t' = t)) as [->|H]; [by rewrite Nat.eqb_refl|].
  by apply Nat.eqb_neq in H as ->.
Qed.

Section Calls.
Context {L : Type} (act : work L st) (code : list call -> list stmt) (know : list (list call) -> list answer -> L) (x n : nat) (jobs : nat -> list (list call)) (s0 : st).
(** run alone, the body of a block makes the calls *)
Context (Himpl : forall t cs rest got s m l' s', alone act t (Solo [KStmts (code cs)] Normal (know (cs :: rest) got) s) (Solo [] m l' s') ->
  m = Normal /\ l' = know rest (got ++ fst (run_calls x cs s)) /\ s' = snd (run_calls x cs s)).
Definition begins : starts L := fun t p l => p = locked_calls code n (jobs t) /\ l = know (jobs t) [].

Definition progress (z : serial L st) (order : list (nat * list call)) (ans : list (nat * list answer)) (t : nat) : Prop :=
  match z_thr z !! t with
  | None => of_thread t order = [] /\ of_thread t ans = []
  | Some (K, m) => m = Normal /\ exists rest, jobs t = of_thread t order ++ rest /\
      z_loc z !! t = Some (know rest (concat (of_thread t ans))) /\
      (K = [KStmts (locked_calls code n rest)] \/ (K = [] /\ rest = []))
  end.
Lemma serial_calls z : serial_reach begins act s0 z -> exists order ans,
  turns x order s0 = (ans, z_data z) /\ forall t, progress z order ans t.
Proof.
  induction 1 as [|z t p l Z (order & ans & E & H) Ht [Hp Hl]|z t n' b p K m l l' d' Z (order & ans & E & H) Ht Hl Hal|z t K m l K' m' Z (order & ans & E & H) Ht Hl Hab Hst].
  - exists [], []. split; [done|]. intros t. unfold progress. simpl. by rewrite lookup_empty.
  - exists order, ans. split; [done|]. intros t'. unfold progress. simpl. destruct (decide (t' = t)) as [->|Hne].
    + rewrite !lookup_insert. split; [done|]. specialize (H t). unfold progress in H. rewrite Ht in H. destruct H as [H1 H2]. rewrite H1, H2.
      exists (jobs t). split; [done|]. split; [by subst l|]. left. by subst p.
    + rewrite !lookup_insert_ne by done. apply H.
  - pose proof (H t) as Hp. unfold progress in Hp. rewrite Ht in Hp. destruct Hp as (_ & rest & Hj & Hz & HK).
    destruct HK as [HK|[HK _]]; [|done]. destruct rest as [|cs rest]; [done|]. injection HK as -> -> -> ->.
    rewrite Hl in Hz. injection Hz as ->. apply Himpl in Hal as (-> & -> & ->).
    exists (order ++ [(t, cs)]), (ans ++ [(t, fst (run_calls x cs (z_data z)))]). split.
    { rewrite turns_snoc, E. by destruct (run_calls x cs (z_data z)). }
    intros t'. unfold progress. simpl. rewrite !of_thread_snoc. destruct (decide (t' = t)) as [->|Hne].
    + rewrite !lookup_insert. rewrite !decide_True by done. split; [done|]. exists rest. split; [by rewrite Hj, <- app_assoc|].
      split; [|by left]. rewrite concat_app. simpl. by rewrite app_nil_r.
    + rewrite !lookup_insert_ne by done. rewrite !decide_False, !app_nil_r by congruence. apply H.
  - pose proof (H t) as Hp. unfold progress in Hp. rewrite Ht in Hp. destruct Hp as (-> & rest & Hj & Hz & HK).
    destruct HK as [->|[-> _]]; [|done]. destruct rest as [|cs rest]; [|done]. simpl in Hst. injection Hst as <- <-.
    exists order, ans. split; [done|]. intros t'. unfold progress. simpl. destruct (decide (t' = t)) as [->|Hne].
    + rewrite !lookup_insert. split; [done|]. exists []. split; [done|]. split; [done|]. by right.
    + rewrite !lookup_insert_ne by done. apply H.
Qed.
End Calls.

Lemma locked_outer {L} r root code (know : list (list call) -> list answer -> L) n jobs :
  root n = r -> (forall cs, Forall (inner r root) (code cs)) ->
  forall t p l, begins code know n jobs t p l -> Forall (outer r root) p.
Proof.
  intros Hn Hc t p l [-> _]. unfold locked_calls. apply List.Forall_map, List.Forall_forall. intros cs _. simpl. split; [done|apply Hc].
Qed.

Lemma threads_calls {L} (act : work L st) code know x n jobs s cls r root attr next l0 w :
  (forall t l d, Forall (inner r root) (snd (act t l d))) -> (forall cs, Forall (inner r root) (code cs)) ->
  (forall t cs rest got s m l' s', alone act t (Solo [KStmts (code cs)] Normal (know (cs :: rest) got) s) (Solo [] m l' s') ->
     m = Normal /\ l' = know rest (got ++ fst (run_calls x cs s)) /\ s' = snd (run_calls x cs s)) ->
  attr !! r = Some l0 -> root n = r ->
  reach s -> class_of s x = Some cls -> tree_class (c_behs cls) = true -> Reference ∉ c_behs cls ->
  Forall (usable cls) (map fst (entries_at s x)) ->
  (forall t, Forall (Forall (fun c => Forall (usable cls) (call_keys c) /\ Forall (known s) (call_values c))) (jobs t)) ->
  threads_reach (begins code know n jobs) act root attr next s w ->
  (forall t K m, g_thr (w_cfg w) !! t = Some (K, m) -> K = []) ->
  exists order, (forall t, of_thread t order = if decide (is_Some (g_thr (w_cfg w) !! t)) then jobs t else []) /\
    (forall t, is_Some (g_thr (w_cfg w) !! t) ->
       w_loc w !! t = Some (know [] (concat (of_thread t (fst (in_turn (class_policy cls (allows s x)) order (entries_at s x))))))) /\
    entries_at (w_data w) x = snd (in_turn (class_policy cls (allows s x)) order (entries_at s x)).
Proof.
  intros Hact Hcode Himpl Ha Hn R Hc Htc Href Hu Hj Hw Hfin.
  destruct (blocks_atomic (begins code know n jobs) act r root attr next s l0 (locked_outer r root code know n jobs Hn Hcode) Hact Ha w Hw) as (z & Z & Hd & Hloc & Hdone & Hnone).
  { intros t (K & m & lk & n' & Ht & Hin & _). rewrite (Hfin _ _ _ Ht) in Hin. by apply elem_of_nil in Hin. }
  destruct (serial_calls act code know x n jobs s Himpl z Z) as (order & ans & E & Hp).
  assert (Hof : forall t, of_thread t order = if decide (is_Some (g_thr (w_cfg w) !! t)) then jobs t else []).
  { intros t. specialize (Hp t). unfold progress in Hp. destruct (g_thr (w_cfg w) !! t) as [[K m]|] eqn:Ht.
    - rewrite decide_True by eauto. assert (K = []) as -> by (by eapply Hfin). rewrite (Hdone _ _ Ht) in Hp.
      destruct Hp as (_ & rest & Hjt & _ & [HK|[_ ->]]); [done|]. by rewrite Hjt, app_nil_r.
    - rewrite decide_False by (intros [? ?]; done). apply Hnone in Ht. rewrite Ht in Hp. apply Hp. }
  exists order. split; [done|].
  destruct (any_mapping s x cls (concat (map snd order)) R Hc Htc Href Hu) as (s' & Es & Ee).
  { apply List.Forall_forall. intros c Hin. apply in_concat in Hin as (cs & Hcs & Hin). apply in_map_iff in Hcs as ((t & cs') & <- & Hcs). simpl in Hin.
    assert (Hin' : In cs' (of_thread t order)).
    { unfold of_thread. apply in_map_iff. exists (t, cs'). split; [done|]. apply filter_In. simpl. by rewrite Nat.eqb_refl. }
    rewrite Hof in Hin'. case_decide; [|done]. pose proof (Hj t) as F. rewrite List.Forall_forall in F. specialize (F _ Hin'). rewrite List.Forall_forall in F. by apply F. }
  destruct (turns_spec x _ order s (entries_at s x) ans s' (z_data z) Es E) as (-> & Hs' & He). rewrite <- Hd, Hs', Ee, He. split; [|done].
  intros t Ht. specialize (Hp t). unfold progress in Hp. destruct (g_thr (w_cfg w) !! t) as [[K m]|] eqn:Et; [|by destruct Ht].
  assert (K = []) as -> by (by eapply Hfin). rewrite (Hdone _ _ Et) in Hp. destruct Hp as (_ & rest & _ & Hz & [HK|[_ ->]]); [done|]. by rewrite <- Hloc.
Qed.

(** ** Every call in one step *)
Lemma alone_det {L D} (act : work L D) t a b m l d : alone act t a (Solo [] m l d) -> alone_step act t a = Some b -> alone act t b (Solo [] m l d).
Proof. unfold alone. intros H E. inversion H as [|y z' a' E' H']; subst; [done|]. rewrite E in E'. by injection E' as <-. Qed.
Lemma one_step_alone x t : forall cs rest got s m l' s',
  alone (call_work x) t (Solo [KStmts (one_step_each cs)] Normal (cs ++ rest, got) s) (Solo [] m l' s') ->
  m = Normal /\ l' = (rest, got ++ fst (run_calls x cs s)) /\ s' = snd (run_calls x cs s).
Proof.
  induction cs as [|c cs IH]; intros rest got s m l' s' H.
  - eapply alone_det in H; [|reflexivity]. unfold alone in H. inversion H as [|y z' a' E' H']; subst; [|done]. simpl. by rewrite app_nil_r.
  - destruct (run_call x c s) as [a s1] eqn:Ec.
    eapply alone_det in H; [|unfold alone_step; simpl; unfold call_work; simpl; rewrite Ec; reflexivity].
    eapply alone_det in H; [|reflexivity]. apply IH in H as (-> & -> & ->). simpl. rewrite Ec. destruct (run_calls x cs s1) as [b s2]. simpl.
    by rewrite <- app_assoc.
Qed.
Lemma call_work_inner r root x t l d : Forall (inner r root) (snd (call_work x t l d)).
Proof. unfold call_work. destruct (fst l) as [|c q]; [by constructor|]. destruct (run_call x c d). by constructor. Qed.
Lemma one_step_inner r root cs : Forall (inner r root) (one_step_each cs).
Proof. unfold one_step_each. apply List.Forall_map, List.Forall_forall. by intros c _. Qed.

(** ** Counting *)
Lemma value_put k v (d : list (key * val)) : value_at k (SpecMapping.put k v d) = Some v.
Proof.
  unfold value_at, SpecMapping.put, held. induction d as [|[k' v'] d IH]; simpl; [by rewrite bool_decide_eq_true_2|].
  destruct (bool_decide (k' = k)) eqn:E; simpl.
  - by rewrite bool_decide_eq_true_2.
  - destruct (existsb (fun e => bool_decide (fst e = k)) d); simpl; rewrite E; exact IH.
Qed.
Definition incs (k : key) (v : Z) (j : nat) : list call := flat_map (fun i => [CGet k; CSet k (VInt (v + Z.of_nat i + 1))]) (seq 0 j).
Lemma incs_S k v j : incs k v (S j) = incs k v j ++ [CGet k; CSet k (VInt (v + Z.of_nat j + 1))].
Proof. unfold incs. by rewrite seq_S, flat_map_app. Qed.
Lemma incs_spec p k v d j : value_at k d = Some (VInt v) -> p_get p k = None -> (forall w, p_set p k (VInt w) = None) ->
  value_at k (snd (calls_spec p (incs k v j) d)) = Some (VInt (v + Z.of_nat j)).
Proof.
  intros Hv Hg Hs. induction j as [|j IH]; [simpl; by rewrite Z.add_0_r|]. rewrite incs_S, calls_spec_app.
  destruct (calls_spec p (incs k v j) d) as [a d1]. simpl in IH. simpl. unfold do_set. rewrite Hs. simpl. rewrite value_put. do 2 f_equal. lia.
Qed.
Section Count.
Context (x n : nat) (k : key) (v0 : Z) (s0 : st) (cls : classdef).
Context (R : reach s0) (Hc : class_of s0 x = Some cls) (Htc : tree_class (c_behs cls) = true) (Href : Reference ∉ c_behs cls)
  (Hu : Forall (usable cls) (map fst (entries_at s0 x))) (Hk : usable cls k)
  (Hg : p_get (class_policy cls (allows s0 x)) k = None) (Hs : forall w, p_set (class_policy cls (allows s0 x)) k (VInt w) = None)
  (Hv : value_at k (entries_at s0 x) = Some (VInt v0)).
Definition counts : starts tally := fun _ p l => p = count_code n /\ l = Unread.
Lemma incs_ok j : Forall (fun c => Forall (usable cls) (call_keys c) /\ Forall (known s0) (call_values c)) (incs k v0 j).
Proof.
  induction j as [|j IH]; [constructor|]. rewrite incs_S. apply Forall_app. split; [done|].
  constructor; [split; [constructor; [exact Hk|constructor]|constructor]|]. constructor; [|constructor]. split; [constructor; [exact Hk|constructor]|]. constructor; [exact I|constructor].
Qed.
Lemma count_get j : fst (run_call x (CGet k) (snd (run_calls x (incs k v0 j) s0))) = AVal (VInt (v0 + Z.of_nat j)).
Proof.
  destruct (any_mapping s0 x cls (incs k v0 j ++ [CGet k]) R Hc Htc Href Hu) as (s' & E & _).
  { apply Forall_app. split; [apply incs_ok|]. constructor; [|constructor]. split; [constructor; [exact Hk|constructor]|constructor]. }
  rewrite run_calls_app, calls_spec_app in E. pose proof (incs_spec _ k v0 _ j Hv Hg Hs) as Hi. pose proof (run_calls_length x (incs k v0 j) s0) as L1.
  pose proof (calls_spec_length (class_policy cls (allows s0 x)) (incs k v0 j) (entries_at s0 x)) as L2.
  destruct (run_calls x (incs k v0 j) s0) as [a s1]. destruct (calls_spec _ (incs k v0 j) _) as [b d1]. simpl in *.
  destruct (wrap AVal (getitem x k) s1) as [c s2]. simpl in *. unfold do_get in E. rewrite Hg, Hi in E. injection E as E _.
  apply app_inj_1 in E as [_ E]; [|lia]. by injection E as ->.
Qed.
Lemma count_set j : fst (run_call x (CSet k (VInt (v0 + Z.of_nat j + 1))) (snd (run_call x (CGet k) (snd (run_calls x (incs k v0 j) s0))))) = ANone.
Proof.
  destruct (any_mapping s0 x cls (incs k v0 (S j)) R Hc Htc Href Hu (incs_ok (S j))) as (s' & E & _). rewrite incs_S in E.
  rewrite run_calls_app, calls_spec_app in E. pose proof (run_calls_length x (incs k v0 j) s0) as L1.
  pose proof (calls_spec_length (class_policy cls (allows s0 x)) (incs k v0 j) (entries_at s0 x)) as L2.
  destruct (run_calls x (incs k v0 j) s0) as [a s1]. destruct (calls_spec _ (incs k v0 j) _) as [b d1]. simpl in *.
  destruct (wrap AVal (getitem x k) s1) as [c s2]. simpl in *. destruct (wrap (fun _ => ANone) (setitem x k (VInt (v0 + Z.of_nat j + 1))) s2) as [c' s3]. simpl in *.
  unfold do_set in E. rewrite Hs in E. simpl in E. injection E as E _. apply app_inj_1 in E as [_ E]; [|lia]. by injection E as _ ->.
Qed.
Lemma run_calls_2 c1 c2 s : snd (run_calls x [c1; c2] s) = snd (run_call x c2 (snd (run_call x c1 s))).
Proof. simpl. destruct (run_call x c1 s) as [a s1]. simpl. by destruct (run_call x c2 s1). Qed.
Lemma count_block t j m l' s' : alone (count_work x k) t (Solo [KStmts [Work; Work]] Normal Unread (snd (run_calls x (incs k v0 j) s0))) (Solo [] m l' s') ->
  m = Normal /\ l' = Stored /\ s' = snd (run_calls x (incs k v0 (S j)) s0).
Proof.
  intros H. pose proof (count_get j) as G. pose proof (count_set j) as S. rewrite incs_S, run_calls_app.
  destruct (run_calls x (incs k v0 j) s0) as [a s1]. cbn [snd] in *.
  assert (E2 : forall a1 sa, run_call x (CGet k) s1 = (a1, sa) -> forall a2 sb, run_call x (CSet k (VInt (v0 + Z.of_nat j + 1))) sa = (a2, sb) ->
    m = Normal /\ l' = Stored /\ s' = sb).
  { intros a1 sa Ea a2 sb Eb. rewrite Ea in G, S. cbn [fst snd] in G, S. rewrite Eb in S. cbn [fst] in S. subst a1 a2.
    eapply alone_det in H; [|unfold alone_step; cbn [a_todo a_mode a_loc a_data]; unfold count_work; rewrite Ea; reflexivity].
    eapply alone_det in H; [|reflexivity].
    eapply alone_det in H; [|unfold alone_step; cbn [a_todo a_mode a_loc a_data]; unfold count_work; rewrite Eb; reflexivity].
    do 2 (eapply alone_det in H; [|reflexivity]). unfold alone in H. inversion H as [|y z' a' E' H']; subst; [done|done]. }
  destruct (run_call x (CGet k) s1) as [a1 sa] eqn:Ea. destruct (run_call x (CSet k (VInt (v0 + Z.of_nat j + 1))) sa) as [a2 sb] eqn:Eb.
  destruct (E2 a1 sa eq_refl a2 sb Eb) as (-> & -> & ->). split; [done|]. split; [done|]. cbn [run_calls]. rewrite Ea, Eb. done.
Qed.
Definition is_stored (e : nat * tally) : Prop := snd e = Stored.
Global Instance is_stored_dec e : Decision (is_stored e).
Proof. unfold is_stored. destruct (snd e); first [left; reflexivity|right; discriminate]. Defined.
Lemma serial_count z : serial_reach counts (count_work x k) s0 z ->
  z_data z = snd (run_calls x (incs k v0 (size (filter is_stored (z_loc z)))) s0) /\
  forall t, match z_thr z !! t with
            | None => z_loc z !! t = None
            | Some (K, m) => m = Normal /\ ((K = [KStmts (count_code n)] /\ z_loc z !! t = Some Unread) \/ ((K = [KStmts []] \/ K = []) /\ z_loc z !! t = Some Stored))
            end.
Proof.
  induction 1 as [|z t p l Z [IH1 IH2] Ht [Hp Hl]|z t n' b p K m l l' d' Z [IH1 IH2] Ht Hl Hal|z t K m l K' m' Z [IH1 IH2] Ht Hl Hab Hst]; simpl.
  - rewrite map_filter_empty. split; [done|]. intros t. by rewrite !lookup_empty.
  - pose proof (IH2 t) as H2. rewrite Ht in H2. split.
    + rewrite map_filter_insert_False by (subst l; done). rewrite delete_notin by done. done.
    + intros t'. destruct (decide (t' = t)) as [->|Hne]; [rewrite !lookup_insert|rewrite !lookup_insert_ne by done; apply IH2].
      split; [done|]. left. by subst.
  - pose proof (IH2 t) as H2. rewrite Ht in H2. destruct H2 as [_ [[HK HL]|[[HK|HK] _]]]; [|done|done]. injection HK as -> -> -> ->.
    rewrite HL in Hl. injection Hl as <-. rewrite IH1 in Hal. apply count_block in Hal as (-> & -> & ->). split.
    + rewrite map_filter_insert_True by done. rewrite map_size_insert_None; [done|]. apply map_filter_lookup_None. right. intros y Hy. rewrite HL in Hy. by injection Hy as <-.
    + intros t'. destruct (decide (t' = t)) as [->|Hne]; [rewrite !lookup_insert|rewrite !lookup_insert_ne by done; apply IH2].
      split; [done|]. right. split; [by left|done].
  - pose proof (IH2 t) as H2. rewrite Ht in H2. destruct H2 as [-> [[-> HL]|[[->| ->] HL]]]; [done| |done]. simpl in Hst. injection Hst as <- <-.
    split; [done|]. intros t'. destruct (decide (t' = t)) as [->|Hne]; [rewrite !lookup_insert|rewrite !lookup_insert_ne by done; apply IH2].
    split; [done|]. right. split; [by right|done].
Qed.
Lemma count_finished r root attr next l0 w : attr !! r = Some l0 -> root n = r ->
  threads_reach counts (count_work x k) root attr next s0 w -> (forall t K m, g_thr (w_cfg w) !! t = Some (K, m) -> K = []) ->
  value_at k (entries_at (w_data w) x) = Some (VInt (v0 + Z.of_nat (size (g_thr (w_cfg w))))).
Proof.
  intros Ha Hn Hw Hfin.
  destruct (blocks_atomic counts (count_work x k) r root attr next s0 l0) with (w := w) as (z & Z & Hd & Hloc & Hdone & Hnone); try done.
  { intros t p l [-> _]. repeat constructor. done. }
  { intros t l d. unfold count_work. destruct l; simpl; repeat case_match; constructor. }
  { intros t (K & m & lk & n' & Ht & Hin & _). rewrite (Hfin _ _ _ Ht) in Hin. by apply elem_of_nil in Hin. }
  destruct (serial_count z Z) as [H1 H2]. rewrite <- Hd, H1.
  destruct (any_mapping s0 x cls _ R Hc Htc Href Hu (incs_ok (size (filter is_stored (z_loc z))))) as (s' & E & Ee). rewrite E. cbn [snd]. rewrite Ee.
  rewrite (incs_spec _ k v0 _ _ Hv Hg Hs). do 4 f_equal.
  assert (Hall : filter is_stored (z_loc z) = (fun _ => Stored) <$> g_thr (w_cfg w)).
  { apply map_eq. intros t. rewrite lookup_fmap. specialize (H2 t). destruct (g_thr (w_cfg w) !! t) as [[K m]|] eqn:Et; simpl.
    - assert (K = []) as -> by (by eapply Hfin). rewrite (Hdone _ _ Et) in H2. destruct H2 as [_ [[HK _]|[_ HL]]]; [done|]. by apply map_filter_lookup_Some.
    - apply Hnone in Et. rewrite Et in H2. apply map_filter_lookup_None. by left. }
  rewrite Hall. apply map_size_fmap.
Qed.
End Count.
