(** Proofs about events: dispatching, attributes, suppression, threads. *)
From Verif Require Import Py Events SpecEvents EventsProofs.
From stdpp Require Import list.

Section same.
Context {V : Type}.
Implicit Types (s : est V).
Lemma bind_same d kw : forall s, e_trace (snd (bind_ d kw s)) = e_trace s /\ e_count (snd (bind_ d kw s)) = e_count s /\
  e_vals (snd (bind_ d kw s)) = e_vals s /\ e_tl (snd (bind_ d kw s)) = e_tl s.
Proof.
  induction kw as [|[e x] kw IH]; intros s; simpl; [done|].
  assert (H1 : e_trace (snd (bind1 d e x s)) = e_trace s /\ e_count (snd (bind1 d e x s)) = e_count s /\
     e_vals (snd (bind1 d e x s)) = e_vals s /\ e_tl (snd (bind1 d e x s)) = e_tl s).
  { unfold bind1. destruct (e_dsp s !! d); [|done]. case_decide; [|done].
    destruct (Events.assoc e _); simpl; case_decide; done. }
  destruct (bind1 d e x s) as [[|] s']; simpl in *; [|done]. destruct (IH s') as (A1 & A2 & A3 & A4). naive_solver congruence.
Qed.
Lemma unbind_same d e x s : e_trace (snd (unbind d e x s)) = e_trace s /\ e_count (snd (unbind d e x s)) = e_count s /\
  e_vals (snd (unbind d e x s)) = e_vals s /\ e_tl (snd (unbind d e x s)) = e_tl s.
Proof.
  unfold unbind. destruct (e_dsp s !! d) as [o|]; [|done].
  assert (H1 : forall x l s, e_trace (remove_from x l s) = e_trace s /\ e_count (remove_from x l s) = e_count s /\
    e_vals (remove_from x l s) = e_vals s /\ e_tl (remove_from x l s) = e_tl s).
  { intros. unfold remove_from. by case_decide. }
  destruct e as [e|], x as [x|]; simpl; try done; [by destruct (Events.assoc e _); [apply H1|]|].
  generalize (map snd (d_subs o)). intros l. revert s. induction l as [|l ls IH]; intros s; simpl; [done|].
  destruct (IH (remove_from x l s)) as (A1 & A2 & A3 & A4). destruct (H1 x l s) as (B1 & B2 & B3 & B4).
  rewrite A1, A2, A3, A4. done.
Qed.
Lemma def_class_same c b o a s : e_trace (snd (def_class c b o a s)) = e_trace s /\ e_count (snd (def_class c b o a s)) = e_count s /\
  e_vals (snd (def_class c b o a s)) = e_vals s /\ e_tl (snd (def_class c b o a s)) = e_tl s.
Proof. unfold def_class. destruct o; [|destruct b as [b|]; simpl; [destruct (e_cls s !! b)|]]; done. Qed.
Lemma register_same d e s : e_trace (snd (register d e s)) = e_trace s /\ e_count (snd (register d e s)) = e_count s /\
  e_vals (snd (register d e s)) = e_vals s /\ e_tl (snd (register d e s)) = e_tl s.
Proof. unfold register. destruct (e_dsp s !! d); [|done]. simpl. by case_decide. Qed.

Lemma init_same th n s : e_trace (snd (sup_init th n s)) = e_trace s /\ e_count (snd (sup_init th n s)) = e_count s.
Proof. unfold sup_init. by destruct n, (tl_events (tl_of s th)). Qed.
Lemma enter_same th s : e_trace (snd (sup_enter th s)) = e_trace s /\ e_count (snd (sup_enter th s)) = e_count s.
Proof. unfold sup_enter. by destruct (tl_suppress _). Qed.
Lemma exit_same th n s : e_trace (snd (sup_exit th n s)) = e_trace s /\ e_count (snd (sup_exit th n s)) = e_count s.
Proof.
  unfold sup_exit. destruct (tl_suppress _); [|done]. destruct n; [done|]. destruct (tl_events _); [|done]. by destruct (remove_names _ _).
Qed.
End same.

Section proofs.
Context {V : Type} (veqb : V -> V -> bool) (unset : V)
  (behave : ecall V -> est V -> list (act V)) (attribute : nat -> string -> option (desc V)).
Implicit Types (s : est V).
Notation exec := (exec veqb unset behave attribute).
Notation step := (step veqb unset behave attribute).
Notation dispatch := (dispatch behave).
Notation set_attr := (set_attr veqb behave attribute).
Notation del_attr := (del_attr unset behave attribute).
Notation ereach := (ereach veqb unset behave attribute).

(** * The trace *)
Definition grow (m : nat) s s' : Prop :=
  e_count s <= e_count s' /\
  exists new, e_trace s' = e_trace s ++ new /\ Forall (fun c => m <= c_dispatch c < e_count s') new.
Lemma grow_same m s s' : e_trace s' = e_trace s -> e_count s' = e_count s -> grow m s s'.
Proof. intros E1 E2. split; [by rewrite E2|]. exists []. rewrite app_nil_r. split; [done|constructor]. Qed.
Lemma grow_trans m s1 s2 s3 : grow m s1 s2 -> grow m s2 s3 -> grow m s1 s3.
Proof.
  intros (A1 & n1 & A2 & A3) (B1 & n2 & B2 & B3). split; [lia|]. exists (n1 ++ n2). rewrite B2, A2, app_assoc. split; [done|].
  apply Forall_app. split; [|done]. eapply Forall_impl; [exact A3|]. simpl. lia.
Qed.
Lemma grow_le m m' s s' : m <= m' -> grow m' s s' -> grow m s s'.
Proof. intros H (A1 & n & A2 & A3). split; [done|]. exists n. split; [done|]. eapply Forall_impl; [exact A3|]. simpl. lia. Qed.
Lemma grow_log s c : c_dispatch c < e_count s -> grow (c_dispatch c) s (log_call c s).
Proof. intros H. split; [done|]. exists [c]. split; [done|]. constructor; [simpl; lia|constructor]. Qed.
Lemma grow_seq m s r k : grow m s (snd r) -> (forall s', e_count s <= e_count s' -> grow m s' (snd (k s'))) -> grow m s (snd (seq_ r k)).
Proof.
  intros H Hk. destruct r as [[|e] s']; simpl in *; [|done]. eapply grow_trans; [exact H|]. apply Hk. apply H.
Qed.
Definition run_grows (run : list (act V) -> est V -> eres * est V) : Prop := forall p s, grow (e_count s) s (snd (run p s)).
Lemma grow_call run c s : run_grows run -> c_dispatch c < e_count s -> grow (c_dispatch c) s (snd (call_sub behave run c s)).
Proof.
  intros Hr Hc. unfold call_sub. eapply grow_trans; [by apply grow_log|]. eapply grow_le; [|apply Hr]. simpl. lia.
Qed.
Lemma grow_fixed i body l : (forall x s, i < e_count s -> grow i s (snd (body x s))) ->
  forall s, i < e_count s -> grow i s (snd (fixed_loop body l s)).
Proof.
  intros Hb. induction l as [|x l IH]; intros s Hs; simpl; [by apply grow_same|]. apply grow_seq; [auto|]. intros s' Hs'. apply IH. lia.
Qed.
Lemma grow_live i body l f : (forall x s, i < e_count s -> grow i s (snd (body x s))) ->
  forall j s, i < e_count s -> grow i s (snd (live_loop f body l j s)).
Proof.
  intros Hb. induction f as [|f IH]; intros j s Hs; simpl; destruct (list_at s l !! j); try by apply grow_same.
  apply grow_seq; [auto|]. intros s' Hs'. apply IH. lia.
Qed.
Lemma grow_dispatch run f th d e a s : run_grows run -> grow (e_count s) s (snd (dispatch run f th d e a s)).
Proof.
  intros Hr. unfold Events.dispatch.
  assert (Hc : grow (e_count s) s (count s)).
  { split; [simpl; lia|]. exists []. rewrite app_nil_r. split; [done|constructor]. }
  destruct (tl_inject _) as [inj|]; [|done].
  eapply grow_trans; [exact Hc|]. destruct (suppressed_now _ e) as [[|]|]; try by apply grow_same.
  set (s1 := with_tl _ _ _). eapply grow_trans; [apply (grow_same _ _ s1); done|].
  apply grow_seq.
  - apply grow_fixed; [|simpl; lia]. intros x s' Hs'. by apply (grow_call run (Call (e_count s) d e x true a)).
  - intros s2 Hs2. simpl in Hs2. destruct (e_dsp s2 !! d); [|by apply grow_same]. destruct (Events.assoc e _); [|by apply grow_same].
    apply grow_live; [|lia]. intros x s' Hs'. by apply (grow_call run (Call (e_count s) d e x false a)).
Qed.
Lemma grow_with run th n b s : run_grows run -> grow (e_count s) s (snd (sup_with run th n b s)).
Proof.
  intros Hr. unfold sup_with. apply grow_seq; [by apply grow_same; apply enter_same|].
  intros s1 Hs1. pose proof (Hr b s1) as H2. destruct (run b s1) as [r s2]. simpl in H2.
  pose proof (exit_same th n s2) as [E1 E2]. eapply grow_le; [exact Hs1|].
  assert (H3 : grow (e_count s1) s1 (snd (sup_exit th n s2))) by (eapply grow_trans; [exact H2|by apply grow_same]).
  destruct r as [|[]]; destruct (sup_exit th n s2) as [[|] s3]; done.
Qed.
Lemma grow_step run f th a s : run_grows run -> grow (e_count s) s (snd (step run f th a s)).
Proof.
  intros Hr. destruct a; cbn [Events.step].
  - apply grow_same; apply def_class_same.
  - by apply grow_same.
  - apply grow_same; apply register_same.
  - apply grow_same; apply bind_same.
  - apply grow_same; apply unbind_same.
  - by apply grow_dispatch.
  - unfold Events.set_attr. destruct (attribute d name); [|by apply grow_same]. destruct (_ || _); [|by apply grow_same].
    match goal with |- grow _ _ (snd (dispatch _ _ _ _ _ _ ?x)) => set (s1 := x) end.
    eapply grow_trans; [apply (grow_same _ _ s1); done|]. by apply (grow_dispatch run f th d name ([v], []) s1).
  - unfold Events.del_attr. destruct (attribute d name); [|by apply grow_same]. destruct (e_vals s !! _); [|by apply grow_same].
    eapply grow_trans; [apply (grow_same _ _ (set_vals (delete (d, name)) s)); done|]. by apply (grow_dispatch run f th d name ([unset], []) (set_vals (delete (d, name)) s)).
  - apply grow_seq; [apply grow_same; apply init_same|]. intros s' Hs'. eapply grow_le; [exact Hs'|]. by apply grow_with.
  - apply grow_seq; [apply grow_same; apply init_same|]. intros s' Hs'. by apply grow_same.
  - destruct (e_sups s !! o); [by apply grow_with|by apply grow_same].
  - specialize (Hr body s). by destruct (run body s).
  - by apply grow_same.
Qed.
Lemma grow_exec n th : run_grows (exec n th).
Proof.
  induction n as [|n IH]; intros p s; simpl; [by apply grow_same|]. destruct p as [|a p]; [by apply grow_same|].
  apply grow_seq; [by apply grow_step|]. intros s' Hs'. eapply grow_le; [exact Hs'|]. apply IH.
Qed.
Definition trace_lt s : Prop := Forall (fun c => c_dispatch c < e_count s) (e_trace s).
Lemma grow_trace_lt m s s' : grow m s s' -> trace_lt s -> trace_lt s'.
Proof.
  intros (A1 & n & A2 & A3) H. unfold trace_lt. rewrite A2. apply Forall_app. split; (eapply Forall_impl; [done|]); simpl; lia.
Qed.
Lemma ereach_trace_lt th0 s : ereach th0 s -> trace_lt s.
Proof.
  induction 1 as [|s n th p r s' _ IH E]; [constructor|]. eapply grow_trace_lt; [|exact IH].
  pose proof (grow_exec n th p s) as H. by rewrite E in H.
Qed.
Lemma calls_of_fresh s : trace_lt s -> calls_of (e_count s) s = [].
Proof. intros H. apply filter_false. intros c Hc E. unfold trace_lt in H. rewrite Forall_forall in H. specialize (H c Hc). lia. Qed.
Lemma calls_of_grow i s s' m : i < m -> grow m s s' -> calls_of i s' = calls_of i s.
Proof.
  intros Hi (_ & n & A2 & A3). unfold calls_of. rewrite A2, filter_app. rewrite (filter_false _ n); [by rewrite app_nil_r|].
  intros c Hc E. rewrite Forall_forall in A3. specialize (A3 c Hc). simpl in A3. lia.
Qed.

(** * Walking a subscriber list nobody changes *)
Lemma keeps_all d e (b : list (act V)) :
  (fix all l := match l with [] => True | a :: r => keeps_subscriptions d e a /\ all r end) b <-> Forall (keeps_subscriptions d e) b.
Proof. induction b as [|a b IH]; [by split; [constructor|]|]. rewrite Forall_cons, <- IH. done. Qed.
Definition kept (d : nat) (e : string) (ol : option nat) (L : list nat) s : Prop :=
  ewf s /\ (exists o, e_dsp s !! d = Some o /\ Events.assoc e (d_subs o) = ol) /\ bound s d e = L.
Lemma kept_same d e ol L s s' : e_dsp s' = e_dsp s -> e_lists s' = e_lists s -> e_next s <= e_next s' -> kept d e ol L s -> kept d e ol L s'.
Proof.
  intros E1 E2 E3 (W & (o & Ho & Ha) & B). split; [by eapply ewf_same|]. split; [exists o; by rewrite E1|]. unfold bound in *. by rewrite E1, E2.
Qed.
Lemma assoc_snoc e e' l ls : e' <> e -> Events.assoc e (ls ++ [(e', l)]) = Events.assoc e ls.
Proof. intros H. induction ls as [|[k v] ls IH]; simpl; [by rewrite decide_False by done|]. by rewrite IH. Qed.
Lemma kept_bind1 d e ol L d' e' x s : d' <> d \/ e' <> e -> kept d e ol L s -> kept d e ol L (snd (bind1 d' e' x s)).
Proof.
  intros Hne (W & (o & Ho & Ha) & B). destruct (e_dsp s !! d') as [o'|] eqn:Ho'; [|by rewrite bind1_none; [split; eauto|]].
  destruct (declared_dec s d' e') as [Hd|Hd]; [|rewrite bind1_unknown by eauto; split; eauto].
  destruct (bind1_eff s d' e' x W Hd) as (s' & E & W' & F). rewrite E. split; [done|]. split.
  - clear F W'. unfold bind1 in E. rewrite Ho' in E. rewrite decide_True in E by (destruct Hd as (o'' & Ho'' & Hd); rewrite class_events_in; rewrite Ho' in Ho''; injection Ho'' as <-; exact Hd).
    destruct (Events.assoc e' (d_subs o')); simpl in E; injection E as <-.
    + exists o. by case_decide.
    + destruct (decide (d' = d)) as [->|Hdd].
      * rewrite Ho in Ho'. injection Ho' as <-. exists (Dsp (d_class o) (d_events o) (d_subs o ++ [(e', e_next s)])).
        split; [case_decide; simpl; by rewrite lookup_insert|]. simpl. rewrite assoc_snoc by naive_solver. done.
      * exists o. split; [|done]. case_decide; simpl; by rewrite lookup_insert_ne.
  - destruct F as [F _]. rewrite F, decide_False by naive_solver. done.
Qed.
Lemma kept_bind d e ol L d' kw : (d' <> d \/ e ∉ map fst kw) -> forall s, kept d e ol L s -> kept d e ol L (snd (bind_ d' kw s)).
Proof.
  induction kw as [|[e' x] kw IH]; intros Hne s H; [done|]. simpl. apply P_seq.
  - apply kept_bind1; [|done]. destruct Hne as [?|Hne]; [by left|right]. intros ->. apply Hne. left.
  - intros s'. apply IH. destruct Hne as [?|Hne]; [by left|right]. intros ?. apply Hne. by right.
Qed.
Lemma kept_unbind d e ol L d' e' x s : (d' <> d \/ (exists e'', e' = Some e'' /\ e'' <> e)) -> kept d e ol L s -> kept d e ol L (snd (unbind d' e' x s)).
Proof.
  intros Hne (W & (o & Ho & Ha) & B). destruct (e_dsp s !! d') as [o'|] eqn:Ho'; [|unfold unbind; rewrite Ho'; split; eauto].
  destruct (unbind_eff s d' e' x W) as (s' & E & W' & F); [eauto|]. rewrite E. split; [done|]. split.
  - unfold unbind in E. rewrite Ho' in E. injection E as <-.
    assert (Hr : forall x l s, e_dsp (remove_from x l s) = e_dsp s) by (intros; unfold remove_from; by case_decide).
    destruct e' as [e'|], x as [x|].
    + exists o. split; [|done]. destruct (Events.assoc e' _); [simpl; by rewrite Hr|done].
    + destruct (decide (d' = d)) as [->|Hdd]; simpl.
      * rewrite lookup_insert. eexists. split; [done|]. rewrite Ho in Ho'. injection Ho' as <-. simpl. rewrite assoc_filter. rewrite decide_False; [done|].
        destruct Hne as [?|(? & [= ->] & ?)]; done.
      * rewrite lookup_insert_ne by done. eauto.
    + exists o. split; [|done]. rewrite <- Ho. f_equal. simpl. generalize (map snd (d_subs o')). intros ls. clear -Hr. revert s. induction ls as [|l ls IH]; intros s; [done|].
      simpl. by rewrite IH, Hr.
    + destruct Hne as [?|(? & ? & ?)]; [|done]. simpl. rewrite lookup_insert_ne by done. eauto.
  - destruct F as [F _]. rewrite F. unfold unbinds. rewrite decide_False; [done|]. intros [-> Hs]. destruct Hne as [?|(? & -> & ?)]; [done|]. simpl in Hs. congruence.
Qed.
Lemma kept_new d e ol L d' c s : d' <> d -> kept d e ol L s -> kept d e ol L (snd (new_dispatcher d' c s)).
Proof.
  intros Hne (W & (o & Ho & Ha) & B). split.
  - pose proof (exec_wf veqb unset behave attribute 2 0 [ANew d' c] s W) as H. done.
  - simpl. split; [exists o; by rewrite lookup_insert_ne|]. unfold bound in *. simpl. by rewrite lookup_insert_ne.
Qed.
Lemma kept_register d e ol L d' e' s : kept d e ol L s -> kept d e ol L (snd (register d' e' s)).
Proof.
  intros (W & (o & Ho & Ha) & B). split.
  - pose proof (exec_wf veqb unset behave attribute 2 0 [ARegister d' e'] s W) as H. simpl in H. by destruct (register d' e' s) as [[|] ?].
  - unfold register. destruct (e_dsp s !! d') as [o'|] eqn:Ho'; [|split; eauto]. simpl. case_decide; [split; eauto|]. simpl.
    unfold bound in *. simpl. destruct (decide (d' = d)) as [->|]; [|rewrite !lookup_insert_ne by done; split; eauto].
    rewrite lookup_insert. simpl. rewrite Ho in Ho', B. injection Ho' as <-. split; [|done]. eexists. by split.
Qed.
Section walk.
Context (d : nat) (e : string) (Hkeep : forall c s, Forall (keeps_subscriptions d e) (behave c s)).
Lemma kept_exec ol L n th p s : kept d e ol L s -> Forall (keeps_subscriptions d e) p -> kept d e ol L (snd (exec n th p s)).
Proof.
  apply (P_exec veqb unset behave attribute (kept d e ol L) (keeps_subscriptions d e)); auto.
  - intros m b. simpl. by rewrite keeps_all.
  - intros m b. simpl. by rewrite keeps_all.
  - intros b. simpl. by rewrite keeps_all.
  - intros. by eapply kept_same; [..|eassumption].
  - intros. by eapply kept_same; [..|eassumption].
  - intros. by eapply kept_same; [..|eassumption].
  - intros. by eapply kept_same; [..|eassumption].
  - intros. by eapply kept_same; [..|eassumption].
  - intros. by eapply kept_same; [..|eassumption].
  - intros c b o a s' H _. unfold def_class. destruct o; [|destruct b as [b|]; simpl; [destruct (e_cls s' !! b)|]]; (eapply kept_same; [..|exact H]; simpl; [done|done|lia]).
  - intros d' c s' H Hne. by apply kept_new.
  - intros d' e' s' H _. by apply kept_register.
  - intros d' kw s' H Hne. by apply kept_bind.
  - intros d' e' x s' H Hne. by apply kept_unbind.
Qed.
Lemma call_kept ol L n th c s : kept d e ol L s -> kept d e ol L (snd (call_sub behave (exec n th) c s)).
Proof. intros H. unfold call_sub. apply kept_exec; [|done]. by eapply kept_same; [..|exact H]. Qed.
Lemma call_calls n th c s : c_dispatch c < e_count s -> calls_of (c_dispatch c) (snd (call_sub behave (exec n th) c s)) = calls_of (c_dispatch c) s ++ [c].
Proof.
  intros Hc. unfold call_sub. erewrite calls_of_grow; [| |apply grow_exec]; [|simpl; lia].
  unfold calls_of. simpl. rewrite filter_app, filter_cons, decide_True by done. done.
Qed.
Lemma walk_fixed ol L n th i self a l : forall s r s', kept d e ol L s -> i < e_count s ->
  fixed_loop (fun x => call_sub behave (exec n th) (Call i d e x self a)) l s = (r, s') ->
  kept d e ol L s' /\ i < e_count s' /\ exists k, calls_of i s' = calls_of i s ++ round i d e a self (take k l) /\ (r = EOk -> length l <= k).
Proof.
  induction l as [|x l IH]; intros s r s' H Hi; simpl.
  - intros [= <- <-]. split; [done|]. split; [done|]. exists 0. simpl. rewrite app_nil_r. split; [done|lia].
  - pose proof (call_kept ol L n th (Call i d e x self a) s H) as H1. pose proof (call_calls n th (Call i d e x self a) s Hi) as H2. simpl in H2.
    assert (H3 : e_count s <= e_count (snd (call_sub behave (exec n th) (Call i d e x self a) s))).
    { pose proof (grow_call (exec n th) (Call i d e x self a) s (grow_exec n th) Hi) as [? _]. done. }
    destruct (call_sub behave (exec n th) (Call i d e x self a) s) as [[|ex] s1]; simpl in *.
    + intros E. destruct (IH s1 r s' H1 ltac:(lia) E) as (H4 & H5 & k & H6 & H7). split; [done|]. split; [done|]. exists (S k).
      simpl. rewrite H6, H2, <- app_assoc. split; [done|]. intros ->. specialize (H7 eq_refl). lia.
    + intros [= <- <-]. split; [done|]. split; [lia|]. exists 1. simpl. rewrite H2. split; [by destruct l|done].
Qed.
Lemma walk_live l L n th i self a : forall f j s r s', kept d e (Some l) L s -> i < e_count s ->
  live_loop f (fun x => call_sub behave (exec n th) (Call i d e x self a)) l j s = (r, s') ->
  exists k, calls_of i s' = calls_of i s ++ round i d e a self (take k (drop j L)) /\ (r = EOk -> length L <= j + k).
Proof.
  assert (HL : forall s, kept d e (Some l) L s -> list_at s l = L).
  { intros s (_ & (o & Ho & Ha) & <-). unfold bound. by rewrite Ho, Ha. }
  induction f as [|f IH]; intros j s r s' H Hi; simpl; rewrite (HL s H); destruct (L !! j) as [x|] eqn:Ej.
  - intros [= <- <-]. exists 0. simpl. rewrite app_nil_r. split; [done|]. done.
  - intros [= <- <-]. exists 0. simpl. rewrite app_nil_r. split; [done|]. apply lookup_ge_None in Ej. lia.
  - pose proof (call_kept (Some l) L n th (Call i d e x self a) s H) as H1. pose proof (call_calls n th (Call i d e x self a) s Hi) as H2. simpl in H2.
    assert (H3 : e_count s <= e_count (snd (call_sub behave (exec n th) (Call i d e x self a) s))).
    { pose proof (grow_call (exec n th) (Call i d e x self a) s (grow_exec n th) Hi) as [? _]. done. }
    rewrite (drop_S L x j Ej).
    destruct (call_sub behave (exec n th) (Call i d e x self a) s) as [[|ex] s1]; simpl in *.
    + intros E. destruct (IH (S j) s1 r s' H1 ltac:(lia) E) as (k & H6 & H7). exists (S k).
      simpl. rewrite H6, H2, <- app_assoc. split; [done|]. intros ->. specialize (H7 eq_refl). lia.
    + intros [= <- <-]. exists 1. simpl. rewrite H2. split; [by destruct (drop (S j) L)|done].
  - intros [= <- <-]. exists 0. simpl. rewrite app_nil_r. split; [done|]. apply lookup_ge_None in Ej. lia.
Qed.
Lemma dispatch_calls n f th a s inj r s' : ewf s -> trace_lt s -> is_Some (e_dsp s !! d) ->
  tl_inject (tl_of s th) = Some inj -> suppressed_now (tl_of s th) e = Some false ->
  dispatch (exec n th) f th d e a s = (r, s') ->
  exists k, calls_of (e_count s) s' = take k (round (e_count s) d e a true inj ++ round (e_count s) d e a false (bound s d e)) /\
    (r = EOk -> length inj + length (bound s d e) <= k).
Proof.
  intros W Ht [o Ho] Hinj Hsup. unfold Events.dispatch.
  change (tl_of (count s) th) with (tl_of s th). rewrite Hinj. set (s1 := with_tl _ _ _).
  assert (Hsup1 : suppressed_now (tl_of s1 th) e = Some false).
  { rewrite <- Hsup. unfold s1, with_tl, tl_of at 1. simpl. rewrite lookup_insert. done. }
  rewrite Hsup1. assert (H1 : kept d e (Events.assoc e (d_subs o)) (bound s d e) s1).
  { split; [by apply (ewf_same s)|]. split; [by exists o|done]. }
  assert (Hc1 : calls_of (e_count s) s1 = []).
  { change (calls_of (e_count s) s1) with (calls_of (e_count s) s). by apply calls_of_fresh. }
  destruct (fixed_loop _ inj s1) as [r2 s2] eqn:E2.
  destruct (walk_fixed (Events.assoc e (d_subs o)) (bound s d e) n th (e_count s) true a inj s1 r2 s2 H1 ltac:(simpl; lia) E2) as (H2 & Hi2 & k & Hk & Hr2).
  rewrite Hc1 in Hk. simpl in Hk. destruct r2 as [|ex]; simpl.
  - specialize (Hr2 eq_refl). rewrite take_ge in Hk by lia. pose proof H2 as (W2 & (o2 & Ho2 & Ha2) & HB2). rewrite Ho2, Ha2.
    destruct (Events.assoc e (d_subs o)) as [l|] eqn:Ha.
    + intros E3. destruct (walk_live l (bound s d e) n th (e_count s) false a f 0 s2 r s' H2 Hi2 E3) as (k' & Hk' & Hr').
      rewrite drop_0 in Hk'. exists (length inj + k'). rewrite Hk', Hk. split.
      * unfold round. rewrite take_add_app by (by rewrite map_length). f_equal. symmetry. apply firstn_map.
      * intros ->. specialize (Hr' eq_refl). lia.
    + intros [= <- <-]. exists (length inj). rewrite Hk. unfold round. rewrite take_app_alt by (by rewrite map_length). split; [done|].
      unfold bound. rewrite Ho, Ha. simpl. lia.
  - intros [= <- <-]. exists (k `min` length inj). rewrite Hk. unfold round. split; [|done].
    rewrite take_app_le by (rewrite map_length; lia). rewrite firstn_map. f_equal.
    destruct (decide (k <= length inj)); [by rewrite Nat.min_l by done|]. rewrite Nat.min_r by lia. rewrite !take_ge by lia. done.
Qed.
End walk.
End proofs.
