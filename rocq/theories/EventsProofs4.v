(** The event properties, from the lemmas before. *)
From Verif Require Import Py Events SpecEvents EventsProofs EventsProofs2 EventsProofs3.
From stdpp Require Import list.

Section proofs.
Context {V : Type} (veqb : V -> V -> bool) (unset : V)
  (behave : ecall V -> est V -> list (act V)) (attribute : nat -> string -> option (desc V)) (th0 : nat).
Implicit Types (s : est V).
Notation exec := (exec veqb unset behave attribute).
Notation ereach := (ereach veqb unset behave attribute th0).

Lemma bind_prop n th d kw s r s' : ereach s -> is_Some (e_dsp s !! d) -> exec n th [ABind d kw] s = (r, s') -> r <> EExc EFuel ->
  exists done,
    (forall e, bound s' d e = foldl add_once (bound s d e) (given_for e done)) /\
    (forall d' e, d' <> d -> bound s' d' e = bound s d' e) /\
    Forall (declared s d) (map fst done) /\
    ((r = EOk /\ done = kw) \/
     exists e x post, r = EExc (UnknownEvent e) /\ ~ declared s d e /\ kw = done ++ (e, x) :: post).
Proof.
  intros Hre Hd E Hf. apply exec_single in E as (m & -> & E); [|done]. cbn [step] in E.
  destruct (bind_eff d kw s (ereach_wf _ _ _ _ _ _ Hre) Hd) as [(s1 & E1 & D1 & _ & F1)|(pre & e & x & post & s1 & -> & E1 & D1 & N1 & _ & F1)];
    rewrite E1 in E; injection E as <- <-; destruct F1 as [F1 _].
  - exists kw. split; [intros e; rewrite F1; unfold adds; by rewrite decide_True|].
    split; [intros d' e Hne; rewrite F1; unfold adds; by rewrite decide_False|]. split; [done|]. by left.
  - exists pre. split; [intros e'; rewrite F1; unfold adds; by rewrite decide_True|].
    split; [intros d' e' Hne; rewrite F1; unfold adds; by rewrite decide_False|]. split; [done|]. right. by exists e, x, post.
Qed.
Lemma unbind_prop n th d oe ox s r s' : ereach s -> is_Some (e_dsp s !! d) -> exec n th [AUnbind d oe ox] s = (r, s') -> r <> EExc EFuel ->
  r = EOk /\ (forall e, bound s' d e = if decide (selects oe e) then filter (fun x => ~ selects ox x) (bound s d e) else bound s d e) /\
  (forall d' e, d' <> d -> bound s' d' e = bound s d' e).
Proof.
  intros Hre Hd E Hf. apply exec_single in E as (m & -> & E); [|done]. cbn [step] in E.
  destruct (unbind_eff s d oe ox (ereach_wf _ _ _ _ _ _ Hre) Hd) as (s1 & E1 & _ & F1). rewrite E1 in E. injection E as <- <-. destruct F1 as [F1 _].
  split; [done|]. split.
  - intros e. rewrite F1. unfold unbinds. destruct (decide (selects oe e)); [by rewrite decide_True|by rewrite decide_False by naive_solver].
  - intros d' e Hne. rewrite F1. unfold unbinds. by rewrite decide_False by naive_solver.
Qed.
Lemma bound_nodup s d e : ereach s -> NoDup (bound s d e).
Proof.
  intros Hre%ereach_wf. unfold bound. destruct (e_dsp s !! d) as [o|]; [|constructor]. destruct (Events.assoc e (d_subs o)); [|constructor].
  by apply list_at_nodup.
Qed.
Lemma plain_facts s th e : plain_thread s th -> tl_inject (tl_of s th) = Some [] /\ suppressed_now (tl_of s th) e = Some false.
Proof. intros [evs E]. unfold tl_of, suppressed_now. by rewrite E. Qed.
Lemma dispatch_prop n th d e a s r s' : ereach s -> is_Some (e_dsp s !! d) -> plain_thread s th ->
  (forall c s, Forall (keeps_subscriptions d e) (behave c s)) ->
  exec n th [ADispatch d e a] s = (r, s') -> r <> EExc EFuel ->
  exists k, calls_of (e_count s) s' = round (e_count s) d e a false (take k (bound s d e)) /\ (r = EOk -> length (bound s d e) <= k).
Proof.
  intros Hre Hd Hp Hk E Hf. apply exec_single in E as (m & -> & E); [|done]. cbn [step] in E. destruct (plain_facts s th e Hp) as [Hi Hs].
  destruct (dispatch_calls veqb unset behave attribute d e Hk m m th a s [] r s') as (k & Hc & Hr); try done; [by eapply ereach_wf|by eapply ereach_trace_lt|].
  exists k. split; [|done]. rewrite Hc. simpl. unfold round. by rewrite firstn_map.
Qed.
Lemma dispatch_none n th d e a s r s' : plain_thread s th -> bound s d e = [] -> is_Some (e_dsp s !! d) ->
  exec n th [ADispatch d e a] s = (r, s') -> r <> EExc EFuel -> r = EOk /\ e_trace s' = e_trace s.
Proof.
  intros Hp Hb [o Ho] E Hf. apply exec_single in E as (m & -> & E); [|done]. cbn [step] in E. destruct (plain_facts s th e Hp) as [Hi Hs].
  revert E. unfold Events.dispatch. change (tl_of (count s) th) with (tl_of s th). rewrite Hi.
  assert (E1 : suppressed_now (tl_of (with_tl th (fun t => Tl (tl_suppress t) (tl_events t) (Some [])) (count s)) th) e = Some false).
  { rewrite tl_with, decide_True by done. exact Hs. }
  rewrite E1. cbn [fixed_loop seq_]. set (s1 := with_tl _ _ _). change (e_dsp s1) with (e_dsp s). rewrite Ho.
  destruct (Events.assoc e (d_subs o)) as [l|] eqn:Ea; [|by intros [= <- <-]].
  assert (Hl : list_at s1 l = []). { unfold bound in Hb. rewrite Ho, Ea in Hb. exact Hb. }
  rewrite live_end by (rewrite Hl; simpl; lia). by intros [= <- <-].
Qed.

(** ** Lists changed while walked *)
Lemma bound_loc s d e x : x ∈ bound s d e -> exists o l, e_dsp s !! d = Some o /\ Events.assoc e (d_subs o) = Some l /\ list_at s l = bound s d e.
Proof.
  unfold bound. destruct (e_dsp s !! d) as [o|]; [|by intros ?%elem_of_nil]. destruct (Events.assoc e (d_subs o)) as [l|] eqn:E; [|by intros ?%elem_of_nil].
  intros _. by exists o, l.
Qed.
Lemma dispatch_live m f th d e a s o l : plain_thread s th -> e_dsp s !! d = Some o -> Events.assoc e (d_subs o) = Some l ->
  exists s1, dispatch behave (exec m th) f th d e a s = live_loop f (fun x => call_sub behave (exec m th) (Call (e_count s) d e x false a)) l 0 s1 /\
    e_dsp s1 = e_dsp s /\ e_lists s1 = e_lists s /\ e_next s1 = e_next s /\ e_cls s1 = e_cls s /\ e_evl s1 = e_evl s /\ e_trace s1 = e_trace s.
Proof.
  intros Hp Ho Ha. destruct (plain_facts s th e Hp) as [Hi Hs]. unfold Events.dispatch. change (tl_of (count s) th) with (tl_of s th). rewrite Hi.
  set (s1 := with_tl _ _ _). assert (E1 : suppressed_now (tl_of s1 th) e = Some false).
  { unfold s1. rewrite tl_with, decide_True by done. exact Hs. }
  rewrite E1. cbn [fixed_loop seq_]. change (e_dsp s1) with (e_dsp s). rewrite Ho, Ha. by exists s1.
Qed.
Lemma calls_of_all s s' i cs : trace_lt s -> i = e_count s -> e_trace s' = e_trace s ++ cs -> Forall (fun c => c_dispatch c = i) cs -> calls_of i s' = cs.
Proof.
  intros Ht -> E Hc. unfold calls_of. rewrite E, filter_app. change (filter _ (e_trace s)) with (calls_of (e_count s) s).
  rewrite calls_of_fresh by done. simpl. apply filter_true. intros c Hin. rewrite Forall_forall in Hc. by apply Hc.
Qed.
Lemma round_all i d e (a : args V) b l : Forall (fun c => c_dispatch c = i) (round i d e a b l).
Proof. apply Forall_forall. intros c Hc. unfold round in Hc. apply elem_of_list_fmap in Hc as (x & -> & _). done. Qed.

Lemma self_unbind th d e a s pre x y post n : ereach s -> plain_thread s th -> bound s d e = pre ++ x :: y :: post ->
  (forall c s, behave c s = if decide (c_sub c = x) then [AUnbind d (Some e) (Some x)] else []) ->
  length (bound s d e) + 3 <= n ->
  exists s', exec n th [ADispatch d e a] s = (EOk, s') /\
    calls_of (e_count s) s' = round (e_count s) d e a false (pre ++ x :: post) /\ bound s' d e = pre ++ y :: post.
Proof.
  intros Hre Hp Hb Hbeh Hn. assert (Hnd := bound_nodup s d e Hre). pose proof (ereach_wf _ _ _ _ _ _ Hre) as W.
  destruct (bound_loc s d e x) as (o & l & Ho & Ha & Hl); [rewrite Hb; set_solver|].
  rewrite Hb in Hnd, Hl, Hn. rewrite app_length in Hn. simpl in Hn.
  assert (exists f, n = S (S (S (length pre + S (length post + f))))) as [f ->] by (exists (n - 4 - length pre - length post); lia).
  set (m := S (S (length pre + S (length post + f)))). change (S m) with (S m). cbn [Events.exec].
  destruct (dispatch_live m m th d e a s o l Hp Ho Ha) as (s1 & E1 & D1 & D2 & D3 & D4 & D5 & D6). cbn [step]. rewrite E1.
  set (i := e_count s) in *.
  assert (Hl1 : list_at s1 l = pre ++ x :: y :: post) by (unfold list_at in *; by rewrite D2).
  replace (live_loop (V := V) m) with (live_loop (V := V) (length pre + S (S (S (length post + f))))) by (f_equal; unfold m; lia).
  apply NoDup_app in Hnd as (Hnpre & Hdisj & Hn2). apply NoDup_cons in Hn2 as [Hnx Hn2]. apply NoDup_cons in Hn2 as [Hny Hn2].
  assert (Hxpre : x ∉ pre) by (intros H; apply (Hdisj x H); left).
  unfold m at 1. rewrite (live_quiet veqb unset behave attribute (S (length pre + S (length post + f))) th i d e a l pre).
  2: { intros k z Hk. rewrite Hl1. simpl. by rewrite lookup_app_l by (by apply lookup_lt_Some in Hk). }
  2: { intros z s' Hz. rewrite Hbeh. simpl. rewrite decide_False; [done|]. congruence. }
  simpl plus at 2. set (s2 := logs i d e a pre s1).
  assert (Hl2 : list_at s2 l = pre ++ x :: y :: post) by (unfold s2; by rewrite logs_list).
  rewrite (live_at veqb unset behave attribute) with (x := x).
  2: { rewrite Hl2. simpl. rewrite lookup_app_r by lia. by rewrite Nat.sub_diag. }
  unfold call_sub at 1. rewrite Hbeh. simpl c_sub. rewrite decide_True by done. cbn [Events.exec step].
  set (s3 := log_call _ s2).
  destruct (logs_frame i d e a pre s1) as (L1 & L2 & L3 & _).
  assert (E3 : unbind d (Some e) (Some x) s3 = (EOk, remove_from x l s3)).
  { unfold unbind. change (e_dsp s3) with (e_dsp s2). unfold s2. rewrite L1, D1, Ho. by rewrite Ha. }
  rewrite E3. cbn [seq_ Events.exec].
  assert (W3 : ewf s3). { apply (ewf_same s); [| | |done]; change (e_dsp s3) with (e_dsp s2); change (e_lists s3) with (e_lists s2); change (e_next s3) with (e_next s2); unfold s2; rewrite ?L1, ?L2, ?L3; congruence || lia. }
  set (s4 := remove_from x l s3).
  assert (Hl4 : list_at s4 l = pre ++ y :: post).
  { unfold s4. rewrite remove_from_at by done. rewrite decide_True by done. change (list_at s3 l) with (list_at s2 l). rewrite Hl2.
    rewrite filter_app, filter_cons, decide_False by naive_solver. f_equal; apply filter_true.
    - intros z Hz ->. done.
    - intros z Hz ->. done. }
  assert (Hd4 : e_dsp s4 = e_dsp s /\ e_trace s4 = e_trace s3).
  { unfold s4, remove_from. case_decide; simpl; change (e_dsp s3) with (e_dsp s2); unfold s2; rewrite L1; done. }
  destruct Hd4 as [Hd4 Ht4].
  replace (S (S (length post + f))) with (length post + S (S f)) by lia.
  rewrite (live_quiet veqb unset behave attribute (S (length pre + S (length post + f))) th i d e a l post).
  2: { intros k z Hk. rewrite Hl4. rewrite lookup_app_r by lia. replace (S (0 + length pre) + k - length pre) with (S k) by lia. done. }
  2: { intros z s' Hz. rewrite Hbeh. simpl. rewrite decide_False; [done|]. intros ->. apply Hnx. by right. }
  rewrite live_end.
  2: { rewrite logs_list, Hl4, app_length. simpl. lia. }
  eexists. split; [done|]. split.
  - apply (calls_of_all s); [by eapply ereach_trace_lt|done| |apply round_all].
    rewrite logs_calls, Ht4. unfold s3. simpl. unfold s2. rewrite logs_calls, D6. unfold round. rewrite !map_app. simpl. by rewrite <- !app_assoc.
  - destruct (logs_frame i d e a post s4) as (M1 & M2 & _). unfold bound. rewrite M1, M2, Hd4, Ho, Ha. exact Hl4.
Qed.
Lemma bind_during th d e a s pre x post z n : ereach s -> plain_thread s th -> bound s d e = pre ++ x :: post -> declared s d e ->
  z ∉ bound s d e ->
  (forall c s, behave c s = if decide (c_sub c = x) then [ABind d [(e, z)]] else []) ->
  length (bound s d e) + 4 <= n ->
  exists s', exec n th [ADispatch d e a] s = (EOk, s') /\
    calls_of (e_count s) s' = round (e_count s) d e a false (bound s d e ++ [z]).
Proof.
  intros Hre Hp Hb Hdec Hz Hbeh Hn. assert (Hnd := bound_nodup s d e Hre). pose proof (ereach_wf _ _ _ _ _ _ Hre) as W.
  destruct (bound_loc s d e x) as (o & l & Ho & Ha & Hl); [rewrite Hb; set_solver|].
  rewrite Hb in *. rewrite app_length in Hn. simpl in Hn.
  assert (exists f, n = S (S (S (length pre + S (length post + S f))))) as [f ->] by (exists (n - 5 - length pre - length post); lia).
  set (m := S (S (length pre + S (length post + S f)))). change (S m) with (S m). cbn [Events.exec].
  destruct (dispatch_live m m th d e a s o l Hp Ho Ha) as (s1 & E1 & D1 & D2 & D3 & D4 & D5 & D6). cbn [step]. rewrite E1.
  set (i := e_count s) in *.
  assert (Hl1 : list_at s1 l = pre ++ x :: post) by (unfold list_at in *; by rewrite D2).
  replace (live_loop (V := V) m) with (live_loop (V := V) (length pre + S (S (S (length post + S f))))) by (f_equal; unfold m; lia).
  apply NoDup_app in Hnd as (Hnpre & Hdisj & Hn2). apply NoDup_cons in Hn2 as [Hnx Hn2].
  assert (Hxpre : x ∉ pre) by (intros H; apply (Hdisj x H); left).
  unfold m at 1. rewrite (live_quiet veqb unset behave attribute (S (length pre + S (length post + S f))) th i d e a l pre).
  2: { intros k y Hk. rewrite Hl1. simpl. by rewrite lookup_app_l by (by apply lookup_lt_Some in Hk). }
  2: { intros y s' Hy. rewrite Hbeh. simpl. rewrite decide_False; [done|]. congruence. }
  simpl plus at 2. set (s2 := logs i d e a pre s1).
  assert (Hl2 : list_at s2 l = pre ++ x :: post) by (unfold s2; by rewrite logs_list).
  rewrite (live_at veqb unset behave attribute) with (x := x).
  2: { rewrite Hl2. simpl. rewrite lookup_app_r by lia. by rewrite Nat.sub_diag. }
  unfold call_sub at 1. rewrite Hbeh. simpl c_sub. rewrite decide_True by done. cbn [Events.exec step].
  set (s3 := log_call _ s2).
  destruct (logs_frame i d e a pre s1) as (L1 & L2 & L3 & L4 & L5).
  assert (E3 : bind_ d [(e, z)] s3 = (EOk, set_lists <[l := pre ++ x :: post ++ [z]]> s3)).
  { simpl. unfold bind1. change (e_dsp s3) with (e_dsp s2). unfold s2 at 1. rewrite L1, D1, Ho.
    rewrite decide_True.
    2: { rewrite class_events_in. change (e_cls s3) with (e_cls s2). change (e_evl s3) with (e_evl s2). unfold s2. rewrite L4, L5, D4, D5.
         destruct Hdec as (o' & Ho' & H'). rewrite Ho in Ho'. by injection Ho' as <-. }
    rewrite Ha. change (list_at s3 l) with (list_at s2 l). rewrite Hl2. rewrite decide_False by done. simpl. by rewrite <- app_assoc. }
  rewrite E3. cbn [seq_ Events.exec].
  set (s4 := set_lists _ s3).
  assert (Hl4 : list_at s4 l = pre ++ x :: post ++ [z]) by (unfold s4; rewrite list_at_set; by rewrite decide_True).
  replace (S (S (length post + S f))) with (length (post ++ [z]) + S (S f)) by (rewrite app_length; simpl; lia).
  rewrite (live_quiet veqb unset behave attribute (S (length pre + S (length post + S f))) th i d e a l (post ++ [z])).
  2: { intros k y Hk. rewrite Hl4. rewrite lookup_app_r by lia. replace (S (0 + length pre) + k - length pre) with (S k) by lia. done. }
  2: { intros y s' Hy. rewrite Hbeh. simpl. rewrite decide_False; [done|]. intros ->. apply elem_of_app in Hy as [Hy|Hy]; [done|].
       apply elem_of_list_singleton in Hy as ->. apply Hz. set_solver. }
  rewrite live_end.
  2: { rewrite logs_list, Hl4, !app_length. simpl. rewrite app_length. simpl. lia. }
  eexists. split; [done|].
  apply (calls_of_all s); [by eapply ereach_trace_lt|done| |apply round_all].
  rewrite logs_calls. unfold s4, s3. simpl. unfold s2. rewrite logs_calls, D6. unfold round. rewrite !map_app. simpl. rewrite <- !app_assoc. simpl. by rewrite ?map_app.
Qed.

(** ** Suppression *)
Lemma leaked_object th d e e' a s o n evs inj : tl_of s th = Tl (Some 0) (Some evs) (Some inj) -> 4 <= n ->
  exists s', exec n th [ACreate o [Some e]; AWith [Some e'] [ADispatch d e a]] s = (EOk, s') /\ e_trace s' = e_trace s.
Proof.
  intros Ht Hn. destruct n as [|[|[|[|n]]]]; [lia..|]. cbn [Events.exec step].
  assert (E1 : sup_init th [Some e] s = (EOk, with_tl th (fun t => Tl (tl_suppress t) (Some (evs ++ [Some e])) (tl_inject t)) s)).
  { unfold sup_init. by rewrite Ht. }
  rewrite E1. cbn [seq_]. set (s1 := set_sups _ _).
  assert (T1 : tl_of s1 th = Tl (Some 0) (Some (evs ++ [Some e])) (Some inj)).
  { change (tl_of s1 th) with (tl_of (with_tl th (fun t => Tl (tl_suppress t) (Some (evs ++ [Some e])) (tl_inject t)) s) th). rewrite tl_with, decide_True by done. by rewrite Ht. }
  assert (E2 : sup_init th [Some e'] s1 = (EOk, with_tl th (fun t => Tl (tl_suppress t) (Some ((evs ++ [Some e]) ++ [Some e'])) (tl_inject t)) s1)).
  { unfold sup_init. by rewrite T1. }
  rewrite E2. cbn [seq_]. set (s2 := with_tl _ _ s1).
  assert (T2 : tl_of s2 th = Tl (Some 0) (Some ((evs ++ [Some e]) ++ [Some e'])) (Some inj)) by (unfold s2; rewrite tl_with, decide_True by done; by rewrite T1).
  unfold sup_with, sup_enter. rewrite T2. cbn [seq_ tl_suppress]. set (s3 := with_tl _ _ s2).
  assert (T3 : tl_of s3 th = Tl (Some 1) (Some ((evs ++ [Some e]) ++ [Some e'])) (Some inj)) by (unfold s3; rewrite tl_with, decide_True by done; by rewrite T2).
  cbn [Events.exec step].
  match goal with |- context [Events.dispatch _ ?run ?f th d e a s3] => destruct (dispatch_suppressed behave run f th d e a s3 inj) as (s4 & E4 & T4) end.
  { by rewrite T3. }
  { rewrite T3. unfold suppressed_now. cbn [tl_suppress tl_events]. f_equal. apply bool_decide_eq_true. right. set_solver. }
  assert (T5 : tl_of s4 th = Tl (Some 1) (Some ((evs ++ [Some e]) ++ [Some e'])) (Some [])).
  { revert E4. unfold Events.dispatch. change (tl_of (count s3) th) with (tl_of s3 th). rewrite T3. cbn [tl_inject].
    assert (Es : suppressed_now (tl_of (with_tl th (fun t => Tl (tl_suppress t) (tl_events t) (Some [])) (count s3)) th) e = Some true).
    { rewrite tl_with, decide_True by done. change (tl_of (count s3) th) with (tl_of s3 th). rewrite T3. unfold suppressed_now. cbn [tl_suppress tl_events]. f_equal. apply bool_decide_eq_true. right. set_solver. }
    rewrite Es. intros [= <-]. rewrite tl_with, decide_True by done. change (tl_of (count s3) th) with (tl_of s3 th). by rewrite T3. }
  rewrite E4. cbn [seq_ Events.exec].
  destruct (exit_entered th [Some e'] s4 (Tl (Some 0) (Some (evs ++ [Some e])) (Some []))) as (s5 & E5 & _ & _ & _ & _ & _ & _ & B4 & _).
  { exists 0. rewrite T5. repeat split. simpl. done. }
  rewrite E5. cbn [seq_ Events.exec]. exists s5. split; [done|]. by rewrite B4, T4.
Qed.
Lemma reused_object th e s o n evs inj : tl_of s th = Tl (Some 0) (Some evs) (Some inj) -> Some e ∉ evs -> 4 <= n ->
  fst (exec n th [ACreate o [Some e]; AWithObj o [AWithObj o []]] s) = EExc EValueError.
Proof.
  intros Ht He Hn. destruct n as [|[|[|[|n]]]]; [lia..|]. cbn [Events.exec step].
  assert (E1 : sup_init th [Some e] s = (EOk, with_tl th (fun t => Tl (tl_suppress t) (Some (evs ++ [Some e])) (tl_inject t)) s)).
  { unfold sup_init. by rewrite Ht. }
  rewrite E1. cbn [seq_]. set (s1 := set_sups _ _).
  assert (T1 : tl_of s1 th = Tl (Some 0) (Some (evs ++ [Some e])) (Some inj)).
  { change (tl_of s1 th) with (tl_of (with_tl th (fun t => Tl (tl_suppress t) (Some (evs ++ [Some e])) (tl_inject t)) s) th). rewrite tl_with, decide_True by done. by rewrite Ht. }
  assert (S1 : e_sups s1 !! o = Some [Some e]) by (unfold s1; simpl; by rewrite lookup_insert).
  rewrite S1. unfold sup_with at 1, sup_enter. rewrite T1. cbn [seq_ tl_suppress]. set (s2 := with_tl _ _ s1).
  assert (T2 : tl_of s2 th = Tl (Some 1) (Some (evs ++ [Some e])) (Some inj)) by (unfold s2; rewrite tl_with, decide_True by done; by rewrite T1).
  cbn [Events.exec step]. change (e_sups s2) with (e_sups s1). rewrite S1. unfold sup_with, sup_enter. rewrite T2. cbn [seq_ tl_suppress]. set (s3 := with_tl _ _ s2).
  assert (T3 : tl_of s3 th = Tl (Some 2) (Some (evs ++ [Some e])) (Some inj)) by (unfold s3; rewrite tl_with, decide_True by done; by rewrite T2).
  cbn [Events.exec].
  destruct (exit_entered th [Some e] s3 (Tl (Some 1) (Some evs) (Some inj))) as (s4 & E4 & [R1 R2] & _).
  { exists 1. rewrite T3. repeat split. simpl. done. }
  rewrite E4. cbn [seq_ Events.exec]. unfold sup_exit. rewrite R1. cbn [tl_suppress].
  set (s5 := with_tl _ _ s4). assert (T5 : tl_events (tl_of s5 th) = tl_events (tl_of s4 th)) by (unfold s5; by rewrite tl_with, decide_True).
  rewrite T5. simpl in R2. destruct (tl_events (tl_of s4 th)) as [evs'|]; [|done].
  assert (Hr : forall l, Some e ∉ l -> remove_name (Some e) l = None).
  { clear. induction l as [|y l IH]; intros H; [done|]. apply not_elem_of_cons in H as [H1 H2]. simpl. rewrite decide_False by done. by rewrite IH. }
  cbn [remove_names]. rewrite Hr by (by rewrite <- R2). done.
Qed.

(** ** Other threads *)
Lemma other_thread th n s d e a r s' : ereach s -> th <> th0 -> exec n th [ADispatch d e a] s = (r, s') -> r <> EExc EFuel ->
  r = EExc EAttributeError /\ e_trace s' = e_trace s.
Proof.
  intros Hre Hne E Hf. apply exec_single in E as (m & -> & E); [|done]. cbn [step] in E.
  destruct (dispatch_other behave (exec m th) m th d e a s (ereach_other _ _ _ _ _ _ _ Hre Hne)) as (s1 & E1 & T1). rewrite E1 in E. injection E as <- <-. done.
Qed.
Lemma other_thread_with th n s names body r s' : ereach s -> th <> th0 -> exec n th [AWith names body] s = (r, s') -> r <> EExc EFuel ->
  r = EExc EAttributeError /\ e_trace s' = e_trace s.
Proof.
  intros Hre Hne E Hf. apply exec_single in E as (m & -> & E); [|done]. cbn [step] in E.
  destruct (with_other (exec m th) th names body s (ereach_other _ _ _ _ _ _ _ Hre Hne)) as (s1 & E1 & T1). rewrite E1 in E. injection E as <- <-. done.
Qed.

(** ** Attributes *)
Lemma set_prop n th d name v s ad r s' : ereach s -> is_Some (e_dsp s !! d) -> plain_thread s th -> attribute d name = Some ad ->
  (forall c s, Forall (keeps_subscriptions d name) (behave c s)) -> (forall c s, Forall (keeps_attribute d name) (behave c s)) ->
  exec n th [ASetAttr d name v] s = (r, s') -> r <> EExc EFuel ->
  attr_value s' d name ad = v /\
  (ad_always ad = true \/ veqb v (attr_value s d name ad) = false ->
   exists k, calls_of (e_count s) s' = take k (round (e_count s) d name ([v], []) true (ad_subs ad) ++ round (e_count s) d name ([v], []) false (bound s d name)) /\
     (r = EOk -> length (ad_subs ad) + length (bound s d name) <= k)) /\
  (ad_always ad = false -> veqb v (attr_value s d name ad) = true -> r = EOk /\ e_count s' = e_count s /\ e_trace s' = e_trace s).
Proof.
  intros Hre Hd Hp Ha Hk1 Hk2 E Hf. apply exec_single in E as (m & -> & E); [|done]. cbn [step] in E. destruct (plain_facts s th name Hp) as [Hi Hs].
  destruct (ad_always ad || negb (veqb v (attr_value s d name ad))) eqn:Ech.
  - assert (Hch : ad_always ad = true \/ veqb v (attr_value s d name ad) = false).
    { apply orb_true_iff in Ech as [?|?]; [by left|right]. by apply negb_true_iff. }
    destruct (set_changed veqb unset behave attribute m m th d name v s ad r s' Ha Hch E) as [H1 H2].
    split; [unfold attr_value; by rewrite H1|]. split; [intros _; apply H2; [by eapply ereach_wf|by eapply ereach_trace_lt|done..]|].
    intros H3 H4. destruct Hch; congruence.
  - apply orb_false_iff in Ech as [E1 E2]. apply negb_false_iff in E2.
    destruct (set_unchanged veqb behave attribute (exec m th) m th d name v s ad Ha E1 E2) as (s1 & E3 & T1 & T2 & T3).
    rewrite E3 in E. injection E as <- <-. split; [unfold attr_value; rewrite T3; by rewrite lookup_insert|]. split; [intros [?|?]; congruence|]. done.
Qed.
Lemma del_prop n th d name s ad r s' : ereach s -> is_Some (e_dsp s !! d) -> plain_thread s th -> attribute d name = Some ad ->
  (forall c s, Forall (keeps_subscriptions d name) (behave c s)) -> (forall c s, Forall (keeps_attribute d name) (behave c s)) ->
  exec n th [ADelAttr d name] s = (r, s') -> r <> EExc EFuel ->
  attr_value s' d name ad = ad_default ad /\
  match e_vals s !! (d, name) with
  | Some _ => exists k, calls_of (e_count s) s' = take k (round (e_count s) d name ([unset], []) false (bound s d name)) /\
                (r = EOk -> length (bound s d name) <= k)
  | None => r = EExc (EKeyError name) /\ s' = s
  end.
Proof.
  intros Hre Hd Hp Ha Hk1 Hk2 E Hf. apply exec_single in E as (m & -> & E); [|done]. cbn [step] in E. destruct (plain_facts s th name Hp) as [Hi Hs].
  destruct (e_vals s !! (d, name)) as [v0|] eqn:Ev.
  - destruct (del_set veqb unset behave attribute m m th d name s ad v0 r s' Ha Ev E) as [H1 H2].
    split; [unfold attr_value; by rewrite H1|]. apply H2; try done; [by eapply ereach_wf|by eapply ereach_trace_lt].
  - unfold del_attr in E. rewrite Ha, Ev in E. injection E as <- <-. split; [unfold attr_value; by rewrite Ev|done].
Qed.
Lemma value_prop n th p d name ad s : 
  (forall c s, Forall (keeps_attribute d name) (behave c s)) -> Forall (keeps_attribute d name) p ->
  attr_value (snd (exec n th p s)) d name ad = attr_value s d name ad.
Proof. intros Hk Hp. unfold attr_value. f_equal. by apply (attr_kept veqb unset behave attribute d name Hk). Qed.
Lemma decorators_prop s c : ereach s -> c ∈ e_trace s -> c_self c = true ->
  exists ad v, attribute (c_obj c) (c_event c) = Some ad /\ c_sub c ∈ ad_subs ad /\ c_args c = ([v], []).
Proof. intros Hre Hc Hs. apply ereach_injected in Hre as [_ H]. rewrite Forall_forall in H. by apply H. Qed.

(** ** Suppression *)
Notation inside := (inside veqb unset behave attribute).
Lemma restored_prop n th p s r s' : ereach s -> (forall c s, Forall scoped (behave c s)) -> Forall scoped p ->
  exec n th p s = (r, s') -> r <> EExc EFuel -> forall th', same_suppression (tl_of s th') (tl_of s' th').
Proof. intros Hre Hb Hp E Hf. eapply restored_exec; [done|by eapply ereach_whole|done|exact E|done]. Qed.
Lemma held_prop n th s bs s1 d e a r s' : ereach s -> (forall c s, Forall scoped (behave c s)) ->
  tl_of s th = Tl (Some 0) (Some []) (Some []) -> inside th s bs s1 -> held_back bs e ->
  exec n th [ADispatch d e a] s1 = (r, s') -> r <> EExc EFuel -> r = EOk /\ e_trace s' = e_trace s1.
Proof.
  intros Hre Hb Ht Hin Hh E Hf. apply exec_single in E as (m & -> & E); [|done]. cbn [step] in E.
  pose proof (inside_blocks veqb unset behave attribute Hb th0 th s bs s1 Hre Ht Hin) as HB. apply (blocks_suppress veqb unset attribute th bs s1 e HB) in Hh.
  destruct HB as (_ & _ & _ & _ & Hi & _).
  destruct (dispatch_suppressed behave (exec m th) m th d e a s1 [] Hi Hh) as (s2 & E2 & T2). rewrite E2 in E. injection E as <- <-. done.
Qed.
Lemma delivered_prop n th s bs s1 d e a r s' : ereach s -> (forall c s, Forall scoped (behave c s)) ->
  tl_of s th = Tl (Some 0) (Some []) (Some []) -> inside th s bs s1 -> ~ held_back bs e ->
  is_Some (e_dsp s1 !! d) -> (forall c s, Forall (keeps_subscriptions d e) (behave c s)) ->
  exec n th [ADispatch d e a] s1 = (r, s') -> r <> EExc EFuel ->
  exists k, calls_of (e_count s1) s' = round (e_count s1) d e a false (take k (bound s1 d e)) /\ (r = EOk -> length (bound s1 d e) <= k).
Proof.
  intros Hre Hb Ht Hin Hh Hd Hk E Hf. apply exec_single in E as (m & -> & E); [|done]. cbn [step] in E.
  pose proof (inside_blocks veqb unset behave attribute Hb th0 th s bs s1 Hre Ht Hin) as HB. apply (blocks_suppress veqb unset attribute th bs s1 e HB) in Hh.
  destruct HB as (W & Htr & _ & _ & Hi & _).
  destruct (dispatch_calls veqb unset behave attribute d e Hk m m th a s1 [] r s') as (k & Hc & Hr); try done.
  exists k. split; [|done]. rewrite Hc. simpl. unfold round. by rewrite firstn_map.
Qed.
Lemma leave_prop th s bs names s1 : ereach s -> (forall c s, Forall scoped (behave c s)) ->
  tl_of s th = Tl (Some 0) (Some []) (Some []) -> inside th s (names :: bs) s1 -> fst (sup_exit th names s1) = EOk.
Proof. intros Hre Hb Ht Hin. eapply leave_succeeds. by eapply inside_blocks. Qed.
End proofs.
