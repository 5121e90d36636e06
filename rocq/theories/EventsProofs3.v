(** Proofs about events: attributes, suppression, threads, changing lists. *)
From Verif Require Import Py Events SpecEvents EventsProofs EventsProofs2.
From stdpp Require Import list.

Section proofs.
Context {V : Type} (veqb : V -> V -> bool) (unset : V)
  (behave : ecall V -> est V -> list (act V)) (attribute : nat -> string -> option (desc V)).
Implicit Types (s : est V).
Notation exec := (exec veqb unset behave attribute).
Notation step := (step veqb unset behave attribute).
Notation dispatch := (dispatch behave).
Notation set_attr := (set_attr veqb behave attribute).
Notation del_attr := (del_attr unset behave attribute).
Notation ereach := (ereach veqb unset behave attribute).
Notation inside := (inside veqb unset behave attribute).

Lemma exec_single n th a s r s' : exec n th [a] s = (r, s') -> r <> EExc EFuel -> exists m, n = S m /\ step (exec m th) m th a s = (r, s').
Proof.
  destruct n as [|m]; simpl; [intros [= <- <-]; done|]. intros H Hr. exists m. split; [done|].
  destruct (step (exec m th) m th a s) as [[|ex] s1]; simpl in H; [|done]. destruct m as [|m]; simpl in H; [by injection H as <- <-|done].
Qed.
Lemma tl_with th g s th' : tl_of (with_tl th g s) th' = if decide (th = th') then g (tl_of s th) else tl_of s th'.
Proof. unfold with_tl, tl_of. simpl. case_decide; [subst; by rewrite lookup_insert|by rewrite lookup_insert_ne]. Qed.

(** * Attributes *)
Lemma attr_keeps_all d n (b : list (act V)) :
  (fix all l := match l with [] => True | a :: r => keeps_attribute d n a /\ all r end) b <-> Forall (keeps_attribute d n) b.
Proof. induction b as [|a b IH]; [by split; [constructor|]|]. rewrite Forall_cons, <- IH. done. Qed.
Lemma vals_same ov d n s s' : e_vals s' = e_vals s -> e_vals s !! (d, n) = ov -> e_vals s' !! (d, n) = ov.
Proof. by intros ->. Qed.
Section attribute_kept.
Context (d : nat) (name : string) (Hkeep : forall c s, Forall (keeps_attribute d name) (behave c s)) (ov : option V).
Let Q s : Prop := e_vals s !! (d, name) = ov.
Lemma attr_kept n th p s : Q s -> Forall (keeps_attribute d name) p -> Q (snd (exec n th p s)).
Proof.
  apply (P_exec veqb unset behave attribute Q (keeps_attribute d name)); auto; unfold Q.
  - intros m b. simpl. by rewrite attr_keeps_all.
  - intros m b. simpl. by rewrite attr_keeps_all.
  - intros b. simpl. by rewrite attr_keeps_all.
  - intros d' n' v s' H Hne. simpl in *. by rewrite lookup_insert_ne by done.
  - intros d' n' s' H Hne. simpl in *. by rewrite lookup_delete_ne.
  - intros c b o a s' H _. eapply vals_same; [|exact H]. apply def_class_same.
  - intros d' e s' H _. eapply vals_same; [|exact H]. apply register_same.
  - intros d' kw s' H _. eapply vals_same; [|exact H]. apply bind_same.
  - intros d' e x s' H _. eapply vals_same; [|exact H]. apply unbind_same.
Qed.
Lemma attr_kept_dispatch n f th d' e a s : Q s -> Q (snd (dispatch (exec n th) f th d' e a s)).
Proof.
  apply (P_dispatch behave Q (keeps_attribute d name)); auto; try (intros; by eapply vals_same).
  intros. by apply attr_kept.
Qed.
End attribute_kept.

Lemma set_unchanged run f th d name v s ad : attribute d name = Some ad -> ad_always ad = false -> veqb v (attr_value s d name ad) = true ->
  exists s', set_attr run f th d name v s = (EOk, s') /\ e_trace s' = e_trace s /\ e_count s' = e_count s /\ e_vals s' = <[(d, name) := v]> (e_vals s).
Proof. intros Ha Hal Hv. unfold Events.set_attr. rewrite Ha, Hal, Hv. simpl. by eexists. Qed.
Lemma set_changed n f th d name v s ad r s' :
  attribute d name = Some ad -> ad_always ad = true \/ veqb v (attr_value s d name ad) = false ->
  set_attr (exec n th) f th d name v s = (r, s') ->
  ((forall c s, Forall (keeps_attribute d name) (behave c s)) -> e_vals s' !! (d, name) = Some v) /\
  (ewf s -> trace_lt s -> is_Some (e_dsp s !! d) -> suppressed_now (tl_of s th) name = Some false ->
   (forall c s, Forall (keeps_subscriptions d name) (behave c s)) ->
   exists k, calls_of (e_count s) s' = take k (round (e_count s) d name ([v], []) true (ad_subs ad) ++ round (e_count s) d name ([v], []) false (bound s d name)) /\
     (r = EOk -> length (ad_subs ad) + length (bound s d name) <= k)).
Proof.
  intros Ha Hv. unfold Events.set_attr. rewrite Ha.
  assert (E : ad_always ad || negb (veqb v (attr_value s d name ad)) = true).
  { destruct Hv as [->| ->]; simpl; [done|]. by destruct (ad_always ad). }
  rewrite E. match goal with |- dispatch _ _ _ _ _ _ ?x = _ -> _ => set (s1 := x) end. intros Hd. split.
  - intros Hk. pose proof (attr_kept_dispatch d name Hk (Some v) n f th d name ([v], []) s1) as H. rewrite Hd in H. apply H.
    unfold s1. simpl. by rewrite lookup_insert.
  - intros W Ht Ho Hs Hk.
    apply (dispatch_calls veqb unset behave attribute d name Hk n f th ([v], []) s1 (ad_subs ad) r s'); [|done|done| | |done].
    + by apply (ewf_same s).
    + unfold s1. rewrite tl_with. by rewrite decide_True.
    + unfold s1. rewrite tl_with, decide_True by done. exact Hs.
Qed.
Lemma del_set n f th d name s ad v0 r s' :
  attribute d name = Some ad -> e_vals s !! (d, name) = Some v0 -> del_attr (exec n th) f th d name s = (r, s') ->
  ((forall c s, Forall (keeps_attribute d name) (behave c s)) -> e_vals s' !! (d, name) = None) /\
  (ewf s -> trace_lt s -> is_Some (e_dsp s !! d) -> suppressed_now (tl_of s th) name = Some false -> tl_inject (tl_of s th) = Some [] ->
   (forall c s, Forall (keeps_subscriptions d name) (behave c s)) ->
   exists k, calls_of (e_count s) s' = take k (round (e_count s) d name ([unset], []) false (bound s d name)) /\
     (r = EOk -> length (bound s d name) <= k)).
Proof.
  intros Ha Hv. unfold Events.del_attr. rewrite Ha, Hv. set (s1 := set_vals _ s). intros Hd. split.
  - intros Hk. pose proof (attr_kept_dispatch d name Hk None n f th d name ([unset], []) s1) as H. rewrite Hd in H. apply H.
    unfold s1. simpl. by rewrite lookup_delete.
  - intros W Ht Ho Hs Hi Hk.
    apply (dispatch_calls veqb unset behave attribute d name Hk n f th ([unset], []) s1 [] r s'); try done.
    by apply (ewf_same s).
Qed.

(** ** Only attributes inject subscribers *)
Definition settled s : Prop := forall th, tl_inject (tl_of s th) = None \/ tl_inject (tl_of s th) = Some [].
Definition by_attribute (c : ecall V) : Prop :=
  c_self c = true -> exists ad v, attribute (c_obj c) (c_event c) = Some ad /\ c_sub c ∈ ad_subs ad /\ c_args c = ([v], []).
Definition injected_ok s : Prop := settled s /\ Forall by_attribute (e_trace s).
Lemma injected_same s s' : e_tl s' = e_tl s -> e_trace s' = e_trace s -> injected_ok s -> injected_ok s'.
Proof. intros E1 E2 [H1 H2]. split; [|by rewrite E2]. intros th. unfold tl_of. rewrite E1. apply H1. Qed.
Lemma injected_tl th g s : (forall t, tl_inject (g t) = tl_inject t \/ tl_inject (g t) = Some []) -> injected_ok s -> injected_ok (with_tl th g s).
Proof.
  intros Hg [H1 H2]. split; [|done]. intros th'. rewrite tl_with. case_decide; [|apply H1]. destruct (Hg (tl_of s th)) as [-> | ->]; [apply H1|by right].
Qed.
Lemma injected_log c s : by_attribute c -> injected_ok s -> injected_ok (log_call c s).
Proof. intros Hc [H1 H2]. split; [done|]. simpl. apply Forall_app. split; [done|]. constructor; [done|constructor]. Qed.
Lemma injected_dispatch (run : list (act V) -> est V -> eres * est V) f th d e a s :
  (forall p s, injected_ok s -> injected_ok (snd (run p s))) ->
  (forall th', th' <> th -> tl_inject (tl_of s th') = None \/ tl_inject (tl_of s th') = Some []) -> Forall by_attribute (e_trace s) ->
  (forall inj, tl_inject (tl_of s th) = Some inj -> Forall (fun x => forall i, by_attribute (Call i d e x true a)) inj) ->
  injected_ok (snd (dispatch run f th d e a s)).
Proof.
  intros Hr Hs Ht Hinj. unfold Events.dispatch. change (tl_of (count s) th) with (tl_of s th).
  destruct (tl_inject (tl_of s th)) as [inj|] eqn:Ei.
  2: { split; [|done]. intros th'. destruct (decide (th' = th)) as [->|Hne]; [left; exact Ei|by apply Hs]. }
  specialize (Hinj inj eq_refl). set (s1 := with_tl _ _ _).
  assert (H1 : injected_ok s1).
  { split; [|done]. intros th'. unfold s1. rewrite tl_with. case_decide as Hth; [by right|]. apply Hs. congruence. }
  assert (Hc : forall c s, by_attribute c -> injected_ok s -> injected_ok (snd (call_sub behave run c s))).
  { intros c s2 Hb H2. apply Hr. by apply injected_log. }
  destruct (suppressed_now _ e) as [[|]|]; try done. apply P_seq.
  - clearbody s1. clear Ei. revert s1 H1. induction inj as [|x inj IH]; intros s1 H1; simpl; [done|]. apply Forall_cons in Hinj as [Hx Hinj].
    apply P_seq; [by apply Hc|]. intros s2 H2. by apply (IH Hinj).
  - intros s2 H2. destruct (e_dsp s2 !! d) as [o|]; [|done]. destruct (Events.assoc e (d_subs o)); [|done].
    apply P_live_loop; [|done]. intros x s3 H3. by apply Hc.
Qed.
Lemma injected_exec n th p s : injected_ok s -> injected_ok (snd (exec n th p s)).
Proof.
  intros H. apply (P_exec_gen veqb unset behave attribute injected_ok (fun _ => True) th); try done; try (intros; by apply Forall_true).
  - intros m s' Hs. unfold sup_init. destruct m, (tl_events (tl_of s' th)); simpl; try done; apply injected_tl; auto.
  - intros s' Hs. unfold sup_enter. destruct (tl_suppress _); simpl; [|done]. apply injected_tl; auto.
  - intros m s' Hs. unfold sup_exit. destruct (tl_suppress _); [|done].
    match goal with |- context [tl_events (tl_of ?x th)] => set (s1 := x) end.
    assert (Hs1 : injected_ok s1) by (apply injected_tl; auto). destruct m; [done|]. destruct (tl_events _); [|done].
    destruct (remove_names _ _). simpl. apply injected_tl; auto.
  - intros run f a s' Hr _ Hpl Hs. assert (Hr' : forall p s, injected_ok s -> injected_ok (snd (run p s))).
    { intros. apply Hr; [done|]. by apply Forall_true. }
    destruct a; cbn [Events.step]; try done.
    + eapply injected_same; [..|exact Hs]; apply def_class_same.
    + eapply injected_same; [..|exact Hs]; apply register_same.
    + eapply injected_same; [..|exact Hs]; apply bind_same.
    + eapply injected_same; [..|exact Hs]; apply unbind_same.
    + apply injected_dispatch; [done|intros; apply Hs|apply Hs|]. intros inj Ei. destruct Hs as [Hs _]. destruct (Hs th); [congruence|].
      replace inj with (@nil nat) by congruence. constructor.
    + unfold Events.set_attr. destruct (attribute d name) as [ad|] eqn:Ead; [|done]. destruct (_ || _); [|done].
      apply injected_dispatch; [done| |apply Hs|].
      * intros th' Hne. rewrite tl_with, decide_False by done. apply Hs.
      * intros inj. rewrite tl_with, decide_True by done. intros [= <-]. apply Forall_forall. intros x Hx i _. simpl. by exists ad, v.
    + unfold Events.del_attr. destruct (attribute d name) as [ad|] eqn:Ead; [|done]. destruct (e_vals s' !! _); [|done].
      apply injected_dispatch; [done|intros; apply Hs|apply Hs|]. intros inj Ei. destruct Hs as [Hs _]. destruct (Hs th) as [Hn|Hn].
      * exfalso. change (tl_inject (tl_of s' th) = Some inj) in Ei. congruence.
      * change (tl_inject (tl_of s' th) = Some inj) in Ei. replace inj with (@nil nat) by congruence. constructor.
Qed.
Lemma ereach_injected th0 s : ereach th0 s -> injected_ok s.
Proof.
  induction 1 as [|s n th p r s' _ IH E].
  - split; [|constructor]. intros th. unfold tl_of. simpl. destruct (decide (th = th0)) as [->|]; [rewrite lookup_singleton; by right|rewrite lookup_singleton_ne by done; by left].
  - pose proof (injected_exec n th p s IH) as H. by rewrite E in H.
Qed.

(** * Threads *)
Lemma tl_exec (P : est V -> Prop) n th p s :
  (forall s s', e_tl s' = e_tl s -> P s -> P s') ->
  (forall l s, P s -> P (with_tl th (fun t => Tl (tl_suppress t) (tl_events t) (Some l)) s)) ->
  (forall n s, P s -> P (snd (sup_init th n s))) -> (forall s, P s -> P (snd (sup_enter th s))) -> (forall n s, P s -> P (snd (sup_exit th n s))) ->
  P s -> P (snd (exec n th p s)).
Proof.
  intros Hsame Hinj H1 H2 H3 H.
  apply (P_exec_gen veqb unset behave attribute P (fun _ => True) th); try done; try (intros; by apply Forall_true).
  - intros o m s' Hs _. by eapply Hsame; [|exact Hs].
  - intros run f a s' Hr _ Hpl Hs. assert (Hr' : forall p s, P s -> P (snd (run p s))).
    { intros. apply Hr; [done|]. by apply Forall_true. }
    assert (Hd : forall d e a s, P s -> P (snd (dispatch run f th d e a s))).
    { intros d e a' s1 Hs1. unfold Events.dispatch. assert (Hcs : P (count s1)) by (by eapply Hsame; [|exact Hs1]). destruct (tl_inject _) as [inj|]; [|done].
      pose proof (Hinj [] _ Hcs). destruct (suppressed_now _ e) as [[|]|]; simpl; try done.
      assert (Hc : forall c s, P s -> P (snd (call_sub behave run c s))).
      { intros c s2 Hs2. apply Hr'. by eapply Hsame; [|exact Hs2]. }
      apply P_seq; [apply P_fixed_loop; auto|]. intros s2 Hs2. destruct (e_dsp s2 !! d) as [o|]; [|done].
      destruct (Events.assoc e (d_subs o)); [|done]. apply P_live_loop; auto. }
    destruct a; cbn [Events.step]; try done.
    + eapply Hsame; [|exact Hs]; apply def_class_same.
    + by eapply Hsame; [|exact Hs].
    + eapply Hsame; [|exact Hs]; apply register_same.
    + eapply Hsame; [|exact Hs]; apply bind_same.
    + eapply Hsame; [|exact Hs]; apply unbind_same.
    + by apply Hd.
    + unfold Events.set_attr. destruct (attribute d name) as [ad|] eqn:Ead; [|done].
      assert (Hv : P (set_vals <[(d, name) := v]> s')) by (by eapply Hsame; [|exact Hs]).
      destruct (_ || _); [|done]. apply Hd. by apply Hinj.
    + unfold Events.del_attr. destruct (attribute d name) as [ad|] eqn:Ead; [|done]. destruct (e_vals s' !! _); [|done]. apply Hd.
      by eapply Hsame; [|exact Hs].
Qed.
Lemma none_kept th n th' p s : tl_suppress (tl_of s th) = None -> tl_suppress (tl_of (snd (exec n th' p s)) th) = None.
Proof.
  intros H. pose (P := fun s => tl_suppress (tl_of s th) = None). change (P (snd (exec n th' p s))).
  assert (Hi : forall th' g s, (forall t, tl_suppress t = None -> tl_suppress (g t) = None) -> P s -> P (with_tl th' g s)).
  { intros th2 g s1 Hg H1. unfold P. rewrite tl_with. case_decide; [subst; auto|done]. }
  apply tl_exec; [..|done].
  - intros s1 s2 E. unfold P, tl_of. by rewrite E.
  - intros. by apply Hi.
  - intros m s' Hs. unfold sup_init. destruct m, (tl_events (tl_of s' th')); simpl; try done; apply Hi; auto.
  - intros s' Hs. unfold sup_enter. destruct (tl_suppress (tl_of s' th')) eqn:E; [|done]. simpl. unfold P. rewrite tl_with.
    case_decide; [|done]. subst th'. unfold P in Hs. congruence.
  - intros m s' Hs. unfold sup_exit. destruct (tl_suppress (tl_of s' th')) eqn:E; [|done].
    match goal with |- context [tl_events (tl_of ?x th')] => set (s1 := x) end.
    assert (Hs1 : P s1). { unfold s1, P. rewrite tl_with. case_decide; [|done]. subst th'. unfold P in Hs. congruence. }
    destruct m; [done|]. destruct (tl_events _); [|done]. destruct (remove_names _ _). simpl. apply Hi; auto.
Qed.
Lemma inject_kept th n th' p s : tl_inject (tl_of s th) <> None -> tl_inject (tl_of (snd (exec n th' p s)) th) <> None.
Proof.
  intros H. pose (P := fun s => tl_inject (tl_of s th) <> None). change (P (snd (exec n th' p s))).
  assert (Hi : forall th' g s, (forall t, tl_inject t <> None -> tl_inject (g t) <> None) -> P s -> P (with_tl th' g s)).
  { intros th2 g s1 Hg H1. unfold P. rewrite tl_with. case_decide; [subst; auto|done]. }
  apply tl_exec; [..|done].
  - intros s1 s2 E. unfold P, tl_of. by rewrite E.
  - intros. by apply Hi.
  - intros m s' Hs. unfold sup_init. destruct m, (tl_events (tl_of s' th')); simpl; try done; apply Hi; auto.
  - intros s' Hs. unfold sup_enter. destruct (tl_suppress (tl_of s' th')) eqn:E; [|done]. apply Hi; auto.
  - intros m s' Hs. unfold sup_exit. destruct (tl_suppress (tl_of s' th')) eqn:E; [|done].
    match goal with |- context [tl_events (tl_of ?x th')] => set (s1 := x) end.
    assert (Hs1 : P s1) by (apply Hi; auto).
    destruct m; [done|]. destruct (tl_events _); [|done]. destruct (remove_names _ _). simpl. apply Hi; auto.
Qed.
Lemma ereach_other th0 s th : ereach th0 s -> th <> th0 -> tl_suppress (tl_of s th) = None.
Proof.
  intros H Hne. induction H as [|s n th' p r s' _ IH E].
  - unfold tl_of. simpl. by rewrite lookup_singleton_ne.
  - pose proof (none_kept th n th' p s IH) as H. by rewrite E in H.
Qed.
Lemma dispatch_other run f th d e a s : tl_suppress (tl_of s th) = None ->
  exists s', dispatch run f th d e a s = (EExc EAttributeError, s') /\ e_trace s' = e_trace s.
Proof.
  intros H. unfold Events.dispatch. change (tl_of (count s) th) with (tl_of s th). destruct (tl_inject _); [|by eexists].
  unfold suppressed_now. rewrite tl_with, decide_True by done. change (tl_of (count s) th) with (tl_of s th). simpl. rewrite H. by eexists.
Qed.
Lemma with_other run th names body s : tl_suppress (tl_of s th) = None ->
  exists s', seq_ (sup_init th names s) (sup_with run th names body) = (EExc EAttributeError, s') /\ e_trace s' = e_trace s.
Proof.
  assert (Hw : forall s, tl_suppress (tl_of s th) = None -> sup_with run th names body s = (EExc EAttributeError, s)).
  { intros s1 H1. unfold sup_with, sup_enter. by rewrite H1. }
  intros H. unfold sup_init. destruct names as [|x names'] eqn:En; [simpl; rewrite Hw by done; by eexists|].
  destruct (tl_events (tl_of s th)); [|by eexists]. cbn [seq_]. rewrite Hw by (by rewrite tl_with, decide_True). by eexists.
Qed.

(** * Suppression *)
Lemma scoped_all (b : list (act V)) :
  (fix all l := match l with [] => True | a :: r => scoped a /\ all r end) b <-> Forall scoped b.
Proof. induction b as [|a b IH]; [by split; [constructor|]|]. rewrite Forall_cons, <- IH. done. Qed.
Definition restored s s' : Prop := forall th, same_suppression (tl_of s th) (tl_of s' th).
Lemma same_sup_refl t : same_suppression t t.
Proof. split; [done|]. by destruct (tl_events t). Qed.
Lemma same_sup_trans t1 t2 t3 : same_suppression t1 t2 -> same_suppression t2 t3 -> same_suppression t1 t3.
Proof.
  intros [A1 A2] [B1 B2]. split; [congruence|]. destruct (tl_events t1), (tl_events t2), (tl_events t3); try done. by etrans.
Qed.
Lemma restored_trans s1 s2 s3 : restored s1 s2 -> restored s2 s3 -> restored s1 s3.
Proof. intros A B th. by eapply same_sup_trans. Qed.
Lemma restored_same s s' : e_tl s' = e_tl s -> restored s s'.
Proof. intros E th. unfold tl_of. rewrite E. apply same_sup_refl. Qed.
Lemma restored_inject th g s : (forall t, tl_suppress (g t) = tl_suppress t /\ tl_events (g t) = tl_events t) -> restored s (with_tl th g s).
Proof.
  intros Hg th'. rewrite tl_with. case_decide; [subst th'|apply same_sup_refl]. destruct (Hg (tl_of s th)) as [E1 E2].
  split; [done|]. rewrite E2. clear. destruct (tl_events (tl_of s th)); [reflexivity|done].
Qed.
Lemma remove_name_perm x l l' : Permutation l (x :: l') -> exists l'', remove_name x l = Some l'' /\ Permutation l'' l'.
Proof.
  revert l'. induction l as [|y l IH]; intros l' H; [by apply Permutation_nil_cons in H|]. simpl. case_decide as E.
  - subst y. exists l. split; [done|]. by apply Permutation_cons_inv in H.
  - assert (Hx : x ∈ l). { assert (Hx : x ∈ y :: l) by (rewrite H; left). by apply elem_of_cons in Hx as [?|?]. }
    apply elem_of_Permutation in Hx as [m Hm]. destruct (IH m Hm) as (l2 & E2 & H2). exists (y :: l2). split; [by rewrite E2|].
    rewrite H2. rewrite Hm in H. apply (Permutation_cons_inv (a := x)). by rewrite <- H, Permutation_swap.
Qed.
Lemma remove_names_perm names : forall evs l, Permutation l (evs ++ names) -> exists l', remove_names names l = (true, l') /\ Permutation l' evs.
Proof.
  induction names as [|x names IH]; intros evs l H; simpl; [rewrite app_nil_r in H; eauto|].
  destruct (remove_name_perm x l (evs ++ names)) as (l1 & -> & H1); [by rewrite H, Permutation_middle|]. by apply IH.
Qed.
(** a thread has both fields or none *)
Definition whole s : Prop := forall th, tl_suppress (tl_of s th) = None <-> tl_events (tl_of s th) = None.
Lemma whole_restored s s' : whole s -> restored s s' -> whole s'.
Proof.
  intros H HR th. specialize (H th). destruct (HR th) as [E1 E2]. rewrite E1. rewrite H.
  destruct (tl_events (tl_of s th)), (tl_events (tl_of s' th)); done.
Qed.
Lemma whole_set th g s : whole s -> (tl_suppress (g (tl_of s th)) = None <-> tl_events (g (tl_of s th)) = None) -> whole (with_tl th g s).
Proof. intros W H th'. rewrite tl_with. case_decide; [done|apply W]. Qed.
Lemma whole_exec n th p s : whole s -> whole (snd (exec n th p s)).
Proof.
  intros W. apply tl_exec; [..|done].
  - intros s1 s2 E H th'. unfold tl_of. rewrite E. apply H.
  - intros l s' H. apply whole_set; [done|]. apply H.
  - intros m s' H. unfold sup_init. destruct m; [done|]. destruct (tl_events (tl_of s' th)) eqn:E; [|done]. simpl. apply whole_set; [done|]. simpl.
    rewrite (H th), E. done.
  - intros s' H. unfold sup_enter. destruct (tl_suppress (tl_of s' th)) eqn:E; [|done]. simpl. apply whole_set; [done|]. simpl.
    split; [done|]. intros E'. apply H in E'. congruence.
  - intros m s' H. unfold sup_exit. destruct (tl_suppress (tl_of s' th)) eqn:E; [|done].
    match goal with |- context [tl_events (tl_of ?x th)] => set (s1 := x) end.
    assert (Hs1 : whole s1). { apply whole_set; [done|]. simpl. split; [done|]. intros E'. apply H in E'. congruence. }
    destruct m; [done|]. destruct (tl_events _) eqn:E1; [|done]. destruct (remove_names _ _). simpl. apply whole_set; [done|]. simpl.
    rewrite (Hs1 th), E1. done.
Qed.
Lemma ereach_whole th0 s : ereach th0 s -> whole s.
Proof.
  induction 1 as [|s n th p r s' _ IH E].
  - intros th. unfold tl_of. simpl. destruct (decide (th = th0)) as [->|]; [by rewrite lookup_singleton|by rewrite lookup_singleton_ne].
  - pose proof (whole_exec n th p s IH) as H. by rewrite E in H.
Qed.
Definition run_restores (run : list (act V) -> est V -> eres * est V) : Prop :=
  forall p s r s', whole s -> Forall scoped p -> run p s = (r, s') -> r <> EExc EFuel -> restored s s'.
Lemma restored_seq s r0 k r s' : whole s ->
  (fst r0 <> EExc EFuel -> restored s (snd r0)) -> (forall s1 r s', whole s1 -> k s1 = (r, s') -> r <> EExc EFuel -> restored s1 s') ->
  seq_ r0 k = (r, s') -> r <> EExc EFuel -> restored s s'.
Proof.
  intros W H0 Hk. destruct r0 as [[|ex] s1]; simpl in *.
  - intros E Hr. eapply restored_trans; [by apply H0|]. eapply Hk; [|done|done]. by eapply whole_restored, H0.
  - intros [= <- <-] Hr. auto.
Qed.
Section scoped.
Context (Hscoped : forall c s, Forall scoped (behave c s)).
Lemma restored_call run c s r s' : run_restores run -> whole s -> call_sub behave run c s = (r, s') -> r <> EExc EFuel -> restored s s'.
Proof. intros Hr W E Hf. unfold call_sub in E. eapply restored_trans; [apply (restored_same s (log_call c s)); done|]. eapply Hr; [|apply Hscoped|exact E|done]. exact W. Qed.
Lemma restored_fixed (body : nat -> est V -> eres * est V) l : (forall x s r s', whole s -> body x s = (r, s') -> r <> EExc EFuel -> restored s s') ->
  forall s r s', whole s -> fixed_loop body l s = (r, s') -> r <> EExc EFuel -> restored s s'.
Proof.
  intros Hb. induction l as [|x l IH]; intros s r s' W; simpl; [intros [= <- <-] _; by apply restored_same|].
  apply restored_seq; [done| |done]. intros Hf. destruct (body x s) as [r1 s1] eqn:E. by eapply Hb.
Qed.
Lemma restored_live (body : nat -> est V -> eres * est V) l f : (forall x s r s', whole s -> body x s = (r, s') -> r <> EExc EFuel -> restored s s') ->
  forall i s r s', whole s -> live_loop f body l i s = (r, s') -> r <> EExc EFuel -> restored s s'.
Proof.
  intros Hb. induction f as [|f IH]; intros i s r s' W; simpl; destruct (list_at s l !! i) as [x|]; try (intros [= <- <-] _; by apply restored_same).
  apply restored_seq; [done| |apply IH]. intros Hf. destruct (body x s) as [r1 s1] eqn:E. by eapply Hb.
Qed.
Lemma restored_dispatch run f th d e a s r s' : run_restores run -> whole s -> dispatch run f th d e a s = (r, s') -> r <> EExc EFuel -> restored s s'.
Proof.
  intros Hr W. unfold Events.dispatch. destruct (tl_inject _) as [inj|]; [|intros [= <- <-] _; by apply restored_same].
  set (s1 := with_tl _ _ _). assert (H1 : restored s s1).
  { eapply restored_trans; [apply (restored_same s (count s)); done|]. by apply restored_inject. }
  destruct (suppressed_now _ e) as [[|]|]; try (intros [= <- <-] _; done). intros E Hf.
  pose proof (whole_restored _ _ W H1) as W1.
  eapply restored_trans; [exact H1|]. revert E Hf. apply restored_seq; [done| |].
  - intros Hf. destruct (fixed_loop _ inj s1) as [r1 s2] eqn:E. eapply restored_fixed; [|exact W1|exact E|done]. intros ???? W3 E3 Hf3. exact (restored_call run _ _ _ _ Hr W3 E3 Hf3).
  - intros s2 r2 s3 W2. destruct (e_dsp s2 !! d); [|intros [= <- <-] _; by apply restored_same].
    destruct (Events.assoc e _); [|intros [= <- <-] _; by apply restored_same]. apply restored_live; [|done]. intros ???? W3 E3 Hf3. exact (restored_call run _ _ _ _ Hr W3 E3 Hf3).
Qed.
(** entering and leaving *)
Definition entered (names : list (option string)) (t t' : tlocal) : Prop :=
  exists n, tl_suppress t = Some n /\ tl_suppress t' = Some (S n) /\
  match tl_events t, tl_events t' with
  | Some a, Some b => Permutation (a ++ names) b
  | None, None => names = []
  | _, _ => False
  end.
Lemma enter_entered th names s s' : seq_ (sup_init th names s) (sup_enter th) = (EOk, s') ->
  entered names (tl_of s th) (tl_of s' th) /\ (forall th', th' <> th -> tl_of s' th' = tl_of s th') /\ tl_inject (tl_of s' th) = tl_inject (tl_of s th) /\
  e_dsp s' = e_dsp s /\ e_lists s' = e_lists s /\ e_next s' = e_next s /\ e_trace s' = e_trace s /\ e_count s' = e_count s.
Proof.
  intros E.
  assert (Hi : exists s1, sup_init th names s = (EOk, s1) /\ sup_enter th s1 = (EOk, s')).
  { destruct (sup_init th names s) as [[|] s1]; [|done]. by exists s1. }
  destruct Hi as (s1 & Ei & Ee). unfold sup_enter in Ee. destruct (tl_suppress (tl_of s1 th)) as [n|] eqn:En; [|done]. injection Ee as <-.
  unfold sup_init in Ei. destruct names as [|x names].
  - injection Ei as <-. split; [|split; [intros th' Hne; by rewrite tl_with, decide_False by done|by rewrite tl_with, decide_True by done]].
    exists n. rewrite tl_with, decide_True by done. simpl. split; [done|]. split; [done|]. destruct (tl_events _); [by rewrite app_nil_r|done].
  - destruct (tl_events (tl_of s th)) as [evs|] eqn:Eev; [|done]. injection Ei as <-. rewrite tl_with, decide_True in En by done. simpl in En.
    split; [|split; [intros th' Hne; by rewrite !tl_with, !decide_False by done|by rewrite !tl_with, !decide_True by done]].
    exists n. rewrite Eev. rewrite !tl_with, !decide_True by done. simpl. done.
Qed.
Lemma exit_entered th names s t : entered names t (tl_of s th) ->
  exists s', sup_exit th names s = (EOk, s') /\ same_suppression t (tl_of s' th) /\ (forall th', th' <> th -> tl_of s' th' = tl_of s th') /\
  tl_inject (tl_of s' th) = tl_inject (tl_of s th) /\
  e_dsp s' = e_dsp s /\ e_lists s' = e_lists s /\ e_next s' = e_next s /\ e_trace s' = e_trace s /\ e_count s' = e_count s.
Proof.
  intros (n & H1 & H2 & H3). unfold sup_exit. rewrite H2. simpl.
  set (s1 := with_tl th _ s).
  assert (T1 : tl_of s1 th = Tl (Some n) (tl_events (tl_of s th)) (tl_inject (tl_of s th))) by (unfold s1; by rewrite tl_with, decide_True).
  assert (T2 : forall th', th' <> th -> tl_of s1 th' = tl_of s th') by (intros; unfold s1; by rewrite tl_with, decide_False).
  destruct names as [|x names].
  - exists s1. split; [done|]. split.
    + rewrite T1. split; [done|]. simpl. destruct (tl_events t), (tl_events (tl_of s th)); try done. by rewrite app_nil_r in H3.
    + split; [done|]. rewrite T1. done.
  - rewrite T1. simpl. destruct (tl_events t) as [a|] eqn:Ea, (tl_events (tl_of s th)) as [b|]; try done.
    destruct (remove_names_perm (x :: names) a b) as (l' & E & Hp); [done|]. simpl in E. rewrite E.
    eexists. split; [done|]. split.
    + rewrite tl_with, decide_True by done. rewrite T1. split; simpl; [done|]. rewrite Ea. by symmetry.
    + split; [intros th' Hne; rewrite tl_with, decide_False by done; by apply T2|]. rewrite tl_with, decide_True by done. simpl. by rewrite T1.
Qed.
Lemma entered_same names t t1 t2 : entered names t t1 -> same_suppression t1 t2 -> entered names t t2.
Proof.
  intros (n & A1 & A2 & A3) [B1 B2]. exists n. split; [done|]. split; [congruence|]. destruct (tl_events t), (tl_events t1), (tl_events t2); try done. by etrans.
Qed.
Lemma restored_with run th names body s r s' : run_restores run -> whole s -> Forall scoped body ->
  seq_ (sup_init th names s) (sup_with run th names body) = (r, s') -> r <> EExc EFuel -> restored s s'.
Proof.
  intros Hr W Hb E Hf.
  destruct (seq_ (sup_init th names s) (sup_enter th)) as [re s1] eqn:Ee. destruct re as [|ex].
  - destruct (enter_entered th names s s1 Ee) as (He & Ho & _).
    assert (E' : (let '(r, s2) := run body s1 in match r with EExc EFuel => (r, s2) | _ => match sup_exit th names s2 with (EOk, s3) => (r, s3) | x => x end end) = (r, s')).
    { rewrite <- E. destruct (sup_init th names s) as [[|] s0]; simpl in *; [|done]. unfold sup_with. by rewrite Ee. }
    clear E. destruct (run body s1) as [rb s2] eqn:Eb.
    assert (Hrb : rb <> EExc EFuel) by (intros ->; simpl in E'; injection E' as <- <-; done).
    assert (W1 : whole s1).
    { intros th'. destruct (decide (th' = th)) as [->|Hne]; [|rewrite Ho by done; apply W]. destruct He as (n & A1 & A2 & A3).
      rewrite A2. specialize (W th). rewrite A1 in W. destruct (tl_events (tl_of s th)), (tl_events (tl_of s1 th)); try done. by destruct W as [_ W]; specialize (W eq_refl). }
    pose proof (Hr body s1 rb s2 W1 Hb Eb Hrb) as H2.
    destruct (exit_entered th names s2 (tl_of s th)) as (s3 & E3 & H3 & Ho3 & _); [by eapply entered_same|].
    rewrite E3 in E'. assert (Hs' : s' = s3) by (destruct rb as [|[]]; congruence). subst s'.
    intros th'. destruct (decide (th' = th)) as [->|Hne]; [done|]. rewrite Ho3 by done. rewrite <- Ho by done. apply H2.
  - unfold sup_init in *. destruct names as [|x names].
    + simpl in *. unfold sup_with in E. rewrite Ee in E. injection E as <- <-. unfold sup_enter in Ee. destruct (tl_suppress _); [done|]. injection Ee as <- <-. by apply restored_same.
    + destruct (tl_events (tl_of s th)) as [evs|] eqn:Eev; simpl in *; [|injection E as <- <-; by apply restored_same].
      exfalso. unfold sup_enter in Ee. rewrite tl_with, decide_True in Ee by done. simpl in Ee. destruct (tl_suppress (tl_of s th)) eqn:Es; [done|].
      apply W in Es. congruence.
Qed.
Lemma restored_step run f th a s r s' : run_restores run -> whole s -> scoped a -> step run f th a s = (r, s') -> r <> EExc EFuel -> restored s s'.
Proof.
  intros Hr W Ha. destruct a; cbn [Events.step]; try done; intros E Hf.
  - apply (f_equal snd) in E. simpl in E. subst s'. apply restored_same. apply def_class_same.
  - injection E as <- <-. by apply restored_same.
  - apply (f_equal snd) in E. simpl in E. subst s'. apply restored_same. apply register_same.
  - apply (f_equal snd) in E. simpl in E. subst s'. apply restored_same. apply bind_same.
  - apply (f_equal snd) in E. simpl in E. subst s'. apply restored_same. apply unbind_same.
  - by eapply restored_dispatch.
  - unfold Events.set_attr in E. destruct (attribute d name); [|injection E as <- <-; by apply restored_same].
    destruct (_ || _); [|injection E as <- <-; by apply restored_same].
    assert (H1 : restored s (with_tl th (fun t => Tl (tl_suppress t) (tl_events t) (Some (ad_subs d0))) (set_vals <[(d, name) := v]> s))).
    { eapply restored_trans; [apply (restored_same s (set_vals <[(d, name) := v]> s)); done|]. by apply restored_inject. }
    eapply restored_trans; [exact H1|]. eapply restored_dispatch; [done| |exact E|done]. by eapply whole_restored.
  - unfold Events.del_attr in E. destruct (attribute d name); [|injection E as <- <-; by apply restored_same].
    destruct (e_vals s !! _); [|injection E as <- <-; by apply restored_same].
    eapply restored_trans; [apply (restored_same s (set_vals (delete (d, name)) s)); done|]. by eapply restored_dispatch.
  - eapply restored_with; [done|done| |exact E|done]. simpl in Ha. by apply scoped_all.
  - destruct (run body s) as [rb s1] eqn:Eb. injection E as <- <-. simpl in Ha. eapply Hr; [done|by apply scoped_all|done|]. intros ->. done.
  - injection E as <- <-. by apply restored_same.
Qed.
Lemma restored_exec n th : run_restores (exec n th).
Proof.
  induction n as [|n IH]; intros p s r s' W Hp; simpl; [by intros [= <- <-]|].
  destruct p as [|a p]; [intros [= <- <-] _; by apply restored_same|]. apply Forall_cons in Hp as [Ha Hp]. apply restored_seq; [done| |].
  - intros Hf. destruct (step (exec n th) n th a s) as [r1 s1] eqn:E. by eapply restored_step.
  - intros s1 r1 s2 W1 E Hf. by eapply IH.
Qed.

(** ** Inside nested blocks *)
Definition in_blocks (th : nat) (bs : list (list (option string))) s : Prop :=
  ewf s /\ trace_lt s /\ whole s /\ injected_ok s /\ tl_inject (tl_of s th) = Some [] /\
  tl_suppress (tl_of s th) = Some (length bs) /\ exists evs, tl_events (tl_of s th) = Some evs /\ Permutation evs (concat bs).
Lemma inside_blocks th0 th s bs s1 : ereach th0 s -> tl_of s th = Tl (Some 0) (Some []) (Some []) -> inside th s bs s1 -> in_blocks th bs s1.
Proof.
  intros Hreach Htl H. induction H as [|bs s1 n p r s2 _ IH Hp E Hf|bs names s1 s2 _ IH E|bs names s1 r s2 _ IH E].
  - split; [by eapply ereach_wf|]. split; [by eapply ereach_trace_lt|]. split; [by eapply ereach_whole|]. split; [by eapply ereach_injected|].
    rewrite Htl. split; [done|]. split; [done|]. by exists [].
  - destruct IH as (W & Ht & Wh & Hi & Hn & Hs & evs & He & Hperm).
    pose proof (restored_exec n th p s1 r s2 Wh Hp E Hf) as HR. destruct (HR th) as [R1 R2].
    pose proof (exec_wf veqb unset behave attribute n th p s1 W) as W'. pose proof (grow_exec veqb unset behave attribute n th p s1) as G.
    pose proof (whole_exec n th p s1 Wh) as Wh'. pose proof (injected_exec n th p s1 Hi) as Hi'.
    pose proof (inject_kept th n th p s1) as Hn'. rewrite E in *. simpl in *.
    split; [done|]. split; [by eapply grow_trace_lt|]. split; [done|]. split; [done|]. split.
    { destruct Hi' as [Hi' _]. destruct (Hi' th); [|done]. exfalso. apply Hn'; [by rewrite Hn|done]. }
    split; [congruence|]. rewrite He in R2. destruct (tl_events (tl_of s2 th)) as [evs'|]; [|done]. exists evs'. split; [done|]. by rewrite <- R2.
  - destruct IH as (W & Ht & Wh & Hi & Hn & Hs & evs & He & Hperm).
    destruct (enter_entered th names s1 s2 E) as ((n & A1 & A2 & A3) & Ho & HI & B1 & B2 & B3 & B4 & B5).
    rewrite He in A3. destruct (tl_events (tl_of s2 th)) as [evs'|] eqn:E'; [|done].
    split; [by apply (ewf_same s1); [..|rewrite B3|]|]. split; [unfold trace_lt; by rewrite B4, B5|]. split.
    { intros th'. destruct (decide (th' = th)) as [->|Hne]; [rewrite A2, E'; done|]. rewrite Ho by done. apply Wh. }
    split. { split; [|rewrite B4; apply Hi]. intros th'. destruct (decide (th' = th)) as [->|Hne]; [rewrite HI; apply Hi|]. rewrite Ho by done. apply Hi. }
    split; [congruence|]. split; [rewrite A2; simpl; congruence|]. exists evs'. split; [done|]. simpl. rewrite <- A3, Hperm. apply Permutation_app_comm.
  - destruct IH as (W & Ht & Wh & Hi & Hn & Hs & evs & He & Hperm). simpl in Hs, Hperm.
    destruct (exit_entered th names s1 (Tl (Some (length bs)) (Some (concat bs)) (Some []))) as (s3 & E3 & [R1 R2] & Ho & HI & B1 & B2 & B3 & B4 & B5).
    { exists (length bs). split; [done|]. split; [done|]. rewrite He. simpl. rewrite Hperm. apply Permutation_app_comm. }
    rewrite E3 in E. injection E as <- <-. simpl in R1, R2. destruct (tl_events (tl_of s3 th)) as [evs'|] eqn:E'; [|done].
    split; [by apply (ewf_same s1); [..|rewrite B3|]|]. split; [unfold trace_lt; by rewrite B4, B5|]. split.
    { intros th'. destruct (decide (th' = th)) as [->|Hne]; [rewrite R1, E'; done|]. rewrite Ho by done. apply Wh. }
    split. { split; [|rewrite B4; apply Hi]. intros th'. destruct (decide (th' = th)) as [->|Hne]; [rewrite HI; apply Hi|]. rewrite Ho by done. apply Hi. }
    split; [congruence|]. split; [done|]. exists evs'. split; [done|]. by symmetry.
Qed.
Lemma leave_succeeds th names bs s : in_blocks th (names :: bs) s -> fst (sup_exit th names s) = EOk.
Proof.
  intros (W & Ht & Wh & Hi & Hn & Hs & evs & He & Hperm). simpl in Hs, Hperm.
  destruct (exit_entered th names s (Tl (Some (length bs)) (Some (concat bs)) (Some []))) as (s3 & -> & _); [|done].
  exists (length bs). split; [done|]. split; [done|]. rewrite He. simpl. rewrite Hperm. apply Permutation_app_comm.
Qed.
Lemma elem_concat_perm evs bs (x : option string) : Permutation evs (concat bs) -> x ∈ evs <-> exists names, names ∈ bs /\ x ∈ names.
Proof.
  intros ->. rewrite elem_of_list_In, in_concat. split; intros (l & H1 & H2); exists l; rewrite ?elem_of_list_In in *; done.
Qed.
Lemma blocks_suppress th bs s e : in_blocks th bs s -> 
  (held_back bs e -> suppressed_now (tl_of s th) e = Some true) /\ (~ held_back bs e -> suppressed_now (tl_of s th) e = Some false).
Proof.
  intros (W & Ht & Wh & Hi & Hn & Hs & evs & He & Hperm). unfold suppressed_now. rewrite Hs, He.
  assert (Hx : (None ∈ evs \/ Some e ∈ evs) <-> held_back bs e).
  { rewrite !(elem_concat_perm evs bs _ Hperm). unfold held_back. naive_solver. }
  destruct bs as [|names bs]; simpl.
  - split; [|done]. intros (names & H & _). by apply elem_of_nil in H.
  - split; intros H; f_equal; [by apply bool_decide_eq_true, Hx|]. apply bool_decide_eq_false. by rewrite Hx.
Qed.
Lemma dispatch_suppressed run f th d e a s inj : tl_inject (tl_of s th) = Some inj -> suppressed_now (tl_of s th) e = Some true ->
  exists s', dispatch run f th d e a s = (EOk, s') /\ e_trace s' = e_trace s.
Proof.
  intros Hi Hs. unfold Events.dispatch. change (tl_of (count s) th) with (tl_of s th). rewrite Hi.
  assert (E : suppressed_now (tl_of (with_tl th (fun t => Tl (tl_suppress t) (tl_events t) (Some [])) (count s)) th) e = Some true).
  { rewrite tl_with, decide_True by done. exact Hs. }
  rewrite E. by eexists.
Qed.
End scoped.

(** * Lists that change while they are walked *)
Section live.
Context (n th i d : nat) (e : string) (a : args V) (l : nat).
Notation body := (fun x => call_sub behave (exec (S n) th) (Call i d e x false a)).
Definition logs (seg : list nat) s : est V := foldl (fun s x => log_call (Call i d e x false a) s) s seg.
Lemma logs_list seg : forall s, list_at (logs seg s) l = list_at s l.
Proof. induction seg as [|x seg IH]; intros s; [done|]. simpl. by rewrite IH. Qed.
Lemma logs_calls seg : forall s, e_trace (logs seg s) = e_trace s ++ round i d e a false seg.
Proof. induction seg as [|x seg IH]; intros s; simpl; [by rewrite app_nil_r|]. rewrite IH. simpl. by rewrite <- app_assoc. Qed.
Lemma logs_frame seg : forall s, e_dsp (logs seg s) = e_dsp s /\ e_lists (logs seg s) = e_lists s /\ e_next (logs seg s) = e_next s /\ e_cls (logs seg s) = e_cls s /\
  e_evl (logs seg s) = e_evl s.
Proof. induction seg as [|x seg IH]; intros s; [done|]. simpl. destruct (IH (log_call (Call i d e x false a) s)) as (A & B & C & D & E). by rewrite A, B, C, D, E. Qed.
Lemma live_quiet seg : forall j s f, (forall k x, seg !! k = Some x -> list_at s l !! (j + k) = Some x) ->
  (forall x s', x ∈ seg -> behave (Call i d e x false a) s' = []) ->
  live_loop (length seg + f) body l j s = live_loop f body l (j + length seg) (logs seg s).
Proof.
  induction seg as [|x seg IH]; intros j s f Hl Hq; simpl; [by rewrite Nat.add_0_r|].
  pose proof (Hl 0 x eq_refl) as H0. rewrite Nat.add_0_r in H0. rewrite H0. unfold call_sub at 1. rewrite Hq by left. cbn [Events.exec seq_].
  rewrite IH; [f_equal; lia| |].
  - intros k y Hk. specialize (Hl (S k) y Hk). rewrite <- Nat.add_succ_comm in Hl. exact Hl.
  - intros y s' Hy. apply Hq. by right.
Qed.
Lemma live_end (body' : nat -> est V -> eres * est V) l' j s f : length (list_at s l') <= j -> live_loop f body' l' j s = (EOk, s).
Proof. intros H. destruct f; simpl; by rewrite (proj2 (lookup_ge_None _ _)). Qed.
Lemma live_at j s f x : list_at s l !! j = Some x -> live_loop (S f) body l j s = seq_ (body x s) (live_loop f body l (S j)).
Proof. intros H. simpl. by rewrite H. Qed.
End live.
End proofs.
