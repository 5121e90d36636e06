(** Event attributes kept in the attributes of a node. *)
From Verif Require Import Py Odict Heap Model Utils WF Views SpecMapping MappingProofs StorageProofs Observe SpecTree SpecCache CacheProofs CacheConcert
  NodeEvents SpecNodeEvents MonadFacts MappingProofs.

Section run.
Context (veqb : val -> val -> bool) (access : bool) (ad : string -> event_attribute).
Definition with_event {A} (n : string) (r : res (option A) * st) : (answer * option (string * A)) * st :=
  match r with
  | (Ret o, s) => ((ANone, (fun v => (n, v)) <$> o), s)
  | (Exc e, s) => ((AExc e, None), s)
  end.
Definition run_eop (x : nat) (o : eop) (s : st) : (answer * option (string * val)) * st :=
  match o with
  | EGet n => let '(a, s') := wrap AVal (ea_get access x n (ad n)) s in ((a, None), s')
  | ESet n v => with_event n (ea_set veqb access x n (ad n) v s)
  | EDel n => with_event n (ea_del x n s)
  | EAttrs c => match ea_storage x s with
                | (Ret a, s1) => let '(r, s2) := run_call a c s1 in ((r, None), s2)
                | (Exc e, s1) => ((AExc e, None), s1)
                end
  end.
Fixpoint run_eops (x : nat) (l : list eop) (s : st) : list (answer * option (string * val)) * st :=
  match l with
  | [] => ([], s)
  | o :: r => let '(a, s1) := run_eop x o s in let '(as_, s2) := run_eops x r s1 in (a :: as_, s2)
  end.
End run.

(** calls on nodes of mapping behaviors, without an invalidator *)
Lemma RC_call x cls al c s d : cache_class (c_behs cls) = true -> RC x cls al s d -> Forall (valid_val s) (call_values c) ->
  exists s', run_call x c s = (fst (call_spec (pol cls al) c d), s') /\ RC x cls al s' (snd (call_spec (pol cls al) c d)) /\ grows s s'.
Proof. intros Hcls H Hv. eapply run_call_sim; eauto using RC_nodup, RC_iter, RC_get, RC_set, RC_del. Qed.

Section attrs.
Context (x a : nat) (cls acls : classdef) (al : bool) (Hxa : x <> a).
Context (Hattrs : with_attrs (c_behs cls) = true) (Hcls : cache_class (c_behs acls) = true).
Definition akey : key := KStr "__attrs__".
(** [x] has the attributes [a], whose entries are [d] *)
Record RE (s : st) (d : list (key * val)) : Prop := Re {
  re_own : forall y, owns y s;
  re_x : exists o l dd, nodes s !! x = Some o /\ o_cls o = cls /\ o_nodespaces o = Some l /\ dicts s !! l = Some dd /\ dget akey dd = Some (VNode a);
  re_a : RC a acls al s d
}.
Lemma RE_attrs s d : RE s d -> ea_storage x s = (Ret a, s).
Proof.
  intros [_ (o & l & dd & Ho & Hc & Hn & Hd & Hg) _]. unfold ea_storage, attrs_of.
  assert (E : nodespaces_of x s = (Ret l, s)) by (unfold nodespaces_of; rewrite (bind_load _ _ _ _ Ho), Hn; done).
  assert (E2 : dict_get l (KStr "__attrs__") s = (Ret (VNode a), s)).
  { unfold dict_get. simpl. unfold bind, read_dict. rewrite Hd. unfold akey in Hg. by rewrite Hg. }
  unfold bind at 1. rewrite (bind_load _ _ _ _ Ho), Hc, Hattrs. unfold bind at 1. rewrite E. unfold try_catch. rewrite E2. done.
Qed.
(** a call on the attributes keeps that *)
Lemma RE_call c s d : RE s d -> Forall (valid_val s) (call_values c) ->
  exists s', run_call a c s = (fst (call_spec (pol acls al) c d), s') /\ RE s' (snd (call_spec (pol acls al) c d)) /\ keep x s s' /\ grows s s'.
Proof.
  intros [Ow (o & l & dd & Ho & Hc & Hn & Hd & Hg) Ha] Hv.
  destruct (RC_call a acls al c s d Hcls Ha Hv) as (s' & E & Ha' & G).
  destruct (run_icall_others a (Call c) s Ow (RC_class _ _ _ _ _ Hcls Ha)) as [Ow' K]. simpl in Ow', K. rewrite E in Ow', K. simpl in Ow', K.
  specialize (K x Hxa). exists s'. split; [done|]. split; [|done]. constructor; [done| |done].
  destruct (k_obj _ _ _ K o Ho) as (o' & Ho' & E1 & _ & E3). exists o', l, dd. pose proof (E3 SNodespaces) as En. simpl in En. split; [done|]. split; [congruence|]. split; [congruence|].
  split; [|done]. rewrite (k_dicts _ _ _ K); [done|]. by exists o, SNodespaces.
Qed.
Lemma wrap_ret {A} (f : A -> answer) (m : M A) s r s' : (forall u u', f u = f u' -> u = u') -> (forall u e, f u <> AExc e) -> wrap f m s = (r, s') ->
  match r with AExc e => m s = (Exc e, s') | _ => exists u, m s = (Ret u, s') /\ r = f u end.
Proof.
  intros Hf Hfe. unfold wrap. destruct (m s) as [[u|e] t]; intros [= <- <-]; [|done].
  pose proof (Hfe u) as H. destruct (f u) eqn:E; try (by exists u); by destruct (H e).
Qed.
Lemma AVal_ok : (forall u u', AVal u = AVal u' -> u = u') /\ forall u e, AVal u <> AExc e.
Proof. split; [by intros u u' [= ->]|done]. Qed.

Context (veqb : val -> val -> bool) (ad : string -> event_attribute).
Lemma pol_get n : p_get (pol acls al) (KStr n) = None.
Proof. done. Qed.
Lemma RE_lookup s d n : RE s d -> exists s', ea_lookup false a n (ea_default (ad n)) s = (Ret (now ad n d), s') /\ RE s' d /\ keep x s s' /\ grows s s'.
Proof.
  intros H. destruct (RE_call (CGet (KStr n)) s d H) as (s' & E & H' & K & G); [by apply Forall_nil|].
  exists s'. split; [|done]. cbn [run_call] in E. cbn [call_spec fst] in E.
  unfold ea_lookup, get, try_catch. unfold do_get in E. rewrite pol_get in E. unfold now.
  destruct (value_at (KStr n) d) as [v|]; apply wrap_ret in E; try apply AVal_ok; simpl in E; [destruct E as (u & -> & [= <-])|rewrite E]; done.
Qed.
Lemma RE_set s d n v : RE s d -> valid_val s v ->
  exists s', setitem a (KStr n) v s = (match fst (do_set (pol acls al) (KStr n) v d) with None => Ret tt | Some e => Exc e end, s') /\
    RE s' (snd (do_set (pol acls al) (KStr n) v d)) /\ keep x s s' /\ grows s s'.
Proof.
  intros H Hv. destruct (RE_call (CSet (KStr n) v) s d H) as (s' & E & H' & K & G); [by apply Forall_singleton|].
  exists s'. cbn [run_call call_spec] in E, H'. destruct (do_set (pol acls al) (KStr n) v d) as [r d']. cbn [fst snd] in *. split; [|done].
  unfold wrap in E. destruct (setitem a (KStr n) v s) as [[[]|e] t]; destruct r; simpl in E; congruence.
Qed.
Lemma RE_del s d n : RE s d ->
  exists s', delitem a (KStr n) s = (match fst (do_del (pol acls al) (KStr n) d) with None => Ret tt | Some e => Exc e end, s') /\
    RE s' (snd (do_del (pol acls al) (KStr n) d)) /\ keep x s s' /\ grows s s'.
Proof.
  intros H. destruct (RE_call (CDel (KStr n)) s d H) as (s' & E & H' & K & G); [by apply Forall_nil|].
  exists s'. cbn [run_call call_spec] in E, H'. destruct (do_del (pol acls al) (KStr n) d) as [r d']. cbn [fst snd] in *. split; [|done].
  unfold wrap in E. destruct (delitem a (KStr n) s) as [[[]|e] t]; destruct r; simpl in E; congruence.
Qed.
Lemma RE_eop o s d : RE s d -> Forall (valid_val s) (eop_values o) ->
  exists s', run_eop veqb false ad x o s = (fst (eop_spec veqb ad (pol acls al) o d), s') /\
    RE s' (snd (eop_spec veqb ad (pol acls al) o d)) /\ keep x s s' /\ grows s s'.
Proof.
  intros H Hv. pose proof (RE_attrs s d H) as Es. destruct o as [n|n v|n|c]; cbn [run_eop eop_spec].
  - destruct (RE_lookup s d n H) as (s' & E & H'). exists s'. split; [|done]. unfold wrap, ea_get. unfold bind. rewrite Es, E. done.
  - change (Forall (valid_val s) [v]) in Hv. apply (proj1 (Forall_singleton _ v)) in Hv. destruct (RE_lookup s d n H) as (s1 & E1 & H1 & K1 & G1).
    destruct (RE_set s1 d n v H1) as (s2 & E2 & H2 & K2 & G2); [exact (valid_val_grows _ _ _ G1 Hv)|].
    exists s2. unfold ea_set. unfold bind. rewrite Es, E1, E2. destruct (do_set (pol acls al) (KStr n) v d) as [[e|] d']; cbn [fst snd] in *.
    + split; [done|]. split; [done|]. split; [exact (keep_trans _ _ _ _ K1 K2)|exact (grows_trans _ _ _ G1 G2)].
    + split; [unfold with_event, ret; by destruct (ea_always (ad n) || negb (veqb v (now ad n d)))|]. split; [done|]. split; [exact (keep_trans _ _ _ _ K1 K2)|exact (grows_trans _ _ _ G1 G2)].
  - destruct (RE_del s d n H) as (s2 & E2 & H2). exists s2. unfold ea_del. unfold bind. rewrite Es, E2.
    destruct (do_del (pol acls al) (KStr n) d) as [[e|] d']; done.
  - rewrite Es. destruct (RE_call c s d H Hv) as (s' & E & H'). exists s'. rewrite E. done.
Qed.
Lemma RE_eops l : forall s d, RE s d -> Forall (fun o => Forall (valid_val s) (eop_values o)) l ->
  exists s', run_eops veqb false ad x l s = (fst (eops_spec veqb ad (pol acls al) l d), s') /\
    RE s' (snd (eops_spec veqb ad (pol acls al) l d)) /\ keep x s s'.
Proof.
  induction l as [|o l IH]; intros s d H Hv; cbn [run_eops eops_spec].
  - exists s. split; [done|]. split; [done|apply keep_refl].
  - apply Forall_cons in Hv as [Hv1 Hv2]. destruct (RE_eop o s d H Hv1) as (s1 & E1 & H1 & K1 & G1). rewrite E1.
    destruct (eop_spec veqb ad (pol acls al) o d) as [r d1]. cbn [fst snd] in *.
    destruct (IH s1 d1 H1) as (s2 & E2 & H2 & K2).
    { eapply Forall_impl; [exact Hv2|]. intros o' Ho'. eapply Forall_impl; [exact Ho'|]. intros v. by apply valid_val_grows. }
    rewrite E2. destruct (eops_spec veqb ad (pol acls al) l d1) as [as_ d2]. cbn [fst snd] in *. exists s2. split; [done|]. split; [done|]. by eapply keep_trans.
Qed.
(** with attribute_access_for_attrs *)
Lemma RE_access s d n v : RE s d -> value_at (KStr "get") d = None ->
  exists s', ea_get true x n (ad n) s = (Exc AttributeError, s') /\ ea_set veqb true x n (ad n) v s = (Exc AttributeError, s') /\ RE s' d /\ keep x s s'.
Proof.
  intros H Hg. destruct (RE_call (CGet (KStr "get")) s d H) as (s' & E & H' & K & _); [by apply Forall_nil|].
  cbn [run_call call_spec fst snd] in E, H'. unfold do_get in E. rewrite pol_get, Hg in E. pose proof (wrap_ret AVal (getitem a (KStr "get")) s _ _ (proj1 AVal_ok) (proj2 AVal_ok) E) as Eg. simpl in Eg.
  assert (El : forall dv, ea_lookup true a n dv s = (Exc AttributeError, s')).
  { intros dv. unfold ea_lookup, aa_getattr. unfold bind at 1. unfold try_catch, bind. rewrite Eg. done. }
  pose proof (RE_attrs s d H) as Es. exists s'. unfold ea_get, ea_set. unfold bind. rewrite Es, El. done.
Qed.
End attrs.

Lemma RE_of_wf s x a cls acls : wf s -> class_of s x = Some cls -> with_attrs (c_behs cls) = true ->
  value_at (KStr "__attrs__") (spaces_at s x) = Some (VNode a) -> class_of s a = Some acls -> cache_class (c_behs acls) = true ->
  up_to_date (cache_at s a) (entries_at s a) -> (Cache ∉ c_behs acls -> cache_at s a = []) ->
  x <> a /\ RE x a cls acls (allows s a) s (entries_at s a).
Proof.
  intros W Hc Ha Hv Hca Hcls Hu Hn. split.
  { intros ->. rewrite Hc in Hca. injection Hca as ->. unfold with_attrs in Ha. apply andb_true_iff in Ha as [_ Ha]. apply bool_decide_eq_true in Ha.
    apply andb_true_iff in Hcls as [Hb _]. rewrite forallb_forall in Hb. apply elem_of_list_In in Ha. by apply Hb in Ha. }
  constructor.
  - intros y. by apply owns_wf.
  - unfold class_of in Hc. destruct (nodes s !! x) as [o|] eqn:Ho; [|done]. simpl in Hc. injection Hc as Hc. unfold spaces_at in Hv. rewrite Ho in Hv.
    destruct (o_nodespaces o) as [l|] eqn:En; [|done]. destruct (dicts s !! l) as [dd|] eqn:Ed; [|done]. exists o, l, dd. rewrite value_at_spec in Hv. done.
  - apply RC_of_wf; [done|done|done|]. destruct (decide (Cache ∈ c_behs acls)); [by left|right; by apply Hn].
Qed.
Lemma keep_same x s s' : keep x s s' -> same_contents s s' x.
Proof. apply keep_seen. Qed.
