(** The storage endpoints seen from any class with a storage behavior. *)
From Verif Require Import Py Odict OdictFacts Aliaser Heap Model Classes MonadFacts
  SpecMapping MappingProofs StorageProofs.

(** [self] is of class [cls] with [allow_non_node_children] = [allow], and holds [d]. *)
Record stored (self : nat) (cls : classdef) (allow : bool) (s : st) (d : list (key * val)) : Prop := {
  sd_obj : exists o, nodes s !! self = Some o /\ o_cls o = cls /\ o_allow o = allow;
  sd_holds : holds self s d
}.
Lemma stored_nodup self cls allow s d : stored self cls allow s d -> NoDup (dkeys d).
Proof. intros [_ (o & _ & _ & ND & _)]. done. Qed.
Lemma stored_load self cls allow s d : stored self cls allow s d ->
  exists o, nodes s !! self = Some o /\ o_cls o = cls /\ o_allow o = allow.
Proof. by intros []. Qed.
Lemma stored_storage self cls allow s d : stored self cls allow s d -> has_storage (c_behs cls) = true.
Proof. intros [(o & Ho & <- & _) (o' & Ho' & H & _)]. congruence. Qed.

Lemma stored_modify self cls allow s d x f o :
  (forall o, o_cls (f o) = o_cls o) -> (forall o, o_allow (f o) = o_allow o) -> (forall o, o_storage (f o) = o_storage o) ->
  nodes s !! x = Some o -> stored self cls allow s d -> stored self cls allow (set_nodes <[x := f o]> s) d.
Proof.
  intros Hc Ha Hs Ho [(o1 & Ho1 & Hb1 & Hb2) (o2 & Ho2 & Hp2 & ND & Hd)].
  rewrite Ho1 in Ho2. injection Ho2 as <-.
  destruct (decide (x = self)) as [->|Hne].
  - rewrite Ho1 in Ho. injection Ho as <-.
    split; exists (f o1); simpl; rewrite lookup_insert, ?Hc, ?Ha, ?Hs; done.
  - split; exists o1; simpl; rewrite lookup_insert_ne by done; done.
Qed.

Lemma stored_touch self cls allow s d l s' :
  stored self cls allow s d -> storage_of self s = (Ret l, s') ->
  stored self cls allow s' d /\ dicts s' !! l = Some d /\ (exists o, nodes s' !! self = Some o /\ o_storage o = Some l) /\ grows s s'.
Proof.
  intros [(o & Ho & H1 & H2) H] E.
  destruct (storage_of_holds _ _ _ _ _ H E) as (A & B & C).
  destruct (storage_of_spec _ _ _ H) as (l' & s'' & E' & _ & o' & Ho' & Hn & _).
  rewrite E in E'. injection E' as <- <-. rewrite Ho in Ho'. injection Ho' as <-.
  split; [|split; [done|split; [done|by eapply storage_of_grows]]].
  split; [|done]. exists (with_storage (Some l) o). rewrite Hn, lookup_insert. done.
Qed.
Lemma stored_open self cls allow s d : stored self cls allow s d ->
  exists l s', storage_of self s = (Ret l, s') /\ stored self cls allow s' d /\ dicts s' !! l = Some d /\
    (exists o, nodes s' !! self = Some o /\ o_storage o = Some l) /\ grows s s'.
Proof.
  intros H. destruct (storage_of_spec _ _ _ (sd_holds _ _ _ _ _ H)) as (l & s' & E & _).
  exists l, s'. split; [done|]. by eapply stored_touch.
Qed.
Lemma stored_write self cls allow s d l d' : stored self cls allow s d -> NoDup (dkeys d') ->
  (exists o, nodes s !! self = Some o /\ o_storage o = Some l) -> stored self cls allow (set_dicts <[l := d']> s) d'.
Proof. intros [H1 H2] ND Ho. split; [done|]. by eapply holds_write. Qed.

Section endpoints.
  Context (self : nat) (cls : classdef) (allow : bool) (all : list behavior).
  Context (Hs : has_storage all = true) (Hf : hasc FixedChildren all = false).

  Lemma ep_get s d k : stored self cls allow s d ->
    exists s', get_endpoint all self k s =
      (if hashable k then match dget k d with Some v => Ret v | None => Exc (KeyError k) end else Exc TypeError, s')
      /\ stored self cls allow s' d /\ grows s s'.
  Proof using Hs Hf.
    intros H. unfold get_endpoint. rewrite Hf. unfold has_storage in Hs. rewrite Hs.
    destruct (stored_open _ _ _ _ _ H) as (l & s' & E & H' & Hl & _ & G). rewrite (bind_Ret _ _ _ _ _ E).
    exists s'. split; [|done]. unfold dict_get. destruct (hashable k); [|done].
    rewrite (bind_read_dict _ _ _ _ Hl). by destruct (dget k d).
  Qed.
  Lemma ep_set s d k v : stored self cls allow s d ->
    exists s', set_endpoint all self k v s = (if hashable k then Ret tt else Exc TypeError, s')
      /\ stored self cls allow s' (if hashable k then dset k v d else d) /\ grows s s'.
  Proof using Hs Hf.
    intros H. unfold set_endpoint. rewrite Hf. unfold has_storage in Hs. rewrite Hs.
    destruct (stored_open _ _ _ _ _ H) as (l & s' & E & H' & Hl & Ho & G). rewrite (bind_Ret _ _ _ _ _ E).
    pose proof (stored_nodup _ _ _ _ _ H) as ND.
    unfold dict_set. destruct (hashable k).
    - rewrite (bind_read_dict _ _ _ _ Hl). eexists. split; [reflexivity|]. split; [|done].
      eapply stored_write; [done|by apply NoDup_dset|done].
    - eexists. split; [reflexivity|]. done.
  Qed.
  Lemma ep_del s d k : stored self cls allow s d ->
    exists s', del_endpoint all self k s =
      (if hashable k then match dget k d with Some v => Ret tt | None => Exc (KeyError k) end else Exc TypeError, s')
      /\ stored self cls allow s' (if hashable k then match dget k d with Some _ => ddel k d | None => d end else d) /\ grows s s'.
  Proof using Hs Hf.
    intros H. unfold del_endpoint. rewrite Hf. unfold has_storage in Hs. rewrite Hs.
    destruct (stored_open _ _ _ _ _ H) as (l & s' & E & H' & Hl & Ho & G). rewrite (bind_Ret _ _ _ _ _ E).
    pose proof (stored_nodup _ _ _ _ _ H) as ND.
    unfold dict_del. destruct (hashable k).
    - rewrite (bind_read_dict _ _ _ _ Hl). destruct (dget k d) as [v|].
      + eexists. split; [reflexivity|]. split; [|done]. eapply stored_write; [done|by apply NoDup_ddel|done].
      + eexists. split; [reflexivity|]. done.
    - eexists. split; [reflexivity|]. done.
  Qed.
  Lemma ep_iter s d : hasc ChildFactory all = false -> stored self cls allow s d ->
    exists s', iter_endpoint all self s = (Ret (dkeys d), s') /\ stored self cls allow s' d /\ grows s s'.
  Proof using Hs Hf.
    intros Hc H. unfold iter_endpoint. rewrite Hf.
    assert (forall bs, hasc ChildFactory bs = false -> has_storage bs = true ->
      iter_override bs self s = (let! l := storage_of self in let! d := read_dict l in ret (dkeys d)) s) as Ho.
    { clear. induction bs as [|b bs IH]; intros H1 H2; [done|].
      unfold has_storage, hasc in *. rewrite bool_decide_eq_false in H1.
      apply orb_true_iff in H2. rewrite !bool_decide_eq_true in H2.
      destruct b; try done; simpl;
        try (apply IH; [rewrite bool_decide_eq_false; set_solver|apply orb_true_iff; rewrite !bool_decide_eq_true; set_solver]).
      destruct H1. left. }
    rewrite Ho by done.
    destruct (stored_open _ _ _ _ _ H) as (l & s' & E & H' & Hl & _ & G). rewrite (bind_Ret _ _ _ _ _ E).
    rewrite (bind_read_dict _ _ _ _ Hl). exists s'. done.
  Qed.
End endpoints.
