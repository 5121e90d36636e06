(** Nodes made of storage, validation, adoption and passive behaviors are
    ordered dictionaries. *)
From Verif Require Import Py Odict OdictFacts Aliaser Heap Model Classes MonadFacts
  SpecMapping MappingProofs.

(** Behaviors that add no hook of their own to item access, besides adoption
    and child validation. *)
Definition plain_beh (b : behavior) : bool :=
  match b with
  | Adopt | AsAttrAccess | GetattrChildren | NodeChildValidate | UnicodeAware
  | UUIDAware | DefaultInit | Nodify | DictStorage | OdictStorage | Attributes | Order
  | Invalidate | VolatileStorageInvalidate => true
  | _ => false
  end.
Definition has_storage (bs : list behavior) : bool :=
  hasc DictStorage bs || hasc OdictStorage bs.
Definition plain_class (bs : list behavior) : bool :=
  forallb plain_beh bs && has_storage bs.

(** [self] is a node of such a class holding the entries [d]. *)
Definition holds (self : nat) (s : st) (d : list (key * val)) : Prop :=
  exists o, nodes s !! self = Some o
    /\ has_storage (c_behs (o_cls o)) = true
    /\ NoDup (dkeys d)
    /\ match o_storage o with
       | None => d = []
       | Some l => dicts s !! l = Some d
       end.

Definition plain_node (self : nat) (allow : bool) (s : st) : Prop :=
  exists o, nodes s !! self = Some o
    /\ plain_class (c_behs (o_cls o)) = true
    /\ (negb (hasc NodeChildValidate (c_behs (o_cls o))) || o_allow o = allow).

(** * Storage *)
Lemma storage_of_spec self s d :
  holds self s d ->
  exists l s', storage_of self s = (Ret l, s')
    /\ dicts s' !! l = Some d
    /\ (exists o, nodes s !! self = Some o /\ nodes s' = <[self := with_storage (Some l) o]> (nodes s)
         /\ (o_storage o = Some l /\ s' = s \/
             o_storage o = None /\ l = next_id s /\
             s' = set_nodes <[self := with_storage (Some l) o]>
                    (set_next_id S (set_dicts <[next_id s := []]> s)))).
Proof.
  intros (o & Ho & Hs & ND & Hd). unfold storage_of.
  rewrite (bind_load _ _ _ _ Ho). unfold has_storage, hasc in Hs. unfold has. rewrite Hs.
  destruct (o_storage o) as [l|] eqn:El.
  - exists l, s. split; [done|]. split; [done|]. exists o. split; [done|]. split; [|by left].
    rewrite insert_id; [done|]. rewrite Ho. f_equal. destruct o; simpl in *; by subst.
  - subst d. unfold alloc_dict. unfold bind at 1.
    erewrite bind_modify; [|exact Ho].
    eexists _, _. split; [reflexivity|]. simpl. split; [by rewrite lookup_insert|].
    exists o. split; [done|]. split; [done|]. right. done.
Qed.

Lemma holds_get self s d k :
  holds self s d ->
  exists s', (let! l := storage_of self in dict_get l k) s
     = (if hashable k then match dget k d with Some v => Ret v | None => Exc (KeyError k) end
        else Exc TypeError, s')
     /\ (exists l, storage_of self s = (Ret l, s')).
Proof.
  intros H. destruct (storage_of_spec _ _ _ H) as (l & s' & E & Hl & _).
  rewrite (bind_Ret _ _ _ _ _ E). exists s'. split; [|eauto].
  unfold dict_get. destruct (hashable k); [|done].
  rewrite (bind_read_dict _ _ _ _ Hl). by destruct (dget k d).
Qed.

(** storage_of keeps everything observable. *)
Lemma storage_of_grows self s d l s' :
  holds self s d -> storage_of self s = (Ret l, s') -> grows s s'.
Proof.
  intros H E. destruct (storage_of_spec _ _ _ H) as (l' & s'' & E' & _ & o & Ho & Hn & _).
  rewrite E in E'. injection E' as <- <-. unfold grows. rewrite Hn. set_solver.
Qed.
Lemma storage_of_holds self s d l s' :
  holds self s d -> storage_of self s = (Ret l, s') -> holds self s' d /\ dicts s' !! l = Some d
    /\ exists o, nodes s' !! self = Some o /\ o_storage o = Some l.
Proof.
  intros H E. destruct (storage_of_spec _ _ _ H) as (l' & s'' & E' & Hl & o & Ho & Hn & _).
  rewrite E in E'. injection E' as <- <-.
  destruct H as (o' & Ho' & Hs & ND & _). rewrite Ho in Ho'. injection Ho' as <-.
  assert (nodes s' !! self = Some (with_storage (Some l) o)) as Hlk
    by (rewrite Hn; apply lookup_insert).
  split; [|split; [done|eauto]].
  exists (with_storage (Some l) o). done.
Qed.
Lemma storage_of_plain self allow s d l s' x :
  holds self s d -> storage_of self s = (Ret l, s') -> plain_node x allow s -> plain_node x allow s'.
Proof.
  intros H E (o' & Ho' & Hp). destruct (storage_of_spec _ _ _ H) as (l' & s'' & E' & Hl & o & Ho & Hn & _).
  rewrite E in E'. injection E' as <- <-. unfold plain_node. rewrite Hn.
  destruct (decide (x = self)) as [->|Hne].
  - rewrite Ho in Ho'. injection Ho' as <-. exists (with_storage (Some l) o).
    rewrite lookup_insert. done.
  - exists o'. by rewrite lookup_insert_ne.
Qed.

Lemma hashable_u k :
  match k with KUnhashable _ => Some TypeError | _ => None end
  = if hashable k then None else Some TypeError.
Proof. by destruct k. Qed.

Definition Rplain self allow s d := holds self s d /\ plain_node self allow s.

Lemma get_endpoint_plain self allow s d k :
  Rplain self allow s d -> forall all, has_storage all = true -> hasc FixedChildren all = false ->
  exists s', get_endpoint all self k s = (do_get (validating_policy allow) k d, s')
    /\ Rplain self allow s' d /\ grows s s'.
Proof.
  intros [H Hp] all Ha Hf. unfold get_endpoint. rewrite Hf. unfold has_storage in Ha. rewrite Ha.
  destruct (holds_get _ _ _ k H) as (s' & E & l & El).
  rewrite E. exists s'. split.
  - unfold do_get, validating_policy; simpl. rewrite hashable_u, value_at_spec.
    destruct (hashable k); done.
  - destruct (storage_of_holds _ _ _ _ _ H El) as (H1 & H2 & _).
    split; [split; [done|]|]; eauto using storage_of_plain, storage_of_grows.
Qed.

Lemma plain_no_fixed bs : forallb plain_beh bs = true -> hasc FixedChildren bs = false.
Proof.
  intros H. unfold hasc. apply bool_decide_eq_false. intros Hin.
  rewrite forallb_forall in H. apply elem_of_list_In in Hin. by apply H in Hin.
Qed.
Lemma plain_no_factory bs : forallb plain_beh bs = true -> ChildFactory ∉ bs.
Proof.
  intros H Hin.
  rewrite forallb_forall in H. apply elem_of_list_In in Hin. by apply H in Hin.
Qed.

Lemma get_stack_plain fb all bs self k s :
  forallb plain_beh bs = true -> get_stack fb all bs self k s = get_endpoint all self k s.
Proof.
  induction bs as [|b bs IH]; simpl; intros H; [done|].
  apply andb_prop in H as [H1 H2].
  destruct b; try discriminate H1; simpl; by apply IH.
Qed.
Lemma del_stack_plain all bs self k s :
  forallb plain_beh bs = true -> del_stack all bs self k s = del_endpoint all self k s.
Proof.
  induction bs as [|b bs IH]; simpl; intros H; [done|].
  apply andb_prop in H as [H1 H2].
  destruct b; try discriminate H1; simpl; by apply IH.
Qed.
Lemma iter_stack_plain all bs self s :
  forallb plain_beh bs = true -> iter_stack all bs self s = iter_endpoint all self s.
Proof.
  induction bs as [|b bs IH]; simpl; intros H; [done|].
  apply andb_prop in H as [H1 H2].
  destruct b; try discriminate H1; simpl; by apply IH.
Qed.
Lemma iter_override_plain bs self s :
  forallb plain_beh bs = true -> has_storage bs = true ->
  iter_override bs self s = (let! l := storage_of self in let! d := read_dict l in ret (dkeys d)) s.
Proof.
  induction bs as [|b bs IH]; simpl; intros H Hs; [done|].
  apply andb_prop in H as [H1 H2].
  destruct b; try discriminate H1; try done; apply IH; try done;
    unfold has_storage, hasc in *;
    apply orb_true_iff in Hs; apply orb_true_iff; rewrite !bool_decide_eq_true in *;
    set_solver.
Qed.

Lemma plain_class_inv bs : plain_class bs = true -> forallb plain_beh bs = true /\ has_storage bs = true.
Proof. apply andb_prop. Qed.

Lemma plain_iter self allow s d : Rplain self allow s d ->
  exists s', iter self s = (Ret (dkeys d), s') /\ Rplain self allow s' d /\ grows s s'.
Proof.
  intros [H Hp]. pose proof Hp as (o & Ho & Hc & Ha). apply plain_class_inv in Hc as [Hc Hs].
  unfold iter. rewrite (bind_load _ _ _ _ Ho).
  rewrite iter_stack_plain by done. unfold iter_endpoint. rewrite plain_no_fixed by done.
  rewrite iter_override_plain by done.
  destruct (storage_of_spec _ _ _ H) as (l & s' & E & Hl & _).
  rewrite (bind_Ret _ _ _ _ _ E), (bind_read_dict _ _ _ _ Hl).
  exists s'. split; [done|]. destruct (storage_of_holds _ _ _ _ _ H E) as (H1 & H2 & _).
  split; [split; [done|]|]; eauto using storage_of_plain, storage_of_grows.
Qed.

Lemma plain_get self allow s d k : Rplain self allow s d ->
  exists s', getitem self k s = (do_get (validating_policy allow) k d, s')
    /\ Rplain self allow s' d /\ grows s s'.
Proof.
  intros [H Hp]. pose proof Hp as (o & Ho & Hc & Ha). apply plain_class_inv in Hc as [Hc Hs].
  unfold getitem. rewrite (bind_load _ _ _ _ Ho).
  rewrite get_stack_plain by done.
  apply get_endpoint_plain; [done|done|]. by apply plain_no_fixed.
Qed.

Lemma holds_write self s d l d' :
  holds self s d -> NoDup (dkeys d') ->
  (exists o, nodes s !! self = Some o /\ o_storage o = Some l) ->
  holds self (set_dicts <[l := d']> s) d'.
Proof.
  intros (o & Ho & Hs & ND & Hd) ND' (o' & Ho' & Hl). rewrite Ho in Ho'. injection Ho' as <-.
  exists o. simpl. rewrite Hl in *. split; [done|]. split; [done|]. split; [done|].
  by rewrite lookup_insert.
Qed.

Lemma plain_del self allow s d k : Rplain self allow s d ->
  exists s', delitem self k s =
    (match fst (do_del (validating_policy allow) k d) with None => Ret tt | Some e => Exc e end, s')
    /\ Rplain self allow s' (snd (do_del (validating_policy allow) k d)) /\ grows s s'.
Proof.
  intros [H Hp]. pose proof Hp as (o & Ho & Hc & Ha). apply plain_class_inv in Hc as [Hc Hs].
  unfold delitem. rewrite (bind_load _ _ _ _ Ho).
  rewrite del_stack_plain by done. unfold del_endpoint. rewrite plain_no_fixed by done.
  unfold has_storage in Hs. rewrite Hs.
  destruct (storage_of_spec _ _ _ H) as (l & s' & E & Hl & _).
  rewrite (bind_Ret _ _ _ _ _ E).
  destruct (storage_of_holds _ _ _ _ _ H E) as (H1 & H2 & H3).
  assert (ND : NoDup (dkeys d)) by (destruct H as (? & _ & _ & ? & _); done).
  assert (HP1 : plain_node self allow s') by eauto using storage_of_plain.
  assert (HG : grows s s') by eauto using storage_of_grows.
  unfold do_del. unfold dict_del. simpl. rewrite hashable_u. destruct (hashable k); simpl.
  - rewrite (bind_read_dict _ _ _ _ Hl). rewrite held_spec.
    destruct (dget k d) as [v|] eqn:Eg.
    + rewrite bool_decide_eq_true_2 by (apply dget_is_Some; eauto).
      eexists. split; [reflexivity|]. simpl. rewrite remove_spec by done. split; [|done].
      split; [|done]. eapply holds_write; [done|by apply NoDup_ddel|done].
    + rewrite bool_decide_eq_false_2 by (by apply dget_None).
      eexists. split; [reflexivity|]. simpl. done.
  - eexists. split; [reflexivity|]. done.
Qed.

(** modifications of name and parent keep the relation *)
Lemma Rplain_modify self allow s d x f :
  (forall o, o_cls (f o) = o_cls o) -> (forall o, o_allow (f o) = o_allow o) ->
  (forall o, o_storage (f o) = o_storage o) ->
  forall o, nodes s !! x = Some o ->
  Rplain self allow s d -> Rplain self allow (set_nodes <[x := f o]> s) d.
Proof.
  intros Hc Ha Hs o Ho [(o1 & Ho1 & Hb1 & ND & Hd) (o2 & Ho2 & Hp2 & Ha2)].
  rewrite Ho1 in Ho2. injection Ho2 as <-.
  destruct (decide (x = self)) as [->|Hne].
  - rewrite Ho1 in Ho. injection Ho as <-.
    split; exists (f o1); simpl; rewrite lookup_insert, ?Hc, ?Ha, ?Hs; done.
  - split; exists o1; simpl; rewrite lookup_insert_ne by done; done.
Qed.
Lemma grows_modify x f s : grows s (set_nodes <[x := f]> s).
Proof. unfold grows. simpl. set_solver. Qed.

Lemma set_endpoint_plain self allow s d k v all :
  Rplain self allow s d -> has_storage all = true -> hasc FixedChildren all = false ->
  exists s', set_endpoint all self k v s = (if hashable k then Ret tt else Exc TypeError, s')
    /\ Rplain self allow s' (if hashable k then put k v d else d) /\ grows s s'.
Proof.
  intros [H Hp] Hs Hf. unfold set_endpoint. rewrite Hf. unfold has_storage in Hs. rewrite Hs.
  destruct (storage_of_spec _ _ _ H) as (l & s' & E & Hl & _).
  rewrite (bind_Ret _ _ _ _ _ E).
  destruct (storage_of_holds _ _ _ _ _ H E) as (H1 & H2 & H3).
  assert (ND : NoDup (dkeys d)) by (destruct H as (? & _ & _ & ? & _); done).
  assert (HP1 : plain_node self allow s') by eauto using storage_of_plain.
  assert (HG : grows s s') by eauto using storage_of_grows.
  unfold dict_set. destruct (hashable k).
  - rewrite (bind_read_dict _ _ _ _ Hl).
    eexists. split; [reflexivity|]. simpl. rewrite put_spec by done. split; [|done].
    split; [|done]. eapply holds_write; [done|by apply NoDup_dset|done].
  - eexists. split; [reflexivity|]. done.
Qed.

Lemma lookup_grows s s' x o : grows s s' -> nodes s !! x = Some o -> exists o', nodes s' !! x = Some o'.
Proof.
  intros H1 H2. assert (is_Some (nodes s' !! x)) as [? ?]; [|eauto].
  apply elem_of_dom. apply H1. apply elem_of_dom. eauto.
Qed.

Definition validate_exc (allow : bool) (v : val) : option exc :=
  if negb allow && is_class v then Some (ValueError "It isn't allowed to use classes as values.")
  else if negb allow && negb (is_node v) then Some (ValueError "Non-node childs are not allowed.")
  else None.

Lemma set_stack_plain all bs self allow k v :
  has_storage all = true -> hasc FixedChildren all = false ->
  forall s d o,
  forallb plain_beh bs = true -> Rplain self allow s d -> valid_val s v ->
  nodes s !! self = Some o ->
  exists s', set_stack all bs self k v s =
     (match (if hasc NodeChildValidate bs then validate_exc (o_allow o) v else None) with
      | Some e => Exc e
      | None => if hashable k then Ret tt else Exc TypeError end, s')
    /\ Rplain self allow s'
         (match (if hasc NodeChildValidate bs then validate_exc (o_allow o) v else None) with
          | Some e => d
          | None => if hashable k then put k v d else d end) /\ grows s s'.
Proof.
  intros Ha Hf. induction bs as [|b bs IH]; intros s d o Hb HR Hv Ho; simpl in *.
  - by apply set_endpoint_plain.
  - apply andb_prop in Hb as [Hb1 Hb2].
    assert (Hpass : set_stage b (set_stack all bs) self k v s = set_stack all bs self k v s ->
       b <> NodeChildValidate ->
       exists s', set_stage b (set_stack all bs) self k v s =
       (match (if hasc NodeChildValidate (b :: bs) then validate_exc (o_allow o) v else None) with
      | Some e => Exc e
      | None => if hashable k then Ret tt else Exc TypeError end, s')
    /\ Rplain self allow s'
         (match (if hasc NodeChildValidate (b :: bs) then validate_exc (o_allow o) v else None) with
          | Some e => d
          | None => if hashable k then put k v d else d end) /\ grows s s').
    { intros -> Hne. destruct (IH s d o Hb2 HR Hv Ho) as (s' & E & HR' & G).
      exists s'. rewrite E. unfold hasc in *.
      rewrite (bool_decide_ext (NodeChildValidate ∈ b :: bs) (NodeChildValidate ∈ bs));
        [done|]. set_solver. }
    destruct b; try discriminate Hb1; try (apply Hpass; done); clear Hpass.
    + (* Adopt *)
      assert (Hh : hasc NodeChildValidate (Adopt :: bs) = hasc NodeChildValidate bs).
      { apply bool_decide_ext. set_solver. }
      rewrite Hh. destruct v; try (apply IH; done). simpl in Hv.
      destruct Hv as [oc Hoc]. simpl. rewrite (bind_load _ _ _ _ Hoc).
      rewrite (bind_modify _ _ _ _ _ Hoc).
      erewrite bind_modify; [|simpl; apply lookup_insert].
      set (s1 := set_nodes _ (set_nodes _ s)).
      assert (HR1 : Rplain self allow s1 d).
      { unfold s1. eapply Rplain_modify with (f := with_parent (Some self)); [done..|simpl; by rewrite lookup_insert|].
        eapply Rplain_modify with (f := with_name k); done. }
      assert (G1 : grows s s1).
      { unfold s1. eapply grows_trans; apply grows_modify. }
      destruct (lookup_grows _ _ _ _ G1 Ho) as [o1 Ho1].
      assert (Hal : o_allow o1 = o_allow o).
      { unfold s1 in Ho1. simpl in Ho1. rewrite insert_insert in Ho1.
        destruct (decide (o0 = self)) as [->|Hne].
        - rewrite lookup_insert in Ho1. injection Ho1 as <-. simpl. congruence.
        - rewrite lookup_insert_ne in Ho1 by done. congruence. }
      destruct (IH s1 d o1 Hb2 HR1) as (s2 & E2 & HR2 & G2); [|done|].
      { simpl. unfold s1. simpl. rewrite lookup_insert. eauto. }
      rewrite Hal in *.
      match type of E2 with _ = (?r, _) => destruct r as [[]|e] eqn:Er end.
      * rewrite (try_catch_Ret _ _ _ _ _ _ E2). exists s2.
        split; [done|]. split; [done|]. by eapply grows_trans.
      * rewrite (try_catch_Exc _ _ _ _ _ _ E2).
        destruct (adopt_catches e).
        -- assert (exists o2, nodes s2 !! o0 = Some o2) as [o2 Ho2].
           { apply lookup_grows with (s := s1) (o := with_parent (Some self) (with_name k oc)); [done|].
             unfold s1. simpl. by rewrite lookup_insert. }
           rewrite (bind_modify _ _ _ _ _ Ho2).
           erewrite bind_modify; [|simpl; apply lookup_insert].
           eexists. split; [reflexivity|].
           split; [|repeat (eapply grows_trans; [eassumption|]); eapply grows_trans; apply grows_modify].
           eapply Rplain_modify with (f := with_parent (o_parent oc)); [done..|simpl; by rewrite lookup_insert|].
           eapply Rplain_modify with (f := with_name (o_name oc)); done.
        -- exists s2. split; [done|]. split; [done|]. by eapply grows_trans.
    + (* NodeChildValidate *)
      assert (Hh : hasc NodeChildValidate (NodeChildValidate :: bs) = true).
      { apply bool_decide_eq_true. left. }
      rewrite Hh. simpl. rewrite (bind_load _ _ _ _ Ho). unfold validate_exc.
      destruct (negb (o_allow o) && is_class v) eqn:E1.
      { exists s. split; [done|]. split; [done|apply grows_refl]. }
      destruct (negb (o_allow o) && negb (is_node v)) eqn:E2.
      { exists s. split; [done|]. split; [done|apply grows_refl]. }
      destruct (IH s d o Hb2 HR Hv Ho) as (s' & E & HR' & G). exists s'.
      unfold validate_exc in *. rewrite E1, E2 in *.
      destruct (hasc NodeChildValidate bs); done.
Qed.

Lemma plain_set self allow s d k v : Rplain self allow s d -> valid_val s v ->
  exists s', setitem self k v s =
    (match fst (do_set (validating_policy allow) k v d) with None => Ret tt | Some e => Exc e end, s')
    /\ Rplain self allow s' (snd (do_set (validating_policy allow) k v d)) /\ grows s s'.
Proof.
  intros HR Hv. pose proof HR as [H Hp]. pose proof Hp as (o & Ho & Hc & Ha).
  apply plain_class_inv in Hc as [Hc Hs].
  unfold setitem. rewrite (bind_load _ _ _ _ Ho).
  destruct (set_stack_plain (c_behs (o_cls o)) (c_behs (o_cls o)) self allow k v Hs
              (plain_no_fixed _ Hc) s d o Hc HR Hv Ho) as (s' & E & HR' & G).
  exists s'. rewrite E.
  assert (Heq : p_set (validating_policy allow) k v =
     match (if hasc NodeChildValidate (c_behs (o_cls o)) then validate_exc (o_allow o) v else None) with
      | Some e => Some e
      | None => if hashable k then None else Some TypeError end).
  { rewrite <- Ha. unfold validate_exc. simpl. rewrite hashable_u.
    destruct (hasc NodeChildValidate _), (o_allow o), v; simpl; done. }
  unfold do_set. rewrite Heq.
  destruct (if hasc NodeChildValidate _ then _ else None) as [e|]; simpl in *; [done|].
  destruct (hashable k); simpl in *; done.
Qed.

Theorem plain_calls_sim self allow l s d :
  Rplain self allow s d -> Forall (fun c => Forall (valid_val s) (call_values c)) l ->
  exists s', run_calls self l s = (fst (calls_spec (validating_policy allow) l d), s')
    /\ Rplain self allow s' (snd (calls_spec (validating_policy allow) l d)) /\ grows s s'.
Proof.
  apply run_calls_sim.
  - intros s' d' [(? & _ & _ & ? & _) _]. done.
  - apply plain_iter.
  - intros. by apply plain_get.
  - intros. by apply plain_set.
  - intros. by apply plain_del.
Qed.
