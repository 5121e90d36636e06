(** Round trip of values through JSON. *)
From Coq Require Import Ascii.
From Verif Require Import Py Odict OdictFacts Aliaser Heap Model MonadFacts SpecMapping Observe SpecTree Serializer SpecSerial SerialValues.

(** Enough fuel for a value. *)
Fixpoint vheight (v : val) : nat :=
  match v with
  | VList l => S (list_max (map vheight l))
  | VDict d => S (list_max (map (fun e => vheight (snd e)) d))
  | _ => 3
  end.
Lemma list_max_in x l : x ∈ l -> x <= list_max l.
Proof. induction l as [|y l IH]; [by intros ?%elem_of_nil|]. cbn [list_max fold_right]. fold (list_max l). intros [->|H]%elem_of_cons; [lia|]. specialize (IH H). lia. Qed.
Lemma vheight_list l f : vheight (VList l) <= S f -> Forall (fun v => vheight v <= f) l.
Proof. cbn [vheight]. intros H. apply Forall_forall. intros v Hv. assert (vheight v <= list_max (map vheight l)); [|lia]. apply list_max_in, elem_of_list_fmap. eauto. Qed.
Lemma vheight_dict d f : vheight (VDict d) <= S f -> Forall (fun e => vheight (snd e) <= f) d.
Proof.
  cbn [vheight]. intros H. apply Forall_forall. intros e He. assert (vheight (snd e) <= list_max (map (fun e => vheight (snd e)) d)); [|lia].
  apply list_max_in, elem_of_list_fmap. eauto.
Qed.

Lemma native_list l : native (VList l) -> Forall native l.
Proof. by inversion 1. Qed.
Lemma native_dict d : native (VDict d) -> NoDup (map fst d) /\ Forall (fun e => (exists t, fst e = KStr t) /\ native (snd e)) d.
Proof. by inversion 1. Qed.
Lemma plain_list imp l : plain imp (VList l) -> Forall (plain imp) l.
Proof. by inversion 1. Qed.
Lemma plain_dict imp d : plain imp (VDict d) -> native (VDict d) /\ Forall (fun e => fst e <> KStr "__ob__" /\ fst e <> KStr "__node__") d.
Proof. by inversion 1. Qed.
Lemma plain_str imp t : plain imp (VStr t) -> t <> "<UNSET>" /\ forall r, t <> ("<UUID>:" ++ r)%string.
Proof. by inversion 1. Qed.
Lemma closed_list l : closed (VList l) -> Forall closed l.
Proof. by inversion 1. Qed.
Lemma closed_dict d : closed (VDict d) -> Forall (fun e => closed (snd e)) d.
Proof. by inversion 1. Qed.

Section dumps.
  Context (ev : env) (simple incl : bool).
  Lemma dumps_list_ok (d : val -> M json) (J : val -> json) l s : Forall (fun v => d v s = (Ret (J v), s)) l -> dumps_list d l s = (Ret (map J l), s).
  Proof.
    induction 1 as [|v l H _ IH]; simpl; [done|]. by rewrite (bind_Ret _ _ _ _ _ H), (bind_Ret _ _ _ _ _ IH).
  Qed.
  Lemma dumps_dict_ok (d : val -> M json) (J : val -> json) l s :
    Forall (fun e : key * val => (exists t, fst e = KStr t) /\ d (snd e) s = (Ret (J (snd e)), s)) l ->
    dumps_dict d l s = (Ret (map (fun e : key * val => (match fst e with KStr t => t | _ => "" end, J (snd e))) l), s).
  Proof.
    induction 1 as [|[k v] l [[t Ht] H] _ IH]; simpl; [done|]. simpl in Ht, H. subst k. simpl.
    by rewrite (bind_Ret _ _ _ _ _ H), (bind_Ret _ _ _ _ _ IH).
  Qed.
  Lemma dumps_native v s : native v -> forall f, vheight v <= f -> dumps f ev simple incl v s = (Ret (json_of simple v), s).
  Proof.
    induction v using val_nested; intros Hn f Hf; (destruct f as [|f]; [simpl in Hf; lia|]); try (by inversion Hn); try reflexivity.
    - apply native_list in Hn. cbn [dumps json_of]. erewrite bind_Ret; [|apply (dumps_list_ok _ (json_of simple))]; [done|].
      apply vheight_list in Hf. rewrite Forall_forall in *. intros v Hv. apply H; auto.
    - apply native_dict in Hn as [HN HF]. cbn [dumps json_of]. erewrite bind_Ret; [|apply (dumps_dict_ok _ (json_of simple))]; [done|].
      apply vheight_dict in Hf. rewrite Forall_forall in *. intros e He. destruct (HF _ He). split; [done|]. apply H; auto.
  Qed.
  Lemma dumps_plain imp v s : plain imp v -> forall f, vheight v <= f -> dumps f ev simple incl v s = (Ret (json_of simple v), s).
  Proof.
    induction v using val_nested; intros Hn f Hf; try (by inversion Hn).
    9: { apply plain_dict in Hn as [Hn _]. by apply dumps_native. }
    all: destruct f as [|f]; [simpl in Hf; lia|].
    1,3,4,5: reflexivity.
    - simpl in Hf. destruct f as [|f]; [lia|]. reflexivity.
    - simpl in Hf. destruct f as [|f]; [lia|]. reflexivity.
    - simpl in Hf. do 2 (destruct f as [|f]; [lia|]). by destruct simple.
    - apply plain_list in Hn. cbn [dumps json_of]. erewrite bind_Ret; [|apply (dumps_list_ok _ (json_of simple))]; [done|].
      apply vheight_list in Hf. rewrite Forall_forall in *. intros v Hv. apply H; auto.
  Qed.
End dumps.

(** * Reading *)
Lemma json_keys simple d : Forall (fun e : key * val => exists t, fst e = KStr t) d -> NoDup (map fst d) ->
  NoDup (keys_of (map (fun e : key * val => (match fst e with KStr t => t | _ => "" end, json_of simple (snd e))) d)).
Proof.
  intros Hs Hn. rewrite map_map. simpl. induction d as [|[k v] d IH]; simpl; [constructor|].
  apply Forall_cons in Hs as [[t Ht] Hs]. simpl in Ht. subst k. apply NoDup_cons in Hn as [H1 H2]. constructor; [|by apply IH].
  intros ([k' v'] & E & Hin)%elem_of_list_fmap. rewrite Forall_forall in Hs. destruct (Hs _ Hin) as [t' Ht']. simpl in *. subst. apply H1.
  apply elem_of_list_fmap. by exists (KStr t', v').
Qed.
Lemma loads_native simple v : native v -> loads (json_of simple v) = json_of simple v.
Proof.
  induction v using val_nested; intros Hn; try (by inversion Hn); try reflexivity.
  - apply native_list in Hn. simpl. f_equal. rewrite map_map. apply map_ext_in. intros v Hv%elem_of_list_In. rewrite Forall_forall in *. apply H; auto.
  - apply native_dict in Hn as [HN HF]. cbn [json_of]. rewrite loads_obj; [|apply json_keys; [eapply Forall_impl; [done|]; by intros e [? _]|done]].
    f_equal. rewrite map_map. apply map_ext_in. intros e He%elem_of_list_In. simpl. f_equal. rewrite Forall_forall in *. apply H; [done|]. by apply HF.
Qed.
Lemma loads_plain imp simple v : plain imp v -> loads (json_of simple v) = json_of simple v.
Proof.
  induction v using val_nested; intros Hn; try (by inversion Hn); try reflexivity.
  - by destruct simple.
  - apply plain_list in Hn. simpl. f_equal. rewrite map_map. apply map_ext_in. intros v Hv%elem_of_list_In. rewrite Forall_forall in *. apply H; auto.
  - apply plain_dict in Hn as [Hn _]. by apply loads_native.
Qed.
Lemma raw_native simple v : native v -> raw (json_of simple v) = v.
Proof.
  induction v using val_nested; intros Hn; try (by inversion Hn); try reflexivity.
  - apply native_list in Hn. simpl. f_equal. rewrite map_map. rewrite <- (map_id l) at 2. apply map_ext_in. intros v Hv%elem_of_list_In. rewrite Forall_forall in *. apply H; auto.
  - apply native_dict in Hn as [HN HF]. simpl. f_equal. rewrite map_map. rewrite <- (map_id d) at 2. apply map_ext_in. intros [k v] Hv%elem_of_list_In. rewrite Forall_forall in *. simpl.
    destruct (HF _ Hv) as [[t Ht] Hk]. simpl in *. subst k. f_equal. by apply (H (KStr t, v)).
Qed.
Lemma decode_list_ok (d : json -> M val) (J : val -> json) l s : Forall (fun v => d (J v) s = (Ret v, s)) l -> decode_list d (map J l) s = (Ret l, s).
Proof.
  induction 1 as [|v l H _ IH]; simpl; [done|]. by rewrite (bind_Ret _ _ _ _ _ H), (bind_Ret _ _ _ _ _ IH).
Qed.
Lemma member_absent (d : list (key * val)) (J : val -> json) n : Forall (fun e : key * val => exists t, fst e = KStr t) d ->
  Forall (fun e : key * val => fst e <> KStr n) d -> member n (map (fun e : key * val => (match fst e with KStr t => t | _ => "" end, J (snd e))) d) = None.
Proof.
  intros Hs Hn. apply member_None. rewrite map_map. simpl. intros ([k v] & E & Hin)%elem_of_list_fmap.
  rewrite Forall_forall in *. destruct (Hs _ Hin) as [t Ht]. apply (Hn _ Hin). simpl in *. subst. done.
Qed.
Lemma decode_plain ev v t : plain (importable ev t) v -> forall f root, vheight v <= f -> decode f ev root (json_of false v) t = (Ret v, t).
Proof.
  induction v using val_nested; intros Hn f root Hf; try (by inversion Hn); (destruct f as [|f]; [simpl in Hf; lia|]).
  1,2,3,4: reflexivity.
  - apply plain_str in Hn as [H0 H1]. cbn [json_of decode]. rewrite (proj2 (String.eqb_neq _ _)) by done.
    destruct (startswith "<UUID>:" t0) eqn:E; [|done]. apply prefix_app in E as [r ->]. by destruct (H1 r).
  - inversion Hn; subst. cbn [json_of decode].
    change (("<UUID>:" ++ uuid_str u)%string =? "<UNSET>")%string with false. cbv iota.
    assert (startswith "<UUID>:" ("<UUID>:" ++ uuid_str u) = true) as -> by (apply prefix_app; eauto).
    rewrite str_drop_uuid, uuid_round, N.mod_small by done. done.
  - inversion Hn; subst. cbn [json_of decode member String.eqb Ascii.eqb]. simpl. unfold bind.
    assert (bool_decide (is_Some (classes t !! n)) || v_others ev n = true) as ->; [|done].
    destruct H0 as [H0|H0]; [by rewrite bool_decide_eq_true_2|]. rewrite H0. apply orb_true_r.
  - apply plain_list in Hn. cbn [json_of decode]. erewrite bind_Ret; [|apply (decode_list_ok _ (json_of false))]; [done|].
    apply vheight_list in Hf. rewrite Forall_forall in *. intros v Hv. apply H; auto.
  - apply plain_dict in Hn as [H1 H2]. pose proof (native_dict _ H1) as [HN HF].
    assert (Hs : Forall (fun e : key * val => exists t, fst e = KStr t) d) by (eapply Forall_impl; [exact HF|]; by intros e [? _]).
    cbn [json_of decode]. rewrite !member_absent; [|done|eapply Forall_impl; [exact H2|]; by intros e [? ?]|done|eapply Forall_impl; [exact H2|]; by intros e [? ?]].
    pose proof (raw_native false _ H1) as E. cbn [json_of] in E. by rewrite E.
Qed.
Lemma values_survive ev v s t : plain (importable ev t) v -> exists n, forall f, n <= f -> forall incl root, exists j,
  serialize f ev false incl v s = (Ret j, s) /\ deserialize f ev j root t = (Ret v, t).
Proof.
  intros H. exists (vheight v). intros f Hf incl root. exists (json_of false v). split; [by eapply dumps_plain|].
  unfold deserialize. rewrite (loads_plain _ _ _ H). by apply decode_plain.
Qed.

(** * What does not survive *)
Lemma dumps_list_inv (d : val -> M json) l : forall s js s', dumps_list d l s = (Ret js, s') ->
  Forall2 (fun v j => exists s1 s2, d v s1 = (Ret j, s2)) l js.
Proof.
  induction l as [|v l IH]; intros s js s' E; simpl in E; [injection E as <- <-; constructor|].
  unfold bind in E. destruct (d v s) as [[j|] s1] eqn:E1; [|done].
  destruct (dumps_list d l s1) as [[js'|] s2] eqn:E2; [|done]. injection E as <- <-. constructor; eauto.
Qed.
Lemma dumps_dict_inv (d : val -> M json) l : forall s js s', dumps_dict d l s = (Ret js, s') ->
  Forall2 (fun (e : key * val) (m : string * json) => json_key (fst e) = Some (fst m) /\ exists s1 s2, d (snd e) s1 = (Ret (snd m), s2)) l js.
Proof.
  induction l as [|[k v] l IH]; intros s js s' E; simpl in E; [injection E as <- <-; constructor|].
  destruct (json_key k) as [n|] eqn:Ek; [|done].
  unfold bind in E. destruct (d v s) as [[j|] s1] eqn:E1; [|done].
  destruct (dumps_dict d l s1) as [[js'|] s2] eqn:E2; [|done]. injection E as <- <-. constructor; eauto.
Qed.
Lemma native_back ev incl v : closed v -> forall f s j s', dumps f ev false incl v s = (Ret j, s') -> raw (loads j) = v -> native v.
Proof.
  induction v using val_nested; intros Hc f s j s' E R; try (by inversion Hc); try (by constructor); (destruct f as [|f]; [done|]).
  - destruct f as [|f]; [done|]. cbn in E. injection E as <- _. done.
  - destruct f as [|f]; [done|]. cbn in E. injection E as <- _. done.
  - destruct f as [|f]; [done|]. cbn in E. destruct f as [|f]; [done|]. cbn in E. injection E as <- _. done.
  - cbn [dumps] in E. unfold bind in E. destruct (dumps_list _ _ _) as [[js|] s1] eqn:E1; [|done]. injection E as <- _.
    apply dumps_list_inv in E1. cbn in R. injection R as R. constructor. apply closed_list in Hc as H1.
    clear -H E1 R H1. revert l js R H H1 E1. 
    assert (G : forall l js, map raw (map loads js) = l -> Forall (fun v => closed v -> forall f s j s', dumps f ev false incl v s = (Ret j, s') -> raw (loads j) = v -> native v) l ->
      Forall closed l -> Forall2 (fun v j => exists s1 s2, dumps f ev false incl v s1 = (Ret j, s2)) l js -> Forall native l).
    { induction l as [|v l IH]; intros js R H Hc E; [constructor|]. inversion E as [|? j ? js' (s1 & s2 & Hd) E']; subst. simpl in *.
      injection R as R1 R2. apply Forall_cons in H as [H1 H2]. apply Forall_cons in Hc as [Hc1 Hc2]. constructor; [by eapply H1|by eapply IH]. }
    intros l js R H H1 E1. by eapply G.
  - cbn [dumps] in E. unfold bind in E. destruct (dumps_dict _ _ _) as [[js|] s1] eqn:E1; [|done]. injection E as <- _.
    apply dumps_dict_inv in E1. cbn [loads raw] in R. injection R as R. apply closed_dict in Hc as H1.
    set (g := fun kj : string * json => (fst kj, loads (snd kj))) in *.
    assert (ND : NoDup (keys_of (map g js))).
    { apply (fold_members_full (map g js) []); [constructor|]. apply (f_equal length) in R. rewrite map_length in R. rewrite R.
      apply Forall2_length in E1. by rewrite map_length. }
    rewrite fold_members_nodup in R by done. simpl in R. rewrite map_map in R. simpl in R.
    assert (K : map fst d = map KStr (keys_of (map g js))). { rewrite <- R, !map_map. done. }
    constructor.
    + rewrite K. apply NoDup_fmap_2; [|done]. intros ? ? [=]. done.
    + clear K ND Hc. revert js R E1 H H1. induction d as [|[k v] d IH]; intros js R E1 H Hc; [constructor|].
      inversion E1 as [|? [n j] ? js' [Hk (s2 & s3 & Hd)] E']; subst. simpl in R. injection R as R1 R2 R3. simpl in *.
      apply Forall_cons in H as [H1 H2]. apply Forall_cons in Hc as [Hc1 Hc2]. constructor; [|by eapply IH]. simpl.
      split; [by exists n|]. by eapply H1.
Qed.
Lemma decode_closed ev root v : closed v -> forall f j s s', decode f ev root j s = (Ret v, s') -> s' = s.
Proof.
  induction v using val_nested; intros Hc f j s s' E; try (by inversion Hc); (destruct f as [|f]; [done|]).
  all: destruct j as [|b'|z'|t0|js|ms]; cbn [decode] in E; try (by injection E).
  all: try (destruct (String.eqb _ _); [by injection E|]; destruct (startswith _ _); [destruct (uuid_parse _); by injection E|by injection E]).
  all: try (unfold bind in E; destruct (decode_list _ _ _) as [[vs|] s1] eqn:E1; [|done]; discriminate E).
  all: try (destruct (member "__ob__" ms) as [n'|]; [unfold bind, resolve in E; destruct n'; cbn in E; try discriminate E;
      destruct (bool_decide _ || _); [by injection E|discriminate E]|]).
  all: try (destruct (member "__node__" ms) as [data|]; [|injection E; congruence];
      unfold bind in E; destruct (node_factory _ _ _ _) as [[x0|] s1]; [|discriminate E]; destruct (load x0 s1) as [[o|] s2]; [|discriminate E];
      destruct (iterM _ _ _) as [[[]|] s3]; [|discriminate E]; discriminate E).
  unfold bind in E. destruct (decode_list _ _ _) as [[vs|] s1] eqn:E1; [|done]. injection E as -> <-. apply closed_list in Hc as H1.
  clear Hc. revert js s E1. induction l as [|v l IH]; intros js s E1.
  - destruct js; simpl in E1; [by injection E1|]. unfold bind in E1. destruct (decode _ _ _ _ _) as [[]]; [|done]. destruct (decode_list _ _ _) as [[]]; done.
  - destruct js as [|j js]; [done|]. simpl in E1. unfold bind in E1. destruct (decode f ev root j s) as [[v'|] s2] eqn:E2; [|done].
    destruct (decode_list _ js s2) as [[vs|] s3] eqn:E3; [|done]. injection E1 as -> -> ->.
    apply Forall_cons in H as [Hv Hl]. apply Forall_cons in H1 as [Hv1 Hl1]. apply Hv in E2; [|done]. subst s2. by eapply IH.
Qed.
Lemma plain_back ev incl root v : closed v -> forall f g s j s' u u', dumps f ev false incl v s = (Ret j, s') ->
  decode g ev root (loads j) u = (Ret v, u') -> plain (importable ev u) v.
Proof.
  induction v using val_nested; intros Hc f g s j s' st1 st2 E D; try (by inversion Hc); try (by constructor); (destruct f as [|f]; [done|]).
  - cbn in E. injection E as <- _. destruct g as [|g]; [done|]. cbn in D.
    destruct (String.eqb_spec t "<UNSET>") as [->|Hn]; [done|]. destruct (startswith "<UUID>:" t) eqn:Ep; [by destruct (uuid_parse _)|].
    constructor; [done|]. intros r ->. assert (startswith "<UUID>:" ("<UUID>:" ++ r) = true) by (apply prefix_app; eauto). congruence.
  - destruct f as [|f]; [done|]. cbn [dumps default_ob] in E. unfold bind, ret in E. cbn [dumps] in E. injection E as <- _.
    destruct g as [|g]; [done|]. cbn [loads decode] in D.
    change (("<UUID>:" ++ uuid_str u)%string =? "<UNSET>")%string with false in D. cbv iota in D.
    assert (startswith "<UUID>:" ("<UUID>:" ++ uuid_str u) = true) as Hp by (apply prefix_app; eauto). rewrite Hp, str_drop_uuid, uuid_round in D. injection D as D _.
    constructor. rewrite <- D. apply N.mod_lt. done.
  - destruct f as [|f]; [done|]. cbn in E. destruct f as [|f]; [done|]. cbn in E. injection E as <- _. destruct g as [|g]; [done|].
    cbn in D. unfold bind in D. destruct (bool_decide _ || _) eqn:Hi; [|done]. constructor. apply orb_true_iff in Hi as [Hi|Hi]; [left|by right].
    by apply bool_decide_eq_true in Hi.
  - cbn [dumps] in E. unfold bind in E. destruct (dumps_list _ _ _) as [[js|] s1] eqn:E1; [|done]. injection E as <- _.
    apply dumps_list_inv in E1. destruct g as [|g]; [done|]. cbn [loads decode] in D. unfold bind in D.
    destruct (decode_list _ _ _) as [[vs|] s2] eqn:E2; [|done]. injection D as -> <-. apply closed_list in Hc. constructor.
    revert js E1 E2 H Hc. clear. induction l as [|v l IH]; intros js E1 E2 H Hc; [constructor|].
    inversion E1 as [|? j ? js' (s3 & s4 & Hd) E']; subst. simpl in E2. unfold bind in E2. destruct (decode g ev root (loads j) st1) as [[v'|] s5] eqn:E3; [|done].
    destruct (decode_list _ _ s5) as [[vs|] s6] eqn:E4; [|done]. injection E2 as -> -> ->. apply Forall_cons in H as [H1 H2]. apply Forall_cons in Hc as [Hc1 Hc2].
    constructor; [by eapply H1|]. apply decode_closed in E3; [|done]. subst s5. by eapply IH.
  - pose proof E as E0. cbn [dumps] in E. unfold bind in E. destruct (dumps_dict _ _ _) as [[js|] s1] eqn:E1; [|done]. injection E as <- _.
    destruct g as [|g]; [done|]. cbn [decode loads] in D. set (ms := fold_left _ _ _) in D.
    destruct (member "__ob__" ms) as [n|] eqn:Eo.
    { unfold bind in D. destruct (resolve _ _ _) as [[]]; [|done]. discriminate D. }
    destruct (member "__node__" ms) as [n|] eqn:En.
    { unfold bind in D. destruct (node_factory _ _ _ _) as [[x0|] s2]; [|discriminate D]. destruct (load x0 s2) as [[o|] s3]; [|discriminate D].
      destruct (iterM _ _ _) as [[[]|] s4]; discriminate D. }
    assert (R : raw (JObj ms) = VDict d) by (unfold ret in D; congruence).
    constructor; [exact (native_back ev incl (VDict d) Hc _ _ _ _ E0 R)|]. cbn [raw] in R. injection R as R.
    apply member_None in Eo. apply member_None in En. clearbody ms. subst d. clear - Eo En.
    apply Forall_forall. intros e ([k jj] & -> & Hin)%elem_of_list_fmap. simpl. split; intros [= ->]; [apply Eo|apply En]; apply elem_of_list_fmap; eexists (_, jj); split; try exact Hin; reflexivity.
Qed.
