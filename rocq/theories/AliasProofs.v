(** Aliasers and aliased nodes. *)
From Verif Require Import Py Odict OdictFacts Aliaser Heap Model Classes MonadFacts StrFacts WF
  SpecMapping MappingProofs StorageProofs EndpointProofs Observe ObserveFacts SpecAlias.

(** * Aliasers *)
Section aliaser_ind.
  Context (P : aliaser -> Prop).
  Context (Hd : forall d strict, P (ADict d strict)) (Hp : forall p, P (APrefix p)) (Hs : forall p, P (ASuffix p))
          (Hc : forall l, Forall P l -> P (AChain l)).
  Fixpoint aliaser_ind' (a : aliaser) : P a :=
    match a with
    | ADict d strict => Hd d strict
    | APrefix p => Hp p
    | ASuffix p => Hs p
    | AChain l => Hc l ((fix go l : Forall P l := match l with
                         | [] => Forall_nil_2 _
                         | a :: r => Forall_cons_2 _ _ _ (aliaser_ind' a) (go r) end) l)
    end.
End aliaser_ind.

Definition alias_chain (l : list aliaser) (k : key) : res key := alias (AChain l) k.
Definition unalias_chain (l : list aliaser) (k : key) : res key := unalias (AChain l) k.
Lemma alias_chain_cons a l k : alias_chain (a :: l) k = res_bind (alias a k) (alias_chain l).
Proof. done. Qed.
Lemma unalias_chain_cons a l k : unalias_chain (a :: l) k = res_bind (unalias_chain l k) (unalias a).
Proof. done. Qed.

Lemma unalias_chain_nil k : unalias_chain [] k = Ret k.
Proof. done. Qed.

Lemma rev_lookup_in k d x : rev_lookup k d = Some x -> (x, k) ∈ d.
Proof.
  induction d as [|[a b] d IH]; simpl; [done|]. case_decide; [intros [= <-]; subst; left|intros H1; right; auto].
Qed.
Lemma rev_lookup_None k d : rev_lookup k d = None <-> k ∉ map snd d.
Proof.
  induction d as [|[a b] d IH]; simpl; [set_solver|]. case_decide; [set_solver|]. rewrite IH. set_solver.
Qed.
Lemma rev_lookup_NoDup k d x : NoDup (map snd d) -> (x, k) ∈ d -> rev_lookup k d = Some x.
Proof.
  induction d as [|[a b] d IH]; simpl; [by intros _ ?%elem_of_nil|].
  intros [H1 H2]%NoDup_cons [Hin|Hin]%elem_of_cons.
  - injection Hin as <- <-. by rewrite decide_True.
  - rewrite decide_False; [auto|]. intros ->. apply H1. apply elem_of_list_fmap. by exists (x, k).
Qed.
Lemma dget_in {A} (k : key) (d : list (key * A)) v : NoDup (map fst d) -> dget k d = Some v <-> (k, v) ∈ d.
Proof.
  intros ND. split; [apply dget_Some_in|]. induction d as [|[a b] d IH]; simpl; [by intros ?%elem_of_nil|].
  simpl in ND. apply NoDup_cons in ND as [H1 H2]. intros [Hin|Hin]%elem_of_cons.
  - injection Hin as <- <-. by rewrite decide_True.
  - rewrite decide_False; [auto|]. intros ->. apply H1. apply elem_of_list_fmap. by exists (a, v).
Qed.

(** Aliasers the client builds from a dictionary with distinct hashable aliases. *)
Inductive well_built : aliaser -> Prop :=
| wb_dict d strict : NoDup (map fst d) -> Forall (fun a => hashable a = true) (map fst d) -> well_built (ADict d strict)
| wb_prefix p : well_built (APrefix p)
| wb_suffix p : well_built (ASuffix p)
| wb_chain l : Forall well_built l -> well_built (AChain l).
(** Those which invert. *)
Inductive good : aliaser -> Prop :=
| good_dict d : NoDup (map fst d) -> Forall (fun a => hashable a = true) (map fst d) -> NoDup (map snd d) -> good (ADict d true)
| good_prefix p : good (APrefix p)
| good_suffix p : p <> "" -> good (ASuffix (Some p))
| good_chain l : Forall good l -> good (AChain l).

Lemma unalias_alias a : good a -> forall k x, alias a k = Ret x -> unalias a x = Ret k.
Proof.
  induction a as [d strict|p|p|l IH] using aliaser_ind'; intros G; inversion G; subst.
  - intros k x. simpl. destruct (rev_lookup k d) as [y|] eqn:E; [|done]. intros [= <-].
    apply rev_lookup_in in E.
    assert (hashable y = true) as ->.
    { rewrite Forall_forall in H2. apply H2. apply elem_of_list_fmap. by exists (y, k). }
    assert (dget y d = Some k) as -> by (by apply dget_in). done.
  - intros k x. simpl. destruct k as [t| | |]; try done. intros [= <-]. simpl.
    assert (startswith (default "" p) (default "" p ++ t) = true) as -> by (apply startswith_spec; eauto).
    by rewrite str_drop_app.
  - intros k x. simpl. destruct k as [t| | |]; try done. intros [= <-].
    assert (endswith p0 (t ++ p0) = true) as -> by (apply endswith_spec; eauto).
    assert (String.eqb p0 "" = false) as -> by (by apply String.eqb_neq).
    rewrite length_append. replace (String.length t + String.length p0 - String.length p0) with (String.length t) by lia.
    by rewrite str_take_app.
  - change (forall k x, alias_chain l k = Ret x -> unalias_chain l x = Ret k). clear G. induction l as [|a l IHl]; [by intros k x [= <-]|].
    apply Forall_cons in IH as [IH1 IH2]. apply Forall_cons in H0 as [G1 G2].
    intros k x. rewrite alias_chain_cons, unalias_chain_cons. destruct (alias a k) as [y|e] eqn:E; simpl; [|done].
    intros E2. rewrite (IHl IH2 G2 _ _ E2). simpl. by apply IH1.
Qed.
Lemma alias_unalias a : good a -> forall k x, unalias a x = Ret k -> alias a k = Ret x.
Proof.
  induction a as [d strict|p|p|l IH] using aliaser_ind'; intros G; inversion G; subst.
  - intros k x. simpl. destruct (hashable x) eqn:Hx; [|done]. destruct (dget x d) as [y|] eqn:E; [|done]. intros [= <-].
    apply dget_Some_in in E. by rewrite (rev_lookup_NoDup _ _ x).
  - intros k x. simpl. destruct x as [t| | |]; try done. destruct (startswith _ _) eqn:E; [|done].
    apply startswith_spec in E as (a & ->). rewrite str_drop_app. by intros [= <-].
  - intros k x. simpl. destruct x as [t| | |]; try done. destruct (endswith _ _) eqn:E; [|done].
    apply endswith_spec in E as (a & ->).
    assert (String.eqb p0 "" = false) as -> by (by apply String.eqb_neq).
    rewrite length_append. replace (String.length a + String.length p0 - String.length p0) with (String.length a) by lia.
    rewrite str_take_app. by intros [= <-].
  - change (forall k x, unalias_chain l x = Ret k -> alias_chain l k = Ret x). clear G. induction l as [|a l IHl]; [by intros k x [= <-]|].
    apply Forall_cons in IH as [IH1 IH2]. apply Forall_cons in H0 as [G1 G2].
    intros k x. rewrite alias_chain_cons, unalias_chain_cons. destruct (unalias_chain l x) as [y|e] eqn:E; simpl; [|done].
    intros E2. rewrite (IH1 G1 _ _ E2). simpl. by apply (IHl IH2 G2).
Qed.

(** unalias fails exactly off the image of alias *)
Lemma unalias_fails_iff a : good a -> forall x, (exists e, unalias a x = Exc e) <-> ~ exists k, alias a k = Ret x.
Proof.
  intros G x. split.
  - intros (e & E) (k & K). apply (unalias_alias a G) in K. congruence.
  - intros H. destruct (unalias a x) as [k|e] eqn:E; [|eauto]. destruct H. exists k. by apply alias_unalias.
Qed.

(** prefix and suffix chains on strings: where they map, and that the failure is KeyError *)
Inductive affix : aliaser -> (string -> string) -> Prop :=
| affix_prefix p : affix (APrefix p) (fun t => (default "" p ++ t)%string)
| affix_suffix p : p <> "" -> affix (ASuffix (Some p)) (fun t => (t ++ p)%string)
| affix_nil : affix (AChain []) (fun t => t)
| affix_cons a f l g : affix a f -> affix (AChain l) g -> affix (AChain (a :: l)) (fun t => g (f t)).

Lemma affix_alias a f : affix a f -> forall t, alias a (KStr t) = Ret (KStr (f t)).
Proof.
  induction 1 as [p|p Hp|  |a f l g H1 IH1 H2 IH2]; intros t; try done.
  change (alias (AChain (a :: l)) (KStr t)) with (alias_chain (a :: l) (KStr t)).
  rewrite alias_chain_cons, IH1. simpl. apply IH2.
Qed.
Lemma affix_unalias a f : affix a f -> forall x,
  (exists t, unalias a (KStr x) = Ret (KStr t) /\ x = f t) \/
  (exists m, unalias a (KStr x) = Exc (KeyError m)) /\ ~ exists t, x = f t.
Proof.
  induction 1 as [p|p Hp| |a f l g H1 IH1 H2 IH2]; intros x.
  - simpl. destruct (startswith _ _) eqn:E.
    + left. apply startswith_spec in E as (b & ->). rewrite str_drop_app. eauto.
    + right. split; [eauto|]. intros (t & ->). assert (startswith (default "" p) (default "" p ++ t) = true); [|congruence].
      apply startswith_spec. eauto.
  - simpl. destruct (endswith _ _) eqn:E.
    + left. apply endswith_spec in E as (b & ->). assert (String.eqb p "" = false) as -> by (by apply String.eqb_neq).
      rewrite length_append. replace (String.length b + String.length p - String.length p) with (String.length b) by lia.
      rewrite str_take_app. eauto.
    + right. split; [eauto|]. intros (t & ->). assert (endswith p (t ++ p) = true); [|congruence]. apply endswith_spec. eauto.
  - left. exists x. done.
  - change (unalias (AChain (a :: l)) (KStr x)) with (unalias_chain (a :: l) (KStr x)). rewrite unalias_chain_cons.
    unfold unalias_chain. destruct (IH2 x) as [(t & -> & ->)|[(m & ->) N]]; simpl.
    + destruct (IH1 t) as [(u & -> & ->)|[(m & ->) N]]; [left; eauto|right]. split; [eauto|].
      intros (u & Hu). apply N. exists u.
      assert (unalias (AChain l) (KStr (g t)) = Ret (KStr t)) as A.
      { destruct (IH2 (g t)) as [(t' & E & Et)|[_ N']]; [|destruct N'; eauto].
        rewrite E. do 2 f_equal.
        assert (forall u v, g u = g v -> u = v) as Hinj; [|symmetry; by apply Hinj].
        clear -H2. intros u v. remember (AChain l) as c eqn:Ec. clear Ec. revert u v.
        induction H2 as [p|p Hp| |a f l' g' H1 IH1 H2 IH2]; intros u v; try done.
        - apply append_inj_l. - apply append_inj_r. - intros Hg. by apply IH1, IH2. }
      assert (forall u v, g u = g v -> u = v) as Hinj; [|by apply Hinj].
      clear -H2. intros v w. remember (AChain l) as c eqn:Ec. clear Ec. revert v w.
      induction H2 as [p|p Hp| |a f l' g' H1 IH1 H2 IH2]; intros v w; try done.
      * apply append_inj_l. * apply append_inj_r. * intros Hg. by apply IH1, IH2.
    + right. split; [eauto|]. intros (t & ->). apply N. eauto.
Qed.

Lemma dict_strict_alias d : forall k, (exists x, alias (ADict d true) k = Ret x) <-> k ∈ map snd d.
Proof.
  intros k. simpl. destruct (rev_lookup k d) as [x|] eqn:E.
  - split; [|eauto]. intros _. apply rev_lookup_in in E. apply elem_of_list_fmap. by exists (x, k).
  - split; [intros (x & ?); done|]. intros H. by apply rev_lookup_None in E.
Qed.
(** a dict aliaser that is not strict: exactly when it inverts *)
Lemma dict_loose_inverts d : NoDup (map fst d) -> Forall (fun a => hashable a = true) (map fst d) ->
  forall k, hashable k = true ->
  exists x, alias (ADict d false) k = Ret x /\ (unalias (ADict d false) x = Ret k <-> k ∈ map snd d \/ k ∉ map fst d).
Proof.
  intros ND Hh k Hk. simpl. destruct (rev_lookup k d) as [x|] eqn:E.
  - exists x. split; [done|]. apply rev_lookup_in in E.
    assert (hashable x = true) as -> by (rewrite Forall_forall in Hh; apply Hh; apply elem_of_list_fmap; by exists (x, k)).
    assert (dget x d = Some k) as -> by (by apply dget_in).
    split; [|done]. intros _. left. apply elem_of_list_fmap. by exists (x, k).
  - exists k. split; [done|]. rewrite Hk. apply rev_lookup_None in E. destruct (dget k d) as [y|] eqn:Ed.
    + apply dget_Some_in in Ed. split; [|].
      * intros [= <-]. destruct E. apply elem_of_list_fmap. by exists (y, y).
      * intros [?|Hn]; [done|]. destruct Hn. apply elem_of_list_fmap. by exists (k, y).
    + split; [|done]. intros _. right. intros (p & Ep & Hp)%elem_of_list_fmap. destruct p as [p1 p2]. simpl in Ep. subst p1.
      apply dget_in in Hp; [congruence|done].
Qed.

(** the suffix aliaser without suffix *)
Lemma empty_suffix t p : default "" p = "" -> unalias (ASuffix p) (KStr t) = Ret (KStr "").
Proof.
  intros E. simpl. rewrite E.
  assert (endswith "" t = true) as -> by (apply endswith_spec; exists t; by rewrite append_nil_r). done.
Qed.
Lemma prefix_suffix_broken p s t : default "" s = "" -> t <> "" ->
  exists x, alias (PrefixSuffixAliaser p s) (KStr t) = Ret (KStr x) /\
    unalias (PrefixSuffixAliaser p s) (KStr x) <> Ret (KStr t).
Proof.
  intros E Ht. eexists. split; [reflexivity|].
  change (unalias (PrefixSuffixAliaser p s)) with (unalias_chain [APrefix p; ASuffix s]).
  rewrite !unalias_chain_cons, unalias_chain_nil. cbn [res_bind]. rewrite empty_suffix by done. cbn [res_bind]. simpl.
  destruct (default "" p); [|done]. intros [= H]. by apply Ht.
Qed.

(** * Aliased nodes *)

(** The aliaser of a class inverts. *)
Definition inverts (al : option aliaser) : Prop :=
  (forall k a, alias_with alias al k = Ret a -> alias_with unalias al a = Ret k) /\
  (forall a k, alias_with unalias al a = Ret k -> alias_with alias al k = Ret a).
Lemma good_inverts a : good a -> inverts (Some a).
Proof.
  intros G. unfold inverts, alias_with. destruct (aliaser_truthy (Some a)).
  - split; intros; [by apply unalias_alias|by apply alias_unalias].
  - split; congruence.
Qed.
Lemma none_inverts : inverts None.
Proof. split; simpl; congruence. Qed.

(** iteration does not fail on the key *)
Definition aliasable (al : option aliaser) (k : key) : Prop :=
  match alias_with alias al k with
  | Ret _ => True
  | Exc (KeyError _) => aliaser_enumerable al = true
  | Exc _ => False
  end.

Lemma alias_keys_visible al d : Forall (aliasable al) (dkeys d) -> alias_keys al (dkeys d) = Ret (dkeys (visible (alias_with alias al) d)).
Proof.
  induction d as [|[k v] d IH]; simpl; [done|]. intros [H1 H2]%Forall_cons. specialize (IH H2).
  unfold aliasable in H1. destruct (alias_with alias al k) as [a|[]]; simpl; try done; [by rewrite IH|by rewrite H1].
Qed.

Section visible.
  Context (al : option aliaser) (I : inverts al).
  Lemma visible_in a v d : (a, v) ∈ visible (alias_with alias al) d <-> exists k, alias_with alias al k = Ret a /\ (k, v) ∈ d.
  Proof.
    induction d as [|[k w] d IH]; simpl; [set_solver|].
    destruct (alias_with alias al k) as [b|e] eqn:E; rewrite ?elem_of_cons, IH; split.
    - intros [[= <- <-]|(k' & H1 & H2)]; [exists k; set_solver|exists k'; set_solver].
    - intros (k' & H1 & [[= <- <-]|H2]%elem_of_cons); [left; congruence|right; eauto].
    - intros (k' & H1 & H2); exists k'; set_solver.
    - intros (k' & H1 & [[= <- <-]|H2]%elem_of_cons); [congruence|eauto].
  Qed.
  Lemma visible_keys a d : a ∈ dkeys (visible (alias_with alias al) d) <-> exists k, alias_with alias al k = Ret a /\ k ∈ dkeys d.
  Proof.
    rewrite elem_of_dkeys. setoid_rewrite elem_of_dkeys. setoid_rewrite visible_in. naive_solver.
  Qed.
  Lemma visible_nodup d : NoDup (dkeys d) -> NoDup (dkeys (visible (alias_with alias al) d)).
  Proof using I.
    induction d as [|[k v] d IH]; simpl; [done|]. intros [H1 H2]%NoDup_cons.
    destruct (alias_with alias al k) as [a|e] eqn:E; simpl; [|auto]. constructor; [|auto].
    rewrite visible_keys. intros (k' & H3 & H4). destruct I as [I1 _].
    apply I1 in E. apply I1 in H3. congruence.
  Qed.
  Lemma visible_get a k d : alias_with unalias al a = Ret k -> NoDup (dkeys d) -> dget a (visible (alias_with alias al) d) = dget k d.
  Proof using I.
    intros E ND. destruct I as [I1 I2]. pose proof (I2 _ _ E) as E'.
    destruct (dget k d) as [v|] eqn:Ed.
    - apply dget_in; [by apply visible_nodup|]. apply visible_in. exists k. split; [done|]. by apply dget_Some_in.
    - apply dget_None. rewrite visible_keys. intros (k' & H1 & H2). apply I1 in H1.
      assert (k' = k) as -> by congruence. by apply dget_None in Ed.
  Qed.
  Lemma visible_app d1 d2 : visible (alias_with alias al) (d1 ++ d2) = visible (alias_with alias al) d1 ++ visible (alias_with alias al) d2.
  Proof. induction d1 as [|[k v] d1 IH]; simpl; [done|]. destruct (alias_with alias al k); by rewrite IH. Qed.
  Lemma visible_set a k v d : alias_with unalias al a = Ret k -> visible (alias_with alias al) (dset k v d) = dset a v (visible (alias_with alias al) d).
  Proof using I.
    intros E. destruct I as [I1 I2]. pose proof (I2 _ _ E) as E'. induction d as [|[k' w] d IH]; simpl.
    - by rewrite E'.
    - destruct (decide (k = k')) as [<-|Hne]; simpl.
      + rewrite E'. simpl. by rewrite decide_True.
      + destruct (alias_with alias al k') as [b|e] eqn:Eb; simpl; [|done].
        rewrite decide_False; [by rewrite IH|]. intros ->. apply I1 in Eb. congruence.
  Qed.
  Lemma visible_del a k d : alias_with unalias al a = Ret k -> visible (alias_with alias al) (ddel k d) = ddel a (visible (alias_with alias al) d).
  Proof using I.
    intros E. destruct I as [I1 I2]. pose proof (I2 _ _ E) as E'. induction d as [|[k' w] d IH]; simpl; [done|].
    destruct (decide (k = k')) as [<-|Hne]; simpl.
    - rewrite E'. simpl. by rewrite decide_True.
    - destruct (alias_with alias al k') as [b|e] eqn:Eb; simpl; [|done].
      rewrite decide_False; [by rewrite IH|]. intros ->. apply I1 in Eb. congruence.
  Qed.
End visible.

(** The behaviors above Alias only adopt and validate. *)
Section above.
  Context (self : nat) (k : key) (v : val) (allow : bool).
  Context (next : nat -> key -> val -> M unit) (r : res unit) (R R' : st -> Prop).
  Context (R_stable : forall s x f o, (forall o, o_cls (f o) = o_cls o) -> (forall o, o_allow (f o) = o_allow o) ->
             (forall o, o_storage (f o) = o_storage o) -> nodes s !! x = Some o -> R s -> R (set_nodes <[x := f o]> s)).
  Context (R'_stable : forall s x f o, (forall o, o_cls (f o) = o_cls o) -> (forall o, o_allow (f o) = o_allow o) ->
             (forall o, o_storage (f o) = o_storage o) -> nodes s !! x = Some o -> R' s -> R' (set_nodes <[x := f o]> s)).
  Context (R_allow : forall s, R s -> exists o, nodes s !! self = Some o /\ o_allow o = allow).
  Context (H : forall s, R s -> valid_val s v -> exists s', next self k v s = (r, s') /\ R' s' /\ grows s s').

  Lemma set_above pre : forallb plain_beh pre = true -> forall s, R s -> valid_val s v ->
    let e := if hasc NodeChildValidate pre then validate_exc allow v else None in
    exists s', foldr set_stage next pre self k v s = (match e with Some e => Exc e | None => r end, s')
      /\ (match e with Some _ => R s' | None => R' s' end) /\ grows s s'.
  Proof using All.
    induction pre as [|b pre IH]; intros Hb s HR Hv; [by apply H|].
    simpl in Hb. apply andb_prop in Hb as [Hb1 Hb2].
    assert (Hne : b <> NodeChildValidate -> hasc NodeChildValidate (b :: pre) = hasc NodeChildValidate pre).
    { intros Hn. apply bool_decide_ext. set_solver. }
    destruct b; try discriminate Hb1; try (rewrite Hne by done; apply IH; done).
    - (* Adopt *) rewrite Hne by done. clear Hne. destruct v as [| | | | | | |c| | | |]; try (by apply IH). simpl in Hv.
      destruct Hv as [oc Hoc]. cbn [foldr set_stage]. rewrite (bind_load _ _ _ _ Hoc), (bind_modify _ _ _ _ _ Hoc).
      erewrite bind_modify; [|simpl; apply lookup_insert].
      set (s1 := set_nodes _ (set_nodes _ s)).
      assert (HR1 : R s1).
      { unfold s1. eapply R_stable with (f := with_parent (Some self)); [done..|simpl; by rewrite lookup_insert|].
        eapply R_stable with (f := with_name k); done. }
      assert (G1 : grows s s1). { unfold s1. eapply grows_trans; apply grows_modify. }
      destruct (IH Hb2 s1 HR1) as (s2 & E2 & HR2 & G2). { simpl. unfold s1. simpl. rewrite lookup_insert. eauto. }
      match type of E2 with _ = (?r, _) => destruct r as [[]|e] eqn:Er end.
      + rewrite (try_catch_Ret _ _ _ _ _ _ E2). exists s2. split; [done|]. split; [done|]. by eapply grows_trans.
      + rewrite (try_catch_Exc _ _ _ _ _ _ E2).
        destruct (adopt_catches e).
        * assert (exists o2, nodes s2 !! c = Some o2) as [o2 Ho2].
          { apply lookup_grows with (s := s1) (o := with_parent (Some self) (with_name k oc)); [done|].
            unfold s1. simpl. by rewrite lookup_insert. }
          rewrite (bind_modify _ _ _ _ _ Ho2).
          erewrite bind_modify; [|simpl; apply lookup_insert].
          eexists. split; [reflexivity|].
          split; [|repeat (eapply grows_trans; [eassumption|]); eapply grows_trans; apply grows_modify].
          destruct (if hasc NodeChildValidate pre then _ else None).
          -- eapply R_stable with (f := with_parent (o_parent oc)); [done..|simpl; by rewrite lookup_insert|].
             eapply R_stable with (f := with_name (o_name oc)); done.
          -- eapply R'_stable with (f := with_parent (o_parent oc)); [done..|simpl; by rewrite lookup_insert|].
             eapply R'_stable with (f := with_name (o_name oc)); done.
        * exists s2. split; [done|]. split; [done|]. by eapply grows_trans.
    - (* NodeChildValidate *)
      assert (Hh : hasc NodeChildValidate (NodeChildValidate :: pre) = true) by (apply bool_decide_eq_true; left).
      rewrite Hh. cbn [foldr set_stage]. destruct (R_allow s HR) as (o & Ho & <-).
      rewrite (bind_load _ _ _ _ Ho). unfold validate_exc in *.
      destruct (negb (o_allow o) && is_class v) eqn:E1.
      { exists s. split; [done|]. split; [done|apply grows_refl]. }
      destruct (negb (o_allow o) && negb (is_node v)) eqn:E2.
      { exists s. split; [done|]. split; [done|apply grows_refl]. }
      destruct (IH Hb2 s HR Hv) as (s' & E & HR' & G). exists s'.
      destruct (hasc NodeChildValidate pre); done.
  Qed.
End above.

Lemma set_stack_app all pre r self k v : set_stack all (pre ++ r) self k v = foldr set_stage (set_stack all r) pre self k v.
Proof.
  assert (set_stack all (pre ++ r) = foldr set_stage (set_stack all r) pre) as ->; [|done].
  induction pre as [|b pre IH]; [done|]. simpl. by rewrite <- IH.
Qed.
Lemma get_stack_app fb all pre r self k s : forallb plain_beh pre = true ->
  get_stack fb all (pre ++ r) self k s = get_stack fb all r self k s.
Proof.
  induction pre as [|b pre IH]; simpl; intros H; [done|]. apply andb_prop in H as [H1 H2].
  destruct b; try discriminate H1; simpl; by apply IH.
Qed.
Lemma del_stack_app all pre r self k s : forallb plain_beh pre = true ->
  del_stack all (pre ++ r) self k s = del_stack all r self k s.
Proof.
  induction pre as [|b pre IH]; simpl; intros H; [done|]. apply andb_prop in H as [H1 H2].
  destruct b; try discriminate H1; simpl; by apply IH.
Qed.
Lemma iter_stack_app all pre r self s : forallb plain_beh pre = true ->
  iter_stack all (pre ++ r) self s = iter_stack all r self s.
Proof.
  induction pre as [|b pre IH]; simpl; intros H; [done|]. apply andb_prop in H as [H1 H2].
  destruct b; try discriminate H1; simpl; by apply IH.
Qed.

Lemma hashes_eq k : hashes k = hashable k.
Proof. by destruct k. Qed.
Lemma value_refused_eq allow v : value_refused allow v = validate_exc allow v.
Proof. unfold validate_exc. destruct v, allow; done. Qed.
Lemma hasc_app b l1 l2 : hasc b (l1 ++ l2) = hasc b l1 || hasc b l2.
Proof.
  unfold hasc. destruct (bool_decide (b ∈ l1)) eqn:E1, (bool_decide (b ∈ l2)) eqn:E2; simpl;
    rewrite ?bool_decide_eq_true, ?bool_decide_eq_false in *; set_solver.
Qed.

Section aliased.
  Context (self : nat) (cls : classdef) (allow : bool) (pre post : list behavior) (hid : list (key * val)).
  Context (Hb : c_behs cls = pre ++ Alias :: post) (Hpre : forallb plain_beh pre = true) (Hpost : forallb plain_beh post = true).
  Context (Hs : has_storage (c_behs cls) = true) (I : inverts (c_aliaser cls)).
  Notation al := (c_aliaser cls).
  Notation out := (alias_with alias (c_aliaser cls)).
  Notation into := (alias_with unalias (c_aliaser cls)).
  Notation pol := (renamed_policy into (hasc NodeChildValidate pre) (hasc NodeChildValidate post) allow).

  Definition Ral (s : st) (d : list (key * val)) : Prop :=
    exists inner, stored self cls allow s inner /\ Forall (aliasable al) (dkeys inner) /\ d = visible out inner /\ hidden out inner = hid.

  Lemma al_nofixed : hasc FixedChildren (c_behs cls) = false.
  Proof using Hb Hpre Hpost.
    rewrite Hb, hasc_app, (plain_no_fixed _ Hpre). apply bool_decide_eq_false.
    intros [?|H]%elem_of_cons; [done|]. pose proof (plain_no_fixed _ Hpost) as H'. unfold hasc in H'.
    by rewrite bool_decide_eq_false in H'.
  Qed.
  Lemma al_nofactory : hasc ChildFactory (c_behs cls) = false.
  Proof using Hb Hpre Hpost.
    rewrite Hb. apply bool_decide_eq_false. rewrite elem_of_app, elem_of_cons.
    intros [?|[?|?]]; [by apply (plain_no_factory pre)|done|by apply (plain_no_factory post)].
  Qed.
  Lemma hidden_set k a v d : into a = Ret k -> hidden out (dset k v d) = hidden out d.
  Proof using I.
    intros E. destruct I as [_ I2]. apply I2 in E. induction d as [|[k' w] d IH]; simpl; [by rewrite E|].
    destruct (decide (k = k')) as [<-|Hne]; simpl; [by rewrite E|]. fold (hidden out (dset k v d)). rewrite IH. done.
  Qed.
  Lemma hidden_del k a d : into a = Ret k -> hidden out (ddel k d) = hidden out d.
  Proof using I.
    intros E. destruct I as [_ I2]. apply I2 in E. induction d as [|[k' w] d IH]; simpl; [done|].
    destruct (decide (k = k')) as [<-|Hne]; simpl; [by rewrite E|]. fold (hidden out (ddel k d)). rewrite IH. done.
  Qed.

  Lemma al_iter s d : Ral s d -> exists s', iter self s = (Ret (dkeys d), s') /\ Ral s' d /\ grows s s'.
  Proof using All.
    intros (inner & H & Ha & -> & Hh). unfold iter. destruct (stored_load _ _ _ _ _ H) as (o & Ho & Ec & _).
    rewrite (bind_load _ _ _ _ Ho), Ec. pattern (c_behs cls) at 2; rewrite Hb. rewrite iter_stack_app by done. cbn [iter_stack iter_stage].
    destruct (ep_iter self cls allow (c_behs cls) Hs al_nofixed s inner al_nofactory H) as (s' & E & H' & G).
    assert (iter_stack (c_behs cls) post self s = (Ret (dkeys inner), s')) as E' by (rewrite iter_stack_plain by done; done).
    rewrite (bind_Ret _ _ _ _ _ E'). destruct (stored_load _ _ _ _ _ H') as (o' & Ho' & Ec' & _).
    rewrite (bind_load _ _ _ _ Ho'), Ec'. rewrite alias_keys_visible by done. exists s'. split; [done|]. split; [|done].
    exists inner. done.
  Qed.
  Lemma al_get s d k : Ral s d -> exists s', getitem self k s = (do_get pol k d, s') /\ Ral s' d /\ grows s s'.
  Proof using All.
    intros (inner & H & Ha & -> & Hh). unfold getitem. destruct (stored_load _ _ _ _ _ H) as (o & Ho & Ec & _).
    rewrite (bind_load _ _ _ _ Ho), Ec. pattern (c_behs cls) at 2; rewrite Hb. rewrite get_stack_app by done. cbn [get_stack get_stage].
    rewrite (bind_load _ _ _ _ Ho), Ec. unfold do_get. simpl. destruct (into k) as [k'|e] eqn:Ek; simpl.
    2: { exists s. split; [done|]. split; [by exists inner|apply grows_refl]. }
    unfold bind at 1, of_res at 1. simpl.
    destruct (ep_get self cls allow (c_behs cls) Hs al_nofixed s inner k' H) as (s' & E & H' & G).
    assert (get_stack fb_search (c_behs cls) post self k' s = get_endpoint (c_behs cls) self k' s) as E' by (by apply get_stack_plain).
    rewrite E in E'. rewrite hashes_eq, value_at_spec.
    rewrite (visible_get _ I _ _ _ Ek (stored_nodup _ _ _ _ _ H)).
    exists s'. split; [|split; [by exists inner|done]].
    destruct (hashable k'); [destruct (dget k' inner)|].
    - by rewrite (try_catch_Ret _ _ _ _ _ _ E').
    - by rewrite (try_catch_Exc _ _ _ _ _ _ E').
    - by rewrite (try_catch_Exc _ _ _ _ _ _ E').
  Qed.
  Lemma al_del s d k : Ral s d -> exists s', delitem self k s =
      (match fst (do_del pol k d) with None => Ret tt | Some e => Exc e end, s') /\ Ral s' (snd (do_del pol k d)) /\ grows s s'.
  Proof using All.
    intros (inner & H & Ha & -> & Hh). unfold delitem. destruct (stored_load _ _ _ _ _ H) as (o & Ho & Ec & _).
    rewrite (bind_load _ _ _ _ Ho), Ec. pattern (c_behs cls) at 2; rewrite Hb. rewrite del_stack_app by done. cbn [del_stack del_stage].
    rewrite (bind_load _ _ _ _ Ho), Ec. unfold do_del. simpl. destruct (into k) as [k'|e] eqn:Ek; simpl.
    2: { exists s. split; [done|]. split; [by exists inner|apply grows_refl]. }
    unfold bind at 1, of_res at 1. simpl.
    destruct (ep_del self cls allow (c_behs cls) Hs al_nofixed s inner k' H) as (s' & E & H' & G).
    assert (del_stack (c_behs cls) post self k' s = del_endpoint (c_behs cls) self k' s) as E' by (by apply del_stack_plain).
    rewrite E in E'. rewrite hashes_eq, held_spec. pose proof (stored_nodup _ _ _ _ _ H) as ND.
    exists s'. destruct (hashable k'); simpl.
    2: { split; [by rewrite (try_catch_Exc _ _ _ _ _ _ E')|]. split; [by exists inner|done]. }
    pose proof (visible_get _ I _ _ _ Ek ND) as Hg.
    destruct (dget k' inner) as [v|] eqn:Ed.
    - rewrite bool_decide_eq_true_2 by (apply dget_is_Some; eauto). simpl.
      rewrite (try_catch_Ret _ _ _ _ _ _ E'). split; [done|]. split; [|done].
      exists (ddel k' inner). split; [done|]. split.
      { rewrite Forall_forall in *. intros x Hx. apply Ha. rewrite elem_of_dkeys in Hx |- *. destruct Hx as [w Hx].
        exists w. by apply elem_of_ddel in Hx as [? _]. }
      split; [|by rewrite (hidden_del _ _ _ Ek)].
      rewrite (visible_del _ I _ _ _ Ek). apply remove_spec. by apply visible_nodup.
    - rewrite bool_decide_eq_false_2 by (by apply dget_None). simpl.
      rewrite (try_catch_Exc _ _ _ _ _ _ E'). split; [done|]. split; [by exists inner|done].
  Qed.
  Lemma al_set s d k v : Ral s d -> valid_val s v -> exists s', setitem self k v s =
      (match fst (do_set pol k v d) with None => Ret tt | Some e => Exc e end, s') /\ Ral s' (snd (do_set pol k v d)) /\ grows s s'.
  Proof using All.
    intros HR Hv. assert (exists o, nodes s !! self = Some o /\ o_cls o = cls) as (o & Ho & Ec).
    { destruct HR as (inner & H & _). destruct (stored_load _ _ _ _ _ H) as (o & Ho & Ec & _). eauto. }
    unfold setitem. rewrite (bind_load _ _ _ _ Ho), Ec. pattern (c_behs cls) at 2; rewrite Hb. rewrite set_stack_app.
    unfold do_set. simpl. rewrite !value_refused_eq.
    set (r := first_of (match into k with Exc e => Some e | Ret _ => None end)
           (first_of (if hasc NodeChildValidate post then validate_exc allow v else None)
              (match into k with Ret k' => if hashes k' then None else Some TypeError | Exc _ => None end))).
    assert (forall s x f o dd, (forall o, o_cls (f o) = o_cls o) -> (forall o, o_allow (f o) = o_allow o) ->
             (forall o, o_storage (f o) = o_storage o) -> nodes s !! x = Some o -> Ral s dd -> Ral (set_nodes <[x := f o]> s) dd) as Hst.
    { intros s0 x f o0 dd F1 F2 F3 Ho0 (inner & H & HH). exists inner. split; [by apply stored_modify|done]. }
    destruct (set_above self k v allow (set_stack (c_behs cls) (Alias :: post))
       (match r with None => Ret tt | Some e => Exc e end) (fun s => Ral s d)
       (fun s => Ral s (match r with None => put k v d | Some _ => d end))) with (pre := pre) (s := s)
       as (s' & E & HR' & G); try done.
    - intros ????????. by eapply Hst.
    - intros ????????. by eapply Hst.
    - intros s0 (inner & H & _). destruct (stored_load _ _ _ _ _ H) as (o0 & Ho0 & _ & Ea). eauto.
    - clear s HR Hv o Ho Ec. intros s (inner & H & Ha & -> & Hh) Hv. cbn [set_stack set_stage].
      destruct (stored_load _ _ _ _ _ H) as (o & Ho & Ec & Eal). rewrite (bind_load _ _ _ _ Ho), Ec.
      unfold r. destruct (into k) as [k'|e] eqn:Ek; simpl.
      2: { exists s. split; [done|]. split; [by exists inner|apply grows_refl]. }
      unfold bind at 1, of_res at 1. simpl.
      destruct (set_above self k' v allow (set_stack (c_behs cls) []) (if hashable k' then Ret tt else Exc TypeError)
        (fun s => stored self cls allow s inner) (fun s => stored self cls allow s (if hashable k' then dset k' v inner else inner)))
        with (pre := post) (s := s) as (s' & E & HR' & G); try done.
      + intros ????????. by apply stored_modify.
      + intros ????????. by apply stored_modify.
      + intros s0 H0. destruct (stored_load _ _ _ _ _ H0) as (o0 & Ho0 & _ & Ea). eauto.
      + intros s0 H0 _. apply (ep_set self cls allow (c_behs cls) Hs al_nofixed s0 inner k' v H0).
      + rewrite <- set_stack_app, app_nil_r in E. exists s'. rewrite hashes_eq. pose proof (stored_nodup _ _ _ _ _ H) as ND.
        destruct (if hasc NodeChildValidate post then validate_exc allow v else None) as [e|] eqn:Ev; simpl in *.
        * assert (is_key_error e = false) as Hk.
          { destruct (hasc NodeChildValidate post); [|done]. unfold validate_exc in Ev.
            destruct (negb allow && is_class v); [by injection Ev as <-|].
            destruct (negb allow && negb (is_node v)); [by injection Ev as <-|done]. }
          rewrite (try_catch_Exc _ _ _ _ _ _ E), Hk. split; [done|]. split; [by exists inner|done].
        * destruct (hashable k'); simpl in *.
          -- rewrite (try_catch_Ret _ _ _ _ _ _ E). split; [done|]. split; [|done].
             exists (dset k' v inner). split; [done|]. split.
             { apply Forall_forall. intros x [->|Hx]%elem_of_dkeys_dset; [|by eapply Forall_forall in Ha].
               unfold aliasable. destruct I as [_ I2]. by rewrite (I2 _ _ Ek). }
             split; [|by rewrite (hidden_set _ _ _ _ Ek)].
             rewrite (visible_set _ I _ _ _ _ Ek). apply put_spec. by apply visible_nodup.
          -- rewrite (try_catch_Exc _ _ _ _ _ _ E). split; [done|]. split; [by exists inner|done].
    - exists s'. split; [etransitivity; [exact E|]|].
      all: destruct (if hasc NodeChildValidate pre then validate_exc allow v else None); simpl; try done; destruct r; done.
  Qed.

  Lemma aliased_calls l s d : Ral s d -> Forall (fun c => Forall (valid_val s) (call_values c)) l ->
    exists s', run_calls self l s = (fst (calls_spec pol l d), s') /\ Ral s' (snd (calls_spec pol l d)) /\ grows s s'.
  Proof using All.
    apply run_calls_sim.
    - intros s' d' (inner & H & _ & -> & _). apply visible_nodup; [done|]. by eapply stored_nodup.
    - apply al_iter.
    - intros. by apply al_get.
    - intros. by apply al_set.
    - intros. by apply al_del.
  Qed.
End aliased.

Lemma wf_stored s x cls : wf s -> class_of s x = Some cls -> has_storage (c_behs cls) = true ->
  stored x cls (allows s x) s (entries_at s x).
Proof.
  intros W Hc Hs. unfold class_of in Hc. destruct (nodes s !! x) as [o|] eqn:Ho; [|done]. injection Hc as <-.
  split.
  - exists o. unfold allows. by rewrite Ho.
  - exists o. split; [done|]. split; [done|]. split; [by apply entries_nodup|].
    unfold entries_at. rewrite Ho. simpl. destruct (o_storage o) as [l|] eqn:Hl; simpl; [|done].
    destruct (wf_nodes _ W _ _ Ho) as [_ [_ K _ _]]. destruct (K SStorage l Hl) as [d ->]. done.
Qed.
Lemma stored_entries x cls a s d : stored x cls a s d -> entries_at s x = d.
Proof.
  intros [_ (o & Ho & _ & _ & H)]. unfold entries_at. rewrite Ho. simpl. destruct (o_storage o); simpl; [by rewrite H|done].
Qed.

Lemma aliased_node s x cls pre post l :
  wf s -> class_of s x = Some cls -> c_behs cls = pre ++ Alias :: post ->
  forallb plain_beh pre = true -> forallb plain_beh post = true -> has_storage (c_behs cls) = true ->
  inverts (c_aliaser cls) -> Forall (aliasable (c_aliaser cls)) (map fst (entries_at s x)) ->
  Forall (fun c => Forall (known s) (call_values c)) l ->
  let out := alias_with alias (c_aliaser cls) in
  let pol := renamed_policy (alias_with unalias (c_aliaser cls)) (hasc NodeChildValidate pre) (hasc NodeChildValidate post) (allows s x) in
  exists s', run_calls x l s = (fst (calls_spec pol l (visible out (entries_at s x))), s') /\
    visible out (entries_at s' x) = snd (calls_spec pol l (visible out (entries_at s x))) /\
    hidden out (entries_at s' x) = hidden out (entries_at s x).
Proof.
  intros W Hc Hb H1 H2 Hs I Ha Hl out pol.
  destruct (aliased_calls x cls (allows s x) pre post (hidden out (entries_at s x)) Hb H1 H2 Hs I l s
              (visible out (entries_at s x))) as (s' & E & (inner & D & _ & E1 & E2) & _); [|done|].
  { exists (entries_at s x). split; [by apply wf_stored|]. done. }
  exists s'. split; [done|]. apply stored_entries in D. rewrite D. done.
Qed.
(** Every underlying key stays aliasable: assignments through the node only add such keys. *)
Lemma aliased_stays s x cls pre post l r s' :
  wf s -> class_of s x = Some cls -> c_behs cls = pre ++ Alias :: post ->
  forallb plain_beh pre = true -> forallb plain_beh post = true -> has_storage (c_behs cls) = true ->
  inverts (c_aliaser cls) -> Forall (aliasable (c_aliaser cls)) (map fst (entries_at s x)) ->
  Forall (fun c => Forall (known s) (call_values c)) l -> run_calls x l s = (r, s') ->
  Forall (aliasable (c_aliaser cls)) (map fst (entries_at s' x)).
Proof.
  intros W Hc Hb H1 H2 Hs I Ha Hl E.
  destruct (aliased_calls x cls (allows s x) pre post (hidden (alias_with alias (c_aliaser cls)) (entries_at s x)) Hb H1 H2 Hs I l s
              (visible (alias_with alias (c_aliaser cls)) (entries_at s x))) as (s1 & E1 & (inner & D & A & _) & _); [|done|].
  { exists (entries_at s x). split; [by apply wf_stored|]. done. }
  rewrite E1 in E. injection E as _ <-. apply stored_entries in D. by rewrite D.
Qed.
