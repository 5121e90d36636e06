(** Heap well-formedness: no dangling references, unique dict keys, no dict
    shared between two attributes.  Preserved by every operation of the model on
    every class (all behavior lists), except shallow copy, which shares. *)
From Verif Require Import Py Odict OdictFacts Aliaser Heap Model MonadFacts.

Inductive slot := SStorage | SCache | SChildren | SNodespaces.

Definition get_slot (a : slot) (o : obj) : option nat :=
  match a with
  | SStorage => o_storage o | SCache => o_cache o
  | SChildren => o_children o | SNodespaces => o_nodespaces o
  end.
Definition with_slot (a : slot) (l : option nat) (o : obj) : obj :=
  match a with
  | SStorage => with_storage l o | SCache => with_cache l o
  | SChildren => with_children l o | SNodespaces => with_nodespaces l o
  end.

Definition live (s : st) (x : nat) : Prop := is_Some (nodes s !! x).
Definition vok (s : st) (v : val) : Prop :=
  match v with VNode c => live s c | _ => True end.

Definition eok (s : st) (e : key * val) : Prop := hashable (fst e) = true /\ vok s (snd e).

Record obj_ok (s : st) (o : obj) : Prop := ObjOk {
  ok_parent : forall p, o_parent o = Some p -> live s p;
  ok_slot : forall a l, get_slot a o = Some l -> is_Some (dicts s !! l);
  ok_index : forall i, o_index o = Some i -> is_Some (idxs s !! i);
  ok_uuid : forall u, o_uuid o = Some u -> (u < next_uuid s)%N
}.

Record wf (s : st) : Prop := WF {
  wf_nodes : forall x o, nodes s !! x = Some o -> x < next_id s /\ obj_ok s o;
  wf_dicts : forall l d, dicts s !! l = Some d ->
    l < next_id s /\ NoDup (dkeys d) /\ Forall (eok s) d;
  wf_idxs : forall i m, idxs s !! i = Some m ->
    i < next_id s /\ forall u y, m !! u = Some y -> live s y;
  wf_own : forall x y o o' a b l, nodes s !! x = Some o -> nodes s !! y = Some o' ->
    get_slot a o = Some l -> get_slot b o' = Some l -> x = y /\ a = b
}.

(** What only grows. *)
Record ext (s s' : st) : Prop := Ext {
  ext_next : next_id s <= next_id s';
  ext_classes : classes s' = classes s;
  ext_nodes : forall x o, nodes s !! x = Some o ->
    exists o', nodes s' !! x = Some o' /\ o_cls o' = o_cls o;
  ext_dicts : forall l, is_Some (dicts s !! l) -> is_Some (dicts s' !! l);
  ext_idxs : forall i, is_Some (idxs s !! i) -> is_Some (idxs s' !! i);
  ext_uuid : (next_uuid s <= next_uuid s')%N
}.

Lemma ext_refl s : ext s s.
Proof. constructor; eauto; lia. Qed.
Lemma ext_trans s1 s2 s3 : ext s1 s2 -> ext s2 s3 -> ext s1 s3.
Proof.
  intros [H1 H2 H3 H4 H5 H6] [K1 K2 K3 K4 K5 K6]. constructor; try lia; try congruence; auto.
  intros x o Ho. destruct (H3 _ _ Ho) as (o1 & Ho1 & E1).
  destruct (K3 _ _ Ho1) as (o2 & Ho2 & E2). exists o2. split; congruence.
Qed.
Lemma ext_live s s' x : ext s s' -> live s x -> live s' x.
Proof. intros E [o Ho]. destruct (ext_nodes _ _ E _ _ Ho) as (o' & ? & _). eexists; eauto. Qed.
Lemma ext_vok s s' v : ext s s' -> vok s v -> vok s' v.
Proof. destruct v; simpl; try done. apply ext_live. Qed.
Lemma ext_eok s s' e : ext s s' -> eok s e -> eok s' e.
Proof. intros E [? ?]. split; [done|by eapply ext_vok]. Qed.
Lemma ext_obj_ok s s' o : ext s s' -> obj_ok s o -> obj_ok s' o.
Proof.
  intros E [H1 H2 H3 H4]. constructor; intros; eauto using ext_live, ext_dicts, ext_idxs.
  eapply N.lt_le_trans; [by apply H4|apply (ext_uuid _ _ E)].
Qed.

Definition safe {A} (s : st) (m : M A) (Q : A -> st -> Prop) : Prop :=
  wf s ->
  wf (snd (m s)) /\ ext s (snd (m s)) /\
  match fst (m s) with Ret a => Q a (snd (m s)) | Exc e => e <> Dangling end.

Lemma safe_intro {A} s (m : M A) (Q : A -> st -> Prop) : (wf s -> safe s m Q) -> safe s m Q.
Proof. intros H W. by apply H. Qed.
Lemma safe_weaken {A} s (m : M A) (Q Q' : A -> st -> Prop) :
  safe s m Q -> (forall a s', wf s' -> ext s s' -> Q a s' -> Q' a s') -> safe s m Q'.
Proof.
  intros H HQ W. destruct (H W) as (W' & E & P). split; [done|]. split; [done|].
  destruct (fst (m s)); auto.
Qed.
Lemma safe_ret {A} s (a : A) (Q : A -> st -> Prop) : Q a s -> safe s (ret a) Q.
Proof. intros H W. simpl. eauto using ext_refl. Qed.
Lemma safe_raise {A} s e (Q : A -> st -> Prop) : e <> Dangling -> safe s (raise e) Q.
Proof. intros H W. simpl. eauto using ext_refl. Qed.
Lemma safe_bind {A B} s (m : M A) (f : A -> M B) Q R :
  safe s m Q ->
  (forall a s', wf s' -> ext s s' -> Q a s' -> safe s' (f a) R) ->
  safe s (bind m f) R.
Proof.
  intros Hm Hf W. destruct (Hm W) as (W' & E & P). unfold bind.
  destruct (m s) as [[a|e] s']; simpl in *.
  - destruct (Hf a s' W' E P W') as (W2 & E2 & P2). eauto using ext_trans.
  - done.
Qed.
Lemma safe_try_catch {A} s (m : M A) p h Q :
  safe s m Q ->
  (forall e s', wf s' -> ext s s' -> e <> Dangling -> safe s' (h e) Q) ->
  safe s (try_catch m p h) Q.
Proof.
  intros Hm Hh W. destruct (Hm W) as (W' & E & P). unfold try_catch.
  destruct (m s) as [[a|e] s']; simpl in *; [done|].
  destruct (p e); simpl; [|done].
  destruct (Hh e s' W' E P W') as (W2 & E2 & P2). eauto using ext_trans.
Qed.
Lemma safe_try_finally {A} s (m : M A) fin (Q : A -> st -> Prop) :
  safe s m Q ->
  (forall s', wf s' -> ext s s' -> safe s' fin (fun _ s'' => forall a, Q a s' -> Q a s'')) ->
  safe s (try_finally m fin) Q.
Proof.
  intros Hm Hh W. destruct (Hm W) as (W' & E & P). unfold try_finally.
  destruct (m s) as [r s']; simpl in *.
  destruct (Hh s' W' E W') as (W2 & E2 & P2).
  destruct (fin s') as [[u|e] s'']; simpl in *.
  - split; [done|]. split; [eauto using ext_trans|]. destruct r; eauto.
  - split; [done|]. split; [eauto using ext_trans|]. done.
Qed.
Lemma safe_iterM {A} (f : A -> M unit) (P : st -> A -> Prop) l :
  (forall s s' a, ext s s' -> P s a -> P s' a) ->
  (forall s a, wf s -> P s a -> safe s (f a) (fun _ _ => True)) ->
  forall s, Forall (P s) l -> safe s (iterM f l) (fun _ _ => True).
Proof.
  intros Hst Hf. induction l as [|a l IH]; intros s HP; simpl; [by apply safe_ret|].
  apply Forall_cons in HP as [HP1 HP2]. apply safe_intro; intros W. eapply safe_bind; [eauto|].
  intros _ s' W' E _. apply IH. eapply Forall_impl; eauto.
Qed.
Lemma safe_mapM {A B} (f : A -> M B) (P : st -> A -> Prop) (Q : st -> B -> Prop) l :
  (forall s s' a, ext s s' -> P s a -> P s' a) ->
  (forall s s' a, ext s s' -> Q s a -> Q s' a) ->
  (forall s a, wf s -> P s a -> safe s (f a) (fun b s' => Q s' b)) ->
  forall s, Forall (P s) l -> safe s (mapM_ f l) (fun r s' => Forall (Q s') r).
Proof.
  intros Hst HstQ Hf. induction l as [|a l IH]; intros s HP; simpl; [by apply safe_ret|].
  apply Forall_cons in HP as [HP1 HP2]. apply safe_intro; intros W. eapply safe_bind; [eauto|].
  intros b s' W' E Hb. eapply safe_bind.
  - apply IH. eapply Forall_impl; eauto.
  - intros bs s'' W'' E' Hbs. apply safe_ret. constructor; eauto.
Qed.
Lemma safe_of_res {A} s (r : res A) (Q : A -> st -> Prop) :
  match r with Ret a => Q a s | Exc e => e <> Dangling end -> safe s (of_res r) Q.
Proof. intros H W. simpl. eauto using ext_refl. Qed.

Lemma safe_load s x :
  live s x -> safe s (load x) (fun o s' => s' = s /\ nodes s !! x = Some o).
Proof.
  intros [o Ho] W. unfold load. rewrite Ho. simpl. eauto using ext_refl.
Qed.
Lemma safe_read_dict s l :
  is_Some (dicts s !! l) -> safe s (read_dict l) (fun d s' => s' = s /\ dicts s !! l = Some d).
Proof. intros [o Ho] W. unfold read_dict. rewrite Ho. simpl. eauto using ext_refl. Qed.
Lemma safe_read_idx s l :
  is_Some (idxs s !! l) -> safe s (read_idx l) (fun d s' => s' = s /\ idxs s !! l = Some d).
Proof. intros [o Ho] W. unfold read_idx. rewrite Ho. simpl. eauto using ext_refl. Qed.

(** Changing attributes of an object without touching its dict slots. *)
Lemma safe_modify s x f :
  live s x ->
  (forall o, nodes s !! x = Some o -> obj_ok s o -> obj_ok s (f o)) ->
  (forall o, o_cls (f o) = o_cls o) ->
  (forall a o, get_slot a (f o) = get_slot a o) ->
  safe s (modify x f) (fun _ s' => exists o, nodes s !! x = Some o /\ s' = set_nodes <[x := f o]> s).
Proof.
  intros [o Ho] Hok Hcls Hslot W. unfold modify. rewrite Ho. simpl.
  assert (E : ext s (set_nodes <[x := f o]> s)).
  { constructor; simpl; eauto; try lia. intros y oy Hy. destruct (decide (x = y)) as [->|Hne].
    - rewrite lookup_insert. rewrite Ho in Hy. injection Hy as <-. eauto.
    - rewrite lookup_insert_ne by done. eauto. }
  split; [|split; [done|eauto]]. destruct W as [W1 W2 W3 W4]. constructor; simpl.
  - intros y oy Hy. destruct (decide (x = y)) as [->|Hne].
    + rewrite lookup_insert in Hy. injection Hy as <-. destruct (W1 _ _ Ho).
      split; [done|]. eapply ext_obj_ok; [exact E|]. eauto.
    + rewrite lookup_insert_ne in Hy by done. destruct (W1 _ _ Hy). split; [done|].
      eapply ext_obj_ok; eauto.
  - intros l d Hl. destruct (W2 _ _ Hl) as (? & ? & F). split; [done|]. split; [done|].
    eapply Forall_impl; [exact F|]. intros e He. by eapply ext_eok.
  - intros i m Hi. destruct (W3 _ _ Hi) as [? F]. split; [done|]. intros. eapply ext_live; eauto.
  - intros y z oy oz a b l Hy Hz Ha Hb.
    assert (exists oy', nodes s !! y = Some oy' /\ get_slot a oy' = Some l) as (oy' & ? & ?).
    { destruct (decide (x = y)) as [->|Hne].
      - rewrite lookup_insert in Hy. injection Hy as <-. rewrite Hslot in Ha. eauto.
      - rewrite lookup_insert_ne in Hy by done. eauto. }
    assert (exists oz', nodes s !! z = Some oz' /\ get_slot b oz' = Some l) as (oz' & ? & ?).
    { destruct (decide (x = z)) as [->|Hne].
      - rewrite lookup_insert in Hz. injection Hz as <-. rewrite Hslot in Hb. eauto.
      - rewrite lookup_insert_ne in Hz by done. eauto. }
    eauto.
Qed.

(** Creating a dict and storing it in a slot of an object. *)
Lemma alloc_slot_wf s x o a d :
  wf s -> nodes s !! x = Some o -> NoDup (dkeys d) -> Forall (eok s) d ->
  let s' := set_nodes <[x := with_slot a (Some (next_id s)) o]>
              (set_next_id S (set_dicts <[next_id s := d]> s)) in
  wf s' /\ ext s s'.
Proof.
  intros W Ho ND Hd s'. pose proof W as [W1 W2 W3 W4].
  assert (Hfr : dicts s !! next_id s = None).
  { destruct (dicts s !! next_id s) eqn:E; [|done]. apply W2 in E as [? _]. lia. }
  assert (E : ext s s').
  { constructor; simpl; [lia|done| | |eauto|lia].
    - intros y oy Hy. destruct (decide (x = y)) as [->|Hne].
      + rewrite lookup_insert. rewrite Ho in Hy. injection Hy as <-. destruct a; eauto.
      + rewrite lookup_insert_ne by done. eauto.
    - intros l Hl. destruct (decide (l = next_id s)) as [->|]; [by rewrite lookup_insert|].
      by rewrite lookup_insert_ne. }
  split; [|done]. constructor; simpl.
  - intros y oy Hy. destruct (decide (x = y)) as [->|Hne].
    + rewrite lookup_insert in Hy. injection Hy as <-. destruct (W1 _ _ Ho) as [? K].
      split; [lia|]. apply (ext_obj_ok _ _ _ E) in K. destruct K as [K1 K2 K3 K4].
      constructor; [destruct a; simpl; eauto| |destruct a; simpl; eauto|destruct a; simpl; eauto].
      intros b l. destruct a, b; simpl; intros Hl; simplify_eq;
        try (by rewrite lookup_insert);
        first [ exact (K2 SStorage _ Hl) | exact (K2 SCache _ Hl) | exact (K2 SChildren _ Hl)
              | exact (K2 SNodespaces _ Hl) ].
    + rewrite lookup_insert_ne in Hy by done. destruct (W1 _ _ Hy). split; [lia|].
      eapply ext_obj_ok; eauto.
  - intros l d' Hl. destruct (decide (l = next_id s)) as [->|Hne].
    + rewrite lookup_insert in Hl. injection Hl as <-. split; [lia|]. split; [done|].
      eapply Forall_impl; [exact Hd|]. intros e He. by eapply ext_eok.
    + rewrite lookup_insert_ne in Hl by done. destruct (W2 _ _ Hl) as (? & ? & F).
      split; [lia|]. split; [done|]. eapply Forall_impl; [exact F|]. intros e He. by eapply ext_eok.
  - intros i m Hi. destruct (W3 _ _ Hi) as [? F]. split; [lia|]. intros. eapply ext_live; eauto.
  - assert (Hold : forall y oy b l, nodes s !! y = Some oy -> get_slot b oy = Some l -> l <> next_id s).
    { intros y oy b l Hy Hb ->. destruct (W1 _ _ Hy) as [_ [_ K _]].
      apply K in Hb as [? Hb]. congruence. }
    assert (Hnew : forall y oy b l,
      <[x:=with_slot a (Some (next_id s)) o]> (nodes s) !! y = Some oy -> get_slot b oy = Some l ->
      (y = x /\ b = a /\ l = next_id s) \/
      (exists oy', nodes s !! y = Some oy' /\ get_slot b oy' = Some l)).
    { intros y oy b l Hy Hb. destruct (decide (x = y)) as [->|Hne].
      - rewrite lookup_insert in Hy. injection Hy as <-.
        destruct a, b; simpl in Hb; simplify_eq; try (left; done);
        right; exists o; done.
      - rewrite lookup_insert_ne in Hy by done. right. eauto. }
    intros y z oy oz b c l Hy Hz Hb Hc.
    destruct (Hnew _ _ _ _ Hy Hb) as [(-> & -> & ->)|(oy' & Hy' & Hb')];
    destruct (Hnew _ _ _ _ Hz Hc) as [(-> & -> & El)|(oz' & Hz' & Hc')]; try done.
    + exfalso. by eapply Hold.
    + exfalso. subst. by eapply Hold.
    + eauto.
Qed.

Lemma safe_lazy_slot a d s self o :
  nodes s !! self = Some o -> NoDup (dkeys d) -> Forall (eok s) d ->
  safe s (let! l := alloc_dict d in do! modify self (with_slot a (Some l)) in ret l)
    (fun l s' => is_Some (dicts s' !! l) /\ (exists o', nodes s' !! self = Some o' /\ get_slot a o' = Some l)).
Proof.
  intros Ho ND Hd W. unfold bind, alloc_dict, modify. simpl. rewrite Ho. simpl.
  destruct (alloc_slot_wf s self o a d W Ho ND Hd) as [W' E].
  split; [done|]. split; [done|]. split; [by rewrite lookup_insert|].
  exists (with_slot a (Some (next_id s)) o). rewrite lookup_insert. by destruct a.
Qed.

Lemma dicts_of_slot s x o a l :
  wf s -> nodes s !! x = Some o -> get_slot a o = Some l -> is_Some (dicts s !! l).
Proof. intros W H1 H2. destruct (wf_nodes _ W _ _ H1) as [_ [_ K _]]. eauto. Qed.

Ltac sload H := 
  eapply safe_bind; [apply safe_load; exact H|]; 
  let o := fresh "o" in let Ho := fresh "Ho" in
  intros o ? ? _ [-> Ho].

Lemma safe_storage_of s self : live s self ->
  safe s (storage_of self) (fun l s' => is_Some (dicts s' !! l)).
Proof.
  intros Hl. unfold storage_of.
  sload Hl. destruct (_ || _); [|by apply safe_raise].
  destruct (o_storage o) as [l|] eqn:E.
  - apply safe_ret. by eapply (dicts_of_slot s self o SStorage).
  - eapply safe_weaken; [eapply (safe_lazy_slot SStorage []); [exact Ho|constructor|constructor]|].
    intros ? ? ? ? [? _]. done.
Qed.
Lemma safe_cache_of s self : live s self ->
  safe s (cache_of self) (fun l s' => is_Some (dicts s' !! l)).
Proof.
  intros Hl. unfold cache_of. sload Hl.
  destruct (o_cache o) as [l|] eqn:E.
  - apply safe_ret. by eapply (dicts_of_slot s self o SCache).
  - eapply safe_weaken; [eapply (safe_lazy_slot SCache []); [exact Ho|constructor|constructor]|].
    intros ? ? ? ? [? _]. done.
Qed.
Lemma safe_nodespaces_of s self : live s self ->
  safe s (nodespaces_of self) (fun l s' => is_Some (dicts s' !! l)).
Proof.
  intros Hl. unfold nodespaces_of. sload Hl.
  destruct (o_nodespaces o) as [l|] eqn:E.
  - apply safe_ret. by eapply (dicts_of_slot s self o SNodespaces).
  - eapply safe_weaken; [eapply (safe_lazy_slot SNodespaces [_]); [exact Ho|apply NoDup_singleton|]|].
    + constructor; [|constructor]. done.
    + intros ? ? ? ? [? _]. done.
Qed.
Lemma safe_fixed_of s self : live s self ->
  safe s (fixed_of self) (fun l s' => is_Some (dicts s' !! l)).
Proof.
  intros Hl. unfold fixed_of. sload Hl.
  destruct (o_children o) as [l|] eqn:E; [|by apply safe_raise].
  apply safe_ret. by eapply (dicts_of_slot s self o SChildren).
Qed.
Lemma safe_index_of s self : live s self ->
  safe s (index_of self) (fun l s' => s' = s /\ is_Some (idxs s' !! l)).
Proof.
  intros Hl. unfold index_of. sload Hl.
  destruct (o_index o) as [l|] eqn:E; [|by apply safe_raise].
  apply safe_ret. split; [done|]. destruct (wf_nodes _ H _ _ Ho) as [_ [_ _ K]]. eauto.
Qed.

(** Dicts and indexes. *)
Lemma write_dict_wf s l d :
  wf s -> is_Some (dicts s !! l) -> NoDup (dkeys d) -> Forall (eok s) d ->
  wf (set_dicts <[l := d]> s) /\ ext s (set_dicts <[l := d]> s).
Proof.
  intros W [d0 H0] ND Hd. pose proof W as [W1 W2 W3 W4].
  assert (E : ext s (set_dicts <[l := d]> s)).
  { constructor; simpl; eauto; try lia. intros l' Hl'. destruct (decide (l' = l)) as [->|].
    - by rewrite lookup_insert. - by rewrite lookup_insert_ne. }
  split; [|done]. constructor; simpl.
  - intros x o Ho. destruct (W1 _ _ Ho). split; [done|]. eapply ext_obj_ok; eauto.
  - intros l' d' Hl'. destruct (decide (l = l')) as [->|].
    + rewrite lookup_insert in Hl'. injection Hl' as <-. destruct (W2 _ _ H0) as (? & _ & _). done.
    + rewrite lookup_insert_ne in Hl' by done. destruct (W2 _ _ Hl') as (? & ? & F). done.
  - intros i m Hi. destruct (W3 _ _ Hi). split; done.
  - done.
Qed.
Lemma safe_write_dict s l d :
  is_Some (dicts s !! l) -> NoDup (dkeys d) -> Forall (eok s) d ->
  safe s (write_dict l d) (fun _ _ => True).
Proof. intros H ND Hd W. simpl. destruct (write_dict_wf s l d W H ND Hd). done. Qed.

Lemma Forall_dset s k v (d : list (key * val)) :
  Forall (eok s) d -> vok s v -> hashable k = true -> Forall (eok s) (dset k v d).
Proof.
  intros F Hv Hk. induction d as [|[k' v'] d IH]; simpl; [repeat constructor; done|].
  apply Forall_cons in F as [F1 F2]. case_decide; subst; constructor; auto. by split.
Qed.
Lemma Forall_ddel (P : key * val -> Prop) k (d : list (key * val)) :
  Forall P d -> Forall P (ddel k d).
Proof.
  intros F. induction d as [|[k' v'] d IH]; simpl; [constructor|].
  apply Forall_cons in F as [F1 F2]. case_decide; [done|]. constructor; auto.
Qed.

Lemma safe_dict_get s l k : is_Some (dicts s !! l) ->
  safe s (dict_get l k) (fun v s' => vok s' v).
Proof.
  intros H. unfold dict_get. destruct (hashable k); [|by apply safe_raise].
  eapply safe_bind; [apply safe_read_dict; done|]. intros d s' W E [-> Hd].
  destruct (dget k d) eqn:Eg; [|by apply safe_raise]. apply safe_ret.
  destruct (wf_dicts _ W _ _ Hd) as (_ & _ & F). rewrite Forall_forall in F.
  apply dget_Some_in in Eg. apply F in Eg; by destruct Eg.
Qed.
Lemma safe_dict_set s l k v : is_Some (dicts s !! l) -> vok s v ->
  safe s (dict_set l k v) (fun _ _ => True).
Proof.
  intros H Hv. unfold dict_set. destruct (hashable k) eqn:Hk; [|by apply safe_raise].
  eapply safe_bind; [apply safe_read_dict; done|]. intros d s' W E [-> Hd].
  destruct (wf_dicts _ W _ _ Hd) as (_ & ND & F).
  apply safe_write_dict; [done|by apply NoDup_dset|by apply Forall_dset].
Qed.
Lemma safe_dict_del s l k : is_Some (dicts s !! l) ->
  safe s (dict_del l k) (fun _ _ => True).
Proof.
  intros H. unfold dict_del. destruct (hashable k); [|by apply safe_raise].
  eapply safe_bind; [apply safe_read_dict; done|]. intros d s' W E [-> Hd].
  destruct (wf_dicts _ W _ _ Hd) as (_ & ND & F).
  destruct (dget k d) eqn:Eg; [|by apply safe_raise].
  apply safe_write_dict; [done|by apply NoDup_ddel|by apply Forall_ddel].
Qed.

Lemma safe_write_idx s i m :
  is_Some (idxs s !! i) -> (forall u y, m !! u = Some y -> live s y) ->
  safe s (write_idx i m) (fun _ _ => True).
Proof.
  intros [m0 H0] Hm W. simpl. pose proof W as [W1 W2 W3 W4].
  assert (E : ext s (set_idxs <[i := m]> s)).
  { constructor; simpl; eauto; try lia. intros l' Hl'. destruct (decide (l' = i)) as [->|].
    - by rewrite lookup_insert. - by rewrite lookup_insert_ne. }
  split; [|done]. constructor; simpl.
  - intros x o Ho. destruct (W1 _ _ Ho). split; [done|]. eapply ext_obj_ok; eauto.
  - intros l' d' Hl'. destruct (W2 _ _ Hl') as (? & ? & F). done.
  - intros i' m' Hi. destruct (decide (i = i')) as [->|].
    + rewrite lookup_insert in Hi. injection Hi as <-. destruct (W3 _ _ H0) as (? & _). done.
    + rewrite lookup_insert_ne in Hi by done. destruct (W3 _ _ Hi). done.
  - done.
Qed.
Lemma safe_alloc_idx s m :
  (forall u y, m !! u = Some y -> live s y) ->
  safe s (alloc_idx m) (fun i s' => is_Some (idxs s' !! i)).
Proof.
  intros Hm W. simpl. pose proof W as [W1 W2 W3 W4].
  assert (E : ext s (set_next_id S (set_idxs <[next_id s := m]> s))).
  { constructor; simpl; eauto; try lia. intros l' Hl'. destruct (decide (l' = next_id s)) as [->|].
    - by rewrite lookup_insert. - by rewrite lookup_insert_ne. }
  split; [|split; [done|by rewrite lookup_insert]]. constructor; simpl.
  - intros x o Ho. destruct (W1 _ _ Ho). split; [lia|]. eapply ext_obj_ok; eauto.
  - intros l' d' Hl'. destruct (W2 _ _ Hl') as (? & ? & F). split; [lia|]. done.
  - intros i' m' Hi. destruct (decide (next_id s = i')) as [<-|].
    + rewrite lookup_insert in Hi. injection Hi as <-. split; [lia|]. done.
    + rewrite lookup_insert_ne in Hi by done. destruct (W3 _ _ Hi). split; [lia|]. done.
  - done.
Qed.
Lemma safe_alloc_node s o :
  obj_ok s o -> (forall a, get_slot a o = None) ->
  safe s (alloc_node o) (fun x s' => nodes s' !! x = Some o /\ nodes s !! x = None).
Proof.
  intros Hok Hn W. simpl. pose proof W as [W1 W2 W3 W4].
  assert (Hfr : nodes s !! next_id s = None).
  { destruct (nodes s !! next_id s) eqn:E; [|done]. apply W1 in E as [? _]. lia. }
  assert (E : ext s (set_next_id S (set_nodes <[next_id s := o]> s))).
  { constructor; simpl; eauto; try lia. intros x ox Hx.
    rewrite lookup_insert_ne by congruence. eauto. }
  split; [|split; [done|split; [by rewrite lookup_insert|done]]]. constructor; simpl.
  - intros x ox Hx. destruct (decide (x = next_id s)) as [->|].
    + rewrite lookup_insert in Hx. injection Hx as <-. split; [lia|]. eapply ext_obj_ok; eauto.
    + rewrite lookup_insert_ne in Hx by done. destruct (W1 _ _ Hx). split; [lia|].
      eapply ext_obj_ok; eauto.
  - intros l' d' Hl'. destruct (W2 _ _ Hl') as (? & ? & F). split; [lia|]. split; [done|].
    eapply Forall_impl; [exact F|]. intros e He. by eapply ext_eok.
  - intros i' m' Hi. destruct (W3 _ _ Hi). split; [lia|]. intros. eapply ext_live; eauto.
  - intros y z oy oz a b l Hy Hz Ha Hb.
    destruct (decide (y = next_id s)) as [->|].
    { rewrite lookup_insert in Hy. injection Hy as <-. by rewrite Hn in Ha. }
    destruct (decide (z = next_id s)) as [->|].
    { rewrite lookup_insert in Hz. injection Hz as <-. by rewrite Hn in Hb. }
    rewrite lookup_insert_ne in Hy, Hz by done. eauto.
Qed.

(** Updates that leave nodes, dicts and indexes alone. *)
Lemma safe_misc {A} s (m : M A) a s' (Q : A -> st -> Prop) :
  m s = (Ret a, s') -> nodes s' = nodes s -> dicts s' = dicts s -> idxs s' = idxs s ->
  next_id s' = next_id s -> classes s' = classes s -> (next_uuid s <= next_uuid s')%N -> Q a s' -> safe s m Q.
Proof.
  intros Hm H1 H2 H3 H4 H5 H6 HQ W. rewrite Hm. simpl.
  assert (E : ext s s').
  { constructor; rewrite ?H1, ?H2, ?H3, ?H4, ?H5; eauto. }
  split; [|done]. destruct W as [W1 W2 W3 W4].
  constructor; rewrite ?H1, ?H2, ?H3, ?H4.
  - intros x o Hx. destruct (W1 _ _ Hx). split; [done|]. eapply ext_obj_ok; eauto.
  - intros l d Hl. destruct (W2 _ _ Hl) as (? & ? & F). split; [done|]. split; [done|].
    eapply Forall_impl; [exact F|]. intros e He. by eapply ext_eok.
  - intros i m' Hi. destruct (W3 _ _ Hi). split; [done|]. intros. eapply ext_live; eauto.
  - done.
Qed.
Lemma safe_uuid4 s : safe s uuid4 (fun u s' => (u < next_uuid s')%N).
Proof. eapply safe_misc; try done; simpl; lia. Qed.
Lemma safe_saw_uuid s u : safe s (saw_uuid u) (fun _ s' => forall n, u = Some n -> (n < next_uuid s')%N).
Proof.
  destruct u; [eapply safe_misc; try done; simpl; [lia|intros ? [= <-]; lia]|]. intros W. simpl. split; [done|]. split; [apply ext_refl|done].
Qed.
Lemma safe_notify s e : safe s (notify e) (fun _ _ => True).
Proof. by eapply safe_misc. Qed.
Lemma safe_fb_enter s : safe s fb_enter (fun _ _ => True).
Proof. by eapply safe_misc. Qed.
Lemma safe_fb_exit s (P : st -> Prop) : (forall s', nodes s' = nodes s -> P s') -> safe s fb_exit (fun _ s' => P s').
Proof. intros H. eapply safe_misc; try done. by apply H. Qed.
Lemma safe_get_class s cn : safe s (get_class cn) (fun c s' => s' = s /\ classes s !! cn = Some c).
Proof.
  intros W. unfold get_class. destruct (classes s !! cn) eqn:E; simpl; eauto using ext_refl.
Qed.
Lemma safe_with_fuel {A} s (f : nat -> M A) Q :
  (forall n, safe s (f n) Q) -> safe s (with_fuel f) Q.
Proof. intros H W. unfold with_fuel. by apply H. Qed.
