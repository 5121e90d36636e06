(** Effect of creating a node. *)
From Verif Require Import Py Odict OdictFacts Aliaser Heap Model MonadFacts WF WFOps Views
  SpecMapping MappingProofs StorageProofs TreeOps SetEff DelEff DetachEff.

(** creation is modelled exactly for these *)
Definition new_class (bs : list behavior) : bool :=
  tree_class bs && hasc DefaultInit bs && negb (hasc UUIDAware bs) && bool_decide (occ Reference bs <= 1).

Definition fresh_view (c : classdef) (name : key) (parent : option nat) (i : option nat) (u : option N) (x : nat) : view :=
  View c name parent [] [] None (ns_default x) i u (c_allow c) false (c_fallback c).

Record init_eff (bs : list behavior) (x : nat) (name : key) (parent : option nat) (s s' : st) : Prop := InitEff {
  in_wf : wf s';
  in_other : forall y, y <> x -> views s' !! y = views s !! y;
  in_self : forall w, views s !! x = Some w -> exists i u,
     views s' !! x = Some (View (w_cls w) name parent (w_ent w) (w_cache w) (w_fixed w) (w_ns w) i u (w_allow w) (w_suppress w) (w_fallback w))
     /\ if hasc Reference bs then
          exists j, i = Some j /\ u = Some (next_uuid s) /\ idxs s !! j = None /\
            idxs s' = <[j := {[ Some (next_uuid s) := x ]}]> (idxs s) /\ next_uuid s' = N.succ (next_uuid s)
        else i = w_index w /\ u = w_uuid w /\ idxs s' = idxs s /\ next_uuid s' = next_uuid s;
  in_log : log s' = log s ++ replicate (occ Lifecycle bs) (EvCreated x);
  in_fb : fbcount s' = fbcount s;
  in_classes : classes s' = classes s
}.

Lemma init_stack_eff mk all : forall bs s x name parent,
  wf s -> live s x -> (forall p, parent = Some p -> live s p) ->
  hasc DefaultInit all = true -> forallb tree_beh bs = true -> hasc UUIDAware bs = false ->
  occ Reference bs <= 1 -> (0 < next_uuid s)%N ->
  exists s', init_stack mk all bs name parent x s = (Ret tt, s') /\ init_eff bs x name parent s s'.
Proof.
  induction bs as [|b bs IH]; intros s x name parent W Hl Hp Hd Hb Hu Ho Hn; simpl.
  - unfold init_endpoint. rewrite Hd.
    destruct (modify_name_eff s x name) as (s1 & E1 & W1 & T1); [done|done|].
    rewrite (bind_Ret _ _ _ _ _ E1).
    destruct (modify_parent_eff s1 x parent) as (s2 & E2 & W2 & T2).
    { by rewrite (touched_live _ _ _ _ _ T1). } { done. } { intros q Hq. rewrite (touched_live _ _ _ _ _ T1). auto. }
    rewrite E2. exists s2. split; [done|].
    destruct T1 as [(w1 & Hw1 & V1) I1 U1 L1 F1 C1]. destruct T2 as [(w2 & Hw2 & V2) I2 U2 L2 F2 C2].
    rewrite V1, lookup_insert in Hw2. injection Hw2 as <-.
    constructor; try congruence.
    + intros y Hy. by rewrite V2, lookup_insert_ne, V1, lookup_insert_ne.
    + intros w Hw. rewrite Hw in Hw1. injection Hw1 as ->. exists (w_index w1), (w_uuid w1).
      rewrite V2, lookup_insert. split; [done|]. unfold hasc. simpl. repeat split; congruence.
    + unfold occ. simpl. rewrite app_nil_r. congruence.
  - simpl in Hb. apply andb_prop in Hb as [Hb1 Hb2].
    assert (Hu' : hasc UUIDAware bs = false /\ b <> UUIDAware).
    { rewrite hasc_cons in Hu. apply orb_false_iff in Hu as [K1 K2]. apply bool_decide_eq_false in K1. split; [done|congruence]. }
    destruct Hu' as [Hu' Hbu].
    assert (Ho' : occ Reference bs <= 1).
    { unfold occ in *. rewrite filter_cons in Ho. destruct (decide _); simpl in *; lia. }
    destruct (decide (b = Lifecycle)) as [->|Hnl]; [|destruct (decide (b = Reference)) as [->|Hnr]].
    + destruct (IH s x name parent) as (s1 & E1 & D1); try done.
      cbn [init_stage]. rewrite (bind_Ret _ _ _ _ _ E1). unfold notify. eexists. split; [reflexivity|].
      assert (EL : occ Lifecycle (Lifecycle :: bs) = S (occ Lifecycle bs)) by (unfold occ; by rewrite filter_cons, decide_True).
      assert (ER : hasc Reference (Lifecycle :: bs) = hasc Reference bs) by (by rewrite hasc_cons).
      destruct D1. constructor; rewrite ?ER; try done.
      * by destruct (safe_notify s1 (EvCreated x) in_wf0) as [? _].
      * rewrite EL. change (log (set_log (fun l => l ++ [EvCreated x]) s1)) with (log s1 ++ [EvCreated x]). rewrite in_log0, <- app_assoc. f_equal.
        change ([EvCreated x]) with (replicate 1 (EvCreated x)). rewrite <- replicate_add. f_equal. lia.
    + cbn [init_stage].
      assert (Hnr : hasc Reference bs = false).
      { apply hasc_occ. unfold occ in Ho. rewrite filter_cons, decide_True in Ho by done. simpl in Ho. unfold occ. lia. }
      set (s1 := set_next_id S (set_idxs <[next_id s := ∅]> s)).
      assert (E1 : alloc_idx ∅ s = (Ret (next_id s), s1)) by done.
      rewrite (bind_Ret _ _ _ _ _ E1).
      assert (W1 : wf s1). { apply (safe_alloc_idx s ∅); [|done]. intros u' y. by rewrite lookup_empty. }
      assert (Hfresh : idxs s !! next_id s = None).
      { destruct (idxs s !! next_id s) as [m|] eqn:E; [|done]. destruct (wf_idxs _ W _ _ E). lia. }
      destruct (modify_index_eff s1 x (next_id s)) as (s2 & E2 & W2 & T2); [done|done|by simpl; rewrite lookup_insert|].
      rewrite (bind_Ret _ _ _ _ _ E2).
      set (u := next_uuid s2).
      assert (E3 : uuid4 s2 = (Ret u, set_next_uuid N.succ s2)) by done.
      rewrite (bind_Ret _ _ _ _ _ E3). set (s3 := set_next_uuid N.succ s2) in *.
      destruct T2 as [(w2 & Hw2 & V2) I2 U2 L2 F2 C2].
      change (views s1) with (views s) in *.
      assert (Hu3 : u = next_uuid s) by (unfold u; by rewrite U2).
      assert (W3 : wf s3) by (by destruct (safe_uuid4 s2 W2) as [? _]).
      assert (V3 : views s3 !! x = Some (vw_index (Some (next_id s)) w2)) by (change (views s3) with (views s2); by rewrite V2, lookup_insert).
      assert (I3 : idxs s3 !! next_id s = Some ∅) by (change (idxs s3) with (idxs s2); rewrite I2; simpl; by rewrite lookup_insert).
      (* set_uuid *)
      unfold set_uuid. rewrite bind_assoc.
      destruct (load_view _ _ _ V3) as (o & Hload & Hob & Hwo).
      unfold index_of. rewrite bind_assoc, (bind_Ret _ _ _ _ _ Hload).
      assert (o_index o = Some (next_id s)) as -> by (exact (f_equal w_index Hwo)).
      rewrite (bind_Ret (ret (next_id s)) _ _ _ _ eq_refl).
      assert (E4 : read_idx (next_id s) s3 = (Ret ∅, s3)) by (unfold read_idx; by rewrite I3).
      rewrite bind_assoc, (bind_Ret _ _ _ _ _ E4). rewrite lookup_empty.
      rewrite bind_assoc, (bind_Ret _ _ _ _ _ Hload). rewrite delete_empty.
      assert (Hiu : iuuid (Some u) = Some u). { unfold iuuid. rewrite decide_False; [done|]. rewrite Hu3. lia. }
      rewrite Hiu.
      set (s4 := set_idxs <[next_id s := <[Some u := x]> ∅]> s3).
      assert (E5 : write_idx (next_id s) (<[Some u := x]> ∅) s3 = (Ret tt, s4)) by done.
      rewrite bind_assoc, (bind_Ret _ _ _ _ _ E5).
      assert (W4 : wf s4).
      { apply (safe_write_idx s3 (next_id s) (<[Some u := x]> ∅)); [eauto| |done].
        intros k y [[<- <-]|[_ Hy]]%lookup_insert_Some; [|by rewrite lookup_empty in Hy]. apply views_live. eauto. }
      set (s5 := set_next_uuid (N.max (N.succ u)) s4).
      assert (E7 : saw_uuid (Some u) s4 = (Ret tt, s5)) by done.
      rewrite bind_assoc, (bind_Ret _ _ _ _ _ E7).
      assert (W5 : wf s5) by (by destruct (safe_saw_uuid s4 (Some u) W4) as [? _]).
      destruct (modify_uuid_eff s5 x (Some u)) as (s6 & E6 & W6 & T5); [apply views_live; change (views s5) with (views s3); eauto|done|intros ? [= <-]; simpl; lia|].
      rewrite (bind_Ret _ _ _ _ _ E6).
      destruct T5 as [(w5 & Hw5 & V5) I5 U5 L5 F5 C5]. change (views s5) with (views s3) in *.
      rewrite V3 in Hw5. injection Hw5 as <-.
      destruct (IH s6 x name parent) as (s7 & E8 & D8); try done.
      { apply views_live. rewrite V5, lookup_insert. eauto. }
      { intros p Hp'. apply views_live. rewrite V5.
        apply views_live in Hl as [wl Hl']. specialize (Hp p Hp'). apply views_live in Hp.
        destruct (decide (x = p)) as [<-|]; [rewrite lookup_insert; eauto|]. rewrite lookup_insert_ne by done.
        change (views s3) with (views s2). rewrite V2, lookup_insert_ne by done. done. }
      { rewrite U5. simpl. lia. }
      exists s7. split; [done|].
      assert (N6 : next_uuid s6 = N.succ (next_uuid s)).
      { rewrite U5. simpl. rewrite Hu3, U2. simpl. lia. }
      assert (ER : hasc Reference (Reference :: bs) = true) by (by rewrite hasc_cons, bool_decide_eq_true_2).
      destruct D8. constructor; rewrite ?ER.
      * done.
      * intros y Hy. rewrite in_other0 by done. rewrite V5, lookup_insert_ne by done.
        change (views s3) with (views s2). by rewrite V2, lookup_insert_ne.
      * intros w Hw. rewrite Hw in Hw2. injection Hw2 as <-.
        destruct (in_self0 (vw_uuid (Some u) (vw_index (Some (next_id s)) w))) as (i & u' & Hv & Hx).
        { by rewrite V5, lookup_insert. }
        rewrite Hnr in Hx. destruct Hx as (-> & -> & Hx1 & Hx2). eexists _, _. split; [exact Hv|]. simpl.
        exists (next_id s). rewrite Hu3. split; [done|]. split; [done|]. split; [done|]. split; [|congruence].
        rewrite Hx1. rewrite I5. unfold s5, s4. simpl. rewrite I2. simpl. rewrite insert_insert, Hu3. done.
      * rewrite in_log0. rewrite L5. change (log s5) with (log s2). rewrite L2. reflexivity.
      * rewrite in_fb0. rewrite F5. change (fbcount s5) with (fbcount s2). by rewrite F2.
      * rewrite in_classes0. rewrite C5. change (classes s5) with (classes s2). by rewrite C2.
    + destruct (IH s x name parent) as (s1 & E1 & D1); try done.
      exists s1. split; [by destruct b|].
      assert (EL : occ Lifecycle (b :: bs) = occ Lifecycle bs) by (unfold occ; by rewrite filter_cons, decide_False).
      assert (ER : hasc Reference (b :: bs) = hasc Reference bs) by (by rewrite hasc_cons, bool_decide_eq_false_2).
      destruct D1. constructor; rewrite ?ER, ?EL; done.
Qed.

Record new_eff (c : classdef) (name : key) (parent : option nat) (s : st) (x : nat) (s' : st) : Prop := NewEff {
  nw_id : x = next_id s;
  nw_wf : wf s';
  nw_fresh : views s !! x = None;
  nw_other : forall y, y <> x -> views s' !! y = views s !! y;
  nw_self : exists i u, views s' !! x = Some (fresh_view c name parent i u x)
     /\ if hasc Reference (c_behs c) then
          exists j, i = Some j /\ u = Some (next_uuid s) /\ idxs s !! j = None /\
            idxs s' = <[j := {[ Some (next_uuid s) := x ]}]> (idxs s) /\ next_uuid s' = N.succ (next_uuid s)
        else i = None /\ u = None /\ idxs s' = idxs s /\ next_uuid s' = next_uuid s;
  nw_log : log s' = log s ++ replicate (occ Lifecycle (c_behs c)) (EvCreated x);
  nw_fb : fbcount s' = fbcount s;
  nw_classes : classes s' = classes s
}.

Theorem new_node_eff s cn c name parent :
  wf s -> classes s !! cn = Some c -> new_class (c_behs c) = true ->
  (forall p, parent = Some p -> live s p) -> (0 < next_uuid s)%N ->
  exists x s', new_node cn name parent s = (Ret x, s') /\ new_eff c name parent s x s'.
Proof.
  intros W Hc Hn Hp Hu. unfold new_class in Hn.
  apply andb_prop in Hn as [Hn H4]. apply andb_prop in Hn as [Hn H3]. apply andb_prop in Hn as [H1 H2].
  apply bool_decide_eq_true in H4. apply negb_true_iff in H3. apply tree_class_inv in H1 as [H1 _].
  unfold new_node. cbn [instantiate].
  assert (E0 : get_class cn s = (Ret c, s)) by (unfold get_class; by rewrite Hc).
  rewrite (bind_Ret _ _ _ _ _ E0).
  set (s1 := set_next_id S (set_nodes <[next_id s := blank c]> s)).
  assert (E1 : alloc_node (blank c) s = (Ret (next_id s), s1)) by done.
  rewrite (bind_Ret _ _ _ _ _ E1).
  assert (Hfn : nodes s !! next_id s = None).
  { destruct (nodes s !! next_id s) as [m|] eqn:E; [|done]. destruct (wf_nodes _ W _ _ E). lia. }
  assert (Wx : wf s1 /\ ext s s1).
  { destruct (safe_alloc_node s (blank c)) as (K1 & K2 & _); [constructor; try done; intros []; done|by intros []|done|].
    by rewrite E1 in K1, K2. }
  destruct Wx as [W1 X1].
  assert (V1 : views s1 = <[next_id s := fresh_view c KNone None None None (next_id s)]> (views s)).
  { apply map_eq. intros y. rewrite views_lookup. simpl. destruct (decide (next_id s = y)) as [<-|].
    - by rewrite !lookup_insert.
    - rewrite !lookup_insert_ne by done. rewrite views_lookup. done. }
  destruct (init_stack_eff (fun cn0 => instantiate (size (classes s)) cn0 KNone None) (c_behs c) (c_behs c) s1 (next_id s) name parent)
    as (s2 & E2 & D2); try done.
  { apply views_live. rewrite V1, lookup_insert. eauto. }
  { intros p Hp'. eapply ext_live; [exact X1|]. by apply Hp. }
  rewrite (bind_Ret _ _ _ _ _ E2). exists (next_id s), s2. split; [done|].
  destruct D2. constructor; try done.
  - rewrite views_lookup, Hfn. done.
  - intros y Hy. rewrite in_other0 by done. by rewrite V1, lookup_insert_ne.
  - destruct (in_self0 (fresh_view c KNone None None None (next_id s))) as (i & u & Hv & Hx); [by rewrite V1, lookup_insert|].
    exists i, u. split; [exact Hv|]. exact Hx.
Qed.
