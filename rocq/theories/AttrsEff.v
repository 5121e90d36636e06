(** What reading [attrs] changes. *)
From Verif Require Import Py Odict OdictFacts Aliaser Heap Model MonadFacts WF WFOps Views TreeOps SetEff NewEff.

Notation attrs_key := (KStr "__attrs__").

Lemma with_attrs_spec bs : Attributes ∈ bs -> Nodespaces ∈ bs -> with_attrs bs = true.
Proof. intros H1 H2. unfold with_attrs, hasc. by rewrite !bool_decide_eq_true_2. Qed.
Lemma attrs_none s x w : views s !! x = Some w -> with_attrs (c_behs (w_cls w)) = false -> attrs_of x s = (Exc AttributeError, s).
Proof. intros Hw Ha. destruct (load_view _ _ _ Hw) as (o & Ho & Hn & Hv). unfold attrs_of. rewrite (bind_load _ _ _ _ Hn). rewrite <- Hv in Ha. simpl in Ha. by rewrite Ha. Qed.
Lemma attrs_refused s x w : wf s -> views s !! x = Some w -> with_attrs (c_behs (w_cls w)) = false ->
  exists e s', attrs_of x s = (Exc e, s') /\ eqv s s' /\ wf s'.
Proof. intros W Hw Ha. exists AttributeError, s. split; [by apply (attrs_none s x w)|]. split; [apply eqv_refl|done]. Qed.
Lemma attrs_some s x w : views s !! x = Some w -> with_attrs (c_behs (w_cls w)) = true -> attrs_of x s =
  (let! l := nodespaces_of x in
    try_catch (dict_get l attrs_key) is_key_error
      (fun _ => let! a := new_node (c_attrs_factory (w_cls w)) attrs_key (Some x) in
         let! l := nodespaces_of x in
         do! dict_set l attrs_key (VNode a) in
         ret (VNode a))) s.
Proof. intros Hw Ha. destruct (load_view _ _ _ Hw) as (o & Ho & Hn & Hv). unfold attrs_of. rewrite (bind_load _ _ _ _ Hn). rewrite <- Hv in *. simpl in *. by rewrite Ha. Qed.
Lemma attrs_found s x w v : wf s -> views s !! x = Some w -> with_attrs (c_behs (w_cls w)) = true -> dget attrs_key (w_ns w) = Some v ->
  exists s', attrs_of x s = (Ret v, s') /\ eqv s s' /\ wf s'.
Proof.
  intros W Hw Ha Hv. destruct (ns_slot s x w W Hw) as (l & s1 & E1 & Q1 & W1 & o1 & Ho1 & Hs1 & Hc1).
  exists s1. split; [|done]. rewrite (attrs_some s x w Hw Ha), (bind_Ret _ _ _ _ _ E1). unfold try_catch.
  rewrite (dict_get_eff _ _ _ _ _ attrs_key W1 Ho1 Hs1).
  assert (view_of s1 x o1 = w) as ->. { pose proof (nodes_views _ _ _ Ho1) as H. rewrite (e_views _ _ Q1), Hw in H. by injection H. }
  simpl. by rewrite Hv.
Qed.

Record attrs_eff (c : classdef) (x a : nat) (s s' : st) : Prop := AttrsEff {
  ae_wf : wf s';
  ae_fresh : views s !! a = None;
  ae_other : forall y, y <> a -> y <> x -> views s' !! y = views s !! y;
  ae_self : exists w, views s !! x = Some w /\ views s' !! x = Some (vw_ns (dset attrs_key (VNode a) (w_ns w)) w);
  ae_new : exists i u, views s' !! a = Some (fresh_view c attrs_key (Some x) i u a)
     /\ if hasc Reference (c_behs c) then
          exists j, i = Some j /\ u = Some (next_uuid s) /\ idxs s !! j = None /\
            idxs s' = <[j := {[ Some (next_uuid s) := a ]}]> (idxs s) /\ next_uuid s' = N.succ (next_uuid s)
        else i = None /\ u = None /\ idxs s' = idxs s /\ next_uuid s' = next_uuid s;
  ae_log : log s' = log s ++ replicate (occ Lifecycle (c_behs c)) (EvCreated a);
  ae_fb : fbcount s' = fbcount s;
  ae_classes : classes s' = classes s
}.
Lemma attrs_missing s x w c : wf s -> views s !! x = Some w -> with_attrs (c_behs (w_cls w)) = true -> dget attrs_key (w_ns w) = None ->
  classes s !! c_attrs_factory (w_cls w) = Some c -> new_class (c_behs c) = true -> (0 < next_uuid s)%N ->
  exists a s', attrs_of x s = (Ret (VNode a), s') /\ attrs_eff c x a s s'.
Proof.
  intros W Hw Ha Hv Hc Hn Hu. destruct (ns_slot s x w W Hw) as (l & s1 & E1 & Q1 & W1 & o1 & Ho1 & Hs1 & Hc1).
  rewrite (attrs_some s x w Hw Ha), (bind_Ret _ _ _ _ _ E1). unfold try_catch.
  rewrite (dict_get_eff _ _ _ _ _ attrs_key W1 Ho1 Hs1).
  assert (view_of s1 x o1 = w) as ->. { pose proof (nodes_views _ _ _ Ho1) as H. rewrite (e_views _ _ Q1), Hw in H. by injection H. }
  simpl. rewrite Hv. simpl.
  destruct (new_node_eff s1 (c_attrs_factory (w_cls w)) c attrs_key (Some x) W1) as (a & s2 & E2 & N).
  { by rewrite (e_classes _ _ Q1). } { done. } { intros p [= <-]. by eexists. } { by rewrite (e_uuid _ _ Q1). }
  rewrite (bind_Ret _ _ _ _ _ E2). destruct N as [-> W2 Nf No (i & u & Ns & Ni) Nl Nfb Nc]. rewrite (e_views _ _ Q1) in *.
  assert (Hxa : x <> next_id s1) by congruence. pose proof (No x Hxa) as Hx2. rewrite Hw in Hx2.
  destruct (ns_slot s2 x w W2 Hx2) as (l3 & s3 & E3 & Q3 & W3 & o3 & Ho3 & Hs3 & Hc3). rewrite (bind_Ret _ _ _ _ _ E3).
  destruct (dict_set_eff s3 x o3 SNodespaces l3 attrs_key (VNode (next_id s1)) W3 Ho3 Hs3) as (s4 & E4 & W4 & Wr); [|done|].
  { simpl. apply views_live. rewrite (e_views _ _ Q3), Ns. by eexists. }
  rewrite (bind_Ret _ _ _ _ _ E4). exists (next_id s1), s4. split; [done|].
  assert (view_of s3 x o3 = w) as E. { pose proof (nodes_views _ _ _ Ho3) as H. rewrite (e_views _ _ Q3), Hx2 in H. by injection H. }
  rewrite E in Wr. simpl in Wr. destruct Wr as [(w' & Hw' & Hv4) Wi Wu Wl Wf Wc]. rewrite (e_views _ _ Q3) in *. rewrite Hx2 in Hw'. injection Hw' as <-.
  constructor; try done.
  - intros y Hy1 Hy2. rewrite Hv4, lookup_insert_ne by done. by apply No.
  - exists w. split; [done|]. by rewrite Hv4, lookup_insert.
  - exists i, u. rewrite Hv4, lookup_insert_ne by done. split; [done|]. rewrite Wi, Wu, (e_idxs _ _ Q3), (e_uuid _ _ Q3), <- (e_idxs _ _ Q1), <- (e_uuid _ _ Q1).
    done.
  - rewrite Wl, (e_log _ _ Q3), Nl. by rewrite (e_log _ _ Q1).
  - rewrite Wf, (e_fb _ _ Q3), Nfb. by apply e_fb.
  - rewrite Wc, (e_classes _ _ Q3), Nc. by apply e_classes.
Qed.
Lemma attrs_no_class s x w : wf s -> views s !! x = Some w -> with_attrs (c_behs (w_cls w)) = true -> dget attrs_key (w_ns w) = None ->
  classes s !! c_attrs_factory (w_cls w) = None ->
  exists e s', attrs_of x s = (Exc e, s') /\ eqv s s' /\ wf s'.
Proof.
  intros W Hw Ha Hv Hc. destruct (ns_slot s x w W Hw) as (l & s1 & E1 & Q1 & W1 & o1 & Ho1 & Hs1 & Hc1).
  rewrite (attrs_some s x w Hw Ha), (bind_Ret _ _ _ _ _ E1). unfold try_catch.
  rewrite (dict_get_eff _ _ _ _ _ attrs_key W1 Ho1 Hs1).
  assert (view_of s1 x o1 = w) as ->. { pose proof (nodes_views _ _ _ Ho1) as H. rewrite (e_views _ _ Q1), Hw in H. by injection H. }
  simpl. rewrite Hv. simpl. exists AttributeError, s1. split; [|done].
  unfold new_node, bind. cbn [instantiate]. unfold bind, get_class. by rewrite (e_classes _ _ Q1), Hc.
Qed.
