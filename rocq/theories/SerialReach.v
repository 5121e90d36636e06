(** Serialization keeps states well-formed. *)
From Verif Require Import Py Odict Aliaser Heap Model MonadFacts WF WFOps Views Observe Reach Serializer SpecSerial SerialValues SerialEncode.

Definition keeps {A} (s : st) (m : M A) (Q : A -> st -> Prop) : Prop :=
  wf s -> wf (snd (m s)) /\ ext s (snd (m s)) /\ (forall a, fst (m s) = Ret a -> Q a (snd (m s))).
Lemma keeps_safe {A} s (m : M A) Q : safe s m Q -> keeps s m Q.
Proof. intros H W. destruct (H W) as (W' & E & P). split; [done|]. split; [done|]. intros a Ha. by rewrite Ha in P. Qed.
Lemma keeps_same {A} s (m : M A) (Q : A -> st -> Prop) : (exists r, m s = (r, s) /\ (forall a, r = Ret a -> Q a s)) -> keeps s m Q.
Proof. intros (r & E & H) W. rewrite E. simpl. split; [done|]. split; [apply ext_refl|done]. Qed.
Lemma keeps_ret {A} s (a : A) (Q : A -> st -> Prop) : Q a s -> keeps s (ret a) Q.
Proof. intros H. apply keeps_same. eexists. split; [done|]. by intros ? [= <-]. Qed.
Lemma keeps_raise {A} s e (Q : A -> st -> Prop) : keeps s (raise e) Q.
Proof. apply keeps_same. eexists. split; [done|]. done. Qed.
Lemma keeps_bind {A B} s (m : M A) (f : A -> M B) Q R : keeps s m Q -> (forall a s', ext s s' -> Q a s' -> keeps s' (f a) R) -> keeps s (bind m f) R.
Proof.
  intros Hm Hf W. destruct (Hm W) as (W' & E & P). unfold bind. destruct (m s) as [[a|e] s']; simpl in *.
  - destruct (Hf a s' E (P a eq_refl) W') as (W2 & E2 & P2). eauto using ext_trans.
  - split; [done|]. split; [done|]. done.
Qed.
Lemma keeps_mapM {A B} (f : A -> M B) (P : st -> A -> Prop) l : (forall s s' a, ext s s' -> P s a -> P s' a) ->
  (forall s a, P s a -> keeps s (f a) (fun _ _ => True)) -> forall s, Forall (P s) l -> keeps s (mapM_ f l) (fun _ _ => True).
Proof.
  intros Hst Hf. induction l as [|a l IH]; intros s HP; simpl; [by apply keeps_ret|]. apply Forall_cons in HP as [H1 H2].
  eapply keeps_bind; [by apply Hf|]. intros b s1 E1 _. eapply keeps_bind; [apply IH; eapply Forall_impl; eauto|]. intros. by apply keeps_ret.
Qed.
Lemma keeps_iterM {A} (f : A -> M unit) (P : st -> Prop) l : (forall s s', ext s s' -> P s -> P s') ->
  (forall s a, P s -> keeps s (f a) (fun _ _ => True)) -> forall s, P s -> keeps s (iterM f l) (fun _ _ => True).
Proof.
  intros Hst Hf. induction l as [|a l IH]; intros s HP; simpl; [by apply keeps_ret|].
  eapply keeps_bind; [by apply Hf|]. intros b s1 E1 _. apply IH. eauto.
Qed.
Notation anything := (fun _ _ => True).

(** * Encoder *)
Section encoder.
  Context (enc : val -> M val) (Henc : forall s v, keeps s (enc v) anything).
  Lemma keeps_write l : forall s d, keeps s (write_attrs enc l d) anything.
  Proof. induction l as [|[k v] l IH]; intros s d; simpl; [by apply keeps_ret|]. eapply keeps_bind; [apply Henc|]. intros. apply IH. Qed.
  Lemma keeps_serialize_node s x data : live s x -> keeps s (serialize_node enc x data) anything.
  Proof.
    intros Hl. unfold serialize_node. eapply keeps_bind; [by apply keeps_safe, safe_values|]. intros vs s1 E1 _.
    eapply keeps_bind; [apply keeps_mapM with (P := fun _ _ => True); [done|intros; apply Henc|by apply Forall_true]|]. intros. by apply keeps_ret.
  Qed.
  Lemma keeps_serialize_attrs s x data : live s x -> keeps s (serialize_node_attributes enc x data) anything.
  Proof.
    intros Hl. unfold serialize_node_attributes. destruct (match dget _ _ with None => _ | _ => _ end) as [d|]; [|apply keeps_raise].
    eapply keeps_bind; [by apply keeps_safe, safe_attrs_of|]. intros a s1 E1 Ha. destruct a; try apply keeps_raise.
    eapply keeps_bind; [by apply keeps_safe, safe_items|]. intros its s2 E2 _. eapply keeps_bind; [apply keeps_write|]. intros. by apply keeps_ret.
  Qed.
  Lemma keeps_run_ser x cbs : Forall (fun cb => cb = serialize_node \/ cb = serialize_node_attributes) cbs -> forall s data, live s x ->
    keeps s (run_ser enc x cbs data) anything.
  Proof.
    induction 1 as [|cb cbs Hcb _ IH]; intros s data Hl; simpl; [by apply keeps_ret|]. eapply keeps_bind.
    - destruct Hcb as [->| ->]; [by apply keeps_serialize_node|by apply keeps_serialize_attrs].
    - intros d s1 E1 _. apply IH. by eapply ext_live.
  Qed.
End encoder.
Lemma matching_std {C} (cls : classdef) others (a b : C) : Forall (fun c => c = a \/ c = b) (matching (std_env others) cls (registered [(INode, a); (IAttributes, b)])).
Proof.
  change (registered [(INode, a); (IAttributes, b)]) with [(INode, a); (IAttributes, b)]. unfold matching. cbn [flat_map fst snd].
  destruct (v_provides _ _ INode), (v_provides _ _ IAttributes); simpl; repeat (apply Forall_cons; split; [auto|]); apply Forall_nil; exact I.
Qed.
Lemma keeps_default others simple incl f : forall s v, keeps s (default_ob f (std_env others) simple incl v) anything.
Proof.
  induction f as [|f IH]; intros s v; cbn [default_ob]; [apply keeps_raise|].
  destruct v as [| | | | | | |x| | | |]; try (by apply keeps_ret).
  destruct (nodes s !! x) as [o|] eqn:Ho.
  - eapply keeps_bind; [apply keeps_safe, safe_load; eexists; exact Ho|]. intros o' s1 E1 [-> _].
    destruct (v_provides _ _ _); [|by apply keeps_ret]. eapply keeps_bind; [|intros; by apply keeps_ret].
    apply keeps_run_ser; [exact IH| |by eexists]. apply matching_std.
  - apply keeps_same. exists (Exc Dangling). split; [|done]. unfold bind, load. by rewrite Ho.
Qed.
Lemma keeps_dumps others simple incl f : forall s v, keeps s (dumps f (std_env others) simple incl v) anything.
Proof.
  induction f as [|f IH]; intros s v; cbn [dumps]; [apply keeps_raise|].
  assert (K : keeps s (let! d := default_ob f (std_env others) simple incl v in
                       match d with VNode _ | VObj _ | VUnsetCopy _ => raise (ValueError "Circular reference detected") | _ => dumps f (std_env others) simple incl d end) anything).
  { eapply keeps_bind; [apply keeps_default|]. intros d s1 _ _. destruct d; try apply IH; apply keeps_raise. }
  destruct v as [| | | | | | |x| |l|d|m]; try exact K; try (by apply keeps_ret); clear K.
  - eapply keeps_bind with (Q := anything); [|intros; by apply keeps_ret]. revert s. induction l as [|v l IHl]; intros s; simpl; [by apply keeps_ret|].
    eapply keeps_bind; [apply IH|]. intros j s1 _ _. eapply keeps_bind; [apply IHl|]. intros. by apply keeps_ret.
  - eapply keeps_bind with (Q := anything); [|intros; by apply keeps_ret]. revert s. induction d as [|[k v] l IHl]; intros s; simpl; [by apply keeps_ret|].
    destruct (json_key k); [|apply keeps_raise]. eapply keeps_bind; [apply IH|]. intros j s1 _ _. eapply keeps_bind; [apply IHl|]. intros. by apply keeps_ret.
Qed.

(** * Decoder *)
Lemma keeps_resolve s ev j : keeps s (resolve ev j) anything.
Proof. destruct j; try apply keeps_raise. apply keeps_same. eexists. split; [done|]. done. Qed.
Lemma keeps_factory s ev j root : (forall q, root = Some q -> live s q) -> keeps s (node_factory ev j root) (fun x s' => live s' x).
Proof.
  intros Hr. unfold node_factory. destruct j as [| | | | |d]; try apply keeps_raise. destruct (member "class" d); [|apply keeps_raise].
  eapply keeps_bind; [apply keeps_resolve|]. intros n s1 E1 _.
  assert (Hr1 : forall q, root = Some q -> live s1 q) by (intros q Hq; eapply ext_live; eauto). clear Hr E1 s. 
  assert (K : keeps s1 match member "name" d with
              | None => raise (KeyError (KStr "name"))
              | Some nm =>
                  match name_key nm with
                  | None => raise Unspecified
                  | Some k =>
                      let! cs := (fun s => (Ret (classes s), s)) in
                      match cs !! n with
                      | None => raise Unspecified
                      | Some _ =>
                          let! x := new_node n KNone None in
                          match root with
                          | Some p => do! setitem p k (VNode x) in ret x
                          | None => do! modify x (with_name k) in ret x
                          end
                      end
                  end
              end (fun x s' => live s' x)).
  { destruct (member "name" d) as [nm|]; [|apply keeps_raise]. destruct (name_key nm) as [k|]; [|apply keeps_raise].
    eapply keeps_bind with (Q := anything); [apply keeps_same; eexists; split; [done|]; intros cs [= <-]; exact I|]. intros cs s2 E2 _.
    destruct (cs !! n); [|apply keeps_raise]. eapply keeps_bind; [apply keeps_safe, safe_new_node; done|]. intros x s3 E3 Hx.
    pose proof (ext_trans _ _ _ E2 E3) as E13. destruct root as [p|].
    - eapply keeps_bind; [apply keeps_safe, safe_setitem; [|done]; eapply ext_live; eauto|]. intros _ s4 E4 _. apply keeps_ret. by eapply ext_live.
    - eapply keeps_bind; [by apply keeps_safe, safe_modify_name|]. intros _ s4 E4 _. apply keeps_ret. by eapply ext_live. }
  destruct (member "kw" d) as [kw|]; [|exact K]. destruct kw as [| | | | |l]; try apply keeps_raise. destruct l; [exact K|apply keeps_raise].
Qed.
Section decoder.
  Context (dec : option nat -> json -> M val) (Hdec : forall s root j, (forall q, root = Some q -> live s q) -> keeps s (dec root j) (fun v s' => vok s' v)).
  Lemma keeps_deserialize_node s x data : live s x -> keeps s (deserialize_node dec x data) anything.
  Proof.
    intros Hl. unfold deserialize_node. destruct (member "children" data) as [j|]; [|by apply keeps_ret]. destruct (truthy j); [|by apply keeps_ret].
    assert (G : forall s j, live s x -> keeps s (do! dec (Some x) j in ret tt) anything).
    { intros s0 j0 H0. eapply keeps_bind; [apply Hdec; by intros q [= <-]|]. intros. by apply keeps_ret. }
    destruct j; try apply keeps_raise; [by apply keeps_ret|..].
    - apply keeps_iterM with (P := fun s => live s x); [eauto using ext_live|intros; by apply G|done].
    - apply keeps_iterM with (P := fun s => live s x); [eauto using ext_live|intros; by apply G|done].
  Qed.
  Lemma keeps_deserialize_attrs s x data : live s x -> keeps s (deserialize_node_attributes dec x data) anything.
  Proof.
    intros Hl. unfold deserialize_node_attributes. destruct (member "attrs" data) as [j|]; [|by apply keeps_ret]. destruct (truthy j); [|by apply keeps_ret].
    destruct j; try apply keeps_raise. apply keeps_iterM with (P := fun s => live s x); [eauto using ext_live| |done].
    intros s0 kc H0. eapply keeps_bind; [by apply Hdec|]. intros v s1 E1 Hv. eapply keeps_bind; [apply keeps_safe, safe_attrs_of; by eapply ext_live|].
    intros a s2 E2 Ha. destruct a; try apply keeps_raise. apply keeps_safe, safe_setitem; [done|]. by eapply ext_vok.
  Qed.
End decoder.
Lemma keeps_decode others f : forall s root j, (forall q, root = Some q -> live s q) -> keeps s (decode f (std_env others) root j) (fun v s' => vok s' v).
Proof.
  induction f as [|f IH]; intros s root j Hr; cbn [decode]; [apply keeps_raise|].
  destruct j as [| | |t|l|l]; try (by apply keeps_ret).
  - destruct (String.eqb _ _); [by apply keeps_ret|]. destruct (startswith _ _); [|by apply keeps_ret]. destruct (uuid_parse _); [by apply keeps_ret|apply keeps_raise].
  - eapply keeps_bind with (Q := anything); [|intros; by apply keeps_ret]. revert s Hr. induction l as [|j l IHl]; intros s Hr; simpl; [by apply keeps_ret|].
    eapply keeps_bind; [by apply IH|]. intros v s1 E1 _. eapply keeps_bind; [apply IHl; intros q Hq; eapply ext_live; eauto|]. intros. by apply keeps_ret.
  - destruct (member "__ob__" l) as [n|].
    + eapply keeps_bind; [apply keeps_resolve|]. intros. by apply keeps_ret.
    + destruct (member "__node__" l) as [data|]; [|by apply keeps_ret]. eapply keeps_bind; [by apply keeps_factory|]. intros x s1 E1 Hx.
      eapply keeps_bind; [by apply keeps_safe, safe_load|]. intros o s2 E2 [-> Ho].
      eapply keeps_bind with (Q := fun _ s' => live s' x); [|intros; by apply keeps_ret].
      pose proof (matching_std (o_cls o) others deserialize_node deserialize_node_attributes) as Hm.
      change (v_deser (std_env others)) with (registered [(INode, deserialize_node); (IAttributes, deserialize_node_attributes)]).
      revert Hm Hx. generalize (matching (std_env others) (o_cls o) (registered [(INode, deserialize_node); (IAttributes, deserialize_node_attributes)])).
      clear E1 E2 Ho Hr. intros cbs Hm. revert s1. induction Hm as [|cb cbs Hcb _ IHc]; intros s1 Hx; simpl; [by apply keeps_ret|].
      eapply keeps_bind with (Q := anything); [|intros ? s2 E2 _; apply IHc; by eapply ext_live].
      destruct Hcb as [->| ->]; [apply keeps_deserialize_node|apply keeps_deserialize_attrs]; done.
Qed.
Lemma reach_json_ok s : reach_json s -> wf s /\ (0 < next_uuid s)%N.
Proof.
  induction 1 as [cs|s o r s' _ [W U] Hok E|s f others simple incl x r s' _ [W U] Hx E|s f others j root r s' _ [W U] Hx E].
  - split; [apply wf_empty|done].
  - destruct (safe_run_op s o Hok W) as (W' & X & _). rewrite E in W', X. split; [done|]. pose proof (ext_uuid _ _ X). simpl in *. lia.
  - destruct (keeps_dumps others simple (if simple then incl else true) f s (VNode x) W) as (W' & X & _). unfold serialize in E. rewrite E in W', X.
    split; [done|]. pose proof (ext_uuid _ _ X). simpl in *. lia.
  - destruct (keeps_decode others f s root (loads j) Hx W) as (W' & X & _). unfold deserialize in E. rewrite E in W', X.
    split; [done|]. pose proof (ext_uuid _ _ X). simpl in *. lia.
Qed.
Lemma reach_reach_json s : reach s -> reach_json s.
Proof. induction 1; [constructor|econstructor 2; eauto]. Qed.
