(** The effect of [del node[k]] for every class made of the tree behaviors. *)
From Verif Require Import Py Odict OdictFacts Aliaser Heap Model MonadFacts WF WFOps Views
  SpecMapping MappingProofs StorageProofs TreeOps SetEff.

(** Every node is made of tree behaviors. *)
Definition all_tree (s : st) : Prop :=
  forall x w, views s !! x = Some w -> tree_class (c_behs (w_cls w)) = true.
Lemma all_tree_eqv s s' : eqv s s' -> all_tree s -> all_tree s'.
Proof. intros Q H x w. rewrite (e_views _ _ Q). apply H. Qed.

Fixpoint mapr {A B} (f : A -> res B) (l : list A) : res (list B) :=
  match l with
  | [] => Ret []
  | a :: r => match f a with
              | Ret b => match mapr f r with Ret bs => Ret (b :: bs) | Exc e => Exc e end
              | Exc e => Exc e
              end
  end.

Definition catch_attr {A} (r : res (list A)) : res (list A) :=
  match r with Exc AttributeError => Ret [] | _ => r end.

(** uuids of a subtree, computed on the views *)
Fixpoint td (fuel : nat) (vs : gmap nat view) (c : nat) : res (list N) :=
  match fuel with
  | O => Exc OutOfFuel
  | S f =>
      match vs !! c with
      | None => Exc Dangling
      | Some w =>
          if hasc Reference (c_behs (w_cls w)) then
            match w_uuid w with
            | None => Exc TypeError
            | Some u =>
                match mapr (fun k => catch_attr
                         match get_res w k with
                         | Ret (VNode c') => td f vs c'
                         | Ret _ => Exc AttributeError
                         | Exc e => Exc e
                         end) (dkeys (w_ent w)) with
                | Ret ls => Ret (u :: concat ls)
                | Exc e => Exc e
                end
            end
          else Exc AttributeError
      end
  end.

(** [m] computes [r] without observable change *)
Definition pure_eff {A} (s : st) (m : M A) (r : res A) : Prop :=
  exists s', m s = (r, s') /\ eqv s s' /\ wf s'.
Lemma pure_eff_ret {A} s (a : A) : wf s -> pure_eff s (ret a) (Ret a).
Proof. intros W. exists s. split; [done|]. split; [apply eqv_refl|done]. Qed.
Lemma pure_eff_raise {A} s e : wf s -> pure_eff s (@raise A e) (Exc e).
Proof. intros W. exists s. split; [done|]. split; [apply eqv_refl|done]. Qed.
Lemma pure_eff_bind {A B} s (m : M A) (f : A -> M B) r r' :
  pure_eff s m r ->
  match r with
  | Ret a => forall s', eqv s s' -> wf s' -> pure_eff s' (f a) r'
  | Exc e => r' = Exc e
  end -> pure_eff s (bind m f) r'.
Proof.
  intros (s' & E & Q & W) H. destruct r as [a|e].
  - destruct (H s' Q W) as (s2 & E2 & Q2 & W2). exists s2. rewrite (bind_Ret _ _ _ _ _ E).
    split; [done|]. split; [by eapply eqv_trans|done].
  - subst. exists s'. rewrite (bind_Exc _ _ _ _ _ E). done.
Qed.
Lemma pure_eff_mapM {A B} (f : A -> M B) (g : A -> res B) l : forall s,
  (forall s' a, eqv s s' -> wf s' -> pure_eff s' (f a) (g a)) -> wf s ->
  pure_eff s (mapM_ f l) (mapr g l).
Proof.
  induction l as [|a l IH]; intros s H W; simpl; [by apply pure_eff_ret|].
  eapply pure_eff_bind; [apply H; [apply eqv_refl|done]|].
  destruct (g a) as [b|e]; [|done]. intros s' Q W'.
  eapply pure_eff_bind; [apply IH; [|done]|].
  - intros s2 a2 Q2 W2. apply H; [by eapply eqv_trans|done].
  - destruct (mapr g l); [|done]. intros s2 Q2 W2. by apply pure_eff_ret.
Qed.
Lemma pure_eff_getitem s x w k : wf s -> views s !! x = Some w -> tree_class (c_behs (w_cls w)) = true ->
  pure_eff s (getitem x k) (get_res w k).
Proof. apply getitem_eff. Qed.
Lemma pure_eff_load {A} s x w (f : obj -> M A) r :
  views s !! x = Some w -> (forall o, nodes s !! x = Some o -> view_of s x o = w -> pure_eff s (f o) r) ->
  pure_eff s (bind (load x) f) r.
Proof.
  intros Hw H. destruct (load_view _ _ _ Hw) as (o & Hl & Ho & Hv).
  destruct (H o Ho Hv) as (s' & E & ?). exists s'. by rewrite (bind_Ret _ _ _ _ _ Hl).
Qed.

Lemma has_view s x o w b : view_of s x o = w -> has b o = hasc b (c_behs (w_cls w)).
Proof. by intros <-. Qed.

Lemma to_delete_eff f : forall s c, wf s -> all_tree s -> live s c ->
  pure_eff s (to_delete f c) (td f (views s) c).
Proof.
  induction f as [|f IH]; intros s c W Ha Hl; simpl; [by apply pure_eff_raise|].
  destruct (live_view _ _ Hl) as [w Hw]. rewrite Hw.
  eapply pure_eff_load; [exact Hw|]. intros o Ho Hv. rewrite (has_view _ _ _ _ _ Hv).
  destruct (hasc _ _); [|by apply pure_eff_raise].
  replace (o_uuid o) with (w_uuid w) by (by subst).
  destruct (w_uuid w) as [u|] eqn:Hu; [|by apply pure_eff_raise].
  eapply pure_eff_bind; [apply iter_eff; [done..|by eapply Ha]|]. intros s1 Q1 W1.
  eapply pure_eff_bind.
  - apply pure_eff_mapM with (g := fun k => catch_attr
                         match get_res w k with
                         | Ret (VNode c') => td f (views s) c'
                         | Ret _ => Exc AttributeError
                         | Exc e => Exc e
                         end); [|done].
    intros s2 k Q2 W2. pose proof (eqv_trans _ _ _ Q1 Q2) as Q12.
    assert (Hw2 : views s2 !! c = Some w) by (by rewrite (e_views _ _ Q12)).
    match goal with |- pure_eff _ _ (catch_attr ?R) =>
      assert (pure_eff s2 (let! c0 := getitem c k in match c0 with VNode c1 => to_delete f c1 | _ => raise AttributeError end) R) as Hp end.
    { eapply pure_eff_bind; [apply getitem_eff; [done..|by eapply all_tree_eqv]|].
      destruct (get_res w k) as [v|e] eqn:Hg; [|done]. intros s3 Q3 W3.
      pose proof (eqv_trans _ _ _ Q12 Q3) as Q13.
      destruct v as [| | | | | | |c'| | | |]; try (by apply pure_eff_raise).
      rewrite <- (e_views _ _ Q13). apply IH; [done|by eapply all_tree_eqv|].
      eapply eqv_live; [exact Q13|].
      assert (eok s (k, VNode c')) as [_ ?]; [|done].
      unfold get_res, look in Hg.
      destruct (nskey _ _); (destruct (hashable k) eqn:Hk; [|done]); 
        destruct (dget k _) as [v'|] eqn:Hd; try done; injection Hg as ->; apply dget_Some_in in Hd.
      - eapply Forall_forall; [|exact Hd]. by apply (slot_vok s c w SNodespaces).
      - eapply Forall_forall; [|exact Hd]. by apply (slot_vok s c w SStorage). }
    destruct Hp as (s3 & E3 & Q3 & W3). unfold pure_eff.
    match goal with |- context [catch_attr ?R] => destruct R as [us|e] end.
    + exists s3. rewrite (try_catch_Ret _ _ _ _ _ _ E3). done.
    + exists s3. rewrite (try_catch_Exc _ _ _ _ _ _ E3). destruct e; done.
  - match goal with |- context [mapr ?g ?l] => destruct (mapr g l) as [ls|e] end; [|done].
    intros s2 Q2 W2. by apply pure_eff_ret.
Qed.

Lemma get_res_vok s x w k v : wf s -> views s !! x = Some w -> get_res w k = Ret v -> vok s v.
Proof.
  intros W Hw Hg.
  assert (eok s (k, v)) as [_ ?]; [|done].
  unfold get_res, look in Hg.
  destruct (nskey _ _); (destruct (hashable k) eqn:Hk; [|done]);
    destruct (dget k _) as [v'|] eqn:Hd; try done; injection Hg as ->; apply dget_Some_in in Hd.
  - eapply Forall_forall; [|exact Hd]. by apply (slot_vok s x w SNodespaces).
  - eapply Forall_forall; [|exact Hd]. by apply (slot_vok s x w SStorage).
Qed.

(** removing a list of uuids from an index *)
Fixpoint idx_dels (us : list N) (m : gmap (option N) nat) : res unit * gmap (option N) nat :=
  match us with
  | [] => (Ret tt, m)
  | u :: r => match m !! Some u with
              | Some _ => idx_dels r (delete (Some u) m)
              | None => (Exc (KeyError (KInt (Z.of_N u))), m)
              end
  end.
Lemma idx_dels_sub us : forall m, (idx_dels us m).2 ⊆ m.
Proof.
  induction us as [|u us IH]; intros m; simpl; [done|]. destruct (m !! Some u); simpl; [|done].
  etrans; [apply IH|]. apply delete_subseteq.
Qed.
Definition minus (us : list N) (m : gmap (option N) nat) : gmap (option N) nat :=
  foldr (fun u m => delete (Some u) m) m us.
Lemma lookup_minus us m u : minus us m !! u = if decide (u ∈ Some <$> us) then None else m !! u.
Proof.
  induction us as [|n us IH]; simpl; [done|].
  destruct (decide (u = Some n)) as [->|Hne].
  - rewrite lookup_delete, decide_True; [done|by left].
  - rewrite lookup_delete_ne, IH by done. case_decide as H1; case_decide as H2; try done.
    + destruct H2. by right.
    + apply elem_of_cons in H2 as [->|]; done.
Qed.
Lemma minus_idemp us m : minus us (minus us m) = minus us m.
Proof. apply map_eq. intros u. rewrite !lookup_minus. by destruct (decide _). Qed.
Lemma minus_delete u us m : minus us (delete (Some u) m) = delete (Some u) (minus us m).
Proof.
  induction us as [|n us IH]; simpl; [done|]. rewrite IH. apply delete_commute.
Qed.
Lemma idx_dels_Ret us : forall m r m', idx_dels us m = (r, m') -> is_ret r = true -> m' = minus us m /\ Forall (fun u => is_Some (m !! Some u)) us.
Proof.
  induction us as [|u us IH]; intros m r m' E Hr; simpl in *; [by injection E as <- <-|].
  destruct (m !! Some u) as [y|] eqn:Hu; [|by injection E as <- <-].
  destruct (IH _ _ _ E Hr) as [-> HF]. rewrite minus_delete. split; [done|].
  constructor; [eauto|]. eapply Forall_impl; [exact HF|]. intros n [y' Hy]. simpl in Hy.
  rewrite lookup_delete_Some in Hy. destruct Hy. eauto.
Qed.
Lemma idx_dels_ok us : forall m, NoDup us -> Forall (fun u => is_Some (m !! Some u)) us -> idx_dels us m = (Ret tt, minus us m).
Proof.
  induction us as [|u us IH]; intros m Hn HF; simpl; [done|].
  apply NoDup_cons in Hn as [Hu Hn]. apply Forall_cons in HF as [[y Hy] HF]. rewrite Hy.
  rewrite IH; [by rewrite minus_delete|done|].
  apply Forall_forall. intros n Hin. rewrite lookup_delete_ne; [|congruence].
  by eapply Forall_forall in HF.
Qed.

(** only one index changed *)
Record index_only (i : nat) (m : gmap (option N) nat) (s s' : st) : Prop := IndexOnly {
  io_wf : wf s';
  io_views : views s' = views s;
  io_idxs : idxs s' = <[i := m]> (idxs s);
  io_log : log s' = log s;
  io_uuid : next_uuid s' = next_uuid s;
  io_fb : fbcount s' = fbcount s;
  io_classes : classes s' = classes s
}.
Lemma idx_dels_eff self i us : forall s w m,
  wf s -> views s !! self = Some w -> w_index w = Some i -> idxs s !! i = Some m ->
  exists s', iterM (fun u => let! i := index_of self in idx_del i (Some u)) us s = ((idx_dels us m).1, s')
    /\ index_only i (idx_dels us m).2 s s'.
Proof.
  induction us as [|u us IH]; intros s w m W Hw Hi Hm; simpl.
  - exists s. split; [done|]. constructor; try done. by rewrite insert_id.
  - rewrite (bind_assoc _ _ _ s).
    rewrite (bind_Ret _ _ s i s) by (rewrite (index_of_eff _ _ _ Hw), Hi; done).
    unfold idx_del. rewrite (bind_assoc _ _ _ s). rewrite (bind_read_idx _ _ _ _ Hm).
    destruct (m !! Some u) as [y|] eqn:Hu; simpl.
    + rewrite (bind_Ret _ _ s tt (set_idxs <[i := delete (Some u) m]> s)) by done.
      destruct (IH (set_idxs <[i := delete (Some u) m]> s) w (delete (Some u) m)) as (s' & E & [? ? ? ? ? ? ?]).
      * apply (safe_write_idx s i (delete (Some u) m)); [eauto| |done].
        intros k y' [_ Hy]%lookup_delete_Some. by apply (proj2 (wf_idxs _ W _ _ Hm) k).
      * done.
      * done.
      * simpl. by rewrite lookup_insert.
      * exists s'. split; [exact E|]. constructor; try done. simpl in io_idxs0. rewrite io_idxs0. by rewrite insert_insert.
    + exists s. split; [done|]. constructor; try done. by rewrite insert_id.
Qed.

Record del_eff (ns rf : bool) (lc : nat) (self : nat) (k : key) (s : st) (r : res unit) (s' : st) : Prop := DelEff {
  de_wf : wf s';
  de_core : forall x, fld w_core s' x = fld w_core s x;
  de_np : forall x, fld w_np s' x = fld w_np s x;
  de_ix : forall x, fld w_index s' x = fld w_index s x;
  de_ent : forall x, fld w_ent s' x =
     if decide (x = self) then if is_ret r && negb ns then ddel k <$> fld w_ent s x else fld w_ent s x
     else fld w_ent s x;
  de_ns : forall x, fld w_ns s' x =
     if decide (x = self) then if is_ret r && ns then ddel k <$> fld w_ns s x else fld w_ns s x
     else fld w_ns s x;
  de_idx : idxs s' = idxs s \/ exists i m m', fld w_index s self = Some (Some i) /\
     idxs s !! i = Some m /\ m' ⊆ m /\ idxs s' = <[i := m']> (idxs s);
  de_noref : rf = false -> idxs s' = idxs s;
  de_val : is_ret r = true -> exists v, (if ns then fld w_ns else fld w_ent) s self ≫= dget k = Some v;
  de_nonode : forall v, (if ns then fld w_ns else fld w_ent) s self ≫= dget k = Some v -> is_node v = false -> idxs s' = idxs s;
  de_ref : forall c cls, rf = true -> ns = false -> is_ret r = true ->
     fld w_ent s self ≫= dget k = Some (VNode c) ->
     fld w_cls s c = Some cls ->
     if hasc Reference (c_behs cls)
     then exists us i m, td (fuel_of s) (views s) c = Ret us /\ fld w_index s self = Some (Some i)
       /\ idxs s !! i = Some m /\ idxs s' = <[i := minus us m]> (idxs s)
     else idxs s' = idxs s;
  de_lognone : lc = 0 -> log s' = log s;
  de_log_exc : is_ret r = false -> log s' = log s;
  de_log : forall b v, is_ret r = true -> fld w_suppress s self = Some b -> ns = false ->
     fld w_ent s self ≫= dget k = Some v ->
     log s' = log s ++ (if b then [] else replicate lc (EvRemoved v self k));
  de_log_sup : fld w_suppress s self = Some true -> log s' = log s;
  de_uuid : next_uuid s' = next_uuid s;
  de_fb : fbcount s' = fbcount s;
  de_classes : classes s' = classes s
}.

(** The outcome when the uuids of the removed subtree are in the index. *)
Fixpoint del_res (bs : list behavior) (w : view) (k : key) : res unit :=
  match bs with
  | [] => match look k (w_ent w) with Ret _ => Ret tt | Exc e => Exc e end
  | Nodespaces :: r =>
      match k with
      | KStr s => if reserved s then match look k (w_ns w) with Ret _ => Ret tt | Exc e => Exc e end
                  else del_res r w k
      | _ => Exc AttributeError
      end
  | Lifecycle :: r | Reference :: r =>
      match get_res w k with Ret _ => del_res r w k | Exc e => Exc e end
  | _ :: r => del_res r w k
  end.
Definition del_ready (bs : list behavior) (s : st) (w : view) (k : key) : Prop :=
  hasc Reference bs = true -> forall c cls, get_res w k = Ret (VNode c) -> fld w_cls s c = Some cls ->
  hasc Reference (c_behs cls) = true ->
  exists us i m, td (fuel_of s) (views s) c = Ret us /\ w_index w = Some i /\ idxs s !! i = Some m
    /\ NoDup us /\ Forall (fun u => is_Some (m !! Some u)) us /\ occ Reference bs <= 1.
Definition del_outcome bs s w k r : Prop := del_ready bs s w k -> r = del_res bs w k.

Definition dstack_eff bs self k := del_eff (nskey bs k) (hasc Reference bs) (occ Lifecycle bs) self k.

Lemma del_eff_fail ns rf lc self k s s' e : wf s' -> eqv s s' -> del_eff ns rf lc self k s (Exc e) s'.
Proof.
  intros W Q. pose proof Q as []. constructor; intros; simpl; rewrite ?(fld_eqv _ _ _ _ Q); try done; try (by case_decide).
  by left.
Qed.

Lemma dget_fld (ns : bool) s self w k : views s !! self = Some w ->
  (if ns then fld w_ns else fld w_ent) s self ≫= dget k = dget k (if ns then w_ns w else w_ent w).
Proof. intros Hw. unfold fld. destruct ns; rewrite Hw; done. Qed.

(** deleting from the storage or the nodespaces of [self] *)
Lemma del_slot_eff (ns : bool) (m : M nat) s self w k lc :
  wf s -> views s !! self = Some w ->
  (exists l s', m s = (Ret l, s') /\ eqv s s' /\ wf s'
    /\ exists o', nodes s' !! self = Some o' /\ get_slot (if ns then SNodespaces else SStorage) o' = Some l /\ o_cls o' = w_cls w) ->
  (ns = false -> lc = 0) ->
  exists r s', (let! l := m in dict_del l k) s = (r, s')
    /\ del_eff ns false lc self k s r s'
    /\ r = (match look k (if ns then w_ns w else w_ent w) with Ret _ => Ret tt | Exc e => Exc e end).
Proof.
  intros W Hw (l & s1 & E & Q & W1 & o1 & Ho1 & Hs & _) Hlc. rewrite (bind_Ret _ _ _ _ _ E).
  assert (view_of s1 self o1 = w) as Hvw.
  { apply nodes_views in Ho1. rewrite (e_views _ _ Q), Hw in Ho1. by injection Ho1. }
  destruct (dict_del_eff s1 self o1 _ l k W1 Ho1 Hs) as (r & s2 & E2 & W2 & H). rewrite Hvw in H.
  replace (slot_ent (if ns then SNodespaces else SStorage) w) with (if ns then w_ns w else w_ent w) in H by (by destruct ns).
  exists r, s2. split; [exact E2|]. unfold look.
  destruct H as [(Hk & -> & ->)|[(Hk & Hd & -> & ->)|(Hk & [v Hd] & -> & Wr)]]; rewrite Hk.
  - split; [|done]. by apply del_eff_fail.
  - rewrite Hd. split; [|done]. by apply del_eff_fail.
  - rewrite Hd. split; [|done]. pose proof (wrote_touched _ _ _ _ _ Wr) as T.
    assert (Hlog : log s2 = log s). { rewrite (t_log _ _ _ _ T). by apply e_log. }
    assert (Hidx : idxs s2 = idxs s). { rewrite (t_idxs _ _ _ _ T). by apply e_idxs. }
    constructor; intros; try done.
    + rewrite (fld_touched _ _ _ _ _ _ T) by (by destruct ns). by apply fld_eqv.
    + rewrite (fld_touched _ _ _ _ _ _ T) by (by destruct ns). by apply fld_eqv.
    + rewrite (fld_touched _ _ _ _ _ _ T) by (by destruct ns). by apply fld_eqv.
    + simpl. case_decide as Ex.
      * subst x. rewrite (fld_touched_eq _ _ _ _ _ T). rewrite (e_views _ _ Q), Hw. simpl.
        unfold fld. rewrite Hw. by destruct ns.
      * rewrite (fld_touched_ne _ _ _ _ _ _ T) by done. by apply fld_eqv.
    + simpl. case_decide as Ex.
      * subst x. rewrite (fld_touched_eq _ _ _ _ _ T). rewrite (e_views _ _ Q), Hw. simpl.
        unfold fld. rewrite Hw. by destruct ns.
      * rewrite (fld_touched_ne _ _ _ _ _ _ T) by done. by apply fld_eqv.
    + by left.
    + exists v. rewrite (dget_fld _ _ _ _ _ Hw). done.
    + rewrite Hlog. rewrite Hlc by done. destruct b; by rewrite app_nil_r.
    + rewrite (t_uuid _ _ _ _ T). by apply e_uuid.
    + rewrite (t_fb _ _ _ _ T). by apply e_fb.
    + rewrite (t_classes _ _ _ _ T). by apply e_classes.
Qed.

Lemma look_dget k d v : look k d = Ret v -> dget k d = Some v.
Proof. unfold look. destruct (hashable k); [|done]. destruct (dget k d); congruence. Qed.
Lemma get_res_dget w k v : get_res w k = Ret v ->
  dget k (if nskey (c_behs (w_cls w)) k then w_ns w else w_ent w) = Some v.
Proof. unfold get_res. destruct (nskey _ _); apply look_dget. Qed.

Lemma views_size s : size (views s) = size (nodes s).
Proof.
  rewrite <- (size_dom (D := gset nat) (views s)), <- (size_dom (D := gset nat) (nodes s)). f_equal.
  apply set_eq. intros x. rewrite !elem_of_dom. symmetry. apply (views_live s x).
Qed.
Lemma eqv_fuel s s' : eqv s s' -> fuel_of s' = fuel_of s.
Proof. intros Q. unfold fuel_of. by rewrite <- !views_size, (e_views _ _ Q). Qed.

Lemma del_eff_eqv ns rf lc self k s s1 r s' : eqv s s1 ->
  del_eff ns rf lc self k s1 r s' -> del_eff ns rf lc self k s r s'.
Proof.
  intros Q. pose proof (eqv_fuel _ _ Q) as Hf. pose proof Q as [Q1 Q2 Q3 Q4 Q5 Q6 _].
  assert (HF : forall B (F : view -> B) x, fld F s1 x = fld F s x) by (intros; by apply fld_eqv).
  assert (HD : forall (b : bool), (if b then fld w_ns else fld w_ent) s1 self = (if b then fld w_ns else fld w_ent) s self).
  { intros []; apply HF. }
  intros []. constructor; intros; try done.
  - by rewrite de_core0.
  - by rewrite de_np0.
  - by rewrite de_ix0.
  - by rewrite de_ent0, HF.
  - by rewrite de_ns0, HF.
  - destruct de_idx0 as [E|(i & m & m' & H1 & H2 & H3 & H4)]; [left; congruence|right].
    exists i, m, m'. rewrite <- Q2, <- (HF _ w_index). done.
  - rewrite de_noref0; done.
  - rewrite <- HD. by apply de_val0.
  - rewrite (de_nonode0 v); [done| |done]. by rewrite HD.
  - specialize (de_ref0 c cls). rewrite !HF in de_ref0. specialize (de_ref0 H H0 H1 H2 H3).
    destruct (hasc _ _); [|by rewrite de_ref0].
    destruct de_ref0 as (us & i & m & G1 & G2 & G3 & G4). rewrite Hf, Q1, ?Q2, ?HF in *. eauto 10.
  - rewrite de_lognone0; done.
  - rewrite de_log_exc0; done.
  - rewrite (de_log0 b v); [by rewrite Q4|done| |done|]; by rewrite HF.
  - rewrite de_log_sup0; [done|]. by rewrite HF.
  - congruence.
  - congruence.
  - congruence.
Qed.

Lemma del_eff_pass b bs self k s r s' :
  b <> Nodespaces -> b <> Reference -> b <> Lifecycle ->
  dstack_eff bs self k s r s' -> dstack_eff (b :: bs) self k s r s'.
Proof.
  intros H1 H3 H4. unfold dstack_eff, nskey, occ. rewrite !hasc_cons, filter_cons.
  rewrite !bool_decide_eq_false_2 by done. by rewrite decide_False by done.
Qed.
Lemma del_ready_cons b bs s w k : b <> Reference -> del_ready (b :: bs) s w k -> del_ready bs s w k.
Proof.
  intros Hb H Hr c cls H1 H2 H3. destruct (H) with (c := c) (cls := cls) as (us & i & m & G1 & G2 & G3 & G4 & G5 & G6); try done.
  { rewrite hasc_cons, Hr. apply orb_true_r. }
  exists us, i, m. do 5 (split; [done|]). unfold occ in G6. rewrite filter_cons, decide_False in G6; done.
Qed.
Lemma del_ready_eqv bs s s' w k : eqv s s' -> del_ready bs s w k -> del_ready bs s' w k.
Proof.
  intros Q H Hr c cls H1 H2 H3. destruct (H Hr c cls) as (us & i & m & G1 & G2 & G3 & G); try done.
  { by rewrite <- (fld_eqv _ _ _ _ Q). }
  exists us, i, m. rewrite (eqv_fuel _ _ Q), (e_views _ _ Q), (e_idxs _ _ Q). done.
Qed.

(** hypotheses of the induction *)
Record dpre (all bs : list behavior) (s : st) (self : nat) (w : view) (k : key) : Prop := DPre {
  dp_wf : wf s;
  dp_view : views s !! self = Some w;
  dp_behs : c_behs (w_cls w) = all;
  dp_ns : nskey all k = nskey bs k;
  dp_all : hasc Reference bs = true -> all_tree s
}.
Definition del_ih (all bs : list behavior) self w k : Prop :=
  forall s, dpre all bs s self w k -> exists r s', del_stack all bs self k s = (r, s')
      /\ dstack_eff bs self k s r s' /\ del_outcome bs s w k r.

Lemma dpre_eqv all bs s s' self w k : eqv s s' -> wf s' -> dpre all bs s self w k -> dpre all bs s' self w k.
Proof.
  intros Q W []. constructor; try done; [by rewrite (e_views _ _ Q)|].
  intros H. by eapply all_tree_eqv; [|apply dp_all0].
Qed.

Lemma del_stack_nodespaces all bs self w k s :
  dpre all (Nodespaces :: bs) s self w k -> (dpre all bs s self w k -> del_ih all bs self w k) ->
  exists r s', del_stack all (Nodespaces :: bs) self k s = (r, s')
      /\ dstack_eff (Nodespaces :: bs) self k s r s' /\ del_outcome (Nodespaces :: bs) s w k r.
Proof.
  intros HP IH. pose proof HP as [W Hw Hall Hns Ha]. simpl.
  assert (Hfail : (del_res (Nodespaces :: bs) w k = Exc AttributeError) ->
    exists r s', raise (A := unit) AttributeError s = (r, s') /\ dstack_eff (Nodespaces :: bs) self k s r s'
      /\ del_outcome (Nodespaces :: bs) s w k r).
  { intros Hs. eexists _, _. split; [done|]. split; [|intros _; by rewrite Hs]. apply del_eff_fail; [done|apply eqv_refl]. }
  destruct k as [str| | |]; try (by apply Hfail). clear Hfail.
  destruct (reserved str) eqn:Er.
  - destruct (del_slot_eff true (nodespaces_of self) s self w (KStr str) (occ Lifecycle (Nodespaces :: bs))) as (r & s' & E & F & G); try done.
    { by apply ns_slot. }
    exists r, s'. split; [exact E|]. split; [|intros _; simpl; rewrite Er; exact G].
    unfold dstack_eff. replace (nskey (Nodespaces :: bs) (KStr str)) with true by (unfold nskey; simpl; by rewrite Er).
    destruct F. constructor; try done. intros _. by apply de_noref0.
  - assert (Hns' : forall l, nskey l (KStr str) = false). { intros l. unfold nskey. simpl. by rewrite Er, andb_false_r. }
    assert (HP' : dpre all bs s self w (KStr str)).
    { constructor; try done; [by rewrite !Hns'|]. intros H. apply Ha. by rewrite hasc_cons, H, orb_true_r. }
    destruct (IH HP' s HP') as (r & s' & E & F & G). exists r, s'. split; [done|]. split.
    + unfold dstack_eff in *. rewrite Hns' in *. unfold occ in *. rewrite !hasc_cons. done.
    + intros Hr. simpl. rewrite Er. apply G. eapply del_ready_cons; [|exact Hr]. done.
Qed.

Lemma dpre_cons all b bs s self w k : b <> Nodespaces -> dpre all (b :: bs) s self w k -> dpre all bs s self w k.
Proof.
  intros Hb []. constructor; try done.
  - rewrite dp_ns0. unfold nskey. rewrite hasc_cons. by rewrite bool_decide_eq_false_2.
  - intros H. apply dp_all0. by rewrite hasc_cons, H, orb_true_r.
Qed.

Lemma del_stack_lifecycle all bs self w k s :
  tree_class all = true -> dpre all (Lifecycle :: bs) s self w k -> del_ih all bs self w k ->
  exists r s', del_stack all (Lifecycle :: bs) self k s = (r, s')
      /\ dstack_eff (Lifecycle :: bs) self k s r s' /\ del_outcome (Lifecycle :: bs) s w k r.
Proof.
  intros Ht HP IH. apply dpre_cons in HP; [|done]. pose proof HP as [W Hw Hall Hns Ha]. simpl.
  destruct (getitem_eff s self w k) as (s1 & E1 & Q1 & W1); [done..|by rewrite Hall|].
  assert (Hns' : nskey (Lifecycle :: bs) k = nskey bs k) by (unfold nskey; by rewrite hasc_cons).
  destruct (get_res w k) as [v|e] eqn:Hg.
  2: { rewrite (bind_Exc _ _ _ _ _ E1). eexists _, _. split; [done|]. split; [by apply del_eff_fail|].
       intros _. simpl. by rewrite Hg. }
  rewrite (bind_Ret _ _ _ _ _ E1).
  destruct (IH s1) as (r & s2 & E2 & F & G); [by eapply dpre_eqv|].
  assert (G' : del_outcome (Lifecycle :: bs) s w k r).
  { intros Hr. simpl. rewrite Hg. apply G. eapply del_ready_eqv; [done|]. eapply del_ready_cons; [|exact Hr]. done. }
  apply (del_eff_eqv _ _ _ _ _ _ _ _ _ Q1) in F.
  assert (Hocc : occ Lifecycle (Lifecycle :: bs) = S (occ Lifecycle bs)).
  { unfold occ. rewrite filter_cons, decide_True by done. done. }
  assert (Hrf : hasc Reference (Lifecycle :: bs) = hasc Reference bs) by (by rewrite hasc_cons).
  destruct r as [[]|e].
  2: { rewrite (bind_Exc _ _ _ _ _ E2). eexists _, _. split; [done|]. split; [|done].
       unfold dstack_eff. rewrite Hocc, Hns', Hrf. by destruct F; constructor. }
  rewrite (bind_Ret _ _ _ _ _ E2).
  destruct (fld_core_view _ s2 _ _ Hw (de_core _ _ _ _ _ _ _ _ F self)) as (w1 & Hw1 & _ & _ & Hsup & _).
  destruct (load_view _ _ _ Hw1) as (o & Hload & Ho & Hwo). rewrite (bind_Ret _ _ _ _ _ Hload).
  assert (Hso : o_suppress o = w_suppress w). { by rewrite <- Hsup, <- Hwo. }
  pose proof (get_res_dget _ _ _ Hg) as Hd. rewrite Hall, Hns in Hd.
  assert (Hv : forall v', nskey bs k = false -> fld w_ent s self ≫= dget k = Some v' -> v' = v).
  { intros v' Hn. unfold fld. rewrite Hw. simpl. rewrite Hn in Hd. congruence. }
  rewrite Hso. destruct (w_suppress w) eqn:Hsw.
  - exists (Ret tt), s2. split; [done|]. split; [|done]. unfold dstack_eff. rewrite Hocc, Hns', Hrf.
    destruct F; constructor; try done.
    intros b v' Hr Hb Hn Hv'. rewrite (de_log0 b v') by done. unfold fld in Hb. rewrite Hw in Hb. simpl in Hb. rewrite Hsw in Hb.
    injection Hb as <-. done.
  - eexists (Ret tt), _. split; [done|]. split; [|done]. unfold dstack_eff. rewrite Hocc, Hns', Hrf.
    assert (W' : wf (set_log (fun l => l ++ [EvRemoved v self k]) s2)).
    { assert (wf s2) as W2 by (by destruct F). by destruct (safe_notify s2 (EvRemoved v self k) W2) as [? _]. }
    destruct F; constructor; try done.
    2: { intros Hs. unfold fld in Hs. rewrite Hw in Hs. simpl in Hs. congruence. }
    intros b v' Hr Hb Hn Hv'. simpl. rewrite (de_log0 b v') by done. unfold fld in Hb. rewrite Hw in Hb. simpl in Hb. rewrite Hsw in Hb.
    injection Hb as <-. rewrite <- app_assoc. f_equal.
    rewrite (Hv v') by done. change (EvRemoved v self k :: replicate (occ Lifecycle bs) (EvRemoved v self k)) with (replicate (S (occ Lifecycle bs)) (EvRemoved v self k)). by rewrite replicate_S_end.
Qed.

(** Reference in front, nothing removed from the index. *)
Lemma dstack_eff_ref_skip bs self k s r s' :
  (forall c cls, fld w_ent s self ≫= dget k = Some (VNode c) -> nskey bs k = false ->
     fld w_cls s c = Some cls -> hasc Reference (c_behs cls) = false) ->
  dstack_eff bs self k s r s' -> dstack_eff (Reference :: bs) self k s r s'.
Proof.
  intros Hno F. unfold dstack_eff in *.
  replace (nskey (Reference :: bs) k) with (nskey bs k) by (unfold nskey; by rewrite hasc_cons).
  replace (occ Lifecycle (Reference :: bs)) with (occ Lifecycle bs) by done.
  replace (hasc Reference (Reference :: bs)) with true by (by rewrite hasc_cons).
  destruct F. constructor; try done.
  intros c cls _ Hn Hr Hv Hc. rewrite (Hno c cls Hv Hn Hc).
  destruct (hasc Reference bs) eqn:Hrb; [|by apply de_noref0].
  specialize (de_ref0 c cls eq_refl Hn Hr Hv Hc). by rewrite (Hno c cls Hv Hn Hc) in de_ref0.
Qed.

Lemma dstack_eff_ref_del bs self k s s3 r s' c cls us i m :
  views s3 = views s -> log s3 = log s -> next_uuid s3 = next_uuid s -> fbcount s3 = fbcount s ->
  classes s3 = classes s -> fuel_of s3 = fuel_of s ->
  fld w_index s self = Some (Some i) -> idxs s !! i = Some m -> idxs s3 = <[i := minus us m]> (idxs s) ->
  td (fuel_of s) (views s) c = Ret us -> fld w_cls s c = Some cls -> hasc Reference (c_behs cls) = true ->
  (if nskey bs k then fld w_ns else fld w_ent) s self ≫= dget k = Some (VNode c) ->
  dstack_eff bs self k s3 r s' -> dstack_eff (Reference :: bs) self k s r s'.
Proof.
  intros Hv Hl Hu Hf Hc Hfu Hi Hm Hx Htd Hcls Href Hval F. unfold dstack_eff in *.
  replace (nskey (Reference :: bs) k) with (nskey bs k) by (unfold nskey; by rewrite hasc_cons).
  replace (occ Lifecycle (Reference :: bs)) with (occ Lifecycle bs) by done.
  replace (hasc Reference (Reference :: bs)) with true by (by rewrite hasc_cons).
  assert (HF : forall B (F : view -> B) x, fld F s3 x = fld F s x) by (intros; unfold fld; by rewrite Hv).
  assert (HD : forall (b : bool), (if b then fld w_ns else fld w_ent) s3 self = (if b then fld w_ns else fld w_ent) s self).
  { intros []; apply HF. }
  destruct F. constructor; try done.
  - intros. by rewrite de_core0.
  - intros. by rewrite de_np0.
  - intros. by rewrite de_ix0.
  - intros. by rewrite de_ent0, HF.
  - intros. by rewrite de_ns0, HF.
  - right. destruct de_idx0 as [E|(i' & m0 & m' & H1 & H2 & H3 & H4)].
    + exists i, m, (minus us m). rewrite E, Hx. split; [done|]. split; [done|]. split; [|done].
      apply map_subseteq_spec. intros u y. rewrite lookup_minus. by destruct (decide _).
    + rewrite HF in H1. rewrite Hi in H1. injection H1 as <-. rewrite Hx, lookup_insert in H2. injection H2 as <-.
      exists i, m, m'. split; [done|]. split; [done|]. split; [|by rewrite H4, Hx, insert_insert].
      etrans; [exact H3|]. apply map_subseteq_spec. intros u y. rewrite lookup_minus. by destruct (decide _).
  - intros Hr. rewrite <- HD. by apply de_val0.
  - intros v Hv'. rewrite Hval in Hv'. by injection Hv' as <-.
  - intros c0 cls0 _ Hn Hr Hv0 Hc0. rewrite Hn in Hval. rewrite Hval in Hv0. injection Hv0 as <-.
    rewrite Hcls in Hc0. injection Hc0 as <-. rewrite Href. exists us, i, m. do 3 (split; [done|]).
    destruct (hasc Reference bs) eqn:Hrb; [|by rewrite de_noref0].
    specialize (de_ref0 c cls eq_refl Hn Hr). rewrite !HF in de_ref0. specialize (de_ref0 Hval Hcls).
    rewrite Href in de_ref0. destruct de_ref0 as (us' & i' & m' & G1 & G2 & G3 & G4).
    rewrite Hv, Hfu in G1. assert (us' = us) as -> by congruence. assert (i' = i) as -> by congruence.
    rewrite Hx, lookup_insert in G3. injection G3 as <-. by rewrite G4, Hx, insert_insert, minus_idemp.
  - intros H. by rewrite de_lognone0.
  - intros H. by rewrite de_log_exc0.
  - intros b v Hr Hb Hn Hv'. rewrite <- Hl. apply de_log0; try done; by rewrite HF.
  - intros Hs. rewrite <- Hl. apply de_log_sup0. by rewrite HF.
  - congruence.
  - congruence.
  - congruence.
Qed.

Lemma del_stack_reference all bs self w k s :
  tree_class all = true -> dpre all (Reference :: bs) s self w k -> del_ih all bs self w k ->
  exists r s', del_stack all (Reference :: bs) self k s = (r, s')
      /\ dstack_eff (Reference :: bs) self k s r s' /\ del_outcome (Reference :: bs) s w k r.
Proof.
  intros Ht HP IH. assert (Hat : all_tree s) by (apply (dp_all _ _ _ _ _ _ HP); by rewrite hasc_cons).
  apply dpre_cons in HP; [|done]. pose proof HP as [W Hw Hall Hns Ha]. simpl.
  destruct (getitem_eff s self w k) as (s1 & E1 & Q1 & W1); [done..|by rewrite Hall|].
  destruct (get_res w k) as [v|e] eqn:Hg.
  2: { rewrite (bind_Exc _ _ _ _ _ E1). eexists _, _. split; [done|]. split; [by apply del_eff_fail|].
       intros _. simpl. by rewrite Hg. }
  rewrite (bind_Ret _ _ _ _ _ E1).
  pose proof (get_res_dget _ _ _ Hg) as Hd. rewrite Hall, Hns in Hd.
  pose proof (get_res_vok _ _ _ _ _ W Hw Hg) as Hvok.
  assert (Hskip : (forall c cls, v = VNode c -> fld w_cls s c = Some cls -> hasc Reference (c_behs cls) = false) ->
     exists r s', (do! ret tt in del_stack all bs self k) s1 = (r, s')
      /\ dstack_eff (Reference :: bs) self k s r s' /\ del_outcome (Reference :: bs) s w k r).
  { intros Hno. destruct (IH s1) as (r & s2 & E2 & F & G); [by eapply dpre_eqv|]. rewrite bind_ret.
    exists r, s2. split; [done|]. split.
    - apply dstack_eff_ref_skip.
      + intros c cls Hv Hn. apply Hno. unfold fld in Hv. rewrite Hw in Hv. simpl in Hv. rewrite Hn in Hd. congruence.
      + by eapply del_eff_eqv.
    - intros Hr. simpl. rewrite Hg. apply G. intros Hrb c cls Hgc Hcl Hrc.
      rewrite Hg in Hgc. injection Hgc as ->. rewrite (fld_eqv _ _ _ _ Q1) in Hcl.
      by rewrite (Hno c cls) in Hrc. }
  destruct (is_node v) eqn:Hn.
  2: { assert (Hx : exists r s', (do! ret tt in del_stack all bs self k) s1 = (r, s')
      /\ dstack_eff (Reference :: bs) self k s r s' /\ del_outcome (Reference :: bs) s w k r).
      { apply Hskip. intros c cls ->. done. }
      destruct Hx as (r & s' & E & Hx). exists r, s'. split; [|done]. destruct v; try done. }
  destruct v as [| | | | | | |c| | | |]; try discriminate Hn. clear Hn. simpl in Hvok.
  destruct (live_view _ _ Hvok) as [wc Hwc].
  assert (Hwc1 : views s1 !! c = Some wc) by (by rewrite (e_views _ _ Q1)).
  destruct (load_view _ _ _ Hwc1) as (o & Hload & Ho & Hwo).
  rewrite (bind_assoc _ _ _ s1). rewrite (bind_Ret _ _ _ _ _ Hload). rewrite (has_view _ _ _ _ _ Hwo).
  destruct (hasc Reference (c_behs (w_cls wc))) eqn:Href.
  2: { apply Hskip. intros c0 cls [= <-]. unfold fld. rewrite Hwc. simpl. by intros [= <-]. }
  clear Hskip.
  assert (Hcls : fld w_cls s c = Some (w_cls wc)) by (unfold fld; by rewrite Hwc).
  destruct (to_delete_eff (fuel_of s1) s1 c) as (s2 & E2 & Q2 & W2); [done|by eapply all_tree_eqv|by eapply eqv_live|].
  rewrite (e_views _ _ Q1), (eqv_fuel _ _ Q1) in E2.
  assert (Q12 : eqv s s2) by (by eapply eqv_trans).
  rewrite (bind_assoc _ _ _ s1). unfold with_fuel at 1.
  destruct (td (fuel_of s) (views s) c) as [us|e] eqn:Htd.
  2: { unfold bind at 1. rewrite (eqv_fuel _ _ Q1), E2. eexists _, _. split; [done|]. split; [by apply del_eff_fail|].
       intros Hr. destruct (Hr) with (c := c) (cls := w_cls wc) as (us & i & m & G1 & _); try done. congruence. }
  unfold bind at 1. rewrite (eqv_fuel _ _ Q1), E2.
  assert (Hw2 : views s2 !! self = Some w) by (by rewrite (e_views _ _ Q12)).
  destruct (w_index w) as [i|] eqn:Hi.
  2: { assert (exists u us', us = u :: us') as (u & us' & ->).
       { unfold fuel_of in Htd. simpl in Htd. rewrite Hwc, Href in Htd. destruct (w_uuid wc); [|done].
         match goal with _ : context [mapr ?g ?l] |- _ => destruct (mapr g l) end; [|done]. injection Htd as <-. eauto. }
       eexists _, s2. split.
       - apply bind_Exc. simpl. apply bind_Exc. apply bind_Exc. rewrite (index_of_eff _ _ _ Hw2), Hi. done.
       - split; [by apply del_eff_fail|].
         intros Hr. destruct (Hr) with (c := c) (cls := w_cls wc) as (us & i & m & _ & G1 & _); try done. congruence. }
  destruct (read_idx_eff s2 self w i) as [m Hm]; [done..|].
  destruct (idx_dels_eff self i us s2 w m) as (s3 & E3 & F3); [done..|].
  destruct (idx_dels us m) as [r3 m3] eqn:E3'. simpl in E3, F3.
  assert (Hm0 : idxs s !! i = Some m) by (by rewrite <- (e_idxs _ _ Q12)).
  assert (Hi0 : fld w_index s self = Some (Some i)) by (unfold fld; rewrite Hw; simpl; by f_equal).
  assert (m3 ⊆ m). { pose proof (idx_dels_sub us m) as Hs. by rewrite E3' in Hs. }
  assert (Hv3 : views s3 = views s). { rewrite (io_views _ _ _ _ F3). by apply e_views. }
  assert (HF : forall B (F : view -> B) x, fld F s3 x = fld F s x) by (intros; unfold fld; by rewrite Hv3).
  destruct r3 as [[]|e3].
  2: { rewrite (bind_Exc _ _ _ _ _ E3). eexists _, _. split; [done|]. split.
       - destruct F3. constructor; intros; rewrite ?HF; try done; try (by case_decide).
         + right. exists i, m, m3. rewrite io_idxs0, (e_idxs _ _ Q12). done.
         + exfalso. rewrite (dget_fld _ _ _ _ _ Hw) in H0.
           replace (nskey (Reference :: bs) k) with (nskey bs k) in H0 by (unfold nskey; by rewrite hasc_cons).
           rewrite Hd in H0. by injection H0 as <-.
         + rewrite io_log0. by apply e_log.
         + rewrite io_log0. by apply e_log.
         + rewrite io_log0. by apply e_log.
         + rewrite io_uuid0. by apply e_uuid.
         + rewrite io_fb0. by apply e_fb.
         + rewrite io_classes0. by apply e_classes.
       - intros Hr. destruct (Hr) with (c := c) (cls := w_cls wc) as (us' & i' & m' & G1 & G2 & G3 & G4 & G5 & _); try done.
         assert (us' = us) as -> by congruence. assert (i' = i) as -> by congruence. assert (m' = m) as -> by congruence.
         rewrite (idx_dels_ok us m) in E3' by done. done. }
  rewrite (bind_Ret _ _ _ _ _ E3).
  apply idx_dels_Ret in E3' as [-> Hus]; [|done].
  destruct (IH s3) as (r & s4 & E4 & F4 & G4).
  { destruct F3. constructor; try done.
    - by rewrite Hv3.
    - intros Hrb x wx. rewrite Hv3. apply Hat. }
  exists r, s4. split; [done|].
  assert (Hfu : fuel_of s3 = fuel_of s). { unfold fuel_of. by rewrite <- !views_size, Hv3. }
  assert (idxs s3 = <[i:=minus us m]> (idxs s)) as Hx3 by (rewrite (io_idxs _ _ _ _ F3); by rewrite (e_idxs _ _ Q12)).
  split.
  - destruct F3. eapply dstack_eff_ref_del with (c := c) (us := us) (i := i) (m := m) (s3 := s3); try done.
    + rewrite io_log0. by apply e_log.
    + rewrite io_uuid0. by apply e_uuid.
    + rewrite io_fb0. by apply e_fb.
    + rewrite io_classes0. by apply e_classes.
    + by rewrite (dget_fld _ _ _ _ _ Hw).
  - intros Hr. simpl. rewrite Hg. apply G4. intros Hrb c0 cls0 Hg0 Hc0 Hrc0.
    exfalso. destruct (Hr) with (c := c) (cls := w_cls wc) as (us' & i' & m' & _ & _ & _ & _ & _ & Hocc); try done.
    unfold occ in Hocc. rewrite filter_cons, decide_True in Hocc by done. simpl in Hocc.
    assert (length (filter (eq Reference) bs) = 0) as Hz%nil_length_inv by lia.
    unfold hasc in Hrb. apply bool_decide_eq_true in Hrb.
    assert (Reference ∈ filter (eq Reference) bs) as Hin by (by apply elem_of_list_filter).
    rewrite Hz in Hin. by apply elem_of_nil in Hin.
Qed.

Lemma del_stack_eff all bs self w k :
  tree_class all = true -> forallb tree_beh bs = true -> del_ih all bs self w k.
Proof.
  intros Ht. induction bs as [|b bs IH]; intros Hb s HP.
  - destruct HP as [W Hw Hall Hns Ha]. simpl. unfold del_endpoint.
    apply tree_class_inv in Ht as [Ht Hst]. rewrite tree_no_fixed by done.
    pose proof Hst as Hst'. unfold storage_class in Hst'. rewrite Hst'.
    destruct (del_slot_eff false (storage_of self) s self w k 0) as (r & s' & E & F & G); try done.
    { apply storage_slot; try done. by rewrite Hall. }
    exists r, s'. split; [done|]. split; [exact F|]. intros _. exact G.
  - simpl in Hb. apply andb_prop in Hb as [Hb1 Hb2]. specialize (IH Hb2).
    destruct (decide (b = Nodespaces)) as [->|Hn].
    { apply del_stack_nodespaces; [done|]. intros _. exact IH. }
    destruct (decide (b = Reference)) as [->|Hr].
    { by apply del_stack_reference. }
    destruct (decide (b = Lifecycle)) as [->|Hl].
    { by apply del_stack_lifecycle. }
    pose proof (dpre_cons _ _ _ _ _ _ _ Hn HP) as HP'.
    destruct (IH s HP') as (r & s' & E & F & G). exists r, s'.
    split; [destruct b; try discriminate Hb1; try done; exact E|].
    split; [by apply del_eff_pass|]. intros Hready.
    apply del_ready_cons in Hready; [|done]. specialize (G Hready). rewrite G.
    by destruct b.
Qed.

Theorem delitem_eff s self w k :
  wf s -> views s !! self = Some w -> tree_class (c_behs (w_cls w)) = true ->
  (hasc Reference (c_behs (w_cls w)) = true -> all_tree s) ->
  exists r s', delitem self k s = (r, s') /\ dstack_eff (c_behs (w_cls w)) self k s r s'
    /\ del_outcome (c_behs (w_cls w)) s w k r.
Proof.
  intros W Hw Ht Ha.
  destruct (load_view _ _ _ Hw) as (o & Hload & Ho & Hwo). unfold delitem.
  rewrite (bind_Ret _ _ _ _ _ Hload). replace (o_cls o) with (w_cls w) by (by rewrite <- Hwo).
  apply del_stack_eff; try done. by apply tree_class_inv in Ht as [? _].
Qed.
