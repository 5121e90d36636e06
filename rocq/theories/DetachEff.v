(** The effect of [node.detach(k)] for every class made of the tree behaviors. *)
From Verif Require Import Py Odict OdictFacts Aliaser Heap Model MonadFacts WF WFOps Views
  SpecMapping MappingProofs StorageProofs TreeOps SetEff DelEff.

(** nodes visited by _index_nodes, with their uuids, and how the walk ends *)
Definition seqs {A B} (f : A -> list B * option exc) : list A -> list B * option exc :=
  fix go l := match l with
              | [] => ([], None)
              | a :: r => match f a with
                          | (bs, None) => let '(bs', e) := go r in (bs ++ bs', e)
                          | (bs, Some e) => (bs, Some e)
                          end
              end.
Fixpoint inodes (fuel : nat) (vs : gmap nat view) (c : nat) : list (N * nat) * option exc :=
  match fuel with
  | O => ([], Some OutOfFuel)
  | S f =>
      match vs !! c with
      | None => ([], Some Dangling)
      | Some w =>
          if hasc Reference (c_behs (w_cls w)) then
            match mapr (get_res w) (dkeys (w_ent w)) with
            | Exc e => ([], Some e)
            | Ret l =>
                seqs (fun v => match v with
                  | VNode c' =>
                      match vs !! c' with
                      | None => ([], Some Dangling)
                      | Some w' =>
                          if hasc Reference (c_behs (w_cls w')) || hasc UUIDAware (c_behs (w_cls w')) then
                            match w_uuid w' with
                            | None => ([], Some TypeError)
                            | Some u => let '(l, e) := inodes f vs c' in ((u, c') :: l, e)
                            end
                          else ([], None)
                      end
                  | _ => ([], None)
                  end) l
            end
          else ([], Some AttributeError)
      end
  end.

Lemma seqs_ext {A B} (f g : A -> list B * option exc) l : (forall a, f a = g a) -> seqs f l = seqs g l.
Proof. intros H. induction l as [|a l IH]; simpl; [done|]. by rewrite H, IH. Qed.

(** what the walk depends on *)
Notation w_shape := (fun w => (w_cls w, w_ent w, w_ns w, w_uuid w)).
Definition same_shape (vs vs' : gmap nat view) : Prop :=
  forall x, w_shape <$> vs' !! x = w_shape <$> vs !! x.
Lemma same_shape_lookup vs vs' x w : same_shape vs vs' -> vs !! x = Some w ->
  exists w', vs' !! x = Some w' /\ w_shape w' = w_shape w.
Proof. intros H Hw. specialize (H x). rewrite Hw in H. destruct (vs' !! x) as [w'|]; [|done]. injection H as H. exists w'. simpl. split; congruence. Qed.
Lemma vw_index_proj w w' : w_shape w = w_shape w' ->
  w_cls w = w_cls w' /\ w_ent w = w_ent w' /\ w_ns w = w_ns w' /\ w_uuid w = w_uuid w'.
Proof. simpl. intros H. by injection H. Qed.
Lemma get_res_same w w' k : w_cls w = w_cls w' -> w_ent w = w_ent w' -> w_ns w = w_ns w' ->
  get_res w k = get_res w' k.
Proof. unfold get_res. by intros -> -> ->. Qed.
Lemma mapr_ext {A B} (f g : A -> res B) l : (forall a, f a = g a) -> mapr f l = mapr g l.
Proof. intros H. induction l as [|a l IH]; simpl; [done|]. by rewrite H, IH. Qed.
Lemma inodes_same f : forall vs vs' c, same_shape vs vs' -> inodes f vs' c = inodes f vs c.
Proof.
  induction f as [|f IH]; intros vs vs' c H; simpl; [done|].
  pose proof (H c) as Hc. destruct (vs' !! c) as [w'|], (vs !! c) as [w|]; simpl in Hc; try done.
  injection Hc as Hc1 Hc2 Hc3 _. rewrite Hc1, Hc2.
  destruct (hasc _ _); [|done].
  rewrite (mapr_ext (get_res w') (get_res w)) by (intros; by apply get_res_same).
  destruct (mapr _ _) as [l|e]; [|done].
  apply seqs_ext. intros [| | | | | | |c'| | | |]; try done.
  pose proof (H c') as Hc'. destruct (vs' !! c') as [w1'|], (vs !! c') as [w1|]; simpl in Hc'; try done.
  injection Hc' as E1 E2 E3 E4. rewrite E1, E4. destruct (_ || _); [|done].
  destruct (w_uuid w1); [|done]. by rewrite (IH vs vs').
Qed.

Definition ins_all (m : gmap (option N) nat) (l : list (N * nat)) : gmap (option N) nat :=
  foldl (fun m p => <[Some (fst p) := snd p]> m) m l.
Lemma ins_all_app m l l' : ins_all m (l ++ l') = ins_all (ins_all m l) l'.
Proof. apply foldl_app. Qed.

(** nodes [l] now have index [i], whose content is [m] *)
Record reindexed (i : nat) (l : list nat) (m : gmap (option N) nat) (s s' : st) : Prop := Reindexed {
  ri_wf : wf s';
  ri_views : forall x, views s' !! x = (if decide (x ∈ l) then vw_index (Some i) else id) <$> views s !! x;
  ri_idxs : idxs s' = <[i := m]> (idxs s);
  ri_log : log s' = log s;
  ri_uuid : next_uuid s' = next_uuid s;
  ri_fb : fbcount s' = fbcount s;
  ri_classes : classes s' = classes s
}.
Lemma reindexed_shape i l m s s' : reindexed i l m s s' -> same_shape (views s) (views s').
Proof. intros [] x. rewrite ri_views0. destruct (decide _), (views s !! x); done. Qed.
Lemma reindexed_refl i m s : wf s -> idxs s !! i = Some m -> reindexed i [] m s s.
Proof. intros W H. constructor; try done; [|by rewrite insert_id]. intros x. rewrite decide_False by (apply not_elem_of_nil). by destruct (views s !! x). Qed.
Lemma reindexed_trans i l l' m m' s s' s'' : reindexed i l m s s' -> reindexed i l' m' s' s'' ->
  reindexed i (l ++ l') m' s s''.
Proof.
  intros [] []. constructor; try congruence.
  - intros x. rewrite ri_views1, ri_views0. destruct (views s !! x) as [w|]; simpl; [|done]. f_equal.
    destruct (decide (x ∈ l)) as [H1|H1], (decide (x ∈ l')) as [H2|H2], (decide (x ∈ l ++ l')) as [H3|H3];
      simpl; try done; exfalso; rewrite elem_of_app in H3; naive_solver.
  - by rewrite ri_idxs1, ri_idxs0, insert_insert.
Qed.
Lemma reindexed_eqv i l m s s1 s' : eqv s s1 -> reindexed i l m s1 s' -> reindexed i l m s s'.
Proof. intros [] []. constructor; try congruence. intros x. by rewrite ri_views0, e_views. Qed.
Lemma reindexed_all_tree i l m s s' : reindexed i l m s s' -> all_tree s -> all_tree s'.
Proof.
  intros [] H x w. rewrite ri_views0. destruct (views s !! x) as [w0|] eqn:Hw; [|done]. simpl.
  intros [= <-]. apply H in Hw. by destruct (decide _).
Qed.
Lemma reindexed_index i l m s s' x : reindexed i l m s s' -> fld w_index s x = Some (Some i) ->
  fld w_index s' x = Some (Some i).
Proof. intros [] H. unfold fld in *. rewrite ri_views0. destruct (views s !! x); [|done]. simpl in *. by destruct (decide _). Qed.
Lemma reindexed_live i l m s s' x : reindexed i l m s s' -> live s' x <-> live s x.
Proof.
  intros []. rewrite !views_live. rewrite ri_views0. unfold is_Some.
  destruct (views s !! x); simpl; naive_solver.
Qed.

Lemma values_eff s x w : wf s -> views s !! x = Some w -> tree_class (c_behs (w_cls w)) = true ->
  pure_eff s (values x) (mapr (get_res w) (dkeys (w_ent w))).
Proof.
  intros W Hw Ht. unfold values. eapply pure_eff_bind; [by apply iter_eff|]. intros s1 Q1 W1.
  apply pure_eff_mapM; [|done]. intros s2 k Q2 W2. apply getitem_eff; try done.
  by rewrite (e_views _ _ Q2), (e_views _ _ Q1).
Qed.
Lemma mapr_get_vok s x w l : wf s -> views s !! x = Some w ->
  forall ks, mapr (get_res w) ks = Ret l -> Forall (vok s) l.
Proof.
  intros W Hw ks. revert l. induction ks as [|k ks IH]; intros l; simpl; [by intros [= <-]|].
  destruct (get_res w k) as [v|] eqn:Hg; [|done]. destruct (mapr (get_res w) ks) as [l'|]; [|done].
  intros [= <-]. constructor; [|by apply IH]. by eapply get_res_vok.
Qed.

Definition res_of_opt (e : option exc) : res unit := match e with None => Ret tt | Some e => Exc e end.

Lemma index_nodes_eff f : forall s c i m, wf s -> all_tree s ->
  fld w_index s c = Some (Some i) -> idxs s !! i = Some m ->
  exists s', index_nodes f c s = (res_of_opt (inodes f (views s) c).2, s')
    /\ reindexed i (snd <$> (inodes f (views s) c).1) (ins_all m (inodes f (views s) c).1) s s'.
Proof.
  induction f as [|f IH]; intros s c i m W Ha Hi Hm.
  { exists s. split; [done|]. by apply reindexed_refl. }
  destruct (fld_view _ _ _ _ Hi) as (w & Hw & Hwi).
  simpl. rewrite Hw. destruct (load_view _ _ _ Hw) as (o & Hload & Ho & Hwo).
  rewrite (bind_Ret _ _ _ _ _ Hload), (has_view _ _ _ _ _ Hwo).
  destruct (hasc _ _); [|exists s; split; [done|by apply reindexed_refl]].
  destruct (values_eff s c w) as (s1 & E1 & Q1 & W1); [done|done|by eapply Ha|].
  destruct (mapr (get_res w) (dkeys (w_ent w))) as [l|e] eqn:Hl.
  2: { exists s1. rewrite (bind_Exc _ _ _ _ _ E1). split; [done|]. eapply reindexed_eqv; [done|].
       apply reindexed_refl; [done|]. by rewrite (e_idxs _ _ Q1). }
  rewrite (bind_Ret _ _ _ _ _ E1). clear E1.
  assert (Hvok : Forall (vok s) l) by (by eapply mapr_get_vok).
  clear Hl. 
  assert (Hgen : forall l s1 m, wf s1 -> all_tree s1 -> same_shape (views s) (views s1) ->
      fld w_index s1 c = Some (Some i) -> idxs s1 !! i = Some m -> Forall (vok s) l ->
      let F := (fun v : val => match v with
                  | VNode c' =>
                      match views s !! c' with
                      | None => ([], Some Dangling)
                      | Some w' =>
                          if hasc Reference (c_behs (w_cls w')) || hasc UUIDAware (c_behs (w_cls w')) then
                            match w_uuid w' with
                            | None => ([], Some TypeError)
                            | Some u => let '(l, e) := inodes f (views s) c' in ((u, c') :: l, e)
                            end
                          else ([], None)
                      end
                  | _ => ([], None)
                  end) in
      exists s', iterM (fun v =>
          match v with
          | VNode c0 =>
              let! co := load c0 in
              if has Reference co || has UUIDAware co then
                match o_uuid co with
                | None => raise TypeError
                | Some u =>
                    let! i := index_of c in
                    let! m := read_idx i in
                    do! write_idx i (<[Some u := c0]> m) in
                    do! modify c0 (with_index (Some i)) in
                    index_nodes f c0
                end
              else ret tt
          | _ => ret tt
          end) l s1 = (res_of_opt (seqs F l).2, s')
      /\ reindexed i (snd <$> (seqs F l).1) (ins_all m (seqs F l).1) s1 s').
  2: { destruct (Hgen l s1 m) as (s2 & E2 & R2); try done.
       - by eapply all_tree_eqv.
       - intros x. by rewrite (e_views _ _ Q1).
       - by rewrite (fld_eqv _ _ _ _ Q1).
       - by rewrite (e_idxs _ _ Q1).
       - exists s2. split; [exact E2|]. by eapply reindexed_eqv. }
  clear s1 Q1 W1 l Hvok m Hm Hload Ho Hwo o. intros l. induction l as [|v l IHl]; intros s1 m W1 Ha1 Hsh Hi1 Hm Hvok F; simpl.
  { exists s1. split; [done|]. by apply reindexed_refl. }
  apply Forall_cons in Hvok as [Hv Hvok].
  assert (Hskip : exists s', (do! ret tt in iterM (fun v =>
          match v with
          | VNode c0 =>
              let! co := load c0 in
              if has Reference co || has UUIDAware co then
                match o_uuid co with
                | None => raise TypeError
                | Some u =>
                    let! i := index_of c in
                    let! m := read_idx i in
                    do! write_idx i (<[Some u := c0]> m) in
                    do! modify c0 (with_index (Some i)) in
                    index_nodes f c0
                end
              else ret tt
          | _ => ret tt
          end) l) s1 = (res_of_opt (let '(bs', e) := seqs F l in ([] ++ bs', e)).2, s')
       /\ reindexed i (snd <$> (let '(bs', e) := seqs F l in ([] ++ bs', e)).1) (ins_all m (let '(bs', e) := seqs F l in ([] ++ bs', e)).1) s1 s').
  { destruct (IHl s1 m) as (s' & E & R); try done. exists s'. rewrite bind_ret. fold F in E, R.
    destruct (seqs F l) as [bs' e']. done. }
  destruct v as [| | | | | | |c0| | | |]; try exact Hskip.
  simpl in Hv. destruct (live_view _ _ Hv) as [w0 Hw0]. change (F (VNode c0)) with
    (match views s !! c0 with
                      | None => ([], Some Dangling)
                      | Some w' =>
                          if hasc Reference (c_behs (w_cls w')) || hasc UUIDAware (c_behs (w_cls w')) then
                            match w_uuid w' with
                            | None => ([], Some TypeError)
                            | Some u => let '(l, e) := inodes f (views s) c0 in ((u, c0) :: l, e)
                            end
                          else ([], None)
                      end).
  rewrite Hw0.
  destruct (same_shape_lookup _ _ _ _ Hsh Hw0) as (w1 & Hw1 & Hws).
  apply vw_index_proj in Hws as (P1 & _ & _ & P4). rewrite <- P1, <- P4.
  destruct (load_view _ _ _ Hw1) as (o & Hload & Ho & Hwo).
  rewrite (bind_assoc _ _ _ s1), (bind_Ret _ _ _ _ _ Hload), !(has_view _ _ _ _ _ Hwo).
  destruct (_ || _); [|exact Hskip]. clear Hskip.
  replace (o_uuid o) with (w_uuid w1) by (by rewrite <- Hwo).
  destruct (w_uuid w1) as [u|].
  2: { rewrite bind_raise. exists s1. split; [done|]. by apply reindexed_refl. }
  destruct (fld_view _ _ _ _ Hi1) as (wc & Hwc & Hwci).
  rewrite (bind_assoc _ _ _ s1), (bind_Ret _ _ s1 i s1) by (by rewrite (index_of_eff _ _ _ Hwc), Hwci).
  rewrite (bind_assoc _ _ _ s1), (bind_read_idx _ _ _ _ Hm).
  rewrite (bind_assoc _ _ _ s1). rewrite (bind_Ret _ _ s1 tt (set_idxs <[i := <[Some u := c0]> m]> s1)) by done.
  assert (Hl1 : live s1 c0) by (apply views_live; eauto).
  destruct (modify_index_eff (set_idxs <[i := <[Some u := c0]> m]> s1) c0 i) as (s2 & E2 & W2 & T2).
  { done. }
  { apply (safe_write_idx s1 i (<[Some u := c0]> m)); [eauto| |done].
    intros k y [[<- <-]|[? Hy]]%lookup_insert_Some; [done|]. by apply (proj2 (wf_idxs _ W1 _ _ Hm) k). }
  { simpl. rewrite lookup_insert. eauto. }
  rewrite bind_assoc, (bind_Ret _ _ _ _ _ E2).
  assert (R2 : reindexed i [c0] (<[Some u := c0]> m) s1 s2).
  { destruct T2 as [(w' & Hw' & Hv') H2 H3 H4 H5 H6]. change (views (set_idxs _ s1)) with (views s1) in *.
    constructor; try done. intros x. rewrite Hv'. destruct (decide (x ∈ [c0])) as [->%elem_of_list_singleton|Hx].
    - by rewrite lookup_insert, Hw'.
    - rewrite lookup_insert_ne by (intros ->; apply Hx; by left). by destruct (views s1 !! x). }
  assert (Hi2 : fld w_index s2 c0 = Some (Some i)).
  { unfold fld. rewrite (ri_views _ _ _ _ _ R2), decide_True by (by left). by rewrite Hw1. }
  assert (Hm2 : idxs s2 !! i = Some (<[Some u := c0]> m)).
  { rewrite (ri_idxs _ _ _ _ _ R2). by rewrite lookup_insert. }
  assert (Ha2 : all_tree s2) by (by eapply reindexed_all_tree).
  assert (Hsh2 : same_shape (views s) (views s2)).
  { intros x. rewrite <- (Hsh x). by apply (reindexed_shape _ _ _ _ _ R2). }
  destruct (IH s2 c0 i (<[Some u := c0]> m)) as (s3 & E3 & R3); try done.
  rewrite (inodes_same f (views s) (views s2)) in E3, R3 by done.
  destruct (inodes f (views s) c0) as [ps e] eqn:Hin. simpl in E3, R3.
  destruct e as [e|].
  { simpl in E3. rewrite (bind_Exc _ _ _ _ _ E3). exists s3. split; [done|]. simpl.
    by apply (reindexed_trans _ [c0] _ _ _ _ _ _ R2). }
  simpl in E3. rewrite (bind_Ret _ _ _ _ _ E3).
  pose proof (reindexed_trans _ _ _ _ _ _ _ _ R2 R3) as R23. simpl in R23.
  destruct (IHl s3 (ins_all (<[Some u := c0]> m) ps)) as (s4 & E4 & R4); try done.
  { by destruct R3. } { by eapply reindexed_all_tree. }
  { intros x. rewrite <- (Hsh x). by apply (reindexed_shape _ _ _ _ _ R23). }
  { by eapply reindexed_index. }
  { rewrite (ri_idxs _ _ _ _ _ R3). by rewrite lookup_insert. }
  fold F in E4, R4. exists s4. destruct (seqs F l) as [bs' e']. simpl in *. split; [exact E4|].
  pose proof (reindexed_trans _ _ _ _ _ _ _ _ R23 R4) as R. rewrite fmap_app, ins_all_app. exact R.
Qed.

(** * detach *)
Notation w_core2 := (fun w => (w_cls w, w_cache w, w_fixed w, w_uuid w, w_allow w, w_fallback w)).

Lemma td_same f : forall vs vs' c, same_shape vs vs' -> td f vs' c = td f vs c.
Proof.
  induction f as [|f IH]; intros vs vs' c H; simpl; [done|].
  pose proof (H c) as Hc. destruct (vs' !! c) as [w'|], (vs !! c) as [w|]; simpl in Hc; try done.
  injection Hc as Hc1 Hc2 Hc3 Hc4. rewrite Hc1, Hc2, Hc4.
  destruct (hasc _ _); [|done]. destruct (w_uuid w); [|done].
  rewrite (mapr_ext _ (fun k => catch_attr match get_res w k with Ret (VNode c') => td f vs c' | Ret _ => Exc AttributeError | Exc e => Exc e end)); [done|].
  intros k. rewrite (get_res_same w' w) by done. destruct (get_res w k) as [[]|]; try done. by rewrite (IH vs vs').
Qed.

(** the content of the indices after a deletion *)
Record idx_after (ns rf : bool) (self : nat) (k : key) (ok : bool) (s : st) (ix : gmap nat (gmap (option N) nat)) : Prop := IdxAfter {
  ia_noref : rf = false -> ix = idxs s;
  ia_sub : ix = idxs s \/ exists i m m', fld w_index s self = Some (Some i) /\
     idxs s !! i = Some m /\ m' ⊆ m /\ ix = <[i := m']> (idxs s);
  ia_ref : forall c cls, rf = true -> ns = false -> ok = true ->
     fld w_ent s self ≫= dget k = Some (VNode c) ->
     fld w_cls s c = Some cls ->
     if hasc Reference (c_behs cls)
     then exists us i m, td (fuel_of s) (views s) c = Ret us /\ fld w_index s self = Some (Some i)
       /\ idxs s !! i = Some m /\ ix = <[i := minus us m]> (idxs s)
     else ix = idxs s
}.
Lemma del_idx_after ns rf lc self k s r s' : del_eff ns rf lc self k s r s' ->
  idx_after ns rf self k (is_ret r) s (idxs s').
Proof. intros []. constructor; done. Qed.
Lemma fail_idx_after ns rf self k s : idx_after ns rf self k false s (idxs s).
Proof. constructor; try done. by left. Qed.

Definition views_del (ns : bool) (self : nat) (k : key) (vs : gmap nat view) : gmap nat view :=
  alter (fun w => if ns then vw_ns (ddel k (w_ns w)) w else vw_ent (ddel k (w_ent w)) w) self vs.

Definition det_ready (ns : bool) (bs : list behavior) (s : st) (self : nat) (w : view) (k : key) : Prop :=
  hasc Reference bs = true -> occ Reference bs <= 1 /\ exists c cls u, get_res w k = Ret (VNode c) /\
    fld w_cls s c = Some cls /\ hasc Reference (c_behs cls) = true /\ fld w_uuid s c = Some (Some u)
    /\ (inodes (fuel_of s) (views_del ns self k (views s)) c).2 = None.
Definition det_res (all : list behavior) (w : view) (k : key) : res val :=
  match get_res w k with
  | Exc e => Exc e
  | Ret v => match del_res all w k with Ret _ => Ret v | Exc e => Exc e end
  end.

Record det_eff (all bs : list behavior) (self : nat) (k : key) (w : view) (d : bool)
    (ix : gmap nat (gmap (option N) nat)) (s : st) (r : res val) (s' : st) : Prop := DetEff {
  dt_wf : wf s';
  dt_core : forall x, fld w_core2 s' x = fld w_core2 s x;
  dt_np : forall x, fld w_np s' x = fld w_np s x;
  dt_ent : forall x, fld w_ent s' x =
     if decide (x = self) then if d && negb (nskey all k) then ddel k <$> fld w_ent s x else fld w_ent s x
     else fld w_ent s x;
  dt_ns : forall x, fld w_ns s' x =
     if decide (x = self) then if d && nskey all k then ddel k <$> fld w_ns s x else fld w_ns s x
     else fld w_ns s x;
  dt_ret : forall v, r = Ret v -> d = true /\ get_res w k = Ret v;
  dt_exc : is_ret r = false -> hasc Reference bs = false -> d = false;
  dt_sup_other : forall x, x <> self -> fld w_suppress s' x = fld w_suppress s x;
  dt_sup_none : hasc Lifecycle bs = false -> fld w_suppress s' self = fld w_suppress s self;
  dt_sup_ret : hasc Lifecycle bs = true -> is_ret r = true -> fld w_suppress s' self = Some false;
  dt_sup_exc : hasc Lifecycle bs = true -> is_ret r = false -> hasc Reference bs = false ->
     fld w_suppress s' self = Some true;
  dt_log : forall v, r = Ret v -> log s' = log s ++ replicate (occ Lifecycle bs) (EvDetached v self k);
  dt_log_exc : is_ret r = false -> hasc Reference bs = false -> log s' = log s;
  dt_idx : idx_after (nskey all k) (hasc Reference all) self k d s ix;
  dt_noref : hasc Reference bs = false -> idxs s' = ix /\ forall x, fld w_index s' x = fld w_index s x;
  dt_ref : forall v, r = Ret v -> occ Reference bs = 1 ->
     exists c cls u n ps, v = VNode c /\ fld w_cls s c = Some cls /\ hasc Reference (c_behs cls) = true
       /\ fld w_uuid s c = Some (Some u) /\ ix !! n = None
       /\ inodes (fuel_of s) (views_del (nskey all k) self k (views s)) c = (ps, None)
       /\ idxs s' = <[n := ins_all {[Some u := c]} ps]> ix
       /\ forall x, fld w_index s' x = (if decide (x ∈ c :: ps.*2) then fun _ => Some n else id) <$> fld w_index s x;
  dt_uuid : next_uuid s' = next_uuid s;
  dt_fb : fbcount s' = fbcount s;
  dt_classes : classes s' = classes s;
  dt_res : del_ready all s w k -> det_ready (nskey all k) bs s self w k -> r = det_res all w k
}.

Lemma dup_core2 s s' x : fld w_core s' x = fld w_core s x -> fld w_core2 s' x = fld w_core2 s x.
Proof.
  unfold fld. destruct (views s' !! x), (views s !! x); simpl; intros H; try done. by injection H as -> -> -> -> -> _ ->.
Qed.

Lemma detach_endpoint_eff s self w k :
  wf s -> views s !! self = Some w -> tree_class (c_behs (w_cls w)) = true ->
  (hasc Reference (c_behs (w_cls w)) = true -> all_tree s) ->
  (hasc Lifecycle (c_behs (w_cls w)) = true -> w_suppress w = true) ->
  exists r s' d ix, detach_endpoint self k s = (r, s') /\ det_eff (c_behs (w_cls w)) [] self k w d ix s r s'.
Proof.
  intros W Hw Ht Ha Hsup. unfold detach_endpoint.
  destruct (getitem_eff s self w k) as (s1 & E1 & Q1 & W1); [done..|].
  assert (HF : forall B (F : view -> B) x, fld F s1 x = fld F s x) by (intros; by apply fld_eqv).
  pose proof Q1 as [? ? ? ? ? ? _].
  destruct (get_res w k) as [v|e] eqn:Hg.
  2: { rewrite (bind_Exc _ _ _ _ _ E1). exists (Exc e), s1, false, (idxs s). split; [done|].
       constructor; intros; rewrite ?HF; try done; simpl; try (by case_decide).
       - apply fail_idx_after.
       - unfold det_res. by rewrite Hg. }
  rewrite (bind_Ret _ _ _ _ _ E1).
  destruct (delitem_eff s1 self w k) as (r & s2 & E2 & F & G); try done.
  { by rewrite e_views. } { intros H. by eapply all_tree_eqv, Ha. }
  apply (del_eff_eqv _ _ _ _ _ _ _ _ _ Q1) in F.
  assert (Hlog : log s2 = log s).
  { destruct (hasc Lifecycle (c_behs (w_cls w))) eqn:Hl.
    - apply (de_log_sup _ _ _ _ _ _ _ _ F). unfold fld. rewrite Hw. simpl. by rewrite Hsup.
    - apply (de_lognone _ _ _ _ _ _ _ _ F). unfold occ. unfold hasc in Hl. apply bool_decide_eq_false in Hl.
      destruct (filter (eq Lifecycle) (c_behs (w_cls w))) as [|b l] eqn:Hf; [done|].
      exfalso. apply Hl. assert (b ∈ filter (eq Lifecycle) (c_behs (w_cls w))) as H by (rewrite Hf; by left).
      apply elem_of_list_filter in H as [-> H]. done. }
  assert (Hres : del_ready (c_behs (w_cls w)) s w k -> r = del_res (c_behs (w_cls w)) w k).
  { intros Hr. apply G. by eapply del_ready_eqv. }
  pose proof (del_idx_after _ _ _ _ _ _ _ _ F) as Hix.
  assert (Hd : exists r', (do! delitem self k in ret v) s1 = (r', s2) /\ is_ret r' = is_ret r /\ (forall v', r' = Ret v' -> v' = v)
     /\ (del_ready (c_behs (w_cls w)) s w k -> r' = det_res (c_behs (w_cls w)) w k)).
  { unfold det_res. rewrite Hg. destruct r as [[]|e].
    - exists (Ret v). rewrite (bind_Ret _ _ _ _ _ E2). split; [done|]. split; [done|]. split; [by intros v' [= <-]|].
      intros Hr. by rewrite <- Hres.
    - exists (Exc e). rewrite (bind_Exc _ _ _ _ _ E2). split; [done|]. split; [done|]. split; [done|].
      intros Hr. by rewrite <- Hres. }
  destruct Hd as (r' & E' & Hrr & Hrv & Hres').
  exists r', s2, (is_ret r), (idxs s2). split; [done|]. destruct F. constructor; try done.
  - intros x. by apply dup_core2.
  - intros v' ->. rewrite (Hrv v' eq_refl). done.
  - congruence.
  - intros x _. by apply fld_core_suppress.
  - intros _. by apply fld_core_suppress.
  - intros v' _. simpl. by rewrite app_nil_r.
  - intros Hr _. by apply Hres'.
Qed.

Lemma det_eff_pass all b bs self k w d ix s r s' : b <> Lifecycle -> b <> Reference ->
  det_eff all bs self k w d ix s r s' -> det_eff all (b :: bs) self k w d ix s r s'.
Proof.
  intros H1 H2 [].
  assert (E1 : hasc Reference (b :: bs) = hasc Reference bs) by (by rewrite hasc_cons, bool_decide_eq_false_2).
  assert (E2 : hasc Lifecycle (b :: bs) = hasc Lifecycle bs) by (by rewrite hasc_cons, bool_decide_eq_false_2).
  assert (E3 : occ Reference (b :: bs) = occ Reference bs) by (unfold occ; by rewrite filter_cons, decide_False).
  assert (E4 : occ Lifecycle (b :: bs) = occ Lifecycle bs) by (unfold occ; by rewrite filter_cons, decide_False).
  constructor; rewrite ?E1, ?E2, ?E3, ?E4; try done.
  intros Hr1 Hr2. apply dt_res0; [done|]. unfold det_ready in *. by rewrite E1, E3 in Hr2.
Qed.

Lemma del_res_sup all bs b w k : del_res bs (vw_suppress b w) k = del_res bs w k /\ det_res all (vw_suppress b w) k = det_res all w k.
Proof.
  assert (H : forall bs, del_res bs (vw_suppress b w) k = del_res bs w k).
  { intros l. induction l as [|b' l IH]; simpl; [done|]. rewrite IH. done. }
  split; [done|]. unfold det_res. rewrite H. done.
Qed.

(** suppressing *)
Lemma suppress_eff s self w b : wf s -> views s !! self = Some w ->
  exists s', modify self (with_suppress b) s = (Ret tt, s') /\ wf s' /\ touched self (vw_suppress b) s s'
    /\ views s' !! self = Some (vw_suppress b w) /\ same_shape (views s) (views s') /\ fuel_of s' = fuel_of s.
Proof.
  intros W Hw. destruct (modify_suppress_eff s self b) as (s' & E & W' & T); [by apply views_live; eauto|done|].
  exists s'. split; [done|]. split; [done|]. split; [done|].
  destruct (t_views _ _ _ _ T) as (w0 & Hw0 & Hv). rewrite Hw in Hw0. injection Hw0 as <-.
  split; [by rewrite Hv, lookup_insert|]. split.
  - intros x. rewrite Hv. destruct (decide (self = x)) as [<-|]; [by rewrite lookup_insert, Hw|by rewrite lookup_insert_ne].
  - unfold fuel_of. f_equal. rewrite <- !views_size. rewrite Hv. rewrite map_size_insert, Hw. done.
Qed.

Lemma views_del_shape ns self k vs vs' : same_shape vs vs' -> same_shape (views_del ns self k vs) (views_del ns self k vs').
Proof.
  intros H x. unfold views_del. destruct (decide (self = x)) as [<-|].
  - rewrite !lookup_alter. specialize (H self). destruct (vs' !! self) as [w'|], (vs !! self) as [w|]; simpl in *; try done.
    injection H as H1 H2 H3 H4. destruct ns; simpl; by rewrite H1, H2, H3, H4.
  - by rewrite !lookup_alter_ne.
Qed.

(** a change of name, parent, index, or suppress before *)
Lemma idx_after_pre ns rf self k ok s s1 ix :
  same_shape (views s) (views s1) -> fuel_of s1 = fuel_of s -> idxs s1 = idxs s ->
  fld w_index s1 self = fld w_index s self ->
  idx_after ns rf self k ok s1 ix -> idx_after ns rf self k ok s ix.
Proof.
  intros Hs Hf Hx Hi []. constructor.
  - by rewrite <- Hx.
  - rewrite <- Hx, <- Hi. done.
  - intros c cls H1 H2 H3 H4 H5. specialize (ia_ref0 c cls H1 H2 H3).
    assert (fld w_ent s1 self = fld w_ent s self) as E1.
    { unfold fld. specialize (Hs self). destruct (views s1 !! self), (views s !! self); simpl in *; try done. congruence. }
    assert (fld w_cls s1 c = fld w_cls s c) as E2.
    { unfold fld. specialize (Hs c). destruct (views s1 !! c), (views s !! c); simpl in *; try done. congruence. }
    rewrite E1, E2 in ia_ref0. specialize (ia_ref0 H4 H5). rewrite Hf, (td_same _ _ _ _ Hs), Hx, Hi in ia_ref0. done.
Qed.

Lemma hasc_occ b bs : hasc b bs = false <-> occ b bs = 0.
Proof.
  unfold hasc, occ. rewrite bool_decide_eq_false. split.
  - intros H. destruct (filter (eq b) bs) as [|b' l] eqn:Hf; [done|].
    exfalso. apply H. assert (b' ∈ filter (eq b) bs) as H' by (rewrite Hf; by left).
    apply elem_of_list_filter in H' as [-> H']. done.
  - intros H%nil_length_inv Hin.
    assert (b ∈ filter (eq b) bs) as H' by (by apply elem_of_list_filter). rewrite H in H'. by apply elem_of_nil in H'.
Qed.

Lemma fld_core2_view {B} (F : view -> B) s s' x :
  fld w_core2 s' x = fld w_core2 s x ->
  (forall w w', w_core2 w = w_core2 w' -> F w = F w') -> fld F s' x = fld F s x.
Proof.
  unfold fld. intros H K. destruct (views s' !! x), (views s !! x); simpl in *; try done. f_equal. apply K. congruence.
Qed.

Lemma views_alloc_idx s m : views (set_next_id S (set_idxs <[next_id s := m]> s)) = views s.
Proof. done. Qed.

Lemma same_shape_size vs vs' : same_shape vs vs' -> size vs' = size vs.
Proof.
  intros H. rewrite <- (size_dom (D := gset nat) vs), <- (size_dom (D := gset nat) vs'). f_equal.
  apply set_eq. intros x. rewrite !elem_of_dom. specialize (H x).
  destruct (vs' !! x), (vs !! x); simpl in H; try done; split; intros [? ?]; eauto; done.
Qed.

Lemma det_eff_shape all bs self k w ix s r s' : det_eff all bs self k w true ix s r s' ->
  same_shape (views_del (nskey all k) self k (views s)) (views s').
Proof.
  intros [] x. specialize (dt_core0 x). specialize (dt_ent0 x). specialize (dt_ns0 x).
  unfold fld, views_del in *. simpl in *. destruct (decide (x = self)) as [->|].
  - rewrite lookup_alter. destruct (views s' !! self), (views s !! self); simpl in *; try done.
    injection dt_core0 as ? ? ? ? ? ?. destruct (nskey all k); simpl in *; congruence.
  - rewrite lookup_alter_ne by done. destruct (views s' !! x), (views s !! x); simpl in *; try done.
    injection dt_core0 as ? ? ? ? ? ?. congruence.
Qed.

Lemma views_del_size ns self k vs : size (views_del ns self k vs) = size vs.
Proof.
  rewrite <- (size_dom (D := gset nat)), <- (size_dom (D := gset nat) vs). f_equal. apply set_eq. intros x.
  unfold views_del. rewrite !elem_of_dom. destruct (decide (self = x)) as [<-|].
  - rewrite lookup_alter. by rewrite fmap_is_Some.
  - by rewrite lookup_alter_ne.
Qed.

Lemma all_tree_core2 s s' : (forall x, fld w_core2 s' x = fld w_core2 s x) -> all_tree s -> all_tree s'.
Proof.
  intros H A x w Hw. specialize (H x). unfold fld in H. rewrite Hw in H. destruct (views s !! x) as [w0|] eqn:E; simpl in H; [|done].
  injection H as -> _ _ _ _ _. by eapply A.
Qed.

(** a failing stage on top *)
Lemma det_eff_fail all bs self k w d ix s r s' e :
  det_eff all bs self k w d ix s r s' ->
  (det_ready (nskey all k) (Reference :: bs) s self w k -> del_ready all s w k -> Exc e = det_res all w k) ->
  det_eff all (Reference :: bs) self k w d ix s (Exc e) s'.
Proof.
  intros [] Hn. assert (EH : hasc Reference (Reference :: bs) = true) by (by rewrite hasc_cons, bool_decide_eq_true_2).
  assert (EL : hasc Lifecycle (Reference :: bs) = hasc Lifecycle bs) by (by rewrite hasc_cons).
  constructor; rewrite ?EH, ?EL; try done.
  intros Hr1 Hr2. by apply Hn.
Qed.

Lemma detach_stack_eff all : forall bs s self w k,
  wf s -> views s !! self = Some w -> c_behs (w_cls w) = all -> tree_class all = true ->
  (hasc Reference all = true -> all_tree s) -> (hasc Reference bs = true -> hasc Reference all = true) ->
  (hasc Lifecycle all = true -> hasc Lifecycle bs = true \/ w_suppress w = true) ->
  exists r s' d ix, detach_stack bs self k s = (r, s') /\ det_eff all bs self k w d ix s r s'.
Proof.
  induction bs as [|b bs IH]; intros s self w k W Hw Hall Ht Ha Hra Hs; simpl.
  { subst all. apply detach_endpoint_eff; try done. intros H. by destruct (Hs H). }
  assert (Hra' : hasc Reference bs = true -> hasc Reference all = true).
  { intros H. apply Hra. rewrite hasc_cons, H. by destruct (bool_decide _). }
  destruct (decide (b = Lifecycle)) as [->|Hnl]; [|destruct (decide (b = Reference)) as [->|Hnr]].
  - (* Lifecycle *)
    cbn [detach_stage].
    destruct (suppress_eff s self w true) as (s1 & E1 & W1 & T1 & Hw1 & Sh1 & F1); [done..|].
    rewrite (bind_Ret _ _ _ _ _ E1).
    destruct (IH s1 self (vw_suppress true w) k) as (r & s2 & d & ix & E2 & D2); try done.
    { intros H x y Hy. pose proof (Sh1 x) as K. rewrite Hy in K. destruct (views s !! x) as [w0|] eqn:E; simpl in K; [|done].
      injection K as -> _ _ _. by eapply (Ha H). }
    { by right. }
    assert (HP : forall B (F : view -> B) x, (forall w b, F (vw_suppress b w) = F w) -> fld F s1 x = fld F s x).
    { intros B F x HF. unfold fld. destruct (t_views _ _ _ _ T1) as (w0 & Hw0 & Hv). rewrite Hw in Hw0. injection Hw0 as <-.
      rewrite Hv. destruct (decide (self = x)) as [<-|]; [rewrite lookup_insert, Hw|by rewrite lookup_insert_ne]. simpl. by rewrite HF. }
    assert (HS : forall x, x <> self -> fld w_suppress s1 x = fld w_suppress s x).
    { intros x Hx. unfold fld. destruct (t_views _ _ _ _ T1) as (w0 & Hw0 & Hv). by rewrite Hv, lookup_insert_ne. }
    assert (HS' : fld w_suppress s1 self = Some true) by (unfold fld; by rewrite Hw1).
    pose proof T1 as [_ Ti1 Tu1 Tl1 Tf1 Tc1].
    assert (Hex : forall s3 r', 
        (forall B (F : view -> B) x, (forall w b, F (vw_suppress b w) = F w) -> fld F s3 x = fld F s2 x) ->
        (forall x, x <> self -> fld w_suppress s3 x = fld w_suppress s2 x) ->
        (is_ret r = true -> fld w_suppress s3 self = Some false) ->
        (is_ret r = false -> fld w_suppress s3 self = fld w_suppress s2 self) ->
        r' = r -> wf s3 -> idxs s3 = idxs s2 -> next_uuid s3 = next_uuid s2 -> fbcount s3 = fbcount s2 -> classes s3 = classes s2 ->
        (forall v, r = Ret v -> log s3 = log s2 ++ [EvDetached v self k]) ->
        (is_ret r = false -> log s3 = log s2) ->
        det_eff all (Lifecycle :: bs) self k w d ix s r' s3).
    { intros s3 r' H3 H3s H3t H3f -> W3 Hi3 Hu3 Hf3 Hc3 Hl3 Hl3'. destruct D2.
      assert (ER : hasc Reference (Lifecycle :: bs) = hasc Reference bs) by (by rewrite hasc_cons).
      assert (EL : occ Lifecycle (Lifecycle :: bs) = S (occ Lifecycle bs)) by (unfold occ; by rewrite filter_cons, decide_True).
      constructor; rewrite ?ER.
      - done.
      - intros x. rewrite H3 by done. rewrite dt_core0. by apply HP.
      - intros x. rewrite H3 by done. rewrite dt_np0. by apply HP.
      - intros x. rewrite H3 by done. rewrite dt_ent0. by rewrite !HP.
      - intros x. rewrite H3 by done. rewrite dt_ns0. by rewrite !HP.
      - intros v Hv. destruct (dt_ret0 v Hv) as [-> Hg]. split; [done|]. done.
      - intros H1 H2. by apply dt_exc0.
      - intros x Hx. by rewrite H3s, dt_sup_other0, HS.
      - rewrite hasc_cons. done.
      - done.
      - intros _ H1 H2. rewrite H3f by done. destruct (hasc Lifecycle bs) eqn:Hlb; [by apply dt_sup_exc0|].
        by rewrite dt_sup_none0.
      - intros v Hv. rewrite (Hl3 v Hv), (dt_log0 v Hv), Tl1, EL. rewrite <- app_assoc. f_equal.
        change ([EvDetached v self k]) with (replicate 1 (EvDetached v self k)). rewrite <- replicate_add. f_equal. lia.
      - intros H1 H2. rewrite Hl3', dt_log_exc0 by done. done.
      - eapply idx_after_pre; [done|done|done| |done]. by apply HP.
      - intros H1. destruct (dt_noref0 H1) as [<- H2]. split; [done|]. intros x. rewrite H3 by done. rewrite H2. by apply HP.
      - assert (EO : occ Reference (Lifecycle :: bs) = occ Reference bs) by (unfold occ; by rewrite filter_cons, decide_False).
        intros v Hv H1. rewrite EO in H1. destruct (dt_ref0 v Hv H1) as (c & cls & u & n & ps & -> & H4 & H5 & H6 & H7 & H8 & H9 & H10).
        exists c, cls, u, n, ps. split; [done|]. rewrite <- (HP _ w_cls c), <- (HP _ w_uuid c) by done. split; [done|]. split; [done|]. split; [done|]. split; [done|].
        split; [|split].
        + rewrite <- H8, F1. symmetry. apply inodes_same. by apply views_del_shape.
        + by rewrite Hi3.
        + intros x. rewrite H3 by done. rewrite H10. f_equal. by apply HP.
      - by rewrite Hu3, dt_uuid0.
      - by rewrite Hf3, dt_fb0.
      - by rewrite Hc3, dt_classes0.
      - intros H1 H2. destruct (del_res_sup all all true w k) as [_ K]. rewrite <- K. apply dt_res0.
        + intros Hr c cls G1 G2 G3. rewrite (HP _ w_cls) in G2 by done. destruct (H1 Hr c cls G1 G2 G3) as (us & i & m & G4 & G5 & G6 & G7).
          exists us, i, m. rewrite F1, (td_same _ _ _ _ Sh1), Ti1. done.
        + intros Hr. unfold det_ready in H2. rewrite ER in H2. destruct (H2 Hr) as (G0 & c & cls & u & G1 & G2 & G3 & G4 & G5).
          assert (EO : occ Reference (Lifecycle :: bs) = occ Reference bs) by (unfold occ; by rewrite filter_cons, decide_False).
          rewrite EO in G0. split; [done|]. exists c, cls, u. rewrite !HP by done. split; [done|]. split; [done|]. split; [done|]. split; [done|].
          rewrite F1, <- G5. f_equal. apply inodes_same. by apply views_del_shape. }
    destruct r as [v|e].
    2: { rewrite (bind_Exc _ _ _ _ _ E2). exists (Exc e), s2, d, ix. split; [done|]. by apply Hex; destruct D2. }
    rewrite (bind_Ret _ _ _ _ _ E2).
    assert (Hl2 : exists w2, views s2 !! self = Some w2).
    { pose proof (dt_core _ _ _ _ _ _ _ _ _ _ D2 self) as K. unfold fld in K. rewrite Hw1 in K.
      destruct (views s2 !! self); eauto. done. }
    destruct Hl2 as [w2 Hw2]. pose proof (dt_wf _ _ _ _ _ _ _ _ _ _ D2) as W2.
    destruct (suppress_eff s2 self w2 false) as (s3 & E3 & W3 & T3 & Hw3 & Sh3 & F3); [done..|].
    rewrite (bind_Ret _ _ _ _ _ E3). unfold notify. simpl.
    eexists _, _, d, ix. split; [reflexivity|].
    pose proof T3 as [(w0 & Hw0 & Hv3) Ti3 Tu3 Tl3 Tf3 Tc3].
    set (s4 := set_log _ s3).
    assert (V4 : views s4 = views s3) by done.
    apply Hex; try done.
    + intros B F x HF. unfold fld. rewrite V4, Hv3. rewrite Hw2 in Hw0. injection Hw0 as <-.
      destruct (decide (self = x)) as [<-|]; [rewrite lookup_insert, Hw2|by rewrite lookup_insert_ne]. simpl. by rewrite HF.
    + intros x Hx. unfold fld. by rewrite V4, Hv3, lookup_insert_ne.
    + intros _. unfold fld. by rewrite V4, Hw3.
    + by destruct (safe_notify s3 (EvDetached v self k) W3) as [? _].
    + intros v' [= <-]. simpl. by rewrite Tl3.
  - (* Reference *)
    cbn [detach_stage].
    destruct (IH s self w k) as (r & s2 & d & ix & E2 & D2); try done.
    { intros H. destruct (Hs H) as [H'|]; [|by right]. rewrite hasc_cons in H'. by left. }
    assert (Hra1 : hasc Reference all = true). { apply Hra. by rewrite hasc_cons, bool_decide_eq_true_2. }
    destruct r as [v|e].
    2: { rewrite (bind_Exc _ _ _ _ _ E2). exists (Exc e), s2, d, ix. split; [done|]. eapply det_eff_fail; [done|].
         intros G1 G2. apply D2; [done|]. intros Hr.
         destruct G1 as [G1 _]; [by rewrite hasc_cons, bool_decide_eq_true_2|].
         unfold occ in G1. rewrite filter_cons, decide_True in G1 by done. simpl in G1.
         apply le_S_n in G1. assert (occ Reference bs = 0) as Ho by (unfold occ; lia). apply hasc_occ in Ho. congruence. }
    rewrite (bind_Ret _ _ _ _ _ E2).
    destruct (dt_ret _ _ _ _ _ _ _ _ _ _ D2 v eq_refl) as [-> Hg].
    assert (Hfail : forall e, (forall c cls u, v = VNode c -> fld w_cls s c = Some cls -> hasc Reference (c_behs cls) = true ->
        fld w_uuid s c = Some (Some u) -> False) ->
      exists (r : res val) (s' : st) (d : bool) (ix : gmap nat (gmap (option N) nat)),
         (Exc e, s2) = (r, s') /\ det_eff all (Reference :: bs) self k w d ix s r s').
    { intros e Hn. exists (Exc e), s2, true, ix. split; [done|]. eapply det_eff_fail; [done|].
      intros G1 G2. exfalso. destruct G1 as (_ & c & cls & u & G4 & G5 & G6 & G7 & G8); [by rewrite hasc_cons, bool_decide_eq_true_2|].
      rewrite Hg in G4. injection G4 as ->. by eapply Hn. }
    destruct v as [| | | | | | |c| | | |]; try (apply Hfail; intros; discriminate).
    pose proof (get_res_vok _ _ _ _ _ W Hw Hg) as Hv. simpl in Hv.
    destruct (live_view _ _ Hv) as [wc Hwc].
    assert (Hl2 : exists w2, views s2 !! c = Some w2 /\ w_cls w2 = w_cls wc /\ w_uuid w2 = w_uuid wc).
    { pose proof (dt_core _ _ _ _ _ _ _ _ _ _ D2 c) as K. unfold fld in K. rewrite Hwc in K.
      destruct (views s2 !! c) as [w2|]; simpl in K; [|done]. exists w2. injection K as ? ? ? ? ? ?. done. }
    destruct Hl2 as (w2 & Hw2 & Hc2 & Hu2). pose proof (dt_wf _ _ _ _ _ _ _ _ _ _ D2) as W2.
    destruct (load_view _ _ _ Hw2) as (o & Hload & Ho & Hwo).
    rewrite (bind_Ret _ _ _ _ _ Hload), (has_view _ _ _ _ _ Hwo), Hc2.
    destruct (hasc Reference (c_behs (w_cls wc))) eqn:Hrc.
    2: { apply Hfail. intros c' cls u [= <-] H. unfold fld in H. rewrite Hwc in H. injection H as <-. congruence. }
    assert (o_uuid o = w_uuid wc) as -> by (by rewrite <- Hu2, <- Hwo).
    destruct (w_uuid wc) as [u|] eqn:Huc.
    2: { apply Hfail. intros c' cls u [= <-] _ _ H. unfold fld in H. rewrite Hwc in H. simpl in H. congruence. }
    set (s3 := set_next_id S (set_idxs <[next_id s2 := {[Some u := c]}]> s2)).
    assert (E3 : alloc_idx {[Some u := c]} s2 = (Ret (next_id s2), s3)) by done.
    rewrite (bind_Ret _ _ _ _ _ E3).
    assert (W3 : wf s3).
    { apply (safe_alloc_idx s2 {[Some u := c]}); [|done]. intros u' y [_ <-]%lookup_singleton_Some. apply views_live. eauto. }
    assert (Hfresh : idxs s2 !! next_id s2 = None).
    { destruct (idxs s2 !! next_id s2) as [m|] eqn:E; [|done]. destruct (wf_idxs _ W2 _ _ E). lia. }
    destruct (modify_index_eff s3 c (next_id s2)) as (s4 & E4 & W4 & T4).
    { apply views_live. change (views s3) with (views s2). eauto. } { done. } { simpl. rewrite lookup_insert. eauto. }
    rewrite (bind_Ret _ _ _ _ _ E4).
    destruct T4 as [(w3 & Hw3 & Hv4) Ti4 Tu4 Tl4 Tf4 Tc4].
    change (views s3) with (views s2) in *. rewrite Hw2 in Hw3. injection Hw3 as <-.
    assert (Hc4 : fld w_index s4 c = Some (Some (next_id s2))) by (unfold fld; rewrite Hv4, lookup_insert; done).
    assert (Hm4 : idxs s4 !! next_id s2 = Some {[Some u := c]}) by (rewrite Ti4; simpl; by rewrite lookup_insert).
    assert (A4 : all_tree s4).
    { apply (all_tree_core2 s2); [|eapply all_tree_core2; [apply D2|by apply Ha]]. intros x. unfold fld. rewrite Hv4.
      destruct (decide (c = x)) as [<-|]; [by rewrite lookup_insert, Hw2|by rewrite lookup_insert_ne]. }
    destruct (index_nodes_eff (fuel_of s4) s4 c (next_id s2) {[Some u := c]} W4 A4 Hc4 Hm4) as (s5 & E5 & R5).
    assert (Sh4 : same_shape (views s2) (views s4)).
    { intros x. rewrite Hv4. destruct (decide (c = x)) as [<-|]; [by rewrite lookup_insert, Hw2|by rewrite lookup_insert_ne]. }
    assert (Hin : inodes (fuel_of s4) (views s4) c = inodes (fuel_of s) (views_del (nskey all k) self k (views s)) c).
    { rewrite (inodes_same _ _ _ _ Sh4), (inodes_same _ _ _ _ (det_eff_shape _ _ _ _ _ _ _ _ _ D2)). f_equal.
      unfold fuel_of. f_equal. rewrite <- !views_size, (same_shape_size _ _ Sh4), (same_shape_size _ _ (det_eff_shape _ _ _ _ _ _ _ _ _ D2)).
      apply views_del_size. }
    rewrite Hin in E5, R5. destruct (inodes (fuel_of s) _ c) as [ps oe] eqn:Hi. simpl in E5, R5.
    assert (HP : forall B (F : view -> B) x, (forall w i, F (vw_index i w) = F w) -> fld F s5 x = fld F s2 x).
    { intros B F x HF. unfold fld. rewrite (ri_views _ _ _ _ _ R5), Hv4.
      destruct (decide (c = x)) as [<-|].
      - rewrite lookup_insert, Hw2. simpl. destruct (decide _); simpl; by rewrite ?HF.
      - rewrite lookup_insert_ne by done. destruct (views s2 !! x); simpl; [|done]. destruct (decide _); simpl; by rewrite ?HF. }
    assert (EH : hasc Reference (Reference :: bs) = true) by (by rewrite hasc_cons, bool_decide_eq_true_2).
    assert (EL : hasc Lifecycle (Reference :: bs) = hasc Lifecycle bs) by (by rewrite hasc_cons).
    assert (EO : occ Reference (Reference :: bs) = S (occ Reference bs)) by (unfold occ; by rewrite filter_cons, decide_True).
    assert (EO2 : occ Lifecycle (Reference :: bs) = occ Lifecycle bs) by (unfold occ; by rewrite filter_cons, decide_False).
    destruct R5 as [W5 Rv5 Ri5 Rl5 Ru5 Rf5 Rc5].
    assert (Hl5 : log s5 = log s2) by (by rewrite Rl5, Tl4).
    assert (Hdone : forall r', (r' = Ret (VNode c) /\ oe = None) \/ (is_ret r' = false /\ oe <> None) ->
      det_eff all (Reference :: bs) self k w true ix s r' s5).
    { intros r' Hr'. pose proof D2 as D2'. destruct D2. constructor; rewrite ?EH, ?EL, ?EO, ?EO2; try done.
      - intros x. by rewrite HP.
      - intros x. by rewrite HP.
      - intros x. by rewrite HP.
      - intros x. by rewrite HP.
      - intros v ->. destruct Hr' as [[[= ->] _]|[? _]]; [|done]. done.
      - intros x Hx. rewrite HP by done. by apply dt_sup_other0.
      - intros Hx. rewrite HP by done. by apply dt_sup_none0.
      - intros Hx Hy. rewrite HP by done. by apply dt_sup_ret0.
      - intros v ->. destruct Hr' as [[[= ->] _]|[? _]]; [|done]. rewrite Hl5. by apply dt_log0.
      - intros v -> [= Ho']. destruct Hr' as [[[= ->] ->]|[? _]]; [|done].
        assert (Hnr : hasc Reference bs = false) by (by apply hasc_occ).
        destruct (dt_noref0 Hnr) as [Hx1 Hx2].
        exists c, (w_cls wc), u, (next_id s2), ps. split; [done|]. split; [unfold fld; by rewrite Hwc|].
        split; [done|]. split; [unfold fld; rewrite Hwc; simpl; by rewrite Huc|]. split; [by rewrite <- Hx1|]. split; [done|]. split.
        + rewrite Ri5, Ti4. simpl. rewrite insert_insert. by rewrite Hx1.
        + intros x. rewrite <- Hx2. unfold fld. rewrite Rv5, Hv4. destruct (decide (c = x)) as [<-|].
          * rewrite lookup_insert, Hw2. rewrite (decide_True (P := c ∈ c :: _)) by (by left). destruct (decide _); done.
          * rewrite lookup_insert_ne by done. destruct (views s2 !! x) as [wx|]; simpl; [|done].
            destruct (decide (x ∈ ps.*2)).
            -- rewrite decide_True by (by right). done.
            -- rewrite decide_False by (intros [?|?]%elem_of_cons; [by subst|done]). done.
      - by rewrite Ru5, Tu4.
      - by rewrite Rf5, Tf4.
      - by rewrite Rc5, Tc4.
      - intros H1 H2. destruct (H2 EH) as (H3 & c' & cls & u' & H4 & H5 & H6 & H7 & H8). rewrite Hg in H4. injection H4 as <-.
        rewrite Hi in H8. simpl in H8. subst oe. destruct Hr' as [[-> _]|[_ ?]]; [|done].
        apply dt_res0; [done|]. intros Hx. rewrite EO in H3. assert (occ Reference bs = 0) as Ho' by lia. apply hasc_occ in Ho'. congruence. }
    assert (E5' : with_fuel (fun f => index_nodes f c) s4 = (res_of_opt oe, s5)) by exact E5.
    destruct oe as [e|]; simpl in E5'.
    + rewrite (bind_Exc _ _ _ _ _ E5'). exists (Exc e), s5, true, ix. split; [done|]. apply Hdone. by right.
    + rewrite (bind_Ret _ _ _ _ _ E5'). exists (Ret (VNode c)), s5, true, ix. split; [done|]. apply Hdone. by left.
  - destruct (IH s self w k) as (r & s2 & d & ix & E2 & D2); try done.
    { intros H. destruct (Hs H) as [H'|]; [|by right]. rewrite hasc_cons, bool_decide_eq_false_2 in H' by done. by left. }
    exists r, s2, d, ix. split; [by destruct b|]. by apply det_eff_pass.
Qed.

Theorem detach_eff s self w k :
  wf s -> views s !! self = Some w -> tree_class (c_behs (w_cls w)) = true ->
  (hasc Reference (c_behs (w_cls w)) = true -> all_tree s) ->
  exists r s' d ix, detach self k s = (r, s') /\ det_eff (c_behs (w_cls w)) (c_behs (w_cls w)) self k w d ix s r s'.
Proof.
  intros W Hw Ht Ha. unfold detach. destruct (load_view _ _ _ Hw) as (o & Hload & Ho & Hwo).
  rewrite (bind_Ret _ _ _ _ _ Hload). replace (c_behs (o_cls o)) with (c_behs (w_cls w)) by (by rewrite <- Hwo).
  apply detach_stack_eff; try done. by left.
Qed.
