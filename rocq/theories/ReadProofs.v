(** Reading depends on what can be seen only, and changes nothing of it. *)
From Verif Require Import Py Odict OdictFacts Aliaser Heap Model MonadFacts WF WFOps Views SpecMapping MappingProofs TreeOps Observe ObserveFacts Reach FbCount Utils Reads.

(** Everything is stated for a relation on what can be seen of a node, with which reading
    complies, and for the classes it is sound for.  There are two of them below. *)
Section reading.
Context (sim : view -> view -> Prop) (calm : classdef -> Prop).
Context (sim_refl : forall w, sim w w) (sim_sym : forall w w', sim w w' -> sim w' w) (sim_trans : forall w w1 w2, sim w w1 -> sim w1 w2 -> sim w w2).
Context (sim_core : forall w w', sim w w' -> vw_cache [] w' = vw_cache [] w).
Context (calm_factory : forall c, calm c -> ChildFactory ∉ c_behs c).

Definition sims (vs vs' : gmap nat view) : Prop := forall x, option_Forall2 sim (vs !! x) (vs' !! x).
Lemma sims_refl vs : sims vs vs.
Proof. intros x. destruct (vs !! x); by constructor. Qed.
Lemma sims_eq vs vs' : vs' = vs -> sims vs vs'.
Proof. intros ->. apply sims_refl. Qed.
Lemma sims_sym vs vs' : sims vs vs' -> sims vs' vs.
Proof. intros H x. destruct (H x); constructor; auto. Qed.
Lemma sims_trans v1 v2 v3 : sims v1 v2 -> sims v2 v3 -> sims v1 v3.
Proof. intros H K x. specialize (H x). specialize (K x). inversion H; inversion K; try congruence; constructor. assert (y = x1) as -> by congruence. eauto. Qed.
Lemma sims_cls vs vs' x : sims vs vs' -> w_cls <$> vs' !! x = w_cls <$> vs !! x.
Proof. intros H. destruct (H x) as [w w' K|]; [|done]. simpl. f_equal. by apply sim_core, (f_equal w_cls) in K. Qed.

Record alike (s t : st) : Prop := Alike {
  al_wf : wf s; al_wf' : wf t;
  al_calm : forall x o, nodes s !! x = Some o -> calm (o_cls o);
  al_views : sims (views s) (views t);
  al_fb : fbcount t = fbcount s
}.
Record still (s s' : st) : Prop := Still {
  st_views : sims (views s) (views s'); st_idxs : idxs s' = idxs s; st_uuid : next_uuid s' = next_uuid s;
  st_log : log s' = log s; st_classes : classes s' = classes s
}.
Lemma still_refl s : still s s.
Proof. constructor; try done. apply sims_refl. Qed.
Lemma still_trans s s1 s2 : still s s1 -> still s1 s2 -> still s s2.
Proof. intros [] []. constructor; try congruence. by eapply sims_trans. Qed.
Lemma eqv_still s s' : eqv s s' -> still s s'.
Proof. intros []. constructor; try done. by apply sims_eq. Qed.
Lemma view_class s x : w_cls <$> views s !! x = o_cls <$> nodes s !! x.
Proof. rewrite views_lookup. by destruct (nodes s !! x). Qed.
Lemma alike_step s t s' t' : alike s t -> wf s' -> wf t' -> sims (views s) (views s') -> sims (views t) (views t') -> fbcount t' = fbcount s' -> alike s' t'.
Proof.
  intros [W W' C V F] W1 W1' V1 V1' F1. constructor; try done.
  - intros x o Ho. pose proof (sims_cls _ _ x V1) as H. rewrite !view_class, Ho in H. simpl in H.
    destruct (nodes s !! x) as [o1|] eqn:E; [|done]. simpl in H. injection H as ->. by eapply C.
  - exact (sims_trans _ _ _ (sims_sym _ _ V1) (sims_trans _ _ _ V V1')).

Qed.
(** the class of the node at hand *)
Definition here (P : option (nat * classdef)) (s : st) : Prop := match P with Some (x, c) => w_cls <$> views s !! x = Some c | None => True end.
Lemma here_still P s s' : here P s -> still s s' -> here P s'.
Proof. destruct P as [[x c]|]; simpl; [|done]. intros H K. by rewrite (sims_cls _ _ x (st_views _ _ K)). Qed.
Definition rq {A} (P : option (nat * classdef)) (m : M A) : Prop :=
  forall s t, alike s t -> here P s -> fst (m s) = fst (m t) /\ alike (snd (m s)) (snd (m t)) /\ still s (snd (m s)).
Notation rl := (rq None).
Lemma rl_rq {A} P (m : M A) : rl m -> rq P m.
Proof. intros H s t K _. by apply H. Qed.
Lemma rl_ret {P A} (a : A) : rq P (ret a).
Proof. intros s t H _. split; [done|]. split; [done|apply still_refl]. Qed.
Lemma rl_raise {P A} e : rq P (raise (A := A) e).
Proof. intros s t H _. split; [done|]. split; [done|apply still_refl]. Qed.
Lemma rl_bind {P A B} (m : M A) (f : A -> M B) : rq P m -> (forall a, rq P (f a)) -> rq P (bind m f).
Proof.
  intros Hm Hf s t H Q. destruct (Hm s t H Q) as (E & H1 & S1). unfold bind. destruct (m s) as [r s1], (m t) as [r' t1]. simpl in *. subst r'. destruct r as [a|e]; [|done].
  destruct (Hf a s1 t1 H1) as (E2 & H2 & S2); [by eapply here_still|]. split; [done|]. split; [done|]. by eapply still_trans.
Qed.
Lemma rl_try {P A} (m : M A) p h : rq P m -> (forall e, rq P (h e)) -> rq P (try_catch m p h).
Proof.
  intros Hm Hf s t H Q. destruct (Hm s t H Q) as (E & H1 & S1). unfold try_catch. destruct (m s) as [r s1], (m t) as [r' t1]. simpl in *. subst r'. destruct r as [a|e]; [done|].
  destruct (p e); [|done]. destruct (Hf e s1 t1 H1) as (E2 & H2 & S2); [by eapply here_still|]. split; [done|]. split; [done|]. by eapply still_trans.
Qed.
Lemma rl_finally {P A} (m : M A) fin : rq P m -> rq P fin -> rq P (try_finally m fin).
Proof.
  intros Hm Hf s t H Q. destruct (Hm s t H Q) as (E & H1 & S1). unfold try_finally. destruct (m s) as [r s1], (m t) as [r' t1]. simpl in *. subst r'.
  destruct (Hf s1 t1 H1) as (E2 & H2 & S2); [by eapply here_still|]. destruct (fin s1) as [r2 s2], (fin t1) as [r2' t2]. simpl in *. subst r2'. assert (still s s2) by (by eapply still_trans). by destruct r2.
Qed.
Lemma rl_mapM {A B} (f : A -> M B) l : (forall a, rl (f a)) -> rl (mapM_ f l).
Proof. intros H. induction l as [|a l IH]; [apply rl_ret|]. simpl. apply rl_bind; [done|]. intros b. apply rl_bind; [done|]. intros bs. apply rl_ret. Qed.
Lemma rl_res {P A} (r : res A) : rq P (of_res r).
Proof. intros s t H _. split; [done|]. split; [done|apply still_refl]. Qed.
Lemma alike_size s t : alike s t -> size (nodes s) = size (nodes t).
Proof.
  intros H. rewrite <- !(size_dom (D := gset nat)). f_equal. apply set_eq. intros x. rewrite !elem_of_dom. change (live s x <-> live t x). rewrite !views_live. by destruct (al_views _ _ H x).
Qed.
Lemma rl_fuel {A} (f : nat -> M A) : (forall n, rl (f n)) -> rl (with_fuel f).
Proof. intros H s t K Q. unfold with_fuel, fuel_of. rewrite <- (alike_size s t K). by apply H. Qed.
(** what can be seen of an object without its dicts *)
Definition core (o : obj) : obj :=
  Obj (o_cls o) (o_name o) (o_parent o) None None None None (o_index o) (o_uuid o) (o_allow o) (o_suppress o) (o_fallback o).
Lemma alike_core s t x : alike s t -> core <$> nodes s !! x = core <$> nodes t !! x.
Proof.
  intros H. pose proof (views_lookup s x) as A. pose proof (views_lookup t x) as B. destruct (al_views _ _ H x) as [w w' K|].
  - destruct (nodes s !! x) as [o|], (nodes t !! x) as [o'|]; simpl in *; try discriminate. injection A as ->. injection B as ->. apply sim_core in K. unfold vw_cache, view_of in K. simpl in K.
    injection K as E1 E2 E3 _ _ _ E4 E5 E6 E7 E8. f_equal. unfold core. congruence.
  - by destruct (nodes s !! x), (nodes t !! x).
Qed.
Lemma rl_load_at {P A} x (f : obj -> M A) : (forall o, f o = f (core o)) -> (forall o, calm (o_cls o) -> rq (Some (x, o_cls o)) (f o)) -> rq P (bind (load x) f).
Proof.
  intros Hc Hf s t H _. pose proof (alike_core s t x H) as E. unfold bind, load. destruct (nodes s !! x) as [o|] eqn:Ho, (nodes t !! x) as [o'|]; simpl in E; try discriminate E.
  - injection E as E. rewrite (Hc o'). replace (core o') with (core o) by (unfold core; congruence). rewrite <- Hc. apply Hf; [by eapply al_calm|done|]. simpl. by rewrite view_class, Ho.
  - split; [done|]. split; [done|apply still_refl].
Qed.
Lemma rl_load_same {P A} x (f : obj -> M A) : (forall o, f o = f (core o)) -> (forall o, calm (o_cls o) -> rq P (f o)) -> rq P (bind (load x) f).
Proof.
  intros Hc Hf s t H Q. pose proof (alike_core s t x H) as E. unfold bind, load. destruct (nodes s !! x) as [o|] eqn:Ho, (nodes t !! x) as [o'|]; simpl in E; try discriminate E.
  - injection E as E. rewrite (Hc o'). replace (core o') with (core o) by (unfold core; congruence). rewrite <- Hc. apply Hf; [by eapply al_calm|done|done].
  - split; [done|]. split; [done|apply still_refl].
Qed.
Lemma rl_load {P A} x (f : obj -> M A) : (forall o, f o = f (core o)) -> (forall o, calm (o_cls o) -> rl (f o)) -> rq P (bind (load x) f).
Proof. intros Hc Hf. apply rl_load_at; [done|]. intros o C. by apply rl_rq, Hf. Qed.
(** * Dicts *)
Definition answered (d : list (key * val)) (k : key) : res val :=
  if hashable k then match dget k d with Some v => Ret v | None => Exc (KeyError k) end else Exc TypeError.
Lemma dict_get_is s l d k : dicts s !! l = Some d -> dict_get l k s = (answered d k, s).
Proof. intros H. unfold dict_get, answered. destruct (hashable k); [|done]. unfold bind, read_dict. rewrite H. by destruct (dget k d). Qed.
Lemma slot_dict s x o l a : wf s -> nodes s !! x = Some o -> get_slot a o = Some l -> dicts s !! l = Some (default [] (dicts s !! l)).
Proof. intros W Ho E. destruct (wf_nodes s W x o Ho) as [_ Hok]. destruct (ok_slot s o Hok a l E) as [d Hd]. by rewrite Hd. Qed.
Definition of_storage {A} (x : nat) (f : list (key * val) -> res A) (vs : gmap nat view) : res A :=
  match vs !! x with
  | None => Exc Dangling
  | Some w => if storage_class (c_behs (w_cls w)) then f (w_ent w) else Exc NotImplementedError
  end.
Definition of_spaces {A} (x : nat) (f : list (key * val) -> res A) (vs : gmap nat view) : res A :=
  match vs !! x with None => Exc Dangling | Some w => f (w_ns w) end.
Definition of_fixed {A} (x : nat) (f : list (key * val) -> res A) (vs : gmap nat view) : res A :=
  match vs !! x with None => Exc Dangling | Some w => match w_fixed w with Some d => f d | None => Exc AttributeError end end.
Lemma storage_then {A} s x (f : list (key * val) -> res A) (g : nat -> M A) : wf s -> (forall t l d, dicts t !! l = Some d -> g l t = (f d, t)) ->
  exists s', wf s' /\ eqv s s' /\ (let! l := storage_of x in g l) s =
    (of_storage x f (views s), s').
Proof.
  intros W Hg. unfold of_storage, of_spaces. destruct (views s !! x) as [w|] eqn:Hw.
  - destruct (view_obj _ _ _ Hw) as (o & Ho & ->). simpl. destruct (storage_class (c_behs (o_cls o))) eqn:SC.
    + destruct (storage_of_eff s x o W Ho SC) as (l & s' & E & Q & W' & o' & Ho' & El & _). exists s'. split; [done|]. split; [done|]. unfold bind. rewrite E.
      rewrite (Hg s' l _ (slot_dict s' x o' l SStorage W' Ho' El)). f_equal. f_equal. pose proof (views_lookup s' x) as V. rewrite (e_views _ _ Q), Hw, Ho' in V. apply (f_equal (fmap w_ent)) in V. simpl in V. rewrite El in V. simpl in V. by injection V as ->.
    + exists s. split; [done|]. split; [apply eqv_refl|]. unfold storage_of. rewrite bind_assoc, (bind_load _ _ _ _ Ho). unfold storage_class, hasc in SC. unfold has. by rewrite SC.
  - exists s. split; [done|]. split; [apply eqv_refl|]. rewrite views_lookup in Hw. unfold bind, storage_of, bind, load. by destruct (nodes s !! x).
Qed.
Lemma spaces_then {A} s x (f : list (key * val) -> res A) (g : nat -> M A) : wf s -> (forall t l d, dicts t !! l = Some d -> g l t = (f d, t)) ->
  exists s', wf s' /\ eqv s s' /\ (let! l := nodespaces_of x in g l) s =
    (of_spaces x f (views s), s').
Proof.
  intros W Hg. unfold of_storage, of_spaces. destruct (views s !! x) as [w|] eqn:Hw.
  - destruct (view_obj _ _ _ Hw) as (o & Ho & ->).
    destruct (nodespaces_of_eff s x o W Ho) as (l & s' & E & Q & W' & o' & Ho' & El & _). exists s'. split; [done|]. split; [done|]. unfold bind. rewrite E.
    rewrite (Hg s' l _ (slot_dict s' x o' l SNodespaces W' Ho' El)). f_equal. f_equal. pose proof (views_lookup s' x) as V. rewrite (e_views _ _ Q), Hw, Ho' in V. apply (f_equal (fmap w_ns)) in V. simpl in V. rewrite El in V. simpl in V. injection V as V. simpl in *. by rewrite V.
  - exists s. split; [done|]. split; [apply eqv_refl|]. rewrite views_lookup in Hw. unfold bind, nodespaces_of, bind, load. by destruct (nodes s !! x).
Qed.
Lemma fixed_then {A} s x (f : list (key * val) -> res A) (g : nat -> M A) : wf s -> (forall t l d, dicts t !! l = Some d -> g l t = (f d, t)) ->
  (let! l := fixed_of x in g l) s =
    (of_fixed x f (views s), s).
Proof.
  intros W Hg. unfold of_fixed. rewrite views_lookup. unfold fixed_of, bind at 1, bind at 1, load. destruct (nodes s !! x) as [o|] eqn:Ho; [|done]. simpl. destruct (o_children o) as [l|] eqn:E; [|done]. simpl.
  by apply Hg, (slot_dict s x o l SChildren).
Qed.
Lemma rl_from {P A} (m : M A) (F : gmap nat view -> res A) : (forall vs vs', sims vs vs' -> F vs = F vs') ->
  (forall s, wf s -> exists s', wf s' /\ eqv s s' /\ m s = (F (views s), s')) -> rq P m.
Proof.
  intros HF H s t K _. destruct (H s (al_wf _ _ K)) as (s' & W & Q & E). destruct (H t (al_wf' _ _ K)) as (t' & W' & Q' & E'). rewrite E, E'. simpl. split; [apply HF, K|].
  split; [|by apply eqv_still]. apply (alike_step s t); try done; [apply sims_eq, Q|apply sims_eq, Q'|]. rewrite (e_fb _ _ Q), (e_fb _ _ Q'). apply K.
Qed.
Lemma sims_storage {A} x (f : list (key * val) -> res A) vs vs' : sims vs vs' -> of_storage x f vs = of_storage x f vs'.
Proof. intros H. unfold of_storage. destruct (H x) as [w w' K|]; [|done]. apply sim_core in K. pose proof (f_equal w_cls K) as K1. pose proof (f_equal w_ent K) as K2. simpl in *. by rewrite K1, K2. Qed.
Lemma sims_spaces {A} x (f : list (key * val) -> res A) vs vs' : sims vs vs' -> of_spaces x f vs = of_spaces x f vs'.
Proof. intros H. unfold of_spaces. destruct (H x) as [w w' K|]; [|done]. apply sim_core, (f_equal w_ns) in K. simpl in K. by rewrite K. Qed.
Lemma sims_fixed {A} x (f : list (key * val) -> res A) vs vs' : sims vs vs' -> of_fixed x f vs = of_fixed x f vs'.
Proof. intros H. unfold of_fixed. destruct (H x) as [w w' K|]; [|done]. apply sim_core, (f_equal w_fixed) in K. simpl in K. by rewrite K. Qed.
Lemma rl_storage_get {P} x k : rq P (let! l := storage_of x in dict_get l k).
Proof. apply (rl_from _ (of_storage x (fun d => answered d k)) (sims_storage x _)). intros s W. exact (storage_then s x (fun d => answered d k) _ W (fun t l d => dict_get_is t l d k)). Qed.
Lemma keys_read t l d : dicts t !! l = Some d -> (let! d := read_dict l in ret (dkeys d)) t = (Ret (dkeys d), t).
Proof. intros H. unfold bind, read_dict. by rewrite H. Qed.
Lemma rl_storage_keys {P} x : rq P (let! l := storage_of x in let! d := read_dict l in ret (dkeys d)).
Proof. apply (rl_from _ (of_storage x (fun d => Ret (dkeys d))) (sims_storage x _)). intros s W. exact (storage_then s x (fun d => Ret (dkeys d)) _ W keys_read). Qed.
Lemma rl_spaces_get {P} x k : rq P (let! l := nodespaces_of x in dict_get l k).
Proof. apply (rl_from _ (of_spaces x (fun d => answered d k)) (sims_spaces x _)). intros s W. exact (spaces_then s x (fun d => answered d k) _ W (fun t l d => dict_get_is t l d k)). Qed.
Lemma rl_fixed_get {P} x k : rq P (let! l := fixed_of x in dict_get l k).
Proof. apply (rl_from _ (of_fixed x (fun d => answered d k)) (sims_fixed x _)). intros s W. exists s. split; [done|]. split; [apply eqv_refl|]. exact (fixed_then s x (fun d => answered d k) _ W (fun t l d => dict_get_is t l d k)). Qed.
Lemma rl_fixed_keys {P} x : rq P (let! l := fixed_of x in let! d := read_dict l in ret (dkeys d)).
Proof. apply (rl_from _ (of_fixed x (fun d => Ret (dkeys d))) (sims_fixed x _)). intros s W. exists s. split; [done|]. split; [apply eqv_refl|]. exact (fixed_then s x (fun d => Ret (dkeys d)) _ W keys_read). Qed.

(** * Functions of the model *)
Lemma rl_loc f : forall x, rl (location_iterator f x).
Proof. induction f as [|f IH]; intros [x|]; simpl; try apply rl_ret; [apply rl_raise|]. apply rl_load; [done|]. intros o _. apply rl_bind; [apply IH|]. intros r. apply rl_ret. Qed.
Lemma rl_path x : rl (path_of x).
Proof.
  unfold path_of. apply rl_bind; [apply rl_fuel; intros n; apply rl_loc|]. intros l. apply rl_bind; [|intros; apply rl_ret]. apply rl_mapM. intros a. apply rl_load; [done|]. intros o _. apply rl_ret.
Qed.
Lemma rl_root x : rl (root_of x).
Proof. unfold root_of. apply rl_bind; [apply rl_fuel; intros n; apply rl_loc|]. intros l. apply rl_ret. Qed.
Lemma rl_iter_override bs x : rl (iter_override bs x).
Proof. induction bs as [|b bs IH]; simpl; [apply rl_raise|]. destruct b; try apply IH; try apply rl_storage_keys. apply rl_load; [done|]. intros; apply rl_ret. Qed.
Lemma rl_iter_stack all bs x : rl (iter_stack all bs x).
Proof.
  induction bs as [|b bs IH]; simpl.
  - unfold iter_endpoint. destruct (hasc _ _); [apply rl_fixed_keys|apply rl_iter_override].
  - destruct b; simpl; try apply IH. apply rl_bind; [apply IH|]. intros ks. apply rl_load; [done|]. intros. apply rl_res.
Qed.
Lemma rl_iter x : rl (iter x).
Proof. unfold iter. apply rl_load; [done|]. intros. apply rl_iter_stack. Qed.
Lemma rl_iterkeys x : rl (iterkeys x).
Proof. unfold iterkeys. apply rl_load; [done|]. intros. destruct (has _ _); [apply rl_ret|apply rl_iter]. Qed.
Lemma rl_fb {P} (f : Z -> Z) {A} (g : st -> A) : (forall s t, fbcount t = fbcount s -> g s = g t) -> rq P (fun s => (Ret (g s), set_fbcount f s)).
Proof.
  intros Hg s t K _. simpl. split; [f_equal; apply Hg, K|]. split; [|constructor; try done; apply sims_refl].
  assert (G : forall s, wf s -> wf (set_fbcount f s)).
  { intros u [H1 H2 H3 H4]. constructor; try done. intros x o Ho. destruct (H1 x o Ho) as [? []]. split; [done|]. by constructor. }
  apply (alike_step s t); try done; [by apply G, K|by apply G, K|apply sims_refl|apply sims_refl|]. simpl. by rewrite (al_fb _ _ K).
Qed.
Lemma rl_search {P A} (count : Z -> M A) : (forall z, rq P (count z)) -> rq P (bind fb_enter (fun z => try_finally (count z) fb_exit)).
Proof.
  intros H. apply rl_bind; [apply (rl_fb (fun z => z + 1)%Z (fun s => (fbcount s + 1)%Z)); by intros ? ? ->|]. intros z. apply rl_finally; [apply H|].
  by apply (rl_fb (fun z => z - 1)%Z (fun _ => tt)).
Qed.
Context (cache_stage : forall fb x c k l r, calm c -> c_behs c = l ++ Cache :: r -> rq (Some (x, c)) (get_stage fb Cache (get_stack fb (c_behs c) r) x k)).
Lemma rl_get_stack fb c x bs : (forall x k, rl (fb x k)) -> calm c -> forall l, c_behs c = l ++ bs -> forall k, rq (Some (x, c)) (get_stack fb (c_behs c) bs x k).
Proof.
  intros Hfb C. induction bs as [|b bs IH]; intros l E k; simpl.
  - unfold get_endpoint. destruct (hasc FixedChildren _); [apply rl_fixed_get|]. destruct (_ || _); [apply rl_storage_get|apply rl_raise].
  - assert (IH' : forall k, rq (Some (x, c)) (get_stack fb (c_behs c) bs x k)). { apply (IH (l ++ [b])). by rewrite <- app_assoc. }
    pose proof (calm_factory c C) as N. destruct b; simpl; try apply IH'.
    + destruct N. rewrite E. apply elem_of_app. right. left.
    + destruct k; try apply IH'. destruct (reserved _); [apply rl_spaces_get|apply IH'].
    + apply rl_load_same; [done|]. intros o _. apply rl_bind; [apply rl_res|]. intros k'. apply rl_try; [apply IH'|]. intros; apply rl_raise.
    + by apply (cache_stage fb x c k l bs).
    + apply rl_try; [apply IH'|]. intros e. apply rl_search. intros z. destruct (0 <? z)%Z; [apply rl_raise|]. apply rl_bind; [apply rl_rq, Hfb|]. intros [v|]; [apply rl_ret|apply rl_raise].
Qed.
Lemma rl_nested x k : rl (getitem_nested x k).
Proof. unfold getitem_nested. apply rl_load_at; [done|]. intros o C. apply (rl_get_stack _ _ _ _ (fun _ _ => rl_raise _) C []). done. Qed.
Lemma rl_to_leaf l : forall c, rl (to_leaf_loop c l).
Proof.
  induction l as [|n l IH]; intros c; simpl; [apply rl_ret|]. destruct c; try apply rl_raise. apply rl_bind.
  - apply rl_try; [|intros; apply rl_ret]. apply rl_bind; [apply rl_nested|]. intros; apply rl_ret.
  - intros [v|]; [apply IH|apply rl_ret].
Qed.
Lemma rl_to_root f : forall n p v, rl (to_root f n p v).
Proof.
  induction f as [|f IH]; intros n p v; simpl; [apply rl_raise|]. apply rl_load; [done|]. intros o _. destruct (o_parent o) as [q|]; [|apply rl_ret]. apply rl_load; [done|]. intros o' _.
  destruct (o_fallback o') as [fk|]; [|apply IH]. destruct (_ && _); [|apply IH]. apply rl_bind; [apply rl_nested|]. intros c. destruct c; try apply rl_raise.
  apply rl_bind; [apply rl_path|]. intros cp. apply rl_bind; [apply rl_to_leaf|]. intros [cur|w]; [apply IH|apply rl_ret].
Qed.
Lemma rl_fb_search x k : rl (fb_search x k).
Proof. unfold fb_search. apply rl_bind; [apply rl_path|]. intros p s t K H. unfold fb_fuel, fuel_of. rewrite <- (alike_size s t K). by apply rl_to_root. Qed.
Lemma rl_getitem x k : rl (getitem x k).
Proof. unfold getitem. apply rl_load_at; [done|]. intros o C. by apply (rl_get_stack _ _ _ _ rl_fb_search C []). Qed.
Lemma rl_values x : rl (values x).
Proof. unfold values. apply rl_bind; [apply rl_iter|]. intros ks. apply rl_mapM. intros; apply rl_getitem. Qed.
Lemma rl_items x : rl (items x).
Proof. unfold items. apply rl_bind; [apply rl_iter|]. intros ks. apply rl_mapM. intros; apply rl_bind; [apply rl_getitem|]. intros; apply rl_ret. Qed.
Lemma rl_acquire p x : rl (acquire (fun o => p (o_cls o)) x).
Proof.
  unfold acquire. apply rl_load; [done|]. intros o _. apply rl_fuel. intros n. generalize (o_parent o). clear o. induction n as [|n IH]; intros [y|]; simpl; try apply rl_ret; [apply rl_raise|].
  apply rl_load; [done|]. intros o _. destruct (p _); [apply rl_ret|apply IH].
Qed.
Lemma rl_subscripts ks : forall v, rl (subscripts v ks).
Proof.
  induction ks as [|k ks IH]; intros v; simpl; [apply rl_ret|]. apply rl_bind; [|intros; apply IH]. destruct v; simpl; try apply rl_raise. apply rl_getitem.
Qed.
Lemma kf_subscripts ks : forall v, kf (subscripts v ks).
Proof.
  induction ks as [|k ks IH]; intros v; simpl; [apply kf_ret|]. apply kf_bind; [|intros; apply IH]. destruct v; simpl; try apply kf_raise. apply kf_getitem.
Qed.
Lemma kf_acquire p x : kf (acquire p x).
Proof.
  unfold acquire. apply kf_bind; [apply kf_load|]. intros o. apply kf_fuel. intros n. generalize (o_parent o). clear o. induction n as [|n IH]; intros [y|]; simpl; try apply kf_ret; [apply kf_raise|].
  apply kf_bind; [apply kf_load|]. intros o. destruct (p _); [apply kf_ret|apply IH].
Qed.
(** * Questions *)
Definition quiet (m : st -> answer * st) : Prop := forall s t, alike s t -> fst (m s) = fst (m t) /\ still s (snd (m s)) /\ alike (snd (m s)) (snd (m t)) /\ fbcount (snd (m s)) = fbcount s.
Lemma quiet_wrap {A} (f : A -> answer) m : rl m -> kf m -> quiet (wrap f m).
Proof.
  intros H K s t HA. destruct (H s t HA I) as (E & H1 & H2). specialize (K s). unfold wrap. destruct (m s) as [r s1], (m t) as [r' t1]. simpl in *. subst r'. by destruct r.
Qed.
Lemma quiet_ask x q : quiet (ask x q).
Proof.
  destruct q; apply quiet_wrap.
  - apply rl_getitem.
  - apply kf_getitem.
  - apply rl_try; [apply rl_getitem|intros; apply rl_ret].
  - apply kf_try; [apply kf_getitem|intros; apply kf_ret].
  - apply rl_try; [apply rl_bind; [apply rl_getitem|intros; apply rl_ret]|intros; apply rl_ret].
  - apply kf_try; [apply kf_bind; [apply kf_getitem|intros; apply kf_ret]|intros; apply kf_ret].
  - apply rl_iter.
  - apply kf_iter_of.
  - apply rl_iterkeys.
  - apply kf_iterkeys.
  - apply rl_values.
  - apply kf_values.
  - apply rl_items.
  - apply kf_items.
  - apply rl_bind; [apply rl_values|intros; apply rl_ret].
  - apply kf_bind; [apply kf_values|intros; apply kf_ret].
  - apply rl_bind; [apply rl_iter|intros; apply rl_ret].
  - apply kf_bind; [apply kf_iter_of|intros; apply kf_ret].
  - apply rl_path.
  - apply kf_path.
  - apply rl_root.
  - apply kf_root.
  - apply rl_acquire.
  - apply kf_acquire.
  - apply rl_subscripts.
  - apply kf_subscripts.
Qed.
Lemma alike_refl s : reach s -> (forall x c, class_of s x = Some c -> calm c) -> alike s s.
Proof. intros R U. pose proof (reach_wf s R). constructor; try done; [|apply sims_refl]. intros x o Ho. apply (U x). unfold class_of. by rewrite Ho. Qed.
Lemma alike_self s t : alike s t -> alike t t.
Proof.
  intros H. constructor; try apply H; try done; [|apply sims_refl]. intros x o Ho. pose proof (alike_core s t x H) as E. rewrite Ho in E. destruct (nodes s !! x) as [o'|] eqn:Ho'; [|done]. simpl in E.
  apply (f_equal (fmap o_cls)) in E. simpl in E. injection E as <-. by eapply al_calm.
Qed.
Lemma alike_later s t x q : alike s t -> alike s (snd (ask x q t)).
Proof.
  intros H. destruct (quiet_ask x q t t (alike_self s t H)) as (_ & S & A & F). apply (alike_step s t); try done; [apply H|apply A|apply sims_refl|apply S|]. rewrite F. apply H.
Qed.
Lemma asks s l : forall t, alike s t -> fst (ask_all l t) = map (fun e => fst (ask (fst e) (snd e) s)) l /\ alike s (snd (ask_all l t)) /\ still t (snd (ask_all l t)).
Proof.
  induction l as [|[x q] l IH]; intros t H; simpl; [split; [done|]; split; [done|apply still_refl]|]. destruct (quiet_ask x q s t H) as (E & _).
  destruct (quiet_ask x q t t (alike_self s t H)) as (_ & S & _). pose proof (alike_later s t x q H) as H1. destruct (ask x q t) as [a t1]. simpl in *. destruct (IH t1 H1) as (E2 & H2 & S2).
  destruct (ask_all l t1) as [al t2]. simpl in *. subst. split; [done|]. split; [done|]. by eapply still_trans.
Qed.
End reading.

(** * Nodes that do not cache *)
Definition calm (c : classdef) : Prop := Cache ∉ c_behs c /\ ChildFactory ∉ c_behs c.
Lemma sims_same vs vs' : sims eq vs vs' -> vs' = vs.
Proof. intros H. apply map_eq. intros x. destruct (H x); by subst. Qed.
Lemma still_same s s' : still eq s s' -> same_world s s'.
Proof. intros []. constructor; try done. intros x. apply same_node_views. by rewrite (sims_same _ _ st_views0). Qed.
Lemma eq_core w w' : w = w' -> vw_cache [] w' = vw_cache [] w.
Proof. by intros ->. Qed.
Lemma no_cache fb x c k l r : calm c -> c_behs c = l ++ Cache :: r -> rq eq calm (Some (x, c)) (get_stage fb Cache (get_stack fb (c_behs c) r) x k).
Proof. intros [H _] E. destruct H. rewrite E. apply elem_of_app. right. left. Qed.
Lemma reads_commute s l : reach s -> unassuming s ->
  fst (ask_all l s) = map (fun e => fst (ask (fst e) (snd e) s)) l /\ same_world s (snd (ask_all l s)).
Proof.
  intros R U. destruct (asks eq calm (fun w => eq_refl) (fun w w' => @eq_sym _ w w') (fun w w1 w2 => @eq_trans _ w w1 w2) eq_core (fun c H => proj2 H) no_cache s l s) as (E & _ & S).
  - by apply alike_refl.
  - split; [done|by apply still_same].
Qed.
Lemma unassumingb s : forallb (fun e => negb (hasc Cache (c_behs (o_cls (snd e)))) && negb (hasc ChildFactory (c_behs (o_cls (snd e))))) (map_to_list (nodes s)) = true -> unassuming s.
Proof.
  intros H x cls Hc. unfold class_of in Hc. apply fmap_Some in Hc as (o & Ho & ->). rewrite forallb_forall in H. specialize (H (x, o)).
  rewrite <- elem_of_list_In, elem_of_map_to_list in H. specialize (H Ho). simpl in H. apply andb_true_iff in H as [H1 H2]. unfold hasc in H1, H2. split; intros K.
  - by rewrite bool_decide_eq_true_2 in H1.
  - by rewrite bool_decide_eq_true_2 in H2.
Qed.
