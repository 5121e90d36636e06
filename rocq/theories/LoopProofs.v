From Verif Require Import Py Odict OdictFacts Aliaser Heap Model MonadFacts WF WFOps Views TreeOps Observe ObserveFacts SpecMapping Slots Reach RefTree DetachEff MappingProofs Plumber P_Plumbing Loops SpecLoops.

Definition on (s : st) (x l : nat) : Prop := x < next_id s /\ is_Some (dicts s !! l) /\ exists o, nodes s !! x = Some o /\ o_storage o = Some l.
Lemma on_stays s s' x l : stays s s' -> on s x l -> on s' x l.
Proof.
  intros (A & B & C) (Hx & Hl & o & Ho & E). destruct (C x o Hx Ho) as (o' & Ho' & _ & F). split; [lia|]. split; [by apply B|]. exists o'. split; [done|]. by apply F.
Qed.
Lemma on_keys s x l : on s x l -> keys_in s l = keys_at s x.
Proof. intros (_ & _ & o & Ho & E). unfold keys_in, keys_at, entries_at. rewrite Ho. simpl. rewrite E. done. Qed.
Lemma on_run o s x l : on s x l -> on (snd (run_op o s)) x l.
Proof. apply on_stays, stays_run. Qed.

(** * Starting *)
Definition stored (kind : behavior) (cls : classdef) : Prop :=
  (kind = DictStorage \/ kind = OdictStorage) /\ endpoint "__iter__" (c_behs cls) = Some kind.
Lemma loops_stored kind cls : loops_over kind cls -> stored kind cls.
Proof. by intros (? & ? & _). Qed.
Lemma stored_kind kind cls : stored kind cls -> leftmost "__iter__" Override (c_behs cls) = Some kind /\ FixedChildren ∉ c_behs cls.
Proof.
  intros (Hk & E). unfold endpoint in E. destruct (leftmost "__iter__" Finalize (c_behs cls)) as [b|] eqn:F.
  { injection E as ->. apply leftmost_some in F as [_ F]. by destruct Hk as [-> | ->]; vm_compute in F. }
  split.
  - destruct (leftmost "__iter__" Override (c_behs cls)) as [b|]; [done|]. apply leftmost_some in E as [_ E]. by destruct Hk as [-> | ->]; vm_compute in E.
  - intros Hf. rewrite leftmost_none in F. apply F in Hf. by vm_compute in Hf.
Qed.
Lemma storage_kind_is kind bs : kind = DictStorage \/ kind = OdictStorage -> leftmost "__iter__" Override bs = Some kind -> storage_kind bs = Some kind.
Proof.
  intros Hk. induction bs as [|b bs IH]; [done|]. rewrite leftmost_cons. destruct (declares "__iter__" Override b) eqn:D.
  - intros [= ->]. by destruct Hk as [-> | ->].
  - intros H. destruct b; try (by apply IH); by vm_compute in D.
Qed.
Lemma start_eff s x o kind : wf s -> nodes s !! x = Some o -> stored kind (o_cls o) ->
  exists l s', on s' x l /\ eqv s s' /\ wf s' /\
    iter_start x s = (Ret (match kind with DictStorage => DictIter l (keys_at s x) 0 true | _ => OdictFresh l end), s').
Proof.
  intros W Ho HL. pose proof (stored_kind _ _ HL) as [K _]. destruct HL as (Hk & _). pose proof (storage_kind_is _ _ Hk K) as SK.
  assert (SC : storage_class (c_behs (o_cls o)) = true).
  { apply leftmost_some in K as [K _]. unfold storage_class. destruct Hk as [-> | ->]; apply hasc_is in K; rewrite K; [done|by rewrite orb_true_r]. }
  destruct (storage_of_eff s x o W Ho SC) as (l & s' & E & Q & W' & o' & Ho' & El & Ec).
  assert (On : on s' x l).
  { destruct (wf_nodes _ W' _ _ Ho') as [Hx [_ Hs _ _]]. split; [done|]. split; [by apply (Hs SStorage)|]. by exists o'. }
  exists l, s'. split; [done|]. split; [done|]. split; [done|]. unfold iter_start. rewrite (bind_load _ _ _ _ Ho). unfold bind at 1. rewrite E, SK.
  destruct Hk as [-> | ->]; [|done]. unfold read_dict, bind. destruct On as (? & [d Hd] & ?). rewrite Hd. unfold ret. repeat f_equal.
  replace (keys_at s x) with (keys_at s' x). { unfold keys_at, entries_at. rewrite Ho'. simpl. rewrite El. simpl. by rewrite Hd. }
  unfold keys_at. f_equal. rewrite !ob_entries. unfold fld. by rewrite (e_views _ _ Q).
Qed.
Lemma answers_next c s r : answers c s (Next :: r) = fst (iter_next c s) :: answers (snd (iter_next c s)) s r.
Proof. unfold answers. simpl. destruct (iter_next c s) as [a c1]. simpl. by destruct (loop c1 s r) as [[al c2] s2]. Qed.
Lemma answers_call c s o r : answers c s (Call o :: r) = answers (iter_watch s (snd (run_op o s)) c) (snd (run_op o s)) r.
Proof. done. Qed.
Lemma answers_done s l : answers Exhausted s l = replicate (asked l) (Ret None).
Proof. revert s. induction l as [|[|o] l IH]; intros s; [done| |]; [rewrite answers_next; simpl; by rewrite IH|rewrite answers_call; simpl; by rewrite IH]. Qed.
Lemma answers_broken s l : answers DictBroken s l = replicate (asked l) (Exc RuntimeError).
Proof. revert s. induction l as [|[|o] l IH]; intros s; [done| |]; [rewrite answers_next; simpl; by rewrite IH|rewrite answers_call; simpl; by rewrite IH]. Qed.
Lemma past_the_end (ks : list key) n : forall i, length ks <= i -> map (fun i => Ret (ks !! i)) (seq i n) = replicate n (Ret None).
Proof. induction n as [|n IH]; intros i Hi; [done|]. simpl. rewrite IH by lia. by rewrite lookup_ge_None_2. Qed.

(** * Nothing is added or removed *)
Definition keeps_keys (x : nat) (s s' : st) : Prop := keys_at s' x = keys_at s x.
Lemma calm_dict x l ks acts : forall s pos, on s x l -> keys_at s x = ks -> every_call (keeps_keys x) s acts ->
  answers (DictIter l ks pos true) s acts = map (fun i => Ret (ks !! i)) (seq pos (asked acts)).
Proof.
  induction acts as [|[|o] acts IH]; intros s pos On K H; [done| |].
  - rewrite answers_next. simpl. rewrite (on_keys _ _ _ On), K, decide_False by (intros E; by apply E). destruct (ks !! pos) as [k|] eqn:E; simpl; f_equal.
    + by apply IH.
    + rewrite answers_done. symmetry. apply past_the_end. apply lookup_ge_None_1 in E. lia.
  - rewrite answers_call. simpl in *. destruct H as (_ & P & H). unfold keeps_keys in P. pose proof (on_run o _ _ _ On) as On'.
    rewrite (on_keys _ _ _ On), (on_keys _ _ _ On'), bool_decide_true by done. apply IH; [done|congruence|done].
Qed.
(** * odict: the key after the last one *)
Lemma key_after_find k ks : k ∈ ks -> exists i, list_find (eq k) ks = Some (i, k) /\ key_after k ks = ks !! S i.
Proof.
  induction ks as [|k' ks IH]; [by intros ?%elem_of_nil|]. intros H. simpl. destruct (decide (k' = k)) as [->|N].
  - exists 0. rewrite decide_True by done. split; [done|]. by destruct ks.
  - rewrite (decide_False (P := k = k')) by congruence. apply elem_of_cons in H as [|H]; [congruence|]. destruct (IH H) as (i & E & F). exists (S i). rewrite E. split; [done|]. by rewrite F.
Qed.
Lemma find_none k (ks : list key) : k ∉ ks -> list_find (eq k) ks = None.
Proof. intros H. apply list_find_None, Forall_forall. intros k' Hk ->. done. Qed.
Definition suspended (l : nat) (prev : option (res (option key))) : cursor :=
  match prev with None => OdictFresh l | Some (Ret (Some k)) => OdictAt l k | Some _ => Exhausted end.
Lemma odict_next s x l prev : on s x l -> iter_next (suspended l prev) s = (follow prev (keys_at s x), suspended l (Some (follow prev (keys_at s x)))).
Proof.
  intros On. pose proof (on_keys _ _ _ On) as K. destruct prev as [[[k|]|e]|]; simpl; [|done|done|].
  - rewrite K. destruct (decide (k ∈ keys_at s x)) as [H|H].
    + destruct (key_after_find _ _ H) as (i & E & F). rewrite E, F. by destruct (keys_at s x !! S i).
    + by rewrite find_none.
  - rewrite K. by destruct (keys_at s x).
Qed.
Lemma suspended_watch s s' l prev : iter_watch s s' (suspended l prev) = suspended l prev.
Proof. by destruct prev as [[[]|]|]. Qed.
Lemma odict_more x l acts : forall s prev, on s x l ->
  answers (suspended l prev) s (acts ++ [Next]) =
    answers (suspended l prev) s acts ++ [follow (match last (answers (suspended l prev) s acts) with Some a => Some a | None => prev end) (keys_at (state_after s acts) x)].
Proof.
  induction acts as [|[|o] acts IH]; intros s prev On.
  - simpl app. rewrite answers_next, (odict_next _ _ _ _ On). done.
  - simpl app. rewrite !answers_next, (odict_next _ _ _ _ On). cbn [fst snd]. rewrite (IH s _ On). cbn [app]. f_equal. f_equal. f_equal. f_equal.
    rewrite last_cons. by destruct (last (answers _ s acts)).
  - simpl app. rewrite !answers_call, suspended_watch. rewrite (IH _ _ (on_run o _ _ _ On)). done.
Qed.
(** * odict: keys are only added, at the end *)
Definition adds_keys (x : nat) (s s' : st) : Prop := exists new, keys_at s' x = keys_at s x ++ new.
Definition reached (l : nat) (ks : list key) (i : nat) : cursor := match i with O => OdictFresh l | S j => match ks !! j with Some k => OdictAt l k | None => Exhausted end end.
Lemma odict_adds x l acts : forall s i, reach s -> on s x l -> i <= length (keys_at s x) -> every_call (adds_keys x) s acts ->
  answers (reached l (keys_at s x) i) s acts = by_position x i s acts.
Proof.
  induction acts as [|[|o] acts IH]; intros s i R On Hi H; [done| |].
  - simpl in H. pose proof (entries_nodup s x (reach_wf _ R)) as ND. change (dkeys (entries_at s x)) with (keys_at s x) in ND.
    assert (E : iter_next (reached l (keys_at s x) i) s = (Ret (keys_at s x !! i), if decide (i < length (keys_at s x)) then reached l (keys_at s x) (S i) else Exhausted)).
    { pose proof (on_keys _ _ _ On) as K. destruct i as [|j].
      - simpl. rewrite K. by destruct (keys_at s x).
      - simpl. destruct (lookup_lt_is_Some_2 (keys_at s x) j) as [k Hk]; [lia|]. rewrite Hk. simpl. rewrite K, decide_True by (by eapply elem_of_list_lookup_2).
        destruct (key_after_find k (keys_at s x)) as (i & F & G); [by eapply elem_of_list_lookup_2|]. apply list_find_Some in F as (F & _ & _).
        rewrite (NoDup_lookup _ _ _ _ ND F Hk) in G. rewrite G. destruct (decide (S j < length (keys_at s x))) as [L|L].
        + destruct (lookup_lt_is_Some_2 (keys_at s x) (S j)) as [k' Hk']; [lia|]. by rewrite Hk'.
        + by rewrite lookup_ge_None_2 by lia. }
    rewrite answers_next, E. cbn [fst snd by_position]. destruct (decide (i < length (keys_at s x))) as [L|L].
    + destruct (lookup_lt_is_Some_2 (keys_at s x) i) as [k Hk]; [lia|]. rewrite Hk. f_equal. by apply IH.
    + rewrite (lookup_ge_None_2 (keys_at s x) i) by lia. by rewrite answers_done.
  - simpl in H. destruct H as (Hk & [new P] & H). rewrite answers_call. cbn [by_position]. rewrite <- IH; [|by eapply reach_step, surjective_pairing|by apply on_run|rewrite P, app_length; lia|done].
    f_equal. destruct i as [|j]; [done|]. simpl. rewrite P. destruct (lookup_lt_is_Some_2 (keys_at s x) j) as [k Hk']; [lia|]. rewrite Hk'. by rewrite (lookup_app_l_Some _ _ _ _ Hk').
Qed.
Lemma by_position_calm x ks acts : forall s i, keys_at s x = ks -> every_call (keeps_keys x) s acts -> i <= length ks ->
  by_position x i s acts = map (fun i => Ret (ks !! i)) (seq i (asked acts)).
Proof.
  induction acts as [|[|o] acts IH]; intros s i K H Hi; [done| |].
  - simpl in *. rewrite K. destruct (ks !! i) as [k|] eqn:E; f_equal; [apply IH; try done; by apply lookup_lt_Some in E|]. symmetry. apply past_the_end. apply lookup_ge_None_1 in E. lia.
  - simpl in *. destruct H as (_ & P & H). apply IH; [|done|done]. unfold keeps_keys in P. congruence.
Qed.
Lemma keeps_adds x acts : forall s, every_call (keeps_keys x) s acts -> every_call (adds_keys x) s acts.
Proof. induction acts as [|[|o] acts IH]; intros s H; simpl in *; [done|by apply IH|]. destruct H as (Ho & P & H). split; [done|]. split; [exists []; by rewrite app_nil_r|by apply IH]. Qed.
(** * dict: another number of keys *)
Lemma dict_broken x l ks o acts n : forall s pos, on s x l -> keys_at s x = ks -> every_call (keeps_keys x) s acts -> pos + asked acts <= length ks ->
  length (keys_at (snd (run_op o (state_after s acts))) x) <> length ks ->
  answers (DictIter l ks pos true) s (acts ++ Call o :: replicate n Next) = map (fun i => Ret (ks !! i)) (seq pos (asked acts)) ++ replicate n (Exc RuntimeError).
Proof.
  induction acts as [|[|o'] acts IH]; intros s pos On K H Hp HL.
  - simpl in *. rewrite answers_call. destruct n as [|n]; [done|]. simpl replicate. rewrite answers_next. cbn [iter_watch iter_next]. rewrite (on_keys _ x) by (by apply on_run).
    rewrite decide_True by done. cbn [fst snd]. f_equal. rewrite answers_broken. clear. by induction n as [|n IH]; simpl; [|f_equal].
  - simpl app. rewrite answers_next. simpl in H, Hp, HL |- *. rewrite (on_keys _ _ _ On), K, decide_False by (intros E; by apply E).
    destruct (ks !! pos) as [k|] eqn:E; [|apply lookup_ge_None_1 in E; lia]. simpl. f_equal. apply IH; try done. lia.
  - simpl app. rewrite answers_call. simpl in *. destruct H as (_ & P & H). unfold keeps_keys in P. pose proof (on_run o' _ _ _ On) as On'.
    rewrite (on_keys _ _ _ On), (on_keys _ _ _ On'), bool_decide_true by done. apply IH; try done; congruence.
Qed.
(** * Consumed at once *)
Lemma iter_is s x cls kind : class_of s x = Some cls -> Nodify ∈ c_behs cls -> loops_over kind cls ->
  Model.iter x s = (let! l := storage_of x in let! d := read_dict l in ret (dkeys d)) s.
Proof.
  intros Hc Hn (Hk & E & A). rewrite (C59_iter s x cls Hc Hn). unfold pipeline. rewrite E.
  assert (G : forall bs e, Alias ∉ bs -> foldr iter_stage e bs = e).
  { induction bs as [|b bs IH]; intros e Hb; [done|]. apply not_elem_of_cons in Hb as [N Hb]. simpl. rewrite IH by done. by destruct b. }
  rewrite G by done. by destruct Hk as [-> | ->].
Qed.
Lemma start_iter s x cls kind c s1 : wf s -> class_of s x = Some cls -> Nodify ∈ c_behs cls -> loops_over kind cls -> iter_start x s = (Ret c, s1) ->
  Model.iter x s = (Ret (keys_at s x), s1) /\ wf s1 /\ eqv s s1 /\ exists l, on s1 x l /\ c = match kind with DictStorage => DictIter l (keys_at s x) 0 true | _ => OdictFresh l end.
Proof.
  intros W Hc Hn HL E. unfold class_of in Hc. destruct (nodes s !! x) as [o|] eqn:Ho; [|done]. injection Hc as <-.
  destruct (start_eff s x o kind W Ho (loops_stored _ _ HL)) as (l & s' & On & Q & W' & E'). rewrite E in E'. injection E' as -> ->. split; [|split; [done|split; [done|by exists l]]].
  rewrite (iter_is s x (o_cls o) kind); [|unfold class_of; by rewrite Ho|done|done].
  assert (SC : storage_class (c_behs (o_cls o)) = true).
  { pose proof (stored_kind _ _ (loops_stored _ _ HL)) as [K _]. destruct HL as (Hk & _). apply leftmost_some in K as [K _]. unfold storage_class. destruct Hk as [-> | ->]; apply hasc_is in K; rewrite K; [done|by rewrite orb_true_r]. }
  destruct (storage_of_eff s x o W Ho SC) as (l' & s2 & E2 & Q2 & W2 & o' & Ho' & El & Ec).
  destruct (wf_nodes _ W2 _ _ Ho') as [_ [_ Hs _ _]]. destruct (Hs SStorage l' El) as [d Hd].
  assert (s2 = s') as ->.
  { unfold iter_start in E. rewrite (bind_load _ _ _ _ Ho) in E. unfold bind at 1 in E. rewrite E2 in E. destruct (storage_kind _) as [[]|]; try (by injection E).
    unfold bind, read_dict in E. rewrite Hd in E. by injection E. }
  unfold bind, read_dict. rewrite E2, Hd. unfold ret. f_equal. f_equal. change (dkeys d = dkeys (entries_at s x)). f_equal.
  rewrite ob_entries. unfold fld. rewrite <- (e_views _ _ Q). fold (fld w_ent s' x). rewrite <- ob_entries. unfold entries_at. rewrite Ho'. simpl. rewrite El. simpl. by rewrite Hd.
Qed.
Section draw.
  Context {A} (x l : nat) (ks : list key) (f : key -> M A) (I : st -> Prop).
  Context (Ion : forall s, I s -> on s x l) (Iks : forall s, I s -> keys_at s x = ks) (Istep : forall s k, I s -> I (snd (f k s))) (ND : NoDup ks).
  Lemma draw_dict n : forall pos s, I s -> pos <= length ks -> length ks - pos < n -> draw n f (DictIter l ks pos true) s = mapM_ f (drop pos ks) s.
  Proof.
    induction n as [|n IH]; intros pos s H Hp Hn; [lia|]. simpl. rewrite (on_keys _ _ _ (Ion _ H)), (Iks _ H), decide_False by (intros E; by apply E).
    destruct (ks !! pos) as [k|] eqn:E.
    - rewrite (drop_S _ _ _ E). simpl. unfold bind at 2. pose proof (Istep s k H) as H'. destruct (f k s) as [[a|e] s'] eqn:F; [|done]. simpl in H'.
      rewrite (on_keys _ _ _ (Ion _ H')), (on_keys _ _ _ (Ion _ H)), (Iks _ H), (Iks _ H'), bool_decide_true by done. pose proof (lookup_lt_Some _ _ _ E). unfold bind. rewrite IH; [done|done|lia|lia].
    - rewrite drop_ge by (by apply lookup_ge_None_1). done.
  Qed.
  Lemma draw_odict n : forall pos s, I s -> pos <= length ks -> length ks - pos < n -> draw n f (reached l ks pos) s = mapM_ f (drop pos ks) s.
  Proof.
    induction n as [|n IH]; intros pos s H Hp Hn; [lia|].
    assert (E : iter_next (reached l ks pos) s = (Ret (ks !! pos), if decide (pos < length ks) then reached l ks (S pos) else Exhausted)).
    { pose proof (on_keys _ _ _ (Ion _ H)) as K. rewrite (Iks _ H) in K. destruct pos as [|j].
      - simpl. rewrite K. by destruct ks.
      - simpl. destruct (lookup_lt_is_Some_2 ks j) as [k Hk]; [lia|]. rewrite Hk. simpl. rewrite K, decide_True by (by eapply elem_of_list_lookup_2).
        destruct (key_after_find k ks) as (i & F & G); [by eapply elem_of_list_lookup_2|]. apply list_find_Some in F as (F & _ & _).
        rewrite (NoDup_lookup _ _ _ _ ND F Hk) in G. rewrite G. destruct (decide (S j < length ks)) as [L|L].
        + destruct (lookup_lt_is_Some_2 ks (S j)) as [k' Hk']; [lia|]. by rewrite Hk'.
        + by rewrite lookup_ge_None_2 by lia. }
    cbn [draw]. rewrite E. destruct (decide (pos < length ks)) as [L|L].
    - destruct (lookup_lt_is_Some_2 ks pos) as [k Hk]; [lia|]. rewrite Hk, (drop_S _ _ _ Hk). simpl mapM_. unfold bind at 2. pose proof (Istep s k H) as H'. destruct (f k s) as [[a|e] s'] eqn:F; [|done]. simpl in H'.
      assert (iter_watch s s' (reached l ks (S pos)) = reached l ks (S pos)) as -> by (simpl; by rewrite Hk). unfold bind. rewrite IH; [done|done|lia|lia].
    - rewrite lookup_ge_None_2 by lia. by rewrite drop_ge by lia.
  Qed.
  Lemma draw_all kind n s : I s -> kind = DictStorage \/ kind = OdictStorage -> length ks < n ->
    draw n f (match kind with DictStorage => DictIter l ks 0 true | _ => OdictFresh l end) s = mapM_ f ks s.
  Proof. intros H [-> | ->] Hn; [rewrite draw_dict|change (OdictFresh l) with (reached l ks 0); rewrite draw_odict]; try done; lia. Qed.
End draw.
