From Verif Require Import Py Odict OdictFacts Aliaser Heap Model MonadFacts WF Views TreeOps Observe ObserveFacts SpecMapping Slots Reach RefTree DetachEff Plumber P_Plumbing
  Loops SpecLoops LoopProofs AliasLoops SpecAliasLoops.

(** * The iterator below *)
Definition cur (kind : behavior) (l : nat) (ks : list key) (pos : nat) : cursor :=
  match kind with DictStorage => DictIter l ks pos true | _ => reached l ks pos end.
Lemma cur_start kind l ks : kind = DictStorage \/ kind = OdictStorage -> cur kind l ks 0 = match kind with DictStorage => DictIter l ks 0 true | _ => OdictFresh l end.
Proof. by intros [-> | ->]. Qed.
Lemma inner_next kind x l ks pos s : kind = DictStorage \/ kind = OdictStorage -> on s x l -> keys_at s x = ks -> NoDup ks -> pos <= length ks ->
  iter_next (cur kind l ks pos) s = (Ret (ks !! pos), if decide (pos < length ks) then cur kind l ks (S pos) else Exhausted).
Proof.
  intros Hk On K ND Hp. pose proof (on_keys _ _ _ On) as Ki. rewrite K in Ki. destruct Hk as [-> | ->].
  - simpl. rewrite Ki, decide_False by (intros E; by apply E). destruct (decide (pos < length ks)) as [L|L].
    + destruct (lookup_lt_is_Some_2 ks pos) as [k Hk]; [lia|]. by rewrite Hk.
    + by rewrite lookup_ge_None_2 by lia.
  - cbn [cur]. destruct pos as [|j].
    + simpl. rewrite Ki. by destruct ks.
    + simpl. destruct (lookup_lt_is_Some_2 ks j) as [k Hk]; [lia|]. rewrite Hk. simpl. rewrite Ki, decide_True by (by eapply elem_of_list_lookup_2).
      destruct (key_after_find k ks) as (i & F & G); [by eapply elem_of_list_lookup_2|]. apply list_find_Some in F as (F & _ & _).
      rewrite (NoDup_lookup _ _ _ _ ND F Hk) in G. rewrite G. destruct (decide (S j < length ks)) as [L|L].
      * destruct (lookup_lt_is_Some_2 ks (S j)) as [k' Hk']; [lia|]. by rewrite Hk'.
      * by rewrite lookup_ge_None_2 by lia.
Qed.
Lemma fuel_enough kind x l ks pos s : kind = DictStorage \/ kind = OdictStorage -> on s x l -> keys_at s x = ks -> pos <= length ks -> length ks < gen_fuel (cur kind l ks pos) s.
Proof.
  intros Hk On K Hp. pose proof (on_keys _ _ _ On) as Ki. rewrite K in Ki. unfold gen_fuel. destruct Hk as [-> | ->]; simpl; [lia|]. destruct pos as [|j]; simpl; [rewrite Ki; lia|].
  destruct (lookup_lt_is_Some_2 ks j) as [k Hk]; [lia|]. rewrite Hk. rewrite Ki. lia.
Qed.

(** * Nothing is added or removed *)
Section calm.
  Context (al : option aliaser) (kind : behavior) (x l : nat) (ks : list key) (Hk : kind = DictStorage \/ kind = OdictStorage) (ND : NoDup ks).
  Notation T := (told (alias_with alias al) (aliaser_enumerable al)).
  Definition tells (g : gen) (tl : list (res (option key))) : Prop :=
    (g = Left /\ tl = []) \/ exists pos, g = Awake (cur kind l ks pos) /\ pos <= length ks /\ tl = T (drop pos ks).
  Lemma run_told s : on s x l -> keys_at s x = ks -> forall n pos, pos <= length ks -> length ks - pos < n ->
    exists g, gen_run n al (cur kind l ks pos) s = (default (Ret None) (head (T (drop pos ks))), g) /\ tells g (tail (T (drop pos ks))).
  Proof.
    intros On K. induction n as [|n IH]; intros pos Hp Hn; [lia|]. cbn [gen_run]. rewrite (inner_next kind x l ks pos s Hk On K ND Hp).
    destruct (decide (pos < length ks)) as [L|L].
    - destruct (lookup_lt_is_Some_2 ks pos) as [k E]; [lia|]. rewrite E, (drop_S _ _ _ E). cbn [told]. destruct (alias_with alias al k) as [a|e].
      + eexists. split; [done|]. right. exists (S pos). split; [done|]. split; [lia|done].
      + destruct e; try (eexists; split; [done|]; by left). destruct (aliaser_enumerable al) eqn:En.
        * destruct (IH (S pos)) as (g & Eg & Hg); [lia|lia|]. exists g. split; [exact Eg|exact Hg].
        * eexists. split; [done|]. by left.
    - rewrite lookup_ge_None_2, drop_ge by lia. eexists. split; [done|]. by left.
  Qed.
  Lemma tells_next s g tl : tells g tl -> on s x l -> keys_at s x = ks -> (exists o, nodes s !! x = Some o /\ c_aliaser (o_cls o) = al) ->
    exists g', gen_next x g s = (default (Ret None) (head tl), g', s) /\ tells g' (tail tl).
  Proof.
    intros Ht On K (o & Ho & Ea). unfold gen_next. rewrite Ho, Ea. destruct Ht as [[-> ->]|(pos & -> & Hp & ->)].
    - exists Left. split; [done|]. by left.
    - destruct (run_told s On K (gen_fuel (cur kind l ks pos) s) pos Hp) as (g & E & Hg).
      + pose proof (fuel_enough kind x l ks pos s Hk On K Hp). lia.
      + exists g. by rewrite E.
  Qed.
  Lemma tells_watch s s' g tl : tells g tl -> on s x l -> on s' x l -> keys_at s x = ks -> keys_at s' x = ks -> gen_watch s s' g = g.
  Proof.
    intros [[-> ->]|(pos & -> & Hp & ->)] On On' K K'; [done|]. simpl. f_equal. destruct Hk as [-> | ->]; simpl.
    - rewrite (on_keys _ _ _ On), (on_keys _ _ _ On'), bool_decide_true by congruence. done.
    - destruct pos as [|j]; [done|]. simpl. by destruct (ks !! j).
  Qed.
  Lemma al_run o s : x < next_id s -> (exists o, nodes s !! x = Some o /\ c_aliaser (o_cls o) = al) -> exists o', nodes (snd (run_op o s)) !! x = Some o' /\ c_aliaser (o_cls o') = al.
  Proof. intros Hx (o1 & Ho & <-). destruct (stays_run o s) as (_ & _ & C). destruct (C x o1 Hx Ho) as (o' & Ho' & Ec & _). exists o'. by rewrite Ec. Qed.
  Lemma first_S n tl : first_answers (S n) tl = default (Ret None) (head tl) :: first_answers n (tail tl).
  Proof. unfold first_answers. simpl. f_equal; [by destruct tl|]. rewrite <- seq_shift, map_map. apply map_ext. intros i. by destruct tl. Qed.
  Lemma calm_gen acts : forall s g tl, tells g tl -> on s x l -> keys_at s x = ks -> (exists o, nodes s !! x = Some o /\ c_aliaser (o_cls o) = al) ->
    every_call (keeps_keys x) s acts ->
    exists g', gloop x g s acts = (first_answers (asked acts) tl, g', state_after s acts) /\ tells g' (drop (asked acts) tl) /\
      on (state_after s acts) x l /\ keys_at (state_after s acts) x = ks /\ (exists o, nodes (state_after s acts) !! x = Some o /\ c_aliaser (o_cls o) = al).
  Proof.
    induction acts as [|[|o] acts IH]; intros s g tl Ht On K Ha H.
    - exists g. split; [done|]. split; [exact Ht|]. done.
    - destruct (tells_next s g tl Ht On K Ha) as (g1 & E1 & T1). simpl in H. destruct (IH s g1 (tail tl) T1 On K Ha H) as (g2 & E2 & T2 & R2). exists g2. simpl. rewrite E1, E2, first_S.
      split; [done|]. split; [|done]. destruct tl; [|done]. cbn [tail] in T2. rewrite drop_nil in *. done.
    - simpl in H. destruct H as (_ & P & H). unfold keeps_keys in P. pose proof (on_run o _ _ _ On) as On'. simpl. rewrite (tells_watch s _ g tl Ht On On' K) by congruence.
      apply IH; [done|done|congruence| |done]. apply al_run; [by destruct On|done].
  Qed.
End calm.
Lemma gloop_app x a1 a2 : forall g s, gloop x g s (a1 ++ a2) = let '(al, g1, s1) := gloop x g s a1 in let '(bl, g2, s2) := gloop x g1 s1 a2 in (al ++ bl, g2, s2).
Proof.
  induction a1 as [|[|o] a1 IH]; intros g s; simpl.
  - by destruct (gloop x g s a2) as [[bl g2] s2].
  - destruct (gen_next x g s) as [[a g1] s1]. rewrite IH. destruct (gloop x g1 s1 a1) as [[al g2] s2]. by destruct (gloop x g2 s2 a2) as [[bl g3] s3].
  - apply IH.
Qed.
Lemma gloop_calls x ops : forall s, gloop x Asleep s (map Call ops) = ([], Asleep, state_after s (map Call ops)).
Proof. induction ops as [|o ops IH]; intros s; [done|]. simpl. apply IH. Qed.
Lemma gloop_left x acts : forall s, exists s', gloop x Left s acts = (replicate (asked acts) (Ret None), Left, s').
Proof.
  induction acts as [|[|o] acts IH]; intros s; [by exists s| |]; simpl.
  - destruct (IH s) as [s' E]. rewrite E. by exists s'.
  - apply IH.
Qed.
(** After an answer that is no key the generator is left. *)
Lemma run_left n al : forall c s a g, gen_run n al c s = (a, g) -> (forall k, a <> Ret (Some k)) -> g = Left.
Proof.
  induction n as [|n IH]; intros c s a g E H; simpl in E; [by injection E|]. destruct (iter_next c s) as [[[k|]|e] c'].
  - destruct (alias_with alias al k) as [a'|e]; [injection E as <- <-; by destruct (H a')|]. destruct e; try by injection E. destruct (aliaser_enumerable al); [by eapply IH|by injection E].
  - by injection E.
  - by injection E.
Qed.
Lemma next_left x g s a g' s' : gen_next x g s = (a, g', s') -> (forall k, a <> Ret (Some k)) -> g' = Left.
Proof.
  intros E H. unfold gen_next in E. destruct g as [|c|].
  - destruct (iter_start x s) as [[c|e] s1]; [|by injection E]. destruct (gen_run _ _ c s1) as [a1 g1] eqn:F. injection E as -> -> ->. by eapply run_left.
  - destruct (gen_run _ _ c s) as [a1 g1] eqn:F. injection E as -> -> ->. by eapply run_left.
  - by injection E.
Qed.
Lemma loop_left x acts : forall g s r g' s' a, gloop x g s acts = (r, g', s') -> last r = Some a -> (forall k, a <> Ret (Some k)) -> g' = Left.
Proof.
  induction acts as [|[|o] acts IH]; intros g s r g' s' a E L H; simpl in E; [by injection E as <- <- <-| |by eapply IH].
  destruct (gen_next x g s) as [[a1 g1] s1] eqn:E1. destruct (gloop x g1 s1 acts) as [[r2 g2] s2] eqn:E2. injection E as <- <- <-. rewrite last_cons in L. destruct (last r2) as [b|] eqn:F.
  - injection L as ->. by eapply IH.
  - injection L as ->. pose proof (next_left _ _ _ _ _ _ E1 H) as ->. destruct (gloop_left x acts s1) as [s3 E3]. rewrite E3 in E2. by injection E2.
Qed.
Lemma run_awake n al : forall c s k g, gen_run n al c s = (Ret (Some k), g) -> g <> Left.
Proof.
  induction n as [|n IH]; intros c s k g E; simpl in E; [done|]. destruct (iter_next c s) as [[[k'|]|e] c']; [|done|done].
  destruct (alias_with alias al k') as [a'|e]; [by injection E as <- <-|]. destruct e; try done. destruct (aliaser_enumerable al); [by eapply IH|done].
Qed.
Lemma next_awake x g s k g' s' : gen_next x g s = (Ret (Some k), g', s') -> g' <> Left.
Proof.
  intros E. unfold gen_next in E. destruct g as [|c|]; [|destruct (gen_run _ _ c s) as [a1 g1] eqn:F; injection E as -> -> ->; by eapply run_awake|done].
  destruct (iter_start x s) as [[c|e] s1]; [|done]. destruct (gen_run _ _ c s1) as [a1 g1] eqn:F. injection E as -> -> ->. by eapply run_awake.
Qed.
Lemma loop_awake x acts : forall g s r g' s', gloop x g s acts = (r, g', s') -> match last r with Some a => exists k, a = Ret (Some k) | None => g <> Left end -> g' <> Left.
Proof.
  induction acts as [|[|o] acts IH]; intros g s r g' s' E L; simpl in E; [by injection E as <- <- <-| |].
  - destruct (gen_next x g s) as [[a1 g1] s1] eqn:E1. destruct (gloop x g1 s1 acts) as [[r2 g2] s2] eqn:E2. injection E as <- <- <-. eapply IH; [exact E2|]. rewrite last_cons in L. destruct (last r2) as [b|]; [done|].
    destruct L as [k ->]. by eapply next_awake.
  - eapply IH; [exact E|]. destruct (last r); [done|]. by destruct g.
Qed.

(** * odict: the key after the last one *)
Section follows.
  Context (al : option aliaser) (x l : nat).
  Notation T := (told (alias_with alias al) (aliaser_enumerable al)).
  Definition matches (g : gen) (a : res (option key)) : Prop :=
    match a with Ret (Some b) => exists k, g = Awake (OdictAt l k) /\ alias_with alias al k = Ret b | _ => g = Left end.
  Lemma run_matches n : forall c s a g, (c = OdictFresh l \/ exists k, c = OdictAt l k) -> gen_run n al c s = (a, g) -> matches g a.
  Proof.
    induction n as [|n IH]; intros c s a g Hc E; cbn [gen_run] in E; [by injection E as <- <-|].
    assert (H : match iter_next c s with (Ret (Some k), c') => c' = OdictAt l k | _ => True end).
    { destruct Hc as [-> | [k ->]]; simpl; [by destruct (keys_in s l)|]. destruct (decide _); [|done]. by destruct (key_after _ _). }
    destruct (iter_next c s) as [[[k|]|e] c']; [|by injection E as <- <-..]. subst c'. destruct (alias_with alias al k) as [b|e] eqn:Ea; [injection E as <- <-; by exists k|].
    destruct e; try by injection E as <- <-. destruct (aliaser_enumerable al); [|by injection E as <- <-]. eapply IH; [|exact E]. right. by exists k.
  Qed.
  Lemma after_middle k p r : k ∉ p -> key_after k (p ++ k :: r) = head r.
  Proof.
    induction p as [|k' p IH]; simpl; intros H; [by rewrite decide_True|]. apply not_elem_of_cons in H as [N H]. rewrite decide_False by congruence. by apply IH.
  Qed.
  Lemma run_rest s : on s x l -> NoDup (keys_at s x) -> forall n r p k, keys_at s x = p ++ k :: r -> length r < n ->
    exists g, gen_run n al (OdictAt l k) s = (default (Ret None) (head (T r)), g) /\ matches g (default (Ret None) (head (T r))).
  Proof.
    intros On ND. pose proof (on_keys _ _ _ On) as Ki. induction n as [|n IH]; intros r p k E Hn; [lia|]. cbn [gen_run iter_next]. rewrite Ki.
    assert (Hin : k ∈ keys_at s x) by (rewrite E; set_solver). rewrite decide_True by done. rewrite E in ND |- *.
    rewrite after_middle by (apply NoDup_app in ND as (_ & ND & _); intros H; apply (ND k H); set_solver). destruct r as [|k' r]; simpl head.
    - eexists. split; [done|]. done.
    - cbn [told]. destruct (alias_with alias al k') as [a|e] eqn:Ea.
      + eexists. split; [done|]. simpl. by exists k'.
      + destruct e; try (eexists; split; [done|]; done). destruct (aliaser_enumerable al) eqn:En.
        * destruct (IH r (p ++ [k]) k') as (g & Eg & Hg); [by rewrite E, <- app_assoc|simpl in Hn; lia|]. by exists g.
        * eexists. split; [done|]. done.
  Qed.
  Lemma rest_split k ks : match rest_after k ks with Some r => exists p, ks = p ++ k :: r | None => k ∉ ks end.
  Proof.
    induction ks as [|k' ks IH]; simpl; [apply not_elem_of_nil|]. destruct (decide (k' = k)) as [->|N]; [by exists []|].
    destruct (rest_after k ks) as [r|]; [destruct IH as [p ->]; by exists (k' :: p)|]. apply not_elem_of_cons. by split; [congruence|].
  Qed.
  Lemma follows_next s k : on s x l -> NoDup (keys_at s x) -> (exists o, nodes s !! x = Some o /\ c_aliaser (o_cls o) = al) ->
    let a := match rest_after k (keys_at s x) with Some r => default (Ret None) (head (T r)) | None => Exc (KeyError k) end in
    exists g, gen_next x (Awake (OdictAt l k)) s = (a, g, s) /\ matches g a.
  Proof.
    intros On ND (o & Ho & Ea) a. unfold gen_next. rewrite Ho, Ea. pose proof (on_keys _ _ _ On) as Ki. unfold gen_fuel. rewrite Ki. pose proof (rest_split k (keys_at s x)) as R. subst a.
    destruct (rest_after k (keys_at s x)) as [r|].
    - destruct R as [p E]. destruct (run_rest s On ND (S (length (keys_at s x))) r p k E) as (g & Eg & Hg); [rewrite E, app_length; simpl; lia|]. exists g. by rewrite Eg.
    - exists Left. split; [|done]. cbn [gen_run iter_next]. rewrite Ki. by rewrite decide_False.
  Qed.
  Lemma follows_loop acts : forall s g a, matches g a -> reach s -> on s x l -> (exists o, nodes s !! x = Some o /\ c_aliaser (o_cls o) = al) -> every_call (fun _ _ => True) s acts ->
    exists r g', gloop x g s acts = (r, g', state_after s acts) /\ matches g' (default a (last r)) /\ reach (state_after s acts) /\
      on (state_after s acts) x l /\ (exists o, nodes (state_after s acts) !! x = Some o /\ c_aliaser (o_cls o) = al).
  Proof.
    induction acts as [|[|o] acts IH]; intros s g a M R On Ha H.
    - by exists [], g.
    - assert (exists a1 g1, gen_next x g s = (a1, g1, s) /\ matches g1 a1) as (a1 & g1 & E1 & M1).
      { pose proof (entries_nodup s x (reach_wf _ R)) as ND. destruct a as [[b|]|e]; simpl in M.
        - destruct M as (k & -> & _). destruct (follows_next s k On ND Ha) as (g1 & E & M1). eauto.
        - subst. by eexists _, _.
        - subst. by eexists _, _. }
      simpl in H. destruct (IH s g1 a1 M1 R On Ha H) as (r & g2 & E2 & M2 & X). exists (a1 :: r), g2. simpl. rewrite E1, E2. split; [done|]. split; [|done]. rewrite last_cons. by destruct (last r).
    - simpl in H. destruct H as (Ho & _ & H). simpl. assert (gen_watch s (snd (run_op o s)) g = g) as ->.
      { destruct a as [[b|]|e]; simpl in M; [destruct M as (k & -> & _)|subst..]; done. }
      apply (IH _ _ a); [done|by eapply reach_step, surjective_pairing|by apply on_run| |done]. apply al_run; [by destruct On|done].
  Qed.
End follows.

(** * Consumed at once *)
Lemma alias_iter s x o kind l s1 : wf s -> nodes s !! x = Some o -> Nodify ∈ c_behs (o_cls o) -> aliases_over kind (o_cls o) ->
  iter_start x s = (Ret (cur kind l (keys_at s x) 0), s1) -> on s1 x l -> keys_at s1 x = keys_at s x ->
  Model.iter x s = (alias_keys (c_aliaser (o_cls o)) (keys_at s x), s1).
Proof.
  intros W Ho Hn (Hk & He & pre & post & Eh & Hpre & Hpost) E On K. assert (Hc : class_of s x = Some (o_cls o)) by (unfold class_of; by rewrite Ho).
  rewrite (C59_iter s x (o_cls o) Hc Hn). unfold pipeline. rewrite He, Eh.
  assert (G : forall bs e, Alias ∉ bs -> foldr iter_stage e bs = e).
  { induction bs as [|b bs IH]; intros e Hb; [done|]. apply not_elem_of_cons in Hb as [N Hb]. simpl. rewrite IH by done. by destruct b. }
  rewrite foldr_app. simpl foldr. rewrite (G post) by done. rewrite (G pre) by done. cbn [iter_stage].
  assert (St : stored kind (o_cls o)) by by split.
  assert (SC : storage_class (c_behs (o_cls o)) = true).
  { pose proof (stored_kind _ _ St) as [L _]. apply leftmost_some in L as [L _]. unfold storage_class. destruct Hk as [-> | ->]; apply hasc_is in L; rewrite L; [done|by rewrite orb_true_r]. }
  destruct (storage_of_eff s x o W Ho SC) as (l' & s2 & E2 & Q2 & W2 & o' & Ho' & El & Ec).
  destruct (wf_nodes _ W2 _ _ Ho') as [_ [_ Hs _ _]]. destruct (Hs SStorage l' El) as [d Hd].
  assert (s2 = s1) as ->.
  { unfold iter_start in E. rewrite (bind_load _ _ _ _ Ho) in E. unfold bind at 1 in E. rewrite E2 in E. destruct (storage_kind _) as [[]|]; try (by injection E).
    unfold bind, read_dict in E. rewrite Hd in E. by injection E. }
  assert (B : (let! l0 := storage_of x in let! d0 := read_dict l0 in ret (dkeys d0)) s = (Ret (keys_at s x), s1)).
  { unfold bind, read_dict. rewrite E2, Hd. unfold ret. rewrite <- K. unfold keys_at, entries_at. rewrite Ho'. simpl. rewrite El. simpl. by rewrite Hd. }
  assert (B' : iter_body (Some kind) x s = (Ret (keys_at s x), s1)) by (by destruct Hk as [-> | ->]).
  unfold bind at 1. rewrite B'. rewrite (bind_load _ _ _ _ Ho'). rewrite Ec. unfold of_res. done.
Qed.
Fixpoint consume (tl : list (res (option key))) : res (list key) :=
  match tl with
  | [] | Ret None :: _ => Ret []
  | Ret (Some k) :: r => match consume r with Ret l => Ret (k :: l) | Exc e => Exc e end
  | Exc e :: _ => Exc e
  end.
Lemma consume_told al ks : alias_keys al ks = consume (told (alias_with alias al) (aliaser_enumerable al) ks).
Proof.
  induction ks as [|k ks IH]; [done|]. simpl. destruct (alias_with alias al k) as [a|e]; simpl; [by rewrite IH|]. destruct e; try done. by destruct (aliaser_enumerable al).
Qed.
Lemma told_short out skip ks : length (told out skip ks) <= length ks.
Proof. induction ks as [|k ks IH]; simpl; [lia|]. destruct (out k) as [a|e]; simpl; [lia|]. destruct e; simpl; try lia. destruct skip; simpl; lia. Qed.
Lemma gdraw_tells al kind x l ks (Hk : kind = DictStorage \/ kind = OdictStorage) (ND : NoDup ks) s : on s x l -> keys_at s x = ks ->
  (exists o, nodes s !! x = Some o /\ c_aliaser (o_cls o) = al) -> forall n g tl, tells al kind l ks g tl -> length tl < n -> gdraw n x g s = (consume tl, s).
Proof.
  intros On K Ha. induction n as [|n IH]; intros g tl Ht Hn; [lia|]. cbn [gdraw]. destruct (tells_next al kind x l ks Hk ND s g tl Ht On K Ha) as (g' & E & Tg). rewrite E.
  destruct tl as [|[[k|]|e] tl]; simpl; [done| |done|done]. unfold bind. rewrite (IH g' tl Tg) by (simpl in Hn; lia). by destruct (consume tl).
Qed.
