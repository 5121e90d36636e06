(** C69: loops over a node with renamed keys while it is changed. *)
From Verif Require Import Py Odict OdictFacts Aliaser Heap Model Classes MonadFacts WF Views TreeOps SpecMapping Observe ObserveFacts Slots Reach Play Plumber P_Plumbing
  Loops SpecLoops LoopProofs AliasLoops SpecAliasLoops AliasLoopProofs RefTree.

Lemma state_after_reach acts : forall s, reach s -> every_call (fun _ _ => True) s acts -> reach (state_after s acts).
Proof. induction acts as [|[|o] acts IH]; intros s R H; simpl in *; [done|by apply IH|]. destruct H as (Ho & _ & H). apply IH; [|done]. by eapply reach_step, surjective_pairing. Qed.
Lemma state_after_class x cls acts : forall s, reach s -> every_call (fun _ _ => True) s acts -> class_of s x = Some cls -> class_of (state_after s acts) x = Some cls.
Proof.
  induction acts as [|[|o] acts IH]; intros s R H Hc; simpl in *; [done|by apply IH|]. destruct H as (Ho & _ & H). apply IH; [by eapply reach_step, surjective_pairing|done|].
  unfold class_of in *. destruct (nodes s !! x) as [ob|] eqn:E; [|done]. injection Hc as <-. destruct (stays_run o s) as (_ & _ & C).
  destruct (wf_nodes _ (reach_wf _ R) _ _ E) as [Hx _]. destruct (C x ob Hx E) as (o' & Ho' & Ec & _). rewrite Ho'. simpl. by rewrite Ec.
Qed.
(** The first question, and what is there then. *)
Lemma woken s x cls kind before : reach s -> class_of s x = Some cls -> Nodify ∈ c_behs cls -> aliases_over kind cls -> every_call (fun _ _ => True) s (map Call before) ->
  let s0 := state_after s (map Call before) in
  exists l s1, iter_start x s0 = (Ret (cur kind l (keys_at s0 x) 0), s1) /\ same_world s0 s1 /\ reach s0 /\ reach s1 /\ on s1 x l /\ keys_at s1 x = keys_at s0 x /\
    NoDup (keys_at s0 x) /\ (exists o, nodes s0 !! x = Some o /\ c_aliaser (o_cls o) = c_aliaser cls) /\ (exists o, nodes s1 !! x = Some o /\ c_aliaser (o_cls o) = c_aliaser cls).
Proof.
  intros R Hc Hn HL Hb s0. assert (R0 : reach s0) by by apply state_after_reach. assert (Hc0 : class_of s0 x = Some cls) by by apply state_after_class.
  pose proof (reach_wf _ R0) as W. assert (exists o, nodes s0 !! x = Some o /\ o_cls o = cls) as (o & Ho & Eo).
  { unfold class_of in Hc0. destruct (nodes s0 !! x) as [o|]; [|done]. exists o. split; [done|]. by injection Hc0. }
  destruct HL as (Hk & He & Ha). destruct (start_eff s0 x o kind W Ho) as (l & s1 & On & Q & W1 & E); [rewrite Eo; by split|].
  exists l, s1. split; [rewrite E; by rewrite cur_start|]. split; [by apply same_world_eqv|]. split; [done|]. split; [|split; [done|split; [|split; [by apply entries_nodup|split]]]].
  - pose proof (alias_iter s0 x o kind l s1 W Ho) as H. rewrite Eo in H. specialize (H Hn (conj Hk (conj He Ha))). rewrite E in H.
    assert (Ek : keys_at s1 x = keys_at s0 x) by (unfold keys_at; rewrite !ob_entries; unfold fld; by rewrite (e_views _ _ Q)).
    specialize (H (f_equal (fun c => (Ret c, s1)) (eq_sym (cur_start kind l (keys_at s0 x) Hk))) On Ek).
    assert (H' : snd (run_op (OIter x) s0) = s1) by (unfold run_op, ignore, bind; rewrite H; by destruct (alias_keys _ _)).
    rewrite <- H'. eapply reach_step; [exact R0| |apply surjective_pairing]. by exists o.
  - unfold keys_at. rewrite !ob_entries. unfold fld. by rewrite (e_views _ _ Q).
  - exists o. by rewrite Eo.
  - assert (Hc1 : class_of s1 x = Some cls) by (rewrite <- Hc0; rewrite !ob_class; unfold fld; by rewrite (e_views _ _ Q)).
    unfold class_of in Hc1. destruct (nodes s1 !! x) as [o1|]; [|done]. injection Hc1 as <-. by exists o1.
Qed.
Lemma first_next s x cls kind before : reach s -> class_of s x = Some cls -> Nodify ∈ c_behs cls -> aliases_over kind cls -> every_call (fun _ _ => True) s (map Call before) ->
  let s0 := state_after s (map Call before) in let tl := told (alias_with alias (c_aliaser cls)) (aliaser_enumerable (c_aliaser cls)) (keys_at s0 x) in
  exists l s1 g, gen_next x Asleep s0 = (default (Ret None) (head tl), g, s1) /\ same_world s0 s1 /\ reach s1 /\ on s1 x l /\ keys_at s1 x = keys_at s0 x /\ NoDup (keys_at s0 x) /\
    (exists o, nodes s1 !! x = Some o /\ c_aliaser (o_cls o) = c_aliaser cls) /\ tells (c_aliaser cls) kind l (keys_at s0 x) g (tail tl) /\
    (forall more, fst (fst (gloop x Asleep s (map Call before ++ Next :: more))) = default (Ret None) (head tl) :: fst (fst (gloop x g s1 more))) /\
    exists n, gen_run n (c_aliaser cls) (cur kind l (keys_at s0 x) 0) s1 = (default (Ret None) (head tl), g).
Proof.
  intros R Hc Hn HL Hb s0 tl. destruct (woken s x cls kind before R Hc Hn HL Hb) as (l & s1 & E & Sw & R0 & R1 & On & K & ND & (o & Ho & Ea) & Ha1). fold s0 in E, Sw, R0, K, ND, Ho.
  destruct HL as (Hk & _). assert (exists g, gen_next x Asleep s0 = (default (Ret None) (head tl), g, s1) /\ tells (c_aliaser cls) kind l (keys_at s0 x) g (tail tl) /\
    exists n, gen_run n (c_aliaser cls) (cur kind l (keys_at s0 x) 0) s1 = (default (Ret None) (head tl), g)) as (g & Eg & Tg & Mg).
  { unfold gen_next. rewrite E, Ho, Ea. destruct (run_told (c_aliaser cls) kind x l (keys_at s0 x) Hk ND s1 On K (gen_fuel (cur kind l (keys_at s0 x) 0) s1) 0) as (g & Eg & Tg); [lia| |].
    - pose proof (fuel_enough kind x l (keys_at s0 x) 0 s1 Hk On K). lia.
    - exists g. rewrite Eg. split; [done|]. split; [exact Tg|]. eexists. exact Eg. }
  exists l, s1, g. split; [exact Eg|]. split; [done|]. split; [done|]. split; [done|]. split; [done|]. split; [done|]. split; [done|]. split; [done|]. split; [|exact Mg].
  intros more. rewrite gloop_app, gloop_calls. fold s0. cbn [gloop app]. rewrite Eg. by destruct (gloop x g s1 more) as [[r g2] s2].
Qed.

(** iter() looks at nothing: whatever is called before the first question, the loop is told the names of the keys there
    are then, as long as no key is added or removed after that. Keys the aliaser has no name for are left out if it is a
    DictAliaser; otherwise its exception ends the loop. *)
Theorem C69_undisturbed : forall s x cls kind before, reach s -> class_of s x = Some cls -> Nodify ∈ c_behs cls -> aliases_over kind cls ->
  every_call (fun _ _ => True) s (map Call before) ->
  let s0 := state_after s (map Call before) in
  exists s1, same_world s0 s1 /\
    forall acts, every_call (fun t t' => keys_at t' x = keys_at t x) s1 acts ->
      told_by x s (map Call before ++ Next :: acts) =
        first_answers (S (asked acts)) (told (alias_with alias (c_aliaser cls)) (aliaser_enumerable (c_aliaser cls)) (keys_at s0 x)).
Proof.
  intros s x cls kind before R Hc Hn HL Hb s0. destruct (first_next s x cls kind before R Hc Hn HL Hb) as (l & s1 & g & Eg & Sw & R1 & On & K & ND & Ha & Tg & G & _). exists s1. split; [done|].
  intros acts H. unfold told_by. rewrite G. rewrite first_S. f_equal. destruct HL as (Hk & _).
  destruct (calm_gen _ kind x l _ Hk ND acts s1 g _ Tg On K Ha H) as (g' & E & _). by rewrite E.
Qed.
(** A dict: after a call that changes the number of keys a running loop gets RuntimeError, once, and then its end. *)
Theorem C69_dict_changed : forall s x cls before, reach s -> class_of s x = Some cls -> Nodify ∈ c_behs cls -> aliases_over DictStorage cls ->
  every_call (fun _ _ => True) s (map Call before) ->
  let s0 := state_after s (map Call before) in
  exists s1, same_world s0 s1 /\
    forall acts o n a, every_call (fun t t' => keys_at t' x = keys_at t x) s1 acts -> last (told_by x s (map Call before ++ Next :: acts)) = Some (Ret (Some a)) ->
      length (keys_at (snd (run_op o (state_after s1 acts))) x) <> length (keys_at s0 x) ->
      told_by x s (map Call before ++ Next :: acts ++ Call o :: replicate (S n) Next) =
        told_by x s (map Call before ++ Next :: acts) ++ Exc RuntimeError :: replicate n (Ret None).
Proof.
  intros s x cls before R Hc Hn HL Hb s0. destruct (first_next s x cls DictStorage before R Hc Hn HL Hb) as (l & s1 & g & Eg & Sw & R1 & On & K & ND & Ha & Tg & G & _). fold s0 in Eg, Sw, K, ND, Tg, G.
  exists s1. split; [done|]. intros acts o n a H La Hne. unfold told_by in *. rewrite !G in *. rewrite gloop_app. cbn [app]. f_equal.
  destruct (calm_gen _ DictStorage x l _ (or_introl eq_refl) ND acts s1 g _ Tg On K Ha H) as (g' & E & T' & On' & K' & Ha'). rewrite E in *. cbn [fst] in *.
  assert (N : g' <> Left).
  { assert (F : gloop x Asleep s0 (Next :: acts) = (default (Ret None) (head (told (alias_with alias (c_aliaser cls)) (aliaser_enumerable (c_aliaser cls)) (keys_at s0 x))) ::
      first_answers (asked acts) (tail (told (alias_with alias (c_aliaser cls)) (aliaser_enumerable (c_aliaser cls)) (keys_at s0 x))), g', state_after s1 acts)) by (cbn [gloop]; by rewrite Eg, E).
    eapply loop_awake; [exact F|]. rewrite La. by exists a. }
  destruct T' as [[-> _]|(pos & -> & _)]; [done|]. cbn [gloop replicate gen_watch cur iter_watch]. unfold gen_next at 1. unfold gen_fuel. cbn [gen_run iter_next].
  rewrite (on_keys _ x) by (by apply on_run). rewrite decide_True by done. destruct (gloop_left x (replicate n Next) (snd (run_op o (state_after s1 acts)))) as [s3 E3]. rewrite E3. cbn [fst]. do 3 f_equal.
  clear. induction n as [|n IH]; simpl; [done|by rewrite IH].
Qed.
(** An odict: whatever was called, the loop goes on with the first key that has a name among those that now follow the last one it
    was told of. If that key is gone, KeyError, with the key of the storage in it. *)
Theorem C69_odict_follows : forall s x cls before, reach s -> class_of s x = Some cls -> Nodify ∈ c_behs cls -> aliases_over OdictStorage cls ->
  every_call (fun _ _ => True) s (map Call before) ->
  let out := alias_with alias (c_aliaser cls) in
  exists s1, same_world (state_after s (map Call before)) s1 /\
    forall acts a k, every_call (fun _ _ => True) s1 acts -> last (told_by x s (map Call before ++ Next :: acts)) = Some (Ret (Some a)) ->
      (forall k', out k' = Ret a <-> k' = k) ->
      told_by x s (map Call before ++ Next :: acts ++ [Next]) =
        told_by x s (map Call before ++ Next :: acts) ++
          [match rest_after k (keys_at (state_after s1 acts) x) with
           | Some r => default (Ret None) (head (told out (aliaser_enumerable (c_aliaser cls)) r))
           | None => Exc (KeyError k)
           end].
Proof.
  intros s x cls before R Hc Hn HL Hb out. destruct (first_next s x cls OdictStorage before R Hc Hn HL Hb) as (l & s1 & g & Eg & Sw & R1 & On & K & ND & Ha & Tg & G & M0).
  set (s0 := state_after s (map Call before)) in *. exists s1. split; [done|]. intros acts a k H La Hk. unfold told_by in *. rewrite !G in *. rewrite gloop_app. cbn [app]. f_equal.
  set (h := default (Ret None) (head (told _ _ (keys_at s0 x)))) in *.
  assert (M : matches (c_aliaser cls) l g h).
  { destruct M0 as [n M0]. eapply (run_matches _ l n (OdictFresh l)); [by left|exact M0]. }
  destruct (follows_loop (c_aliaser cls) x l acts s1 g h M R1 On Ha H) as (r & g' & E & M' & R' & On' & Ha'). rewrite E in *. cbn [fst] in *.
  rewrite last_cons in La. assert (E' : default h (last r) = Ret (Some a)) by (destruct (last r); by injection La). rewrite E' in M'. destruct M' as (k1 & -> & Hk1). apply Hk in Hk1 as ->.
  pose proof (entries_nodup (state_after s1 acts) x (reach_wf _ R')) as ND'. destruct (follows_next (c_aliaser cls) x l (state_after s1 acts) k On' ND' Ha') as (g2 & E2 & _).
  cbn [gloop]. rewrite E2. done.
Qed.
(** After an answer that is no key, the end, again and again. *)
Theorem C69_ended : forall s x acts more a, last (told_by x s acts) = Some a -> (forall k, a <> Ret (Some k)) ->
  told_by x s (acts ++ more) = told_by x s acts ++ replicate (asked more) (Ret None).
Proof.
  intros s x acts more a L H. unfold told_by in *. rewrite gloop_app. destruct (gloop x Asleep s acts) as [[r g] s1] eqn:E. cbn [fst] in *.
  rewrite (loop_left x acts _ _ _ _ _ a E L H). destruct (gloop_left x more s1) as [s2 E2]. by rewrite E2.
Qed.
(** keys() is such a loop consumed at once. *)
Theorem C69_keys : forall s x cls kind, reach s -> class_of s x = Some cls -> Nodify ∈ c_behs cls -> aliases_over kind cls ->
  exists n, forall f, n <= f -> gdraw f x Asleep s = keys x s.
Proof.
  intros s x cls kind R Hc Hn HL. destruct (first_next s x cls kind [] R Hc Hn HL I) as (l & s1 & g & Eg & Sw & R1 & On & K & ND & Ha & Tg & _ & _). change (state_after s (map Call [])) with s in *.
  destruct (woken s x cls kind [] R Hc Hn HL I) as (l' & s1' & E & _ & _ & _ & On2 & K2 & _ & (o & Ho & _) & _). change (state_after s (map Call [])) with s in *.
  assert (o_cls o = cls) as Eo by (unfold class_of in Hc; rewrite Ho in Hc; by injection Hc).
  assert (s1' = s1) as ->. { unfold gen_next in Eg. rewrite E in Eg. by injection Eg. }
  pose proof (alias_iter s x o kind l' s1 (reach_wf _ R) Ho) as It. rewrite Eo in It. specialize (It Hn HL E On2 K2).
  exists (S (S (length (keys_at s x)))). intros [|f] Hf; [lia|]. unfold keys. rewrite It, consume_told. cbn [gdraw]. rewrite Eg. destruct HL as (Hk & _).
  pose proof (told_short (alias_with alias (c_aliaser cls)) (aliaser_enumerable (c_aliaser cls)) (keys_at s x)) as Ls.
  destruct (told _ _ (keys_at s x)) as [|[[k|]|e] tl]; cbn [head tail default consume length] in *; [done| |done|done]. unfold bind.
  rewrite (gdraw_tells (c_aliaser cls) kind x l (keys_at s x) Hk ND s1 On K Ha f g tl Tg) by lia. by destruct (consume tl).
Qed.

(** * Concrete loops *)
(** A dict under names with the prefix p-, and an odict of which a DictAliaser shows a and c as A and C. *)
Definition C69_d := Class "D" [Alias; DefaultInit; Nodify; DictStorage] [] [] (Some (APrefix (Some "p-"))) true "" true None.
Definition C69_o := Class "O" [Alias; DefaultInit; Nodify; OdictStorage] [] [] (Some (ADict [(KStr "A", KStr "a"); (KStr "C", KStr "c")] true)) true "" true None.
Definition C69_s := after_in [C69_d; C69_o] [ONew "D" (KStr "d") None; ONew "O" (KStr "o") None; OSet 0 (KStr "p-a") (VInt 1); OSet 0 (KStr "p-b") (VInt 2);
  OSet 1 (KStr "A") (VInt 1); OStore 1 (KStr "b") (VInt 2); OSet 1 (KStr "C") (VInt 3)].
Example C69_example : reach C69_s /\ class_of C69_s 0 = Some C69_d /\ aliases_over DictStorage C69_d /\ Nodify ∈ c_behs C69_d /\ keys_at C69_s 0 = [KStr "a"; KStr "b"] /\
  (let c := Call (OSet 0 (KStr "p-c") (VInt 3)) in
   every_call (fun _ _ => True) C69_s [c] /\
   told_by 0 C69_s [c; Next; Call (OSet 0 (KStr "p-a") (VInt 9)); Next; Next; Next; Next] = [Ret (Some (KStr "p-a")); Ret (Some (KStr "p-b")); Ret (Some (KStr "p-c")); Ret None; Ret None] /\
   told_by 0 C69_s [Next; c; Next; Next; Next] = [Ret (Some (KStr "p-a")); Exc RuntimeError; Ret None; Ret None] /\
   gdraw 5 0 Asleep C69_s = keys 0 C69_s).
Proof.
  split; [apply after_in_reach|]. split; [vm_compute; reflexivity|]. split; [split; [left; reflexivity|]; split; [reflexivity|]; exists [], []; split; [reflexivity|]; split; apply not_elem_of_nil|].
  split; [apply (bool_decide_unpack _); reflexivity|]. split; [vm_compute; reflexivity|]. cbv zeta.
  split; [split; [|split; exact I]|split; [vm_compute; reflexivity|split; vm_compute; reflexivity]]. vm_compute. repeat split; eexists; reflexivity.
Qed.
Example C69_odict_example : class_of C69_s 1 = Some C69_o /\ aliases_over OdictStorage C69_o /\ keys_at C69_s 1 = [KStr "a"; KStr "b"; KStr "c"] /\
  (forall k, alias_with alias (c_aliaser C69_o) k = Ret (KStr "A") <-> k = KStr "a") /\
  told_by 1 C69_s [Next; Call (OUnstore 1 (KStr "b")); Next; Call (OStore 1 (KStr "d") (VInt 4)); Next; Next] = [Ret (Some (KStr "A")); Ret (Some (KStr "C")); Ret None; Ret None] /\
  told_by 1 C69_s [Next; Call (ODel 1 (KStr "A")); Next; Next] = [Ret (Some (KStr "A")); Exc (KeyError (KStr "a")); Ret None].
Proof.
  split; [vm_compute; reflexivity|]. split; [split; [right; reflexivity|]; split; [reflexivity|]; exists [], []; split; [reflexivity|]; split; apply not_elem_of_nil|].
  split; [vm_compute; reflexivity|]. split.
  - intros k. unfold alias_with. simpl. destruct (decide (KStr "a" = k)) as [<-|N]; [done|]. destruct (decide (KStr "c" = k)) as [<-|N']; [done|]. split; [done|]. intros ->. done.
  - split; vm_compute; reflexivity.
Qed.
(** A key without a name ends the loop, unless the aliaser is a DictAliaser. *)
Definition C69_bad := after_in [C69_d; C69_o] [ONew "D" (KStr "d") None; OSet 0 (KStr "p-a") (VInt 1); OStore 0 (KInt 5) (VInt 2); OStore 0 (KStr "z") (VInt 2)].
Example C69_unnamed_example : reach C69_bad /\ told_by 0 C69_bad [Next; Next; Next; Next] = [Ret (Some (KStr "p-a")); Exc TypeError; Ret None; Ret None].
Proof. split; [apply after_in_reach|vm_compute; reflexivity]. Qed.
Print Assumptions C69_undisturbed.
Print Assumptions C69_dict_changed.
Print Assumptions C69_odict_follows.
Print Assumptions C69_ended.
Print Assumptions C69_keys.
