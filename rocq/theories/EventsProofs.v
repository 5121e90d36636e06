(** Proofs about events. *)
From Verif Require Import Py Events SpecEvents.
From stdpp Require Import list.

Section proofs.
Context {V : Type} (veqb : V -> V -> bool) (unset : V)
  (behave : ecall V -> est V -> list (act V)) (attribute : nat -> string -> option (desc V)).
Implicit Types (s : est V).
Notation exec := (exec veqb unset behave attribute).
Notation step := (step veqb unset behave attribute).
Notation dispatch := (dispatch behave).
Notation set_attr := (set_attr veqb behave attribute).
Notation del_attr := (del_attr unset behave attribute).

Lemma seq_inv r (k : est V -> eres * est V) (Q : eres * est V -> Prop) :
  (forall s, r = (EOk, s) -> Q (k s)) -> (forall e s, r = (EExc e, s) -> Q (EExc e, s)) -> Q (seq_ r k).
Proof. destruct r as [[|e] s]; simpl; eauto. Qed.

(** * Invariants of executions *)
Definition plain_act (a : act V) : Prop :=
  match a with AWith _ _ | ACreate _ _ | AWithObj _ _ | ATry _ => False | _ => True end.
Section structural.
Context (P : est V -> Prop) (φ : act V -> Prop) (th : nat).
Context (φ_with : forall n b, φ (AWith n b) -> Forall φ b) (φ_obj : forall o b, φ (AWithObj o b) -> Forall φ b)
  (φ_try : forall b, φ (ATry b) -> Forall φ b).
Context (P_init : forall n s, P s -> P (snd (sup_init th n s))) (P_enter : forall s, P s -> P (snd (sup_enter th s)))
  (P_exit : forall n s, P s -> P (snd (sup_exit th n s)))
  (P_sups : forall o n s, P s -> φ (ACreate o n) -> P (set_sups <[o := n]> s))
  (P_plain : forall run f a s, (forall p s, P s -> Forall φ p -> P (snd (run p s))) -> φ a -> plain_act a -> P s ->
     P (snd (step run f th a s))).

Lemma P_seq r k : P (snd r) -> (forall s, P s -> P (snd (k s))) -> P (snd (seq_ r k)).
Proof. intros H Hk. apply seq_inv; [intros s ->|intros e s ->]; simpl in *; auto. Qed.
Lemma P_with run n b s : (forall p s, P s -> Forall φ p -> P (snd (run p s))) -> Forall φ b -> P s -> P (snd (sup_with run th n b s)).
Proof.
  intros Hr Hb Hs. unfold sup_with. apply P_seq; [auto|].
  intros s1 Hs1. pose proof (Hr b s1 Hs1 Hb) as H2. destruct (run b s1) as [r s2]. simpl in H2.
  pose proof (P_exit n s2 H2). destruct r as [|[]]; destruct (sup_exit th n s2) as [[|] s3]; done.
Qed.
Lemma P_step_gen run f a s : (forall p s, P s -> Forall φ p -> P (snd (run p s))) -> φ a -> P s -> P (snd (step run f th a s)).
Proof.
  intros Hr Ha Hs. destruct a; try by apply P_plain.
  - cbn [Events.step]. apply P_seq; [by apply P_init|]. intros s1 Hs1. apply P_with; eauto.
  - cbn [Events.step]. apply P_seq; [by apply P_init|]. simpl. auto.
  - cbn [Events.step]. destruct (e_sups s !! o); [|done]. apply P_with; eauto.
  - cbn [Events.step]. pose proof (Hr body s Hs (φ_try _ Ha)). destruct (run body s). done.
Qed.
Lemma P_exec_gen n : forall p s, P s -> Forall φ p -> P (snd (exec n th p s)).
Proof.
  induction n as [|n IH]; intros p s Hs Hp; [done|]. simpl. destruct p as [|a p]; [done|].
  apply Forall_cons in Hp as [Ha Hp]. apply P_seq; [|auto]. apply P_step_gen; auto.
Qed.
End structural.

Section invariant.
Context (P : est V -> Prop) (φ : act V -> Prop).
Context (φ_with : forall n b, φ (AWith n b) -> Forall φ b) (φ_obj : forall o b, φ (AWithObj o b) -> Forall φ b)
  (φ_try : forall b, φ (ATry b) -> Forall φ b) (φ_behave : forall c s, Forall φ (behave c s)).
Context (P_tl : forall th g s, P s -> P (with_tl th g s)) (P_count : forall s, P s -> P (count s))
  (P_log : forall c s, P s -> P (log_call c s))
  (P_sups : forall o n s, P s -> φ (ACreate o n) -> P (set_sups <[o := n]> s))
  (P_set : forall d n v s, P s -> φ (ASetAttr d n v) -> P (set_vals <[(d, n) := v]> s))
  (P_del : forall d n s, P s -> φ (ADelAttr d n) -> P (set_vals (delete (d, n)) s))
  (P_class : forall c b o a s, P s -> φ (ADefClass c b o a) -> P (snd (def_class c b o a s)))
  (P_new : forall d c s, P s -> φ (ANew d c) -> P (snd (new_dispatcher d c s)))
  (P_register : forall d e s, P s -> φ (ARegister d e) -> P (snd (register d e s)))
  (P_bind : forall d kw s, P s -> φ (ABind d kw) -> P (snd (bind_ d kw s)))
  (P_unbind : forall d e x s, P s -> φ (AUnbind d e x) -> P (snd (unbind d e x s))).

Lemma P_fixed_loop body l : (forall x s, P s -> P (snd (body x s))) -> forall s, P s -> P (snd (fixed_loop body l s)).
Proof. intros Hb. induction l as [|x l IH]; intros s Hs; simpl; [done|]. apply P_seq; auto. Qed.
Lemma P_live_loop body l f : (forall x s, P s -> P (snd (body x s))) -> forall i s, P s -> P (snd (live_loop f body l i s)).
Proof.
  intros Hb. induction f as [|f IH]; intros i s Hs; simpl; destruct (list_at s l !! i); try done. apply P_seq; auto.
Qed.
Lemma P_dispatch run f th d e a s : (forall p s, P s -> Forall φ p -> P (snd (run p s))) -> P s -> P (snd (dispatch run f th d e a s)).
Proof.
  intros Hr Hs. unfold Events.dispatch. destruct (tl_inject _) as [inj|]; [|by apply P_count].
  destruct (suppressed_now _ e) as [[|]|]; simpl; auto.
  assert (Hc : forall c s, P s -> P (snd (call_sub behave run c s))) by (intros; apply Hr; auto).
  apply P_seq; [apply P_fixed_loop; auto|]. intros s2 Hs2. destruct (e_dsp s2 !! d) as [o|]; [|done].
  destruct (Events.assoc e (d_subs o)); [|done]. apply P_live_loop; auto.
Qed.
Lemma P_exec n th p s : P s -> Forall φ p -> P (snd (exec n th p s)).
Proof.
  apply (P_exec_gen P φ th); auto.
  - intros m s' Hs. unfold sup_init. destruct m, (tl_events (tl_of s' th)); simpl; auto.
  - intros s' Hs. unfold sup_enter. destruct (tl_suppress _); simpl; auto.
  - intros m s' Hs. unfold sup_exit. destruct (tl_suppress _); [|done]. destruct m; [simpl; auto|]. destruct (tl_events _); [|simpl; auto].
    destruct (remove_names _ _). simpl. auto.
  - intros run f a s' Hr Ha Hpl Hs. destruct a; cbn [Events.step]; try done; try (by eauto).
    + by apply P_dispatch.
    + unfold Events.set_attr. destruct (attribute d name); [|done]. destruct (_ || _); [|simpl; auto]. apply P_dispatch; auto.
    + unfold Events.del_attr. destruct (attribute d name); [|done]. destruct (e_vals s' !! _); [|done]. apply P_dispatch; auto.
Qed.
End invariant.

End proofs.

Section wf.
Context {V : Type}.
Implicit Types (s : est V).
(** * Well-formed states: subscriber lists are not shared *)
Record ewf s : Prop := EWf {
  w_loc : forall d o e l, e_dsp s !! d = Some o -> (e, l) ∈ d_subs o -> l < e_next s;
  w_apart : forall d d' o o' e e' l, e_dsp s !! d = Some o -> e_dsp s !! d' = Some o' ->
     (e, l) ∈ d_subs o -> (e', l) ∈ d_subs o' -> d = d' /\ e = e';
  w_keys : forall d o, e_dsp s !! d = Some o -> NoDup (map fst (d_subs o));
  w_nodup : forall l x, e_lists s !! l = Some x -> NoDup x
}.
Lemma ewf_same s s' : e_dsp s' = e_dsp s -> e_lists s' = e_lists s -> e_next s <= e_next s' -> ewf s -> ewf s'.
Proof.
  intros E1 E2 E3 [W1 W2 W3 W4]. split; rewrite ?E1, ?E2; eauto. intros. eapply Nat.lt_le_trans; [|exact E3]. eauto.
Qed.
Lemma ewf_lists s l x : NoDup x -> ewf s -> ewf (set_lists <[l := x]> s).
Proof.
  intros Hx [W1 W2 W3 W4]. split; simpl; eauto. intros l' x'. rewrite lookup_insert_Some. intros [[_ <-]|[_ H]]; eauto.
Qed.
Lemma assoc_in e l ls : Events.assoc e ls = Some l -> (e, l) ∈ ls.
Proof. induction ls as [|[k v] ls IH]; simpl; [done|]. case_decide; [intros [= ->]; subst; left|]. right. auto. Qed.
Lemma assoc_None e ls : Events.assoc e ls = None -> e ∉ map fst ls.
Proof.
  induction ls as [|[k v] ls IH]; simpl; [intros _; apply not_elem_of_nil|]. case_decide; [done|]. intros H'. apply not_elem_of_cons. auto.
Qed.
Lemma in_assoc e l ls : NoDup (map fst ls) -> (e, l) ∈ ls -> Events.assoc e ls = Some l.
Proof.
  induction ls as [|[k v] ls IH]; simpl; intros Hn Hin; [by apply elem_of_nil in Hin|]. apply NoDup_cons in Hn as [H1 H2].
  apply elem_of_cons in Hin as [[= -> ->]|Hin]; [by rewrite decide_True|]. rewrite decide_False; [auto|].
  intros ->. apply H1. apply elem_of_list_fmap. by exists (k, l).
Qed.
Lemma list_at_nodup s l : ewf s -> NoDup (list_at s l).
Proof. intros W. unfold list_at. destruct (e_lists s !! l) eqn:E; simpl; [by apply (w_nodup _ W l)|apply NoDup_nil_2]. Qed.
Lemma add_once_nodup l x : NoDup l -> NoDup (add_once l x).
Proof.
  intros H. unfold add_once. case_decide; [done|]. apply NoDup_app. split; [done|]. split; [|apply NoDup_singleton].
  intros y Hy Hy'. apply elem_of_list_singleton in Hy' as ->. done.
Qed.
Lemma remove_first_filter x l : NoDup l -> remove_first x l = filter (fun y => y <> x) l.
Proof.
  induction l as [|y l IH]; simpl; [done|]. intros [H1 H2]%NoDup_cons. rewrite filter_cons. case_decide as E.
  - subst y. rewrite decide_False by naive_solver. symmetry. clear IH. induction l as [|z l IH]; [done|].
    rewrite filter_cons, decide_True by (intros ->; apply H1; left). f_equal. apply IH; [intros ?; apply H1; by right|]. by apply NoDup_cons in H2 as [_ ?].
  - rewrite decide_True by done. f_equal. by apply IH.
Qed.
Lemma list_at_set s l x l' : list_at (set_lists <[l := x]> s) l' = if decide (l = l') then x else list_at s l'.
Proof. unfold list_at. simpl. case_decide; [subst; by rewrite lookup_insert|by rewrite lookup_insert_ne]. Qed.

(** ** bind *)
Lemma class_events_in s cls e : e ∈ class_events s cls <-> exists l evs, e_cls s !! cls = Some l /\ e_evl s !! l = Some evs /\ e ∈ evs.
Proof.
  unfold class_events. destruct (e_cls s !! cls) as [l|]; simpl.
  - destruct (e_evl s !! l) as [evs|] eqn:E; simpl; [naive_solver|]. split; [by intros ?%elem_of_nil|]. naive_solver.
  - split; [by intros ?%elem_of_nil|]. naive_solver.
Qed.
Definition effect s s' (g : nat -> string -> list nat -> list nat) : Prop :=
  (forall d e, bound s' d e = g d e (bound s d e)) /\
  (forall d e, declared s' d e <-> declared s d e) /\ e_tl s' = e_tl s /\ e_vals s' = e_vals s /\ e_trace s' = e_trace s /\ e_count s' = e_count s /\
  (forall d, is_Some (e_dsp s' !! d) <-> is_Some (e_dsp s !! d)).

Lemma bind1_eff s d e x : ewf s -> declared s d e ->
  exists s', bind1 d e x s = (EOk, s') /\ ewf s' /\
    effect s s' (fun d' e' l => if decide (d' = d /\ e' = e) then add_once l x else l).
Proof.
  intros W (o & Ho & Hd). unfold bind1. rewrite Ho. rewrite decide_True by (by rewrite class_events_in).
  destruct (Events.assoc e (d_subs o)) as [l|] eqn:Ea.
  - set (s' := if decide (x ∈ list_at s l) then s else _). exists s'. split; [done|].
    assert (Hs' : s' = s \/ s' = set_lists <[l := list_at s l ++ [x]]> s) by (unfold s'; case_decide; auto).
    assert (Hl : list_at s' l = add_once (list_at s l) x).
    { unfold s', add_once. case_decide; [done|]. rewrite list_at_set. by rewrite decide_True. }
    assert (Hl' : forall l', l' <> l -> list_at s' l' = list_at s l').
    { intros l' Hne. destruct Hs' as [->| ->]; [done|]. rewrite list_at_set. by rewrite decide_False. }
    assert (W' : ewf s').
    { destruct Hs' as [E|E]; rewrite E; [done|]. apply ewf_lists; [|done]. rewrite E in Hl. rewrite list_at_set, decide_True in Hl by done.
      rewrite Hl. apply add_once_nodup. by apply list_at_nodup. }
    split; [done|]. split.
    + intros d' e'. unfold bound. assert (Ed : e_dsp s' = e_dsp s) by (destruct Hs' as [->| ->]; done). rewrite Ed.
      destruct (e_dsp s !! d') as [o'|] eqn:Ho'.
      2: { rewrite decide_False; [done|]. intros [-> _]. congruence. }
      destruct (Events.assoc e' (d_subs o')) as [l'|] eqn:Ea'.
      2: { rewrite decide_False; [done|]. intros [-> ->]. rewrite Ho in Ho'. injection Ho' as <-. congruence. }
      fold (list_at s' l') (list_at s l'). case_decide as Hde.
      * destruct Hde as [-> ->]. rewrite Ho in Ho'. injection Ho' as <-. rewrite Ea in Ea'. injection Ea' as <-. done.
      * apply Hl'. intros ->. apply Hde. apply assoc_in in Ea, Ea'. destruct (w_apart _ W d d' o o' e e' l) as [-> ->]; done.
    + destruct Hs' as [->| ->]; repeat split; try done.
  - set (o1 := Dsp (d_class o) (d_events o) (d_subs o ++ [(e, e_next s)])).
    set (s1 := bump _). simpl.
    assert (Hl1 : list_at s1 (e_next s) = []) by (unfold list_at, s1; simpl; by rewrite lookup_insert).
    rewrite Hl1. rewrite decide_False by apply not_elem_of_nil. simpl. set (s' := set_lists _ s1). exists s'. split; [done|].
    assert (W1 : ewf s1).
    { destruct W as [W1 W2 W3 W4]. split; unfold s1; simpl.
      - intros d' o' e' l'. rewrite lookup_insert_Some. intros [[<- <-]|[_ Ho']] Hin; simpl in Hin.
        + apply elem_of_app in Hin as [Hin|Hin]; [specialize (W1 _ _ _ _ Ho Hin); lia|]. apply elem_of_list_singleton in Hin as [= -> ->]. lia.
        + specialize (W1 _ _ _ _ Ho' Hin). lia.
      - assert (Hsub : forall d' o' e' l', <[d:=o1]> (e_dsp s) !! d' = Some o' -> (e', l') ∈ d_subs o' ->
           (exists o'', e_dsp s !! d' = Some o'' /\ (e', l') ∈ d_subs o'') \/ (d' = d /\ e' = e /\ l' = e_next s)).
        { intros d' o' e' l'. rewrite lookup_insert_Some. intros [[<- <-]|[_ Ho']] Hin; simpl in Hin.
          - apply elem_of_app in Hin as [Hin|Hin]; [left; eauto|]. apply elem_of_list_singleton in Hin as [= -> ->]. by right.
          - left. eauto. }
        intros d1 d2 o1' o2' e1 e2 l' H1 H2 H3 H4.
        destruct (Hsub _ _ _ _ H1 H3) as [(o3 & H5 & H6)|(-> & -> & E)], (Hsub _ _ _ _ H2 H4) as [(o4 & H7 & H8)|(-> & -> & E')].
        + eauto.
        + specialize (W1 _ _ _ _ H5 H6). lia.
        + specialize (W1 _ _ _ _ H7 H8). lia.
        + done.
      - intros d' o'. rewrite lookup_insert_Some. intros [[<- <-]|[_ Ho']]; [|eauto]. simpl. rewrite map_app. apply NoDup_app.
        split; [eauto|]. split; [|apply NoDup_singleton]. intros y Hy Hy'. apply elem_of_list_singleton in Hy' as ->.
        by apply (assoc_None _ _ Ea).
      - intros l' x'. rewrite lookup_insert_Some. intros [[_ <-]|[_ H]]; [apply NoDup_nil_2|eauto]. }
    split; [apply ewf_lists; [apply NoDup_singleton|done]|]. split.
    + intros d' e'. unfold bound. unfold s', s1. simpl. destruct (decide (d' = d)) as [->|Hne].
      * rewrite lookup_insert, Ho. simpl.
        assert (Has : Events.assoc e' (d_subs o ++ [(e, e_next s)]) = match Events.assoc e' (d_subs o) with Some l => Some l | None => if decide (e' = e) then Some (e_next s) else None end).
        { clear. induction (d_subs o) as [|[k v] ls IH]; simpl; [done|]. by destruct (decide (e' = k)). }
        rewrite Has. destruct (Events.assoc e' (d_subs o)) as [l'|] eqn:Ea'.
        -- rewrite decide_False by (intros [_ ->]; congruence).
           rewrite !lookup_insert_ne; [done| |]; apply assoc_in in Ea'; specialize (w_loc _ W _ _ _ _ Ho Ea'); lia.
        -- case_decide as E; [subst e'|].
           ++ rewrite decide_True by done. rewrite lookup_insert. simpl. unfold add_once. by rewrite decide_False by apply not_elem_of_nil.
           ++ rewrite decide_False by naive_solver. done.
      * rewrite lookup_insert_ne by done. rewrite decide_False by naive_solver.
        destruct (e_dsp s !! d') as [o'|] eqn:Ho'; [|done]. destruct (Events.assoc e' (d_subs o')) as [l'|] eqn:Ea'; [|done].
        rewrite !lookup_insert_ne; [done| |]; apply assoc_in in Ea'; specialize (w_loc _ W _ _ _ _ Ho' Ea'); lia.
    + split.
      { intros d' e'. unfold declared, s', s1. simpl. destruct (decide (d' = d)) as [->|Hne].
        - rewrite lookup_insert. rewrite Ho. split; intros (o' & [= <-] & H'); [exists o|exists o1]; (split; [done|exact H']).
        - by rewrite lookup_insert_ne. }
      do 4 (split; [done|]). intros d'. unfold s', s1. simpl. rewrite lookup_insert_is_Some.
      destruct (decide (d' = d)) as [->|]; [rewrite Ho|]; naive_solver.
Qed.
Lemma bind1_unknown s d e x : is_Some (e_dsp s !! d) -> ~ declared s d e -> bind1 d e x s = (EExc (UnknownEvent e), s).
Proof.
  intros [o Ho] Hd. unfold bind1. rewrite Ho. rewrite decide_False; [done|]. rewrite class_events_in. intros H. apply Hd. by exists o.
Qed.
Lemma declared_dec s d e : declared s d e \/ ~ declared s d e.
Proof.
  destruct (e_dsp s !! d) as [o|] eqn:Ho; [|right; intros (o & Ho' & _); congruence].
  destruct (decide (e ∈ d_events o \/ e ∈ class_events s (d_class o))) as [H|H]; rewrite class_events_in in H.
  - left. by exists o.
  - right. intros (o' & Ho' & H'). rewrite Ho in Ho'. injection Ho' as <-. done.
Qed.
Lemma effect_trans s1 s2 s3 g h : effect s1 s2 g -> effect s2 s3 h -> effect s1 s3 (fun d e l => h d e (g d e l)).
Proof.
  intros (A1 & A2 & A3 & A4 & A5 & A6 & A7) (B1 & B2 & B3 & B4 & B5 & B6 & B7).
  split; [intros d e; by rewrite B1, A1|]. split; [intros d e; by rewrite B2, A2|].
  do 4 (split; [congruence|]). intros d. by rewrite B7, A7.
Qed.
Lemma effect_ext s s' g h : (forall d e l, g d e l = h d e l) -> effect s s' g -> effect s s' h.
Proof. intros H (A1 & A2). split; [|done]. intros d e. by rewrite A1, H. Qed.
Lemma effect_ext' s s' g h : (forall d e, g d e (bound s d e) = h d e (bound s d e)) -> effect s s' g -> effect s s' h.
Proof. intros H (A1 & A2). split; [|done]. intros d e. by rewrite A1, H. Qed.
Lemma effect_id s : effect s s (fun _ _ l => l).
Proof. repeat split; done. Qed.
Definition adds (d : nat) (kw : list (string * nat)) (d' : nat) (e' : string) (l : list nat) : list nat :=
  if decide (d' = d) then foldl add_once l (given_for e' kw) else l.
Lemma adds_nil d d' e' l : adds d [] d' e' l = l.
Proof. unfold adds. by case_decide. Qed.
Lemma adds_cons d e x kw d' e' l :
  adds d ((e, x) :: kw) d' e' l = adds d kw d' e' (if decide (d' = d /\ e' = e) then add_once l x else l).
Proof.
  unfold adds, given_for. rewrite filter_cons. simpl. destruct (decide (d' = d)) as [->|Hd].
  - destruct (decide (e = e')) as [->|He]; [rewrite decide_True by done; done|]. rewrite decide_False by naive_solver. done.
  - rewrite decide_False by naive_solver. done.
Qed.
Lemma bind_eff d kw : forall s, ewf s -> is_Some (e_dsp s !! d) ->
  (exists s', bind_ d kw s = (EOk, s') /\ Forall (declared s d) (map fst kw) /\ ewf s' /\ effect s s' (adds d kw)) \/
  (exists pre e x post s', kw = pre ++ (e, x) :: post /\ bind_ d kw s = (EExc (UnknownEvent e), s') /\
     Forall (declared s d) (map fst pre) /\ ~ declared s d e /\ ewf s' /\ effect s s' (adds d pre)).
Proof.
  induction kw as [|[e x] kw IH]; intros s W Hs.
  - left. exists s. simpl. split; [done|]. split; [done|]. split; [done|]. eapply effect_ext; [|apply effect_id]. intros. by rewrite adds_nil.
  - destruct (declared_dec s d e) as [Hd|Hd].
    + destruct (bind1_eff s d e x W Hd) as (s1 & E1 & W1 & F1). simpl. rewrite E1. simpl.
      assert (Hs1 : is_Some (e_dsp s1 !! d)) by (apply F1; done).
      assert (HF : forall l, Forall (declared s1 d) l -> Forall (declared s d) l).
      { intros l Hl. eapply Forall_impl; [exact Hl|]. intros e'. apply F1. }
      destruct (IH s1 W1 Hs1) as [(s2 & E2 & D2 & W2 & F2)|(pre & e' & x' & post & s2 & -> & E2 & D2 & N2 & W2 & F2)].
      * left. exists s2. split; [done|]. split; [constructor; auto|]. split; [done|].
        eapply effect_ext; [|exact (effect_trans _ _ _ _ _ F1 F2)]. intros. by rewrite adds_cons.
      * right. exists ((e, x) :: pre), e', x', post, s2. split; [done|]. split; [done|]. split; [constructor; auto|].
        split; [intros H; apply N2, F1; done|]. split; [done|].
        eapply effect_ext; [|exact (effect_trans _ _ _ _ _ F1 F2)]. intros. by rewrite adds_cons.
    + right. exists [], e, x, kw, s. simpl. rewrite bind1_unknown by done. split; [done|]. split; [done|]. split; [constructor|].
      split; [done|]. split; [done|]. eapply effect_ext; [|apply effect_id]. intros. by rewrite adds_nil.
Qed.

(** ** unbind *)
Definition unbinds (d : nat) (e : option string) (x : option nat) (d' : nat) (e' : string) (l : list nat) : list nat :=
  if decide (d' = d /\ selects e e') then filter (fun y => ~ selects x y) l else l.

Lemma filter_true {A} (Q : A -> Prop) `{forall a, Decision (Q a)} (l : list A) : (forall a, a ∈ l -> Q a) -> filter Q l = l.
Proof.
  induction l as [|a l IH]; intros HQ; [done|]. rewrite filter_cons, decide_True by (apply HQ; left). f_equal. apply IH.
  intros b Hb. apply HQ. by right.
Qed.
Lemma filter_false {A} (Q : A -> Prop) `{forall a, Decision (Q a)} (l : list A) : (forall a, a ∈ l -> ~ Q a) -> filter Q l = [].
Proof.
  induction l as [|a l IH]; intros HQ; [done|]. rewrite filter_cons, decide_False by (apply HQ; left). apply IH.
  intros b Hb. apply HQ. by right.
Qed.
Lemma remove_from_at s x l l' : ewf s ->
  list_at (remove_from x l s) l' = if decide (l' = l) then filter (fun y => y <> x) (list_at s l) else list_at s l'.
Proof.
  intros W. unfold remove_from. case_decide as Hx.
  - rewrite list_at_set. destruct (decide (l = l')) as [->|]; [rewrite decide_True by done|rewrite decide_False by done; done].
    apply remove_first_filter. by apply list_at_nodup.
  - case_decide; [subst|done]. symmetry. apply filter_true. intros y Hy ->. done.
Qed.
Lemma remove_from_frame s x l : exists g, remove_from x l s = set_lists g s.
Proof. unfold remove_from. case_decide; [eauto|]. exists id. by destruct s. Qed.
Lemma remove_from_wf s x l : ewf s -> ewf (remove_from x l s).
Proof.
  intros W. unfold remove_from. case_decide; [|done]. apply ewf_lists; [|done]. rewrite remove_first_filter by by apply list_at_nodup.
  apply NoDup_filter. by apply list_at_nodup.
Qed.
Lemma remove_all_eff x ls : forall s, ewf s -> exists g, foldl (fun s l => remove_from x l s) s ls = set_lists g s /\
  ewf (set_lists g s) /\ forall l', list_at (set_lists g s) l' = if decide (l' ∈ ls) then filter (fun y => y <> x) (list_at s l') else list_at s l'.
Proof.
  induction ls as [|l ls IH]; intros s W; cbn [foldl].
  - exists id. split; [by destruct s|]. split; [by destruct s|]. intros l'. rewrite decide_False by apply not_elem_of_nil. by destruct s.
  - destruct (remove_from_frame s x l) as [g Eg]. pose proof (remove_from_wf s x l W) as W1. pose proof (remove_from_at s x l) as A1.
    rewrite Eg in *. destruct (IH _ W1) as (g' & E & W' & A'). exists (fun m => g' (g m)). simpl. split; [done|]. split; [done|].
    intros l'. change (list_at (set_lists (λ m, g' (g m)) s) l') with (list_at (set_lists g' (set_lists g s)) l').
    rewrite A', A1 by done. destruct (decide (l' = l)) as [->|Hne].
    + rewrite (decide_True (P := l ∈ l :: ls)) by left. case_decide; [|done].
      rewrite list_filter_filter. apply list_filter_iff. naive_solver.
    + case_decide as Hin; [rewrite decide_True by (by right); done|]. rewrite decide_False; [done|]. intros [->|?]%elem_of_cons; done.
Qed.
Lemma bound_lists s g d e : bound (set_lists g s) d e =
  match e_dsp s !! d with None => [] | Some o => match Events.assoc e (d_subs o) with Some l => list_at (set_lists g s) l | None => [] end end.
Proof. done. Qed.
Lemma bound_at s d e : bound s d e =
  match e_dsp s !! d with None => [] | Some o => match Events.assoc e (d_subs o) with Some l => list_at s l | None => [] end end.
Proof. done. Qed.
Lemma assoc_filter e e' ls : Events.assoc e' (filter (fun p : string * nat => fst p <> e) ls) = if decide (e' = e) then None else Events.assoc e' ls.
Proof.
  induction ls as [|[k v] ls IH]; simpl; [by case_decide|]. rewrite filter_cons. simpl. destruct (decide (k = e)) as [->|Hk].
  - rewrite decide_False by naive_solver. rewrite IH. destruct (decide (e' = e)); done.
  - rewrite decide_True by done. simpl. destruct (decide (e' = k)) as [->|]; [by rewrite decide_False|done].
Qed.
Lemma ewf_subs s d o subs : e_dsp s !! d = Some o -> NoDup (map fst subs) -> (forall p, p ∈ subs -> p ∈ d_subs o) ->
  ewf s -> ewf (set_dsp <[d := Dsp (d_class o) (d_events o) subs]> s).
Proof.
  intros Ho Hn Hsub [W1 W2 W3 W4].
  assert (HH : forall d' o' p, <[d := Dsp (d_class o) (d_events o) subs]> (e_dsp s) !! d' = Some o' -> p ∈ d_subs o' ->
     exists o'', e_dsp s !! d' = Some o'' /\ p ∈ d_subs o'').
  { intros d' o' p. rewrite lookup_insert_Some. intros [[<- <-]|[_ H]]; eauto. }
  split; simpl; auto.
  - intros d' o' e l H1 H2. destruct (HH _ _ _ H1 H2) as (o'' & ? & ?). eauto.
  - intros d1 d2 o1 o2 e1 e2 l H1 H2 H3 H4. destruct (HH _ _ _ H1 H3) as (? & ? & ?), (HH _ _ _ H2 H4) as (? & ? & ?). eauto.
  - intros d' o'. rewrite lookup_insert_Some. intros [[<- <-]|[_ H]]; eauto.
Qed.
Lemma effect_lists s g h : (forall d e, bound (set_lists g s) d e = h d e (bound s d e)) -> effect s (set_lists g s) h.
Proof. intros H. split; [done|]. repeat split; done. Qed.
Lemma effect_subs s d o subs h : e_dsp s !! d = Some o ->
  let s' := set_dsp <[d := Dsp (d_class o) (d_events o) subs]> s in
  (forall d e, bound s' d e = h d e (bound s d e)) -> effect s s' h.
Proof.
  intros Ho s' H. split; [done|]. split.
  { intros d' e'. unfold declared, s'. simpl. destruct (decide (d' = d)) as [->|]; [|by rewrite lookup_insert_ne].
    rewrite lookup_insert, Ho. split; intros (o' & [= <-] & H'); eauto. }
  do 4 (split; [done|]). intros d'. unfold s'. simpl. rewrite lookup_insert_is_Some.
  destruct (decide (d' = d)) as [->|]; [rewrite Ho|]; naive_solver.
Qed.
Lemma unbind_eff s d e x : ewf s -> is_Some (e_dsp s !! d) ->
  exists s', unbind d e x s = (EOk, s') /\ ewf s' /\ effect s s' (unbinds d e x).
Proof.
  intros W [o Ho]. unfold unbind. rewrite Ho. eexists. split; [done|]. unfold unbinds. destruct e as [e|], x as [x|].
  - destruct (Events.assoc e (d_subs o)) as [l|] eqn:Ea.
    + destruct (remove_from_frame s x l) as [g Eg]. pose proof (remove_from_wf s x l W) as W1. pose proof (remove_from_at s x l) as A1.
      rewrite Eg in *. split; [done|]. apply effect_lists. intros d' e'. rewrite bound_lists, bound_at. simpl.
      destruct (e_dsp s !! d') as [o'|] eqn:Ho'; [|by case_decide]. destruct (Events.assoc e' (d_subs o')) as [l'|] eqn:Ea'; [|by case_decide].
      rewrite A1 by done. destruct (decide (l' = l)) as [->|Hl].
      * apply assoc_in in Ea, Ea'. destruct (w_apart _ W d d' o o' e e' l) as [-> ->]; try done. rewrite decide_True by done.
        apply list_filter_iff. naive_solver.
      * rewrite decide_False; [done|]. intros [-> ->]. rewrite Ho in Ho'. injection Ho' as <-. congruence.
    + split; [done|]. eapply effect_ext'; [|apply effect_id].
      intros d' e'. case_decide as Hde; [|done]. destruct Hde as [-> <-]. rewrite bound_at, Ho, Ea. done.
  - split.
    + apply ewf_subs; [done| | |done].
      * pose proof (w_keys _ W _ _ Ho) as Hk. clear -Hk. induction (d_subs o) as [|[k v] ls IH]; simpl in *; [constructor|].
        apply NoDup_cons in Hk as [Hk1 Hk2]. rewrite filter_cons. case_decide; simpl; [|auto]. apply NoDup_cons. split; [|auto].
        intros Hin. apply Hk1. apply elem_of_list_fmap in Hin as (p & E & Hp). apply elem_of_list_filter in Hp as [_ Hp]. apply elem_of_list_fmap. eauto.
      * intros p Hp. by apply elem_of_list_filter in Hp as [_ Hp].
    + apply effect_subs; [done|]. intros d' e'. rewrite !bound_at. simpl. destruct (decide (d' = d)) as [->|Hd].
      * rewrite lookup_insert, Ho. simpl. rewrite assoc_filter. destruct (decide (e' = e)) as [->|He].
        -- rewrite decide_True by done. symmetry. apply filter_false. naive_solver.
        -- rewrite decide_False by naive_solver. done.
      * rewrite lookup_insert_ne by done. rewrite decide_False by naive_solver. done.
  - destruct (remove_all_eff x (map snd (d_subs o)) s W) as (g & E & W' & A). rewrite E. split; [done|]. apply effect_lists.
    intros d' e'. rewrite bound_lists, bound_at. destruct (e_dsp s !! d') as [o'|] eqn:Ho'; [|by case_decide].
    destruct (Events.assoc e' (d_subs o')) as [l'|] eqn:Ea'; [|by case_decide]. rewrite A. apply assoc_in in Ea'. case_decide as Hl.
    + apply elem_of_list_fmap in Hl as ([e l] & -> & Hin). simpl in *. destruct (w_apart _ W d d' o o' e e' l) as [-> ->]; try done.
      rewrite decide_True by done. apply list_filter_iff. naive_solver.
    + rewrite decide_False; [done|]. intros [-> _]. rewrite Ho in Ho'. injection Ho' as <-. apply Hl. apply elem_of_list_fmap. by exists (e', l').
  - split.
    + apply ewf_subs; [done|constructor| |done]. intros p Hp. by apply elem_of_nil in Hp.
    + apply effect_subs; [done|]. intros d' e'. rewrite !bound_at. simpl. destruct (decide (d' = d)) as [->|Hd].
      * rewrite lookup_insert, Ho. simpl. rewrite decide_True by done. symmetry. apply filter_false. naive_solver.
      * rewrite lookup_insert_ne by done. rewrite decide_False by naive_solver. done.
Qed.

(** ** Executions preserve well-formedness *)
Lemma bind1_none s d e x : e_dsp s !! d = None -> bind1 d e x s = (EExc EAttributeError, s).
Proof. unfold bind1. by intros ->. Qed.
Lemma bind_wf s d kw : ewf s -> ewf (snd (bind_ d kw s)).
Proof.
  intros W. destruct (e_dsp s !! d) eqn:E.
  - destruct (bind_eff d kw s W) as [(s' & -> & _ & W' & _)|(? & ? & ? & ? & s' & _ & -> & _ & _ & W' & _)]; eauto.
  - destruct kw as [|[e x] kw]; [done|]. simpl. by rewrite bind1_none.
Qed.
Lemma unbind_wf s d e x : ewf s -> ewf (snd (unbind d e x s)).
Proof.
  intros W. destruct (e_dsp s !! d) eqn:E.
  - destruct (unbind_eff s d e x W) as (s' & -> & W' & _); eauto.
  - unfold unbind. by rewrite E.
Qed.
End wf.

Section proofs.
Context {V : Type} (veqb : V -> V -> bool) (unset : V)
  (behave : ecall V -> est V -> list (act V)) (attribute : nat -> string -> option (desc V)).
Implicit Types (s : est V).
Notation exec := (exec veqb unset behave attribute).
Lemma exec_wf n th p s : ewf s -> ewf (snd (exec n th p s)).
Proof.
  intros W. apply (P_exec veqb unset behave attribute ewf (fun _ => True)); try (intros; by apply Forall_true); try done.
  1-6: by intros; eapply ewf_same; [..|eassumption].
  - intros c b o a s' W' _. unfold def_class. destruct o; [|destruct b as [b|]; simpl; [destruct (e_cls s' !! b)|]]; (eapply ewf_same; [..|exact W']; simpl; [done|done|lia]).
  - intros d c s' [W1 W2 W3 W4] _. unfold new_dispatcher. simpl.
    assert (HH : forall d' o' p, <[d := Dsp c [] []]> (e_dsp s') !! d' = Some o' -> p ∈ d_subs o' -> e_dsp s' !! d' = Some o').
    { intros d' o' q. rewrite lookup_insert_Some. intros [[<- <-]|[_ H]] Hin; [by apply elem_of_nil in Hin|done]. }
    split; simpl; eauto.
    intros d' o'. rewrite lookup_insert_Some. intros [[<- <-]|[_ H]]; [constructor|eauto].
  - intros d e s' W' _. unfold register. destruct (e_dsp s' !! d) as [o|] eqn:Ho; [|done]. simpl. case_decide; [done|].
    destruct W' as [W1 W2 W3 W4].
    assert (HH : forall d' o', <[d := Dsp (d_class o) (d_events o ++ [e]) (d_subs o)]> (e_dsp s') !! d' = Some o' ->
      exists o'', e_dsp s' !! d' = Some o'' /\ d_subs o'' = d_subs o').
    { intros d' o'. rewrite lookup_insert_Some. intros [[<- <-]|[_ H']]; eauto. }
    split; simpl; auto.
    + intros d' o' e' l H1 H2. destruct (HH _ _ H1) as (? & ? & E). rewrite <- E in H2. eauto.
    + intros d1 d2 o1 o2 e1 e2 l H1 H2 H3 H4. destruct (HH _ _ H1) as (? & ? & E1), (HH _ _ H2) as (? & ? & E2). rewrite <- E1 in H3. rewrite <- E2 in H4. eauto.
    + intros d' o' H1. destruct (HH _ _ H1) as (? & ? & <-); eauto.
  - intros. by apply bind_wf.
  - intros. by apply unbind_wf.
Qed.
Lemma est0_wf th0 : ewf (est0 (V := V) th0).
Proof. by split. Qed.
Lemma ereach_wf th0 s : ereach veqb unset behave attribute th0 s -> ewf s.
Proof. induction 1 as [|s n th p r s' _ IH E]; [apply est0_wf|]. pose proof (exec_wf n th p s IH) as H. by rewrite E in H. Qed.
End proofs.
