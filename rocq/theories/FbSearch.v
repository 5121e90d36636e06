(** The fallback search on an abstract tree: what it explores and what it returns. *)
From Verif Require Import Py Odict Heap Model.
From stdpp Require Import list relations.

Section search.
Context (item : nat -> key -> res val) (par : nat -> option nat) (fkey : nat -> option key) (depth : nat -> nat) (live : nat -> Prop) (N : nat).
Context (r : nat) (nr : key) (ks : list key) (k : key).
Let K := ks ++ [k].
Let P := nr :: K.
Let nok (c : key) := c <> KStr "__children__".

(** The two loops without state. *)
Fixpoint leaf (cur : val) (names : list key) : res (nat + val) :=
  match names with
  | [] => Ret (inr cur)
  | n :: l =>
      match cur with
      | VNode c =>
          match item c n with
          | Ret v => leaf v l
          | Exc e => if is_key_error e then Ret (inl c) else Exc e
          end
      | _ => Exc AttributeError
      end
  end.
Fixpoint up (fuel : nat) (n : nat) (vis : list nat) : res (option val) :=
  match fuel with
  | O => Exc OutOfFuel
  | S f =>
      match par n with
      | None => Ret None
      | Some p =>
          match fkey p with
          | Some fk =>
              if bool_decide (n ∉ vis) then
                match item p fk with
                | Ret (VNode c) =>
                    match leaf (VNode c) (drop (depth c) P) with
                    | Ret (inl cur) => up f cur (n :: vis)
                    | Ret (inr v) => Ret (Some v)
                    | Exc e => Exc e
                    end
                | Ret _ => Exc AttributeError
                | Exc e => Exc e
                end
              else up f p vis
          | None => up f p vis
          end
      end
  end.

Inductive wander : list key -> nat -> bool -> Prop :=
| wd_here : wander [] r false
| wd_on pre p b n c : wander pre p b -> item p n = Ret (VNode c) -> wander (pre ++ [n]) c b
| wd_fall pre p b n c0 fk c : wander pre p b -> item p n = Ret (VNode c0) -> fkey p = Some fk -> item p fk = Ret (VNode c) ->
    wander (pre ++ [n]) c true.

Definition node_val (v : val) : Prop := exists c, v = VNode c.
Definition outcome (o : res (option val)) : Prop :=
  match o with
  | Ret (Some v) => exists w, wander ks w true /\ item w k = Ret v
  | Ret None => forall w b, wander ks w b -> item w k = Exc (KeyError k)
  | Exc e => exists pre n post p b, ks = pre ++ n :: post /\ wander pre p b /\
      ((exists fk, fkey p = Some fk /\ (item p fk = Exc e \/ exists v, item p fk = Ret v /\ ~ node_val v /\ e = AttributeError)) \/
       (exists v, item p n = Ret v /\ ~ node_val v /\ e = AttributeError))
  end.

Context (H_item : forall p n c, nok n -> item p n = Ret (VNode c) -> par c = Some p /\ live c).
Context (H_err : forall p n e, live p -> hashable n = true -> item p n = Exc e -> e = KeyError n).
Context (H_fk : forall p fk, fkey p = Some fk -> nok fk).
Context (H_depth : forall n p, par n = Some p -> depth n = S (depth p)).
Context (H_root : depth r = 1 /\ par r = None /\ live r).
Context (H_N : forall l, NoDup l -> Forall live l -> length l <= N).
Context (H_dN : forall n, live n -> depth n <= N).
Context (H_ks : Forall nok ks) (H_hash : Forall (fun n => hashable n = true) K).

Lemma wander_depth pre n b : Forall nok pre -> wander pre n b -> depth n = S (length pre) /\ live n.
Proof.
  intros Hf. induction 1 as [|pre p b n c Hw IH E|pre p b n c0 fk c Hw IH E0 Ef E].
  - split; apply H_root.
  - apply Forall_app in Hf as [Hf Hn]. apply Forall_cons in Hn as [Hn _]. destruct (IH Hf) as [Hd _]. destruct (H_item _ _ _ Hn E) as [Hp Hl].
    split; [|done]. rewrite (H_depth _ _ Hp), Hd, app_length. simpl. lia.
  - apply Forall_app in Hf as [Hf Hn]. destruct (IH Hf) as [Hd _]. destruct (H_item _ _ _ (H_fk _ _ Ef) E) as [Hp Hl].
    split; [|done]. rewrite (H_depth _ _ Hp), Hd, app_length. simpl. lia.
Qed.

Definition anc := rtc (fun a b => par a = Some b).
Definition pos (m : nat) : nat := depth m - 1.
Definition done (vis : list nat) (m : nat) : Prop :=
  m ∈ vis \/ forall p fk, par m = Some p -> fkey p = Some fk -> False.
Record inv (E : nat -> Prop) (vis : list nat) (n : nat) : Prop := Inv {
  i_cur : E n;
  i_root : E r;
  i_astray : forall m, E m -> exists b, pos m <= length ks /\ wander (take (pos m) ks) m b;
  i_par : forall m p, E m -> par m = Some p -> E p;
  i_done : forall m, E m -> anc n m \/ done vis m;
  i_lit : forall m, E m -> forall nm c, ks !! pos m = Some nm -> item m nm = Ret (VNode c) -> E c;
  i_full : forall m, E m -> pos m = length ks -> item m k = Exc (KeyError k);
  i_vis : forall m, m ∈ vis -> E m /\ forall p fk, par m = Some p -> fkey p = Some fk -> exists c, item p fk = Ret (VNode c) /\ E c;
  i_brother : forall m p, E m -> par m = Some p -> exists nm c, ks !! pos p = Some nm /\ item p nm = Ret (VNode c);
  i_nodup : NoDup vis
}.

Lemma take_ok i : Forall nok (take i ks).
Proof. by apply Forall_take. Qed.
Lemma inv_live E vis n m : inv E vis n -> E m -> live m /\ depth m = S (pos m) /\ depth m <= S (length ks).
Proof.
  intros I Hm. destruct (i_astray _ _ _ I m Hm) as (b & Hp & Hw). destruct (wander_depth _ _ _ (take_ok _) Hw) as [Hd Hl].
  split; [done|]. rewrite take_length in Hd. unfold pos in *. lia.
Qed.
Lemma inv_vis_len E vis n : inv E vis n -> length vis <= N.
Proof.
  intros I. apply H_N; [apply I|]. apply Forall_forall. intros m Hm. apply (i_vis _ _ _ I) in Hm as [Hm _]. by eapply inv_live.
Qed.

(** Going down from [c]: [n] nodes, the last of them is where it stops. *)
Lemma leaf_ok : forall names c b, live c -> depth c = S (pos c) -> pos c <= length ks -> names = drop (pos c) K -> wander (take (pos c) ks) c b ->
  match leaf (VNode c) names with
  | Ret (inr v) => exists w, wander ks w b /\ item w k = Ret v
  | Ret (inl cur) => exists l : list nat, c ∈ l /\ cur ∈ l /\ Forall (fun m => anc cur m /\ anc m c /\ pos m <= length ks /\ wander (take (pos m) ks) m b) l /\
      (forall m nm d, m ∈ l -> ks !! pos m = Some nm -> item m nm = Ret (VNode d) -> d ∈ l) /\
      (forall m, m ∈ l -> pos m = length ks -> item m k = Exc (KeyError k)) /\
      (forall m p, m ∈ l -> m <> c -> par m = Some p -> p ∈ l /\ exists nm d, ks !! pos p = Some nm /\ item p nm = Ret (VNode d))
  | Exc e => e = AttributeError /\ exists pre n post p v, ks = pre ++ n :: post /\ wander pre p b /\ item p n = Ret v /\ ~ node_val v
  end.
Proof.
  induction names as [|nm names IH]; intros c b Hl Hd Hp Hn Hw; simpl.
  - exfalso. assert (length (drop (pos c) K) = 0) as H by (by rewrite <- Hn). rewrite drop_length in H. unfold K in H. rewrite app_length in H. simpl in H. lia.
  - assert (Hnm : K !! pos c = Some nm). { pose proof (lookup_drop K (pos c) 0) as H. rewrite <- Hn, Nat.add_0_r in H. done. }
    assert (Hh : hashable nm = true) by (by apply (Forall_lookup_1 _ _ _ _ H_hash Hnm)).
    assert (Hrest : names = drop (S (pos c)) K). { replace (S (pos c)) with (pos c + 1) by lia. pose proof (drop_drop K 1 (pos c)) as H. rewrite <- Hn in H. simpl in H. first [exact H | rewrite Nat.add_comm; exact H | by rewrite Nat.add_comm in H]. }
    destruct (item c nm) as [v|e] eqn:Ei.
    + destruct (decide (pos c = length ks)) as [Hf|Hf].
      * (* the last one *)
        assert (names = []) as ->. { rewrite Hrest. apply drop_ge. unfold K. rewrite app_length. simpl. lia. }
        simpl. assert (nm = k) as ->. { unfold K in Hnm. rewrite Hf, lookup_app_r, Nat.sub_diag in Hnm by lia. by injection Hnm. }
        exists c. split; [|done]. rewrite Hf, take_ge in Hw by lia. done.
      * assert (Hks : ks !! pos c = Some nm). { unfold K in Hnm. by rewrite lookup_app_l in Hnm by lia. }
        destruct v; try (destruct names as [|n2 names]; [exfalso; assert (length (drop (S (pos c)) K) = 0) as H by (by rewrite <- Hrest); rewrite drop_length in H; unfold K in H; rewrite app_length in H; simpl in H; lia|]; simpl;
          split; [done|]; exists (take (pos c) ks), nm, (drop (S (pos c)) ks), c; eexists; split; [by rewrite take_drop_middle|]; split; [exact Hw|]; split; [exact Ei|]; intros [? ?]; done).
        assert (Hnk : nok nm) by (by apply (Forall_lookup_1 _ _ _ _ H_ks Hks)).
        destruct (H_item _ _ _ Hnk Ei) as [Hpar Hl2]. pose proof (H_depth _ _ Hpar) as Hd2.
        assert (Hpos2 : pos o = S (pos c)) by (unfold pos in *; lia).
        specialize (IH o b). rewrite Hpos2 in IH. specialize (IH Hl2 ltac:(lia) ltac:(lia) Hrest).
        assert (Hw2 : wander (take (S (pos c)) ks) o b). { rewrite (take_S_r _ _ _ Hks). by eapply wd_on. }
        specialize (IH Hw2). destruct (leaf (VNode o) names) as [[cur|v]|e] eqn:El; try done.
        destruct IH as (l & Ho & Hcur & Hall & Hlit & Hfull & Hparl). exists (c :: l).
        assert (Hco : anc o c) by (by apply rtc_once).
        split; [by left|]. split; [by right|]. split; [|split; [|split]].
        -- constructor; [split; [|split; [|split]]|].
           ++ etrans; [|exact Hco]. rewrite Forall_forall in Hall. by apply Hall.
           ++ done.
           ++ done.
           ++ done.
           ++ eapply Forall_impl; [exact Hall|]. intros m (A & B & C & D). repeat split; try done. by etrans.
        -- intros m nm' d Hm Hk Hi. apply elem_of_cons in Hm as [->|Hm]; [|right; by eapply Hlit].
           rewrite Hks in Hk. injection Hk as <-. rewrite Ei in Hi. injection Hi as <-. by right.
        -- intros m Hm Hpm. apply elem_of_cons in Hm as [->|Hm]; [lia|by apply Hfull].
        -- intros m p Hm Hne Hpm. apply elem_of_cons in Hm as [->|Hm]; [done|]. destruct (decide (m = o)) as [->|Hmo].
           ++ assert (p = c) as -> by congruence. split; [by left|]. by exists nm, o.
           ++ destruct (Hparl m p Hm Hmo Hpm) as [A B]. split; [by right|done].
    + pose proof (H_err _ _ _ Hl Hh Ei) as ->. simpl. exists [c]. split; [by left|]. split; [by left|]. split; [|split; [|split]].
      * constructor; [|constructor]. repeat split; try done; by apply rtc_refl.
      * intros m nm' d Hm%elem_of_list_singleton Hk Hi. subst m. exfalso. unfold K in Hnm. rewrite (lookup_app_l_Some _ _ _ _ Hk) in Hnm. injection Hnm as <-. by rewrite Ei in Hi.
      * intros m Hm%elem_of_list_singleton Hpm. subst m. unfold K in Hnm. rewrite Hpm, lookup_app_r, Nat.sub_diag in Hnm by lia. by injection Hnm as <-.
      * intros m p Hm%elem_of_list_singleton Hne. done.
Qed.

(** At the end everything that can be wandered to has been seen. *)
Lemma inv_end E vis n : inv E vis n -> par n = None -> forall pre w b, wander pre w b -> pre = take (length pre) ks -> E w.
Proof.
  intros I Hn pre w b Hw. induction Hw as [|pre p b nm c Hw IH Ei|pre p b nm c0 fk c Hw IH E0 Ef Ei]; intros Hpre.
  - apply I.
  - assert (Hp : pre = take (length pre) ks /\ ks !! length pre = Some nm).
    { rewrite app_length in Hpre. simpl in Hpre. destruct (ks !! length pre) as [nm'|] eqn:El.
      - rewrite Nat.add_1_r, (take_S_r _ _ _ El) in Hpre. by apply app_inj_tail in Hpre as [? ->].
      - apply lookup_ge_None in El. exfalso. assert (length (pre ++ [nm]) = length (take (length pre + 1) ks)) as H by congruence. rewrite take_length, app_length in H. simpl in H. lia. }
    destruct Hp as [Hp Hk]. specialize (IH Hp). assert (Hf : Forall nok pre) by (rewrite Hp; apply take_ok). destruct (wander_depth _ _ _ Hf Hw) as [Hd _].
    apply (i_lit _ _ _ I p IH nm); [unfold pos; rewrite Hd; simpl; by rewrite Nat.sub_0_r|done].
  - assert (Hp : pre = take (length pre) ks /\ ks !! length pre = Some nm).
    { rewrite app_length in Hpre. simpl in Hpre. destruct (ks !! length pre) as [nm'|] eqn:El.
      - rewrite Nat.add_1_r, (take_S_r _ _ _ El) in Hpre. by apply app_inj_tail in Hpre as [? ->].
      - apply lookup_ge_None in El. exfalso. assert (length (pre ++ [nm]) = length (take (length pre + 1) ks)) as H by congruence. rewrite take_length, app_length in H. simpl in H. lia. }
    destruct Hp as [Hp Hk]. specialize (IH Hp). assert (Hf : Forall nok pre) by (rewrite Hp; apply take_ok). destruct (wander_depth _ _ _ Hf Hw) as [Hd _].
    assert (Hc0 : E c0). { apply (i_lit _ _ _ I p IH nm); [unfold pos; rewrite Hd; simpl; by rewrite Nat.sub_0_r|done]. }
    assert (Hnm : nok nm) by (by apply (Forall_lookup_1 _ _ _ _ H_ks Hk)). destruct (H_item _ _ _ Hnm E0) as [Hpar _].
    destruct (i_done _ _ _ I c0 Hc0) as [Ha|[Hv|Hv]].
    + inversion Ha as [|a1 a2 a3 Hs _]; subst; [congruence|]. congruence.
    + destruct (i_vis _ _ _ I c0 Hv) as [_ H]. destruct (H p fk Hpar Ef) as (c' & Ec & Hc). congruence.
    + exfalso. by eapply Hv.
Qed.

Lemma up_ok fuel : forall n vis E, inv E vis n -> (N - length vis) * (N + 1) + depth n <= fuel -> outcome (up fuel n vis).
Proof.
  induction fuel as [|f IH]; intros n vis E I Hf.
  - exfalso. destruct (inv_live _ _ _ _ I (i_cur _ _ _ I)) as (_ & Hd & _). rewrite Hd in Hf. rewrite Nat.add_succ_r in Hf. inversion Hf.
  - simpl. destruct (par n) as [p|] eqn:Hp.
    2: { simpl. intros w b Hw. assert (Hlen : ks = take (length ks) ks) by (by rewrite take_ge). pose proof (inv_end _ _ _ I Hp _ _ _ Hw Hlen) as Hin.
         destruct (wander_depth _ _ _ H_ks Hw) as [Hd _]. apply (i_full _ _ _ I w Hin). unfold pos. lia. }
    assert (Hgo : done vis n -> outcome (up f p vis)).
    { intros Hdn. apply (IH p vis E).
      - destruct I as [I1 I2 I3 I4 I5 I6 I7 I8 I9 I10]. constructor; try done; [by apply (I4 n)|].
        intros m Hm. destruct (I5 m Hm) as [Ha|Hd]; [|by right]. inversion Ha as [|a1 a2 a3 Hs Hr]; subst; [by right|]. rewrite Hp in Hs. injection Hs as <-. by left.
      - rewrite (H_depth _ _ Hp), Nat.add_succ_r in Hf. by apply le_S_n in Hf. }
    destruct (fkey p) as [fk|] eqn:Hk.
    2: { apply Hgo. right. intros p' fk Hp' Hfk. congruence. }
    case_bool_decide as Hvis.
    2: { apply Hgo. left. destruct (decide (n ∈ vis)); done. }
    assert (HEp : E p) by (eapply (i_par _ _ _ I); [apply (i_cur _ _ _ I)|done]).
    destruct (i_astray _ _ _ I p HEp) as (bp & Hpp & Hwp). destruct (i_brother _ _ _ I n p (i_cur _ _ _ I) Hp) as (nm & c0 & Hnm & Ec0).
    assert (Hsplit : ks = take (pos p) ks ++ nm :: drop (S (pos p)) ks) by (by rewrite take_drop_middle).
    destruct (item p fk) as [v|e] eqn:Ei.
    2: { simpl. exists (take (pos p) ks), nm, (drop (S (pos p)) ks), p, bp. split; [done|]. split; [done|]. left. exists fk. split; [done|]. by left. }
    destruct v; try (simpl; exists (take (pos p) ks), nm, (drop (S (pos p)) ks), p, bp; split; [done|]; split; [done|]; left; exists fk; split; [done|]; right; eexists; split; [exact Ei|]; split; [intros [? ?]; done|done]).
    destruct (H_item _ _ _ (H_fk _ _ Hk) Ei) as [Hpo Hlo]. rename o into c.
    pose proof (H_depth _ _ Hpo) as Hdc. destruct (inv_live _ _ _ _ I HEp) as (Hlp & Hdp & _). destruct (inv_live _ _ _ _ I (i_cur _ _ _ I)) as (_ & Hdn & Hdn2).
    pose proof (H_depth _ _ Hp) as Hdn3.
    assert (Hposc : pos c = S (pos p)) by (unfold pos in *; lia).
    assert (Hwc : wander (take (pos c) ks) c true). { rewrite Hposc, (take_S_r _ _ _ Hnm). by eapply wd_fall. }
    assert (Hdrop : drop (depth c) P = drop (pos c) K). { unfold P. replace (depth c) with (S (pos c)) by (unfold pos in *; lia). done. }
    rewrite Hdrop. pose proof (leaf_ok (drop (pos c) K) c true Hlo ltac:(unfold pos in *; lia) ltac:(unfold pos in *; lia) eq_refl Hwc) as HL.
    destruct (leaf (VNode c) (drop (pos c) K)) as [[cur|v]|e].
    + destruct HL as (l & Hcl & Hcurl & Hall & Hlit & Hfull & Hparl). rewrite Forall_forall in Hall. apply (IH cur (n :: vis) (fun m => E m \/ m ∈ l)).
      * assert (Hcur : anc cur p). { etrans; [apply (Hall c Hcl)|]. by apply rtc_once. }
        constructor.
        -- by right.
        -- left. apply I.
        -- intros m [Hm|Hm]; [by apply I|]. destruct (Hall m Hm) as (_ & _ & A & B). by exists true.
        -- intros m q [Hm|Hm] Hq; [left; by eapply (i_par _ _ _ I)|]. destruct (decide (m = c)) as [->|Hne].
           ++ left. congruence.
           ++ right. by eapply Hparl.
        -- intros m [Hm|Hm]; [|left; by apply Hall]. destruct (i_done _ _ _ I m Hm) as [Ha|[Hv|Hv]].
           ++ inversion Ha as [|a1 a2 a3 Hs Hr]; subst; [right; left; by left|]. rewrite Hp in Hs. injection Hs as <-. left. by etrans.
           ++ right. left. by right.
           ++ right. by right.
        -- intros m [Hm|Hm] nm' d Hk' Hi; [left; by eapply (i_lit _ _ _ I)|right; by eapply Hlit].
        -- intros m [Hm|Hm] Hpm; [by apply (i_full _ _ _ I)|by apply Hfull].
        -- intros m Hm. apply elem_of_cons in Hm as [->|Hm].
           ++ split; [left; apply I|]. intros q fk' Hq Hfk. assert (q = p) as -> by congruence. assert (fk' = fk) as -> by congruence. exists c. split; [done|]. by right.
           ++ destruct (i_vis _ _ _ I m Hm) as [A B]. split; [by left|]. intros q fk' Hq Hfk. destruct (B q fk' Hq Hfk) as (d & Ed & Hd). exists d. split; [done|]. by left.
        -- intros m q [Hm|Hm] Hq; [by eapply (i_brother _ _ _ I)|]. destruct (decide (m = c)) as [->|Hne].
           ++ assert (q = p) as -> by congruence. by exists nm, c0.
           ++ by eapply Hparl.
        -- constructor; [done|apply I].
      * assert (Hlv : S (length vis) <= N).
        { change (length (n :: vis) <= N). apply H_N; [constructor; [done|apply I]|]. constructor; [by eapply (inv_live _ _ _ _ I), i_cur|].
          apply Forall_forall. intros m Hm. apply (i_vis _ _ _ I) in Hm as [Hm _]. by eapply inv_live. }
        destruct (Hall cur Hcurl) as (_ & _ & A & B). destruct (wander_depth _ _ _ (take_ok _) B) as [_ Hlc]. pose proof (H_dN _ Hlc). simpl.
        assert (N - length vis = S (N - S (length vis))) as Hs by lia. rewrite Hs in Hf. revert Hf. generalize (N - S (length vis)). clear - H Hdn. intros a Ha. simpl in Ha. generalize dependent (a * (N + 1)). intros. lia.
    + done.
    + destruct HL as (-> & pre & n' & post & q & v & A & B & C & D). simpl. exists pre, n', post, q, true. split; [done|]. split; [done|]. right. by exists v.
Qed.
End search.
