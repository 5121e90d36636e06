(** Proofs about the values JSON serialization carries over, and about the registries. *)
From Coq Require Import Ascii.
From Verif Require Import Py Odict OdictFacts Aliaser Heap Model MonadFacts SpecMapping Observe SpecTree Serializer SpecSerial.

(** * Induction over values and documents *)
Section val_nested.
  Context (P : val -> Prop).
  Context (Hn : P VNone) (Hu : P VUnset) (Hb : forall b, P (VBool b)) (Hz : forall z, P (VInt z)) (Hs : forall t, P (VStr t))
    (Huu : forall u, P (VUuid u)) (Hc : forall n, P (VClass n)) (Hno : forall x, P (VNode x)) (Ho : forall n, P (VObj n)) (Huc : forall n, P (VUnsetCopy n))
    (Hl : forall l, Forall P l -> P (VList l)) (Hd : forall d, Forall (fun e => P (snd e)) d -> P (VDict d)).
  Fixpoint val_nested (v : val) : P v :=
    match v with
    | VNone => Hn | VUnset => Hu | VBool b => Hb b | VInt z => Hz z | VStr t => Hs t | VUuid u => Huu u
    | VClass n => Hc n | VNode x => Hno x | VObj n => Ho n | VUnsetCopy n => Huc n
    | VList l => Hl l ((fix go l : Forall P l := match l with [] => Forall_nil_2 P | v :: r => Forall_cons_2 P v r (val_nested v) (go r) end) l)
    | VDict d => Hd d ((fix go d : Forall (fun e => P (snd e)) d :=
        match d with [] => Forall_nil_2 _ | e :: r => Forall_cons_2 (fun e => P (snd e)) e r (val_nested (snd e)) (go r) end) d)
    end.
End val_nested.
Section json_nested.
  Context (P : json -> Prop).
  Context (Hn : P JNull) (Hb : forall b, P (JBool b)) (Hz : forall z, P (JInt z)) (Hs : forall t, P (JStr t))
    (Hl : forall l, Forall P l -> P (JList l)) (Hd : forall d, Forall (fun e => P (snd e)) d -> P (JObj d)).
  Fixpoint json_nested (j : json) : P j :=
    match j with
    | JNull => Hn | JBool b => Hb b | JInt z => Hz z | JStr t => Hs t
    | JList l => Hl l ((fix go l : Forall P l := match l with [] => Forall_nil_2 P | v :: r => Forall_cons_2 P v r (json_nested v) (go r) end) l)
    | JObj d => Hd d ((fix go d : Forall (fun e => P (snd e)) d :=
        match d with [] => Forall_nil_2 _ | e :: r => Forall_cons_2 (fun e => P (snd e)) e r (json_nested (snd e)) (go r) end) d)
    end.
End json_nested.

(** * uuids *)
Lemma below16 (P : N -> Prop) : (forall n, n < 16 -> P (N.of_nat n)) -> forall d, (d < 16)%N -> P d.
Proof. intros H d Hd. rewrite <- (N2Nat.id d). apply H. lia. Qed.
Lemma hex_digit_value d : (d < 16)%N -> hex_value (hex_digit d) = Some d.
Proof. apply (below16 (fun d => hex_value (hex_digit d) = Some d)). intros n Hn. do 16 (destruct n as [|n]; [reflexivity|]). lia. Qed.
Lemma hex_digit_dash d : (d < 16)%N -> hex_digit d <> "-"%char.
Proof. apply (below16 (fun d => hex_digit d <> "-"%char)). intros n Hn. do 16 (destruct n as [|n]; [discriminate|]). lia. Qed.
Lemma hex_digits_length n : forall u, length (hex_digits n u) = n.
Proof. induction n as [|n IH]; intros u; simpl; [done|]. rewrite app_length, IH. simpl. lia. Qed.
Lemma hex_digits_dash n : forall u, Forall (fun a => a <> "-"%char) (hex_digits n u).
Proof.
  induction n as [|n IH]; intros u; simpl; [constructor|]. apply Forall_app. split; [apply IH|]. constructor; [|constructor].
  apply hex_digit_dash. apply N.mod_lt. lia.
Qed.
Lemma hex_parse_app l1 : forall a l2, hex_parse a (l1 ++ l2) = match hex_parse a l1 with Some b => hex_parse b l2 | None => None end.
Proof. induction l1 as [|c l1 IH]; intros a l2; simpl; [done|]. destruct (hex_value c); [apply IH|done]. Qed.
Lemma hex_parse_digits n : forall u, hex_parse 0 (hex_digits n u) = Some (u mod 16 ^ N.of_nat n)%N.
Proof.
  induction n as [|n IH]; intros u; [simpl; by rewrite N.mod_1_r|].
  cbn [hex_digits]. rewrite hex_parse_app, IH. cbn [hex_parse]. rewrite hex_digit_value by (apply N.mod_lt; lia). f_equal.
  rewrite Nnat.Nat2N.inj_succ, N.pow_succ_r', N.mod_mul_r by lia. lia.
Qed.
Lemma filter_all {A} (P : A -> Prop) `{!forall x, Decision (P x)} l : Forall P l -> filter P l = l.
Proof. induction 1 as [|x l Hx _ IH]; [done|]. by rewrite filter_cons_True, IH. Qed.
Lemma uuid_round u : uuid_parse (uuid_str u) = Some (u mod 2 ^ 128)%N.
Proof.
  unfold uuid_parse, uuid_str. rewrite String.list_ascii_of_string_of_list_ascii.
  pose proof (hex_digits_dash 32 u) as Hd. pose proof (hex_digits_length 32 u) as Hl. pose proof (hex_parse_digits 32 u) as Hp.
  set (h := hex_digits 32 u) in *. clearbody h.
  rewrite !filter_app. change (filter (fun a => a <> "-"%char) ["-"%char]) with (@nil ascii). simpl app.
  rewrite !filter_all by auto using Forall_take, Forall_drop.
  assert (E : take 8 h ++ take 4 (drop 8 h) ++ take 4 (drop 12 h) ++ take 4 (drop 16 h) ++ drop 20 h = h).
  { transitivity (take 8 h ++ drop 8 h); [|apply take_drop]. f_equal.
    transitivity (take 4 (drop 8 h) ++ drop 4 (drop 8 h)); [|apply take_drop]. f_equal. rewrite drop_drop. change (8 + 4) with 12.
    transitivity (take 4 (drop 12 h) ++ drop 4 (drop 12 h)); [|apply take_drop]. f_equal. rewrite drop_drop. change (12 + 4) with 16.
    transitivity (take 4 (drop 16 h) ++ drop 4 (drop 16 h)); [|apply take_drop]. f_equal. rewrite drop_drop. done. }
  rewrite E, Hl. simpl Nat.eqb. cbv iota. rewrite Hp. f_equal.
Qed.

(** * Strings *)
Lemma prefix_app p s : startswith p s = true <-> exists r, s = (p ++ r)%string.
Proof.
  unfold startswith. revert s. induction p as [|a p IH]; intros s; simpl.
  - split; [intros _; by exists s|by destruct s].
  - destruct s as [|b s]; [split; [discriminate|intros [r Hr]; discriminate]|].
    cbn [String.prefix String.append]. destruct (Ascii.ascii_dec a b) as [->|Hne].
    + rewrite IH. split; intros [r Hr]; exists r; [by rewrite Hr|by injection Hr].
    + split; [discriminate|intros [r Hr]; injection Hr; congruence].
Qed.
Lemma str_drop_uuid r : str_drop 7 ("<UUID>:" ++ r) = r.
Proof.
  unfold str_drop. simpl. rewrite ?Nat.sub_0_r. induction r as [|a r IH]; simpl; [done|]. by rewrite IH.
Qed.

(** * Objects of JSON *)
Notation keys_of l := (map fst l).
Lemma set_member_new k j l : k ∉ keys_of l -> set_member k j l = l ++ [(k, j)].
Proof.
  induction l as [|[k' j'] l IH]; simpl; [done|]. rewrite not_elem_of_cons. intros [H1 H2].
  rewrite (proj2 (String.eqb_neq _ _)) by congruence. by rewrite IH.
Qed.
Lemma set_member_length k j l : length l <= length (set_member k j l) <= S (length l) /\ (k ∈ keys_of l -> length (set_member k j l) = length l).
Proof.
  induction l as [|[k' j'] l IH]; simpl; [split; [lia|by intros ?%elem_of_nil]|].
  destruct (String.eqb_spec k' k) as [->|Hne]; simpl; [lia|]. destruct IH as [IH1 IH2]. split; [lia|].
  intros [->|H]%elem_of_cons; [done|]. by rewrite IH2.
Qed.
Lemma fold_members_nodup l : forall acc, NoDup (keys_of (acc ++ l)) ->
  fold_left (fun d (kj : string * json) => set_member (fst kj) (snd kj) d) l acc = acc ++ l.
Proof.
  induction l as [|[k j] l IH]; intros acc H; simpl; [by rewrite app_nil_r|].
  assert (E : acc ++ (k, j) :: l = (acc ++ [(k, j)]) ++ l) by (by rewrite <- app_assoc).
  rewrite set_member_new, IH; [by rewrite E|by rewrite <- E|].
  rewrite map_app in H. simpl in H. apply NoDup_app in H as (_ & H & _). intros Hin. apply (H k Hin). by left.
Qed.
Lemma fold_members_le l : forall acc, length (fold_left (fun d (kj : string * json) => set_member (fst kj) (snd kj) d) l acc) <= length acc + length l.
Proof.
  induction l as [|[k j] l IH]; intros acc; simpl; [lia|]. etrans; [apply IH|]. destruct (set_member_length k j acc). lia.
Qed.
Lemma fold_members_full l : forall acc, NoDup (keys_of acc) ->
  length (fold_left (fun d (kj : string * json) => set_member (fst kj) (snd kj) d) l acc) = length acc + length l -> NoDup (keys_of (acc ++ l)).
Proof.
  induction l as [|[k j] l IH]; intros acc Ha H; simpl in *; [by rewrite app_nil_r|].
  pose proof (fold_members_le l (set_member k j acc)) as Hle. destruct (set_member_length k j acc) as [Hb Hin].
  destruct (decide (k ∈ keys_of acc)) as [Hk|Hk]; [specialize (Hin Hk); lia|].
  rewrite set_member_new in H by done.
  replace (acc ++ (k, j) :: l) with ((acc ++ [(k, j)]) ++ l) by (by rewrite <- app_assoc).
  apply IH; [|rewrite app_length; simpl; rewrite H; lia].
  rewrite map_app. apply NoDup_app. split; [done|]. split; [|apply NoDup_singleton]. intros k' Hk' [->|[]%elem_of_nil]%elem_of_cons. done.
Qed.
Lemma loads_obj l : NoDup (keys_of l) -> loads (JObj l) = JObj (map (fun kj => (fst kj, loads (snd kj))) l).
Proof. intros H. simpl. rewrite fold_members_nodup; [done|]. simpl. by rewrite map_map. Qed.

Lemma member_None k l : member k l = None <-> k ∉ keys_of l.
Proof.
  induction l as [|[k' j] l IH]; simpl; [split; [intros _; apply not_elem_of_nil|done]|].
  destruct (String.eqb_spec k' k) as [->|Hne].
  - split; [done|]. intros H. destruct H. by left.
  - rewrite IH, not_elem_of_cons. naive_solver.
Qed.

(** * Registries *)
Section registry.
  Context {C : Type}.
  Implicit Types h r : list (rkey * C).
  Fixpoint rget (k : rkey) (r : list (rkey * C)) : option C :=
    match r with [] => None | (k', c) :: r' => if decide (k' = k) then Some c else rget k r' end.
  Lemma register_keys k c r : keys_of (register k c r) = if decide (k ∈ keys_of r) then keys_of r else keys_of r ++ [k].
  Proof.
    induction r as [|[k' c'] r IH].
    - destruct (decide _) as [H|_]; [by apply elem_of_nil in H|done].
    - cbn [register map fst]. destruct (decide (k' = k)) as [->|Hne]; cbn [map fst]; [by rewrite decide_True by (by left)|]. rewrite IH.
      destruct (decide (k ∈ keys_of r)) as [H|H].
      + rewrite decide_True; [done|by right].
      + rewrite decide_False; [done|]. rewrite not_elem_of_cons. naive_solver.
  Qed.
  Lemma register_get k c r k' : rget k' (register k c r) = if decide (k = k') then Some c else rget k' r.
  Proof.
    induction r as [|[k1 c1] r IH]; simpl.
    - by destruct (decide (k = k')).
    - destruct (decide (k1 = k)) as [->|Hne]; simpl; [by destruct (decide (k = k'))|]. rewrite IH.
      destruct (decide (k1 = k')) as [->|]; [|done]. by rewrite decide_False.
  Qed.
  Lemma registered_snoc h k c : registered (h ++ [(k, c)]) = register k c (registered h).
  Proof. unfold registered. by rewrite fold_left_app. Qed.
  Lemma last_for_snoc h k c k' : last_for k' (h ++ [(k, c)]) = if decide (k = k') then Some c else last_for k' h.
  Proof.
    induction h as [|[k1 c1] h IH]; simpl; [done|]. rewrite IH. destruct (decide (k = k')); [done|done].
  Qed.
  Lemma filter_snoc {A} (P : A -> Prop) `{!forall x, Decision (P x)} l a : filter P (l ++ [a]) = filter P l ++ (if decide (P a) then [a] else []).
  Proof. rewrite filter_app. by rewrite filter_cons. Qed.
  Lemma first_order_in h k : k ∈ first_order h <-> k ∈ keys_of h.
  Proof.
    induction h as [|[k1 c1] h IH]; simpl; [done|]. rewrite !elem_of_cons, elem_of_list_filter, IH.
    destruct (decide (k = k1)); naive_solver.
  Qed.
  Lemma first_order_snoc h k c : first_order (h ++ [(k, c)]) = first_order h ++ (if decide (k ∈ first_order h) then [] else [k]).
  Proof.
    induction h as [|[k1 c1] h IH]; simpl; [done|]. rewrite IH, filter_app. f_equal. f_equal.
    destruct (decide (k = k1)) as [->|Hne].
    - rewrite (decide_True (P := k1 ∈ k1 :: _)) by (by left). destruct (decide _); [done|]. rewrite filter_cons_False; [done|]. naive_solver.
    - destruct (decide (k ∈ first_order h)) as [H|H].
      + rewrite (decide_True (P := k ∈ k1 :: _)); [done|]. right. by apply elem_of_list_filter.
      + rewrite (decide_False (P := k ∈ k1 :: _)).
        * rewrite filter_cons_True; [done|congruence].
        * rewrite elem_of_cons, elem_of_list_filter. naive_solver.
  Qed.
  Lemma first_order_nodup h : NoDup (first_order h).
  Proof.
    induction h as [|[k c] h IH]; simpl; constructor; [|by apply NoDup_filter].
    rewrite elem_of_list_filter. naive_solver.
  Qed.
  Lemma registered_keys h : keys_of (registered h) = first_order h.
  Proof.
    induction h as [|[k c] h IH] using rev_ind; [done|]. rewrite registered_snoc, register_keys, first_order_snoc, IH.
    destruct (decide _); [by rewrite app_nil_r|done].
  Qed.
  Lemma registered_get h k : rget k (registered h) = last_for k h.
  Proof.
    induction h as [|[k1 c] h IH] using rev_ind; [done|]. by rewrite registered_snoc, register_get, last_for_snoc, IH.
  Qed.
  Lemma rget_in r k c : NoDup (keys_of r) -> (k, c) ∈ r -> rget k r = Some c.
  Proof.
    induction r as [|[k1 c1] r IH]; simpl; [by intros _ ?%elem_of_nil|]. intros [H1 H2]%NoDup_cons [[= -> ->]|H]%elem_of_cons.
    - by rewrite decide_True.
    - rewrite decide_False; [by apply IH|]. intros ->. apply H1. apply elem_of_list_fmap. by exists (k, c).
  Qed.
  Lemma matching_due ev cls h : matching ev cls (registered h) = due (v_provides ev cls) h.
  Proof.
    unfold matching, due. pose proof (registered_get h) as Hg. pose proof (registered_keys h) as Hk.
    rewrite <- Hk. assert (ND : NoDup (keys_of (registered h))) by (rewrite Hk; apply first_order_nodup).
    assert (G : forall r, (forall k c, (k, c) ∈ r -> last_for k h = Some c) ->
      flat_map (fun kc => if v_provides ev cls (fst kc) then [snd kc] else []) r =
      flat_map (fun k => if v_provides ev cls k then match last_for k h with Some c => [c] | None => [] end else []) (keys_of r)).
    { induction r as [|[k c] r IH]; intros H; simpl; [done|]. rewrite (H k c) by (by left). f_equal. apply IH. intros k' c' Hin. apply H. by right. }
    apply G. intros k c Hin. rewrite <- Hg. by apply rget_in.
  Qed.
End registry.
