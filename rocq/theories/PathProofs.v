(** Proofs about node_by_path. *)
From Coq Require Import Ascii.
From Verif Require Import Py Odict OdictFacts Aliaser Heap Model MonadFacts WF WFOps Views StrFacts SpecMapping
  MappingProofs StorageProofs Observe TreeOps SetEff DelEff DetachEff ObserveFacts SpecTree MappingProps Utils SpecUtils UtilsProofs.
From stdpp Require Import list.

(** * Following keys *)
Definition walk_res (w : walk_end) (r : res val) : Prop :=
  match w with
  | Found v => r = Ret v
  | Missing k => r = Exc (KeyError k)
  | NotSubscriptable => exists e, r = Exc e
  end.
Lemma subscripts_walk s ks : wf s -> forall s1 v, wf s1 -> eqv s s1 -> known s v -> all_tree_classes s -> Forall child_key ks ->
  exists r s2, subscripts v ks s1 = (r, s2) /\ eqv s s2 /\ walk_res (walk s v ks) r.
Proof.
  intros W. induction ks as [|k ks IH]; intros s1 v W1 Q1 Hv Ha Hk; simpl; [by eexists _, s1|].
  apply Forall_cons in Hk as [[Hh Hd] Hk].
  destruct v as [| | | | | | |c| | | |]; simpl; try (eexists _, s1; split; [done|]; split; [done|]; by eexists).
  assert (Hc : exists w, views s !! c = Some w).
  { simpl in Hv. destruct Hv as [o Ho]. exists (view_of s c o). by apply nodes_views. }
  destruct Hc as [w Hw].
  assert (Ht : tree_class (c_behs (w_cls w)) = true). { apply (Ha c). rewrite ob_class. unfold fld. by rewrite Hw. }
  destruct (getitem_eff s1 c w k) as (s2 & E & Q2 & W2); [done|by eapply eqv_view|done|].
  unfold get_res, look in E. assert (Hn : nskey (c_behs (w_cls w)) k = false) by (apply nskey_dunder_false; naive_solver).
  rewrite Hn, Hh in E. rewrite value_at_spec, (ent_obs _ _ _ Hw).
  destruct (dget k (w_ent w)) as [v'|] eqn:Eg.
  - rewrite (bind_Ret _ _ _ _ _ E). apply IH; try done; [by eapply eqv_trans|].
    pose proof (entries_known s c W) as Hk'. rewrite (ent_obs _ _ _ Hw), Forall_forall in Hk'. apply dget_Some_in in Eg. apply (Hk' _ Eg).
  - rewrite (bind_Exc _ _ _ _ _ E). eexists _, s2. split; [done|]. split; [by eapply eqv_trans|done].
Qed.

(** * Strings *)
Section chars.
Context (c : ascii).
Fixpoint joinl (ws : list (list ascii)) : list ascii :=
  match ws with [] => [] | [w] => w | w :: r => w ++ c :: joinl r end.

Lemma lstrip_app n l : (forall r, l <> c :: r) -> lstrip c (repeat c n ++ l) = l.
Proof.
  intros Hl. induction n as [|n IH]; simpl; [|by rewrite decide_True].
  destruct l as [|a l]; simpl; [done|]. rewrite decide_False; [done|]. intros ->. by apply (Hl l).
Qed.
Lemma lstrip_spec l : exists n, l = repeat c n ++ lstrip c l /\ forall r, lstrip c l <> c :: r.
Proof.
  induction l as [|a l IH]; simpl; [by exists 0|]. case_decide as E.
  - subst a. destruct IH as (n & IH & H). exists (S n). simpl. by rewrite <- IH.
  - exists 0. split; [done|]. by intros r [= ? _].
Qed.
Lemma rev_repeat n : rev (repeat c n) = repeat c n.
Proof.
  induction n as [|n IH]; simpl; [done|]. rewrite IH. clear IH. induction n as [|n IH]; simpl; [done|]. by rewrite IH.
Qed.
Lemma strip_app n m l : (forall r, l <> c :: r) -> (forall r, l <> r ++ [c]) -> strip c (repeat c n ++ l ++ repeat c m) = l.
Proof.
  intros H1 H2. unfold strip. destruct l as [|a l'] eqn:El.
  - simpl. rewrite <- repeat_app. pose proof (lstrip_app (n + m) []) as H. rewrite app_nil_r in H. rewrite H by done. done.
  - rewrite <- El in *. rewrite lstrip_app by (subst; intros r [= ? _]; by apply (H1 l'); subst).
    rewrite rev_app_distr, rev_repeat, lstrip_app; [by rewrite rev_involutive|].
    intros r Hr. apply (f_equal (@rev ascii)) in Hr. rewrite rev_involutive in Hr. simpl in Hr. by apply (H2 (rev r)).
Qed.
Lemma strip_spec l : exists n m, l = repeat c n ++ strip c l ++ repeat c m /\
  (forall r, strip c l <> c :: r) /\ (forall r, strip c l <> r ++ [c]).
Proof.
  unfold strip. destruct (lstrip_spec l) as (n & E1 & H1). destruct (lstrip_spec (rev (lstrip c l))) as (m & E2 & H2).
  set (l1 := lstrip c l) in *. set (l2 := lstrip c (rev l1)) in *.
  assert (E3 : l1 = rev l2 ++ repeat c m).
  { rewrite <- (rev_involutive l1), E2, rev_app_distr, rev_repeat. done. }
  exists n, m. rewrite <- E3. split; [done|]. split.
  - intros r Hr. rewrite Hr in E3. simpl in E3. by apply (H1 (r ++ repeat c m)).
  - intros r Hr. apply (f_equal (@rev ascii)) in Hr. rewrite rev_involutive, rev_app_distr in Hr. simpl in Hr. by apply (H2 (rev r)).
Qed.
Lemma split_ne l : split_on c l <> [].
Proof. induction l as [|a l IH]; simpl; [done|]. case_decide; [done|]. by destruct (split_on c l). Qed.
Lemma split_join l : joinl (split_on c l) = l.
Proof.
  induction l as [|a l IH]; simpl; [done|]. pose proof (split_ne l) as Hne. case_decide as E.
  - subst a. destruct (split_on c l); [done|]. simpl in *. by rewrite IH.
  - destruct (split_on c l) as [|w [|w' ws]]; [done| |]; simpl in *; by rewrite <- IH.
Qed.
Lemma split_free l : Forall (fun w => c ∉ w) (split_on c l).
Proof.
  induction l as [|a l IH]; simpl; [repeat constructor; apply not_elem_of_nil|]. case_decide as E.
  - constructor; [apply not_elem_of_nil|done].
  - destruct (split_on c l) as [|w ws]; [repeat constructor; by rewrite elem_of_list_singleton|].
    apply Forall_cons in IH as [H1 H2]. constructor; [|done]. apply not_elem_of_cons. done.
Qed.
Lemma split_word w : c ∉ w -> split_on c w = [w].
Proof.
  induction w as [|a w IH]; simpl; [done|]. intros [H1 H2]%not_elem_of_cons. rewrite decide_False by done. by rewrite IH.
Qed.
Lemma split_app w l : c ∉ w -> split_on c (w ++ c :: l) = w :: split_on c l.
Proof.
  induction w as [|a w IH]; simpl; [by rewrite decide_True|]. intros [H1 H2]%not_elem_of_cons. rewrite decide_False by done. by rewrite IH.
Qed.
Lemma join_split ws : ws <> [] -> Forall (fun w => c ∉ w) ws -> split_on c (joinl ws) = ws.
Proof.
  induction ws as [|w ws IH]; [done|]. intros _ [H1 H2]%Forall_cons. destruct ws as [|w' ws]; [by apply split_word|].
  cbn [joinl]. rewrite split_app by done. f_equal. by apply IH.
Qed.
Lemma join_head w ws : w <> [] -> exists a r, joinl (w :: ws) = a :: r /\ exists w', w = a :: w'.
Proof. destruct w as [|a w]; [done|]. intros _. destruct ws; simpl; naive_solver. Qed.
Lemma join_last ws w : w <> [] -> exists r, joinl (ws ++ [w]) = r ++ w.
Proof.
  intros Hw. induction ws as [|x ws [r IH]]; [by exists []|]. destruct ws as [|y ws].
  - simpl. exists (x ++ [c]). by rewrite <- app_assoc.
  - change ((x :: y :: ws) ++ [w]) with (x :: (y :: ws) ++ [w]). cbn [joinl]. simpl in IH |- *. rewrite IH.
    exists (x ++ c :: r). by rewrite <- app_assoc.
Qed.
End chars.

Notation la := list_ascii_of_string.
Lemma la_app a b : la (a +:+ b) = la a ++ la b.
Proof. induction a; simpl; [done|]. by rewrite <- IHa. Qed.
Lemma la_inj a b : la a = la b -> a = b.
Proof. intros H. by rewrite <- (string_of_list_ascii_of_string a), H, string_of_list_ascii_of_string. Qed.
Lemma la_slashes n : la (slashes n) = repeat slash n.
Proof. induction n; simpl; [done|]. by rewrite <- IHn. Qed.
Lemma la_join ks : la (join_path ks) = joinl slash (map la ks).
Proof.
  induction ks as [|k [|k' ks] IH]; [done..|].
  change (join_path (k :: k' :: ks)) with (k +:+ "/" +:+ join_path (k' :: ks)). rewrite !la_app, IH. done.
Qed.
Lemma no_slash_la k : no_slash k <-> slash ∉ la k.
Proof.
  unfold no_slash. split.
  - intros H Hin. apply elem_of_list_split in Hin as (l1 & l2 & E).
    apply (H (string_of_list_ascii l1) (string_of_list_ascii l2)). apply la_inj.
    rewrite !la_app, !list_ascii_of_string_of_list_ascii. done.
  - intros H a b ->. apply H. rewrite !la_app. apply elem_of_app. right. left.
Qed.
Lemma la_nil k : la k = [] <-> k = "".
Proof. destruct k; simpl; split; done. Qed.

Lemma path_keys_la s : path_keys (PStr s) =
  match strip slash (la s) with [] => [] | l => map (fun w => KStr (string_of_list_ascii w)) (split_on slash l) end.
Proof. done. Qed.
Lemma map_kstr ks : map (fun w => KStr (string_of_list_ascii w)) (map la ks) = map KStr ks.
Proof. rewrite map_map. apply map_ext. intros k. by rewrite string_of_list_ascii_of_string. Qed.

Lemma path_keys_join n m ks : Forall no_slash ks -> Forall (fun k => k <> "") ks ->
  path_keys (PStr (slashes n +:+ join_path ks +:+ slashes m)) = map KStr ks.
Proof.
  intros H1 H2. rewrite path_keys_la, !la_app, la_slashes, la_slashes, la_join.
  destruct ks as [|k ks]; [pose proof (strip_app slash n m []) as Hs; simpl in Hs |- *; rewrite Hs; [done|done|by intros []]|].
  assert (F : Forall (fun w => slash ∉ w) (map la (k :: ks))).
  { rewrite Forall_map. eapply Forall_impl; [exact H1|]. intros. by apply no_slash_la. }
  assert (G : Forall (fun w => w <> []) (map la (k :: ks))).
  { rewrite Forall_map. eapply Forall_impl; [exact H2|]. intros x Hx. simpl. by rewrite la_nil. }
  assert (Hh : forall r, joinl slash (map la (k :: ks)) <> slash :: r).
  { intros r Hr. simpl map in Hr, F, G. apply Forall_cons in F as [F _], G as [G _].
    destruct (join_head slash (la k) (map la ks) G) as (a & r' & E & w' & Ew). rewrite E in Hr. injection Hr as -> _.
    rewrite Ew in F. apply F. left. }
  assert (Hl : forall r, joinl slash (map la (k :: ks)) <> r ++ [slash]).
  { intros r Hr. destruct (exists_last (l := map la (k :: ks))) as (ws & w & E); [done|]. rewrite E in Hr, F, G.
    apply Forall_app in F as [_ F], G as [_ G]. apply Forall_cons in F as [F _], G as [G _].
    destruct (join_last slash ws w G) as [r' E']. rewrite E' in Hr.
    destruct (exists_last G) as (w0 & b & ->). rewrite app_assoc in Hr. apply app_inj_tail in Hr as [_ ->].
    apply F. apply elem_of_app. right. left. }
  rewrite strip_app by done.
  destruct (joinl slash (map la (k :: ks))) as [|a l] eqn:E.
  { simpl map in E, G. apply Forall_cons in G as [G _]. destruct (join_head slash (la k) (map la ks) G) as (a & r' & E' & _). by rewrite E in E'. }
  rewrite <- E, join_split by done. by rewrite map_kstr.
Qed.
Lemma path_keys_parse s : exists n m ks, s = slashes n +:+ join_path ks +:+ slashes m /\ path_keys (PStr s) = map KStr ks /\
  Forall no_slash ks /\ (forall k, head ks = Some k -> k <> "") /\ (forall k, last ks = Some k -> k <> "").
Proof.
  destruct (strip_spec slash (la s)) as (n & m & E & H1 & H2). rewrite path_keys_la.
  destruct (strip slash (la s)) as [|a l] eqn:Es.
  { exists n, m, []. split; [|done]. apply la_inj. rewrite !la_app, !la_slashes. done. }
  rewrite <- Es in *.
  exists n, m, (map string_of_list_ascii (split_on slash (strip slash (la s)))).
  assert (Ema : map la (map string_of_list_ascii (split_on slash (strip slash (la s)))) = split_on slash (strip slash (la s))).
  { rewrite map_map. rewrite <- map_id. apply map_ext. apply list_ascii_of_string_of_list_ascii. }
  assert (Hj := split_join slash (strip slash (la s))).
  pose proof (split_free slash (strip slash (la s))) as Hf.
  destruct (split_on slash (strip slash (la s))) as [|w ws] eqn:Esp; [by apply split_ne in Esp|].
  assert (Hhd : w <> []). { intros ->. destruct ws as [|w' ws]; simpl in Hj; [congruence|]. by apply (H1 (joinl slash (w' :: ws))). }
  split. { apply la_inj. rewrite !la_app, !la_slashes, la_join, Ema, Hj. done. }
  split. { by rewrite map_map. }
  split. { rewrite <- Ema in Hf. rewrite Forall_map in Hf. eapply Forall_impl; [exact Hf|]. intros x. apply no_slash_la. }
  split.
  - intros k. simpl. intros [= <-] Hk. apply la_nil in Hk. by rewrite list_ascii_of_string_of_list_ascii in Hk.
  - destruct (exists_last (l := w :: ws)) as (ws' & w' & E'); [done|]. rewrite E', map_app. simpl. intros k. rewrite last_snoc.
    intros [= <-] Hk. apply la_nil in Hk. rewrite list_ascii_of_string_of_list_ascii in Hk. subst w'.
    rewrite E' in Hj. destruct ws' as [|x ws'] using rev_ind; [simpl in E'; congruence|].
    apply (H2 (joinl slash (ws' ++ [x]))). rewrite <- Hj. clear. induction ws' as [|y ws' IH]; [done|].
    destruct ws' as [|z ws']; simpl in IH |- *; rewrite ?IH, <- ?app_assoc; done.
Qed.

Lemma node_by_path_walk s x p : wf s -> all_tree_classes s -> exists_node s x -> Forall child_key (path_keys p) ->
  exists r s', node_by_path x p s = (r, s') /\ same_world s s' /\
    match walk s (VNode x) (path_keys p) with
    | Found v => r = Ret v
    | Missing k => r = Exc (KeyError k)
    | NotSubscriptable => exists e, r = Exc e
    end.
Proof.
  intros W Ha Hx Hk. destruct (subscripts_walk s (path_keys p) W s (VNode x) W (eqv_refl s) Hx Ha Hk) as (r & s2 & E & Q & H).
  exists r, s2. split; [exact E|]. split; [by apply same_world_eqv|exact H].
Qed.
Lemma node_by_path_empty x n : node_by_path x (PStr (slashes n)) = ret (VNode x).
Proof.
  assert (H : slashes n = slashes n +:+ join_path [] +:+ slashes 0) by (symmetry; apply append_nil_r).
  unfold node_by_path. rewrite H, (path_keys_join n 0 []); [done|constructor|constructor].
Qed.
