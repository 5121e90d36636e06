(** What deepcopy does to the heap, seen from the nodes. *)
From Verif Require Import Py Odict OdictFacts Aliaser Heap Model Classes MonadFacts WF WFOps Views SpecMapping MappingProofs TreeOps
  Observe ObserveFacts SpecTree NewEff Reach SpecCopy SpecPlace SpecReference SpecUtils.

(** * The heap copied *)
Lemma shift_renamed n v : shift_val n v = renamed (Nat.add n) v.
Proof.
  revert v. fix IH 1. intros v. destruct v as [| | | | | | |c| |l|d|m]; try reflexivity; simpl; apply f_equal.
  - lia.
  - induction l as [|w l IHl]; simpl; [done|]. by rewrite IH, IHl.
  - induction d as [|[k w] d IHd]; simpl; [done|]. by rewrite IH, IHd.
Qed.
Lemma shift_dict_renamed n d : shift_dict n d = renamed_entries (Nat.add n) d.
Proof. unfold shift_dict, renamed_entries. apply map_ext. intros [k v]. simpl. by rewrite shift_renamed. Qed.
Record duplicate (s s' : st) : Prop := Duplicate {
  du_nodes : forall i, nodes s' !! i = if decide (next_id s <= i) then shift_obj (next_id s) <$> nodes s !! (i - next_id s) else nodes s !! i;
  du_dicts : forall i, dicts s' !! i = if decide (next_id s <= i) then shift_dict (next_id s) <$> dicts s !! (i - next_id s) else dicts s !! i;
  du_idxs : forall i, idxs s' !! i = if decide (next_id s <= i) then (fun m : gmap (option N) nat => Nat.add (next_id s) <$> m) <$> idxs s !! (i - next_id s) else idxs s !! i;
  du_uuid : next_uuid s' = next_uuid s;
  du_log : log s' = log s
}.
Lemma deep_eff s x : wf s -> exists s', deep x s = (Ret (next_id s + x), s') /\ duplicate s s' /\ (exists_node s x -> wf s').
Proof.
  intros W. unfold deep. eexists. split; [reflexivity|]. split.
  - pose proof W as [W1 W2 W3 W4]. constructor; [..|done|done]; intros i; apply lookup_dup; intros j a H.
    + by apply W1 in H as [? _].
    + by apply W2 in H as [? _].
    + by apply W3 in H as [? _].
  - intros Hx. pose proof (safe_deep s x Hx W) as [H _]. exact H.
Qed.
Section duplicate.
Context (s s' : st) (W : wf s) (D : duplicate s s').
Notation n := (next_id s).
Lemma dup_old y o : nodes s !! y = Some o -> nodes s' !! y = Some o.
Proof. intros H. rewrite (du_nodes _ _ D), decide_False; [done|]. destruct (wf_nodes _ W _ _ H). lia. Qed.
Lemma dup_new y : nodes s' !! (n + y) = shift_obj n <$> nodes s !! y.
Proof. rewrite (du_nodes _ _ D), decide_True by lia. by replace (n + y - n) with y by lia. Qed.
Lemma dup_new_dict y : dicts s' !! (n + y) = shift_dict n <$> dicts s !! y.
Proof. rewrite (du_dicts _ _ D), decide_True by lia. by replace (n + y - n) with y by lia. Qed.
Lemma dup_new_idx y : idxs s' !! (n + y) = (fun m : gmap (option N) nat => Nat.add n <$> m) <$> idxs s !! y.
Proof. rewrite (du_idxs _ _ D), decide_True by lia. by replace (n + y - n) with y by lia. Qed.
Lemma dup_old_dict l d : dicts s !! l = Some d -> dicts s' !! l = Some d.
Proof. intros H. rewrite (du_dicts _ _ D), decide_False; [done|]. destruct (wf_dicts _ W _ _ H) as [? _]. lia. Qed.
Lemma dup_old_idx l d : idxs s !! l = Some d -> idxs s' !! l = Some d.
Proof. intros H. rewrite (du_idxs _ _ D), decide_False; [done|]. destruct (wf_idxs _ W _ _ H) as [? _]. lia. Qed.
Lemma dup_deref (o : option nat) : default [] ((Nat.add n <$> o) ≫= fun l => dicts s' !! l) = renamed_entries (Nat.add n) (default [] (o ≫= fun l => dicts s !! l)).
Proof.
  destruct o as [l|]; simpl; [|done]. rewrite dup_new_dict. destruct (dicts s !! l); simpl; [|done]. apply shift_dict_renamed.
Qed.
Lemma dup_mirrored y : exists_node s y -> mirrored (Nat.add n) s s' y.
Proof.
  intros [o Ho]. assert (Hn : nodes s' !! (n + y) = Some (shift_obj n o)) by (by rewrite dup_new, Ho).
  constructor; unfold class_of, name_at, parent_at, entries_at, spaces_at, cache_at, fixed_at, index_id, index_at, index_id, allows, suppressed; rewrite ?Hn, ?Ho; simpl; try done.
  - apply dup_deref.
  - destruct (o_nodespaces o) as [l|]; simpl; [|done]. apply (dup_deref (Some l)).
  - apply dup_deref.
  - apply dup_deref.
  - by rewrite fmap_is_Some.
  - destruct (o_index o) as [i|]; simpl; [|by rewrite fmap_empty]. rewrite dup_new_idx. destruct (idxs s !! i); simpl; [done|by rewrite fmap_empty].
Qed.
Lemma dup_uuid y : uuid_at s' (n + y) = uuid_at s y.
Proof. unfold uuid_at. rewrite dup_new. by destruct (nodes s !! y). Qed.
Lemma dup_view y : exists_node s y -> views s' !! y = views s !! y.
Proof.
  intros [o Ho]. rewrite !views_lookup, (dup_old _ _ Ho), Ho. simpl. f_equal. apply view_of_frame. intros a l Ha.
  destruct (dicts_of_slot _ _ _ _ _ W Ho Ha) as [d Hd]. by rewrite (dup_old_dict _ _ Hd).
Qed.
Lemma dup_index y : exists_node s y -> index_at s' y = index_at s y.
Proof.
  intros [o Ho]. unfold index_at, index_id. rewrite (dup_old _ _ Ho), Ho. simpl. destruct (o_index o) as [i|] eqn:Hi; simpl; [|done].
  destruct (wf_nodes _ W _ _ Ho) as [_ [_ _ K _]]. destruct (K i Hi) as [m Hm]. by rewrite (dup_old_idx _ _ Hm), Hm.
Qed.
Lemma dup_index_id y : index_id s' (n + y) = Nat.add n <$> index_id s y.
Proof. unfold index_id. rewrite dup_new. by destruct (nodes s !! y). Qed.
Lemma dup_fresh y : exists_node s y -> ~ exists_node s (n + y).
Proof. intros _ [o Ho]. destruct (wf_nodes _ W _ _ Ho). lia. Qed.
End duplicate.

Lemma deepcopy_stack_plain bs s x : UUIDAware ∉ bs -> deepcopy_stack bs x s = deep x s.
Proof.
  induction bs as [|b bs IH]; intros H; [done|]. simpl. destruct b; try (apply IH; set_solver). set_solver.
Qed.

(** ** Which nodes there are, and what they hold *)
Lemma value_at_renamed f k d : value_at k (renamed_entries f d) = renamed f <$> value_at k d.
Proof. rewrite !value_at_spec. induction d as [|[k' v] d IH]; simpl; [done|]. by case_decide. Qed.
Lemma spaces_known s x : wf s -> Forall (fun e => hashable (fst e) = true /\ known s (snd e)) (spaces_at s x).
Proof.
  intros W. rewrite ob_spaces. unfold fld. destruct (views s !! x) as [w|] eqn:Hw; simpl; [|done]. apply (slot_vok s x w SNodespaces W Hw).
Qed.
Lemma renamed_node f v c : renamed f v = VNode c -> exists d, v = VNode d /\ c = f d.
Proof. destruct v; simpl; try done. intros [= <-]. by eexists. Qed.
Lemma gone_node s z : ~ exists_node s z -> class_of s z = None /\ parent_at s z = None /\ entries_at s z = [] /\ spaces_at s z = [] /\ uuid_at s z = None /\ index_id s z = None.
Proof.
  intros H. assert (nodes s !! z = None) as E by (apply eq_None_not_Some; intros [o Ho]; apply H; by exists o).
  unfold class_of, parent_at, entries_at, spaces_at, uuid_at, index_id. by rewrite E.
Qed.
Section copies.
Context (s s' : st) (W : wf s) (D : duplicate s s').
Notation n := (next_id s).
Lemma dup_below y : exists_node s y -> y < n.
Proof. intros [o Ho]. by destruct (wf_nodes _ W _ _ Ho). Qed.
Lemma dup_cases z : exists_node s z \/ (exists y, z = n + y /\ exists_node s y) \/ (~ exists_node s' z /\ ~ exists_node s z /\ forall y, z = n + y -> ~ exists_node s y).
Proof.
  destruct (nodes s !! z) as [o|] eqn:Ho; [left; by exists o|]. destruct (decide (n <= z)) as [Hz|Hz].
  - destruct (nodes s !! (z - n)) as [o|] eqn:Ho'; [right; left; exists (z - n); split; [lia|by exists o]|]. right. right. split; [|split].
    + intros [o Hs]. rewrite (du_nodes _ _ D), decide_True, Ho' in Hs by done. done.
    + intros [o Hs]. congruence.
    + intros y -> [o Hs]. replace (n + y - n) with y in Ho' by lia. congruence.
  - right. right. split; [|split].
    + intros [o Hs]. rewrite (du_nodes _ _ D), decide_False, Ho in Hs by done. done.
    + intros [o Hs]. congruence.
    + intros y -> _. lia.
Qed.
Lemma dup_same y : exists_node s y -> Observe.same_node s s' y.
Proof. intros H. apply same_node_views. by apply dup_view. Qed.
Lemma dup_class z cls : class_of s' z = Some cls -> class_of s z = Some cls \/ exists y, z = n + y /\ class_of s y = Some cls.
Proof.
  destruct (dup_cases z) as [H|[(y & -> & H)|(H & _)]].
  - rewrite (Observe.sn_class _ _ _ (dup_same _ H)). auto.
  - rewrite (mi_class _ _ _ _ (dup_mirrored s s' D y H)). eauto.
  - by rewrite (proj1 (gone_node _ _ H)).
Qed.
Lemma dup_exists z : exists_node s' z <-> exists_node s z \/ exists y, z = n + y /\ exists_node s y.
Proof.
  split.
  - intros H. destruct (dup_cases z) as [?|[?|(? & _)]]; auto. done.
  - intros [[o Ho]|(y & -> & o & Ho)].
    + exists o. by apply (dup_old s s' W D).
    + exists (shift_obj n o). by rewrite (dup_new s s' D), Ho.
Qed.
Lemma dup_holds p pl k c : holds_at s' p pl k c <-> holds_at s p pl k c \/ exists q d, p = n + q /\ c = n + d /\ holds_at s q pl k d.
Proof.
  assert (Hno : forall z, ~ exists_node s z -> ~ holds_at s z pl k c).
  { intros z Hz. destruct (gone_node _ _ Hz) as (_ & _ & He & Hs & _). destruct pl; simpl; [by rewrite He|rewrite Hs; by intros []]. }
  destruct (dup_cases p) as [H|[(q & -> & H)|(H & H1 & H2)]].
  - destruct (dup_same _ H) as [_ _ _ He Hs _ _ _ _ _]. unfold holds_at at 1. rewrite He, Hs. split; [intros; by left|]. intros [?|(q & d & -> & _ & _)]; [done|].
    apply dup_below in H. lia.
  - pose proof (dup_mirrored s s' D q H) as Mi. assert (Hn : ~ exists_node s (n + q)) by (intros ?%dup_below; lia).
    unfold holds_at at 1. rewrite (mi_entries _ _ _ _ Mi), (mi_spaces _ _ _ _ Mi), !value_at_renamed. split.
    + intros Hh. right. exists q. destruct pl; simpl; [|destruct Hh as [Hh Hne]]; apply fmap_Some in Hh as (v & Hv & Ev); symmetry in Ev; apply renamed_node in Ev as (d & -> & ->); exists d; (split; [done|split; [done|]]).
      * done.
      * split; [done|]. intros [-> ->]. by apply Hne.
    + intros [Hh|(q' & d & Eq & -> & Hh)]; [by apply Hno in Hh|]. assert (q' = q) as -> by lia. destruct pl; simpl in *; [by rewrite Hh|].
      destruct Hh as [Hh Hne]. rewrite Hh. split; [done|]. intros [-> E]. apply Hne. split; [done|lia].
  - split.
    + destruct (gone_node _ _ H) as (_ & _ & He & Hs & _). destruct pl; simpl; [by rewrite He|rewrite Hs; by intros []].
    + intros [Hh|(q & d & Ep & _ & Hh)]; [by apply Hno in Hh|]. exfalso. destruct (gone_node _ _ (H2 q Ep)) as (_ & _ & He & Hs & _).
      destruct pl; simpl in Hh; [by rewrite He in Hh|rewrite Hs in Hh; by destruct Hh].
Qed.
Lemma holder_exists p pl k c : holds_at s p pl k c -> exists_node s p.
Proof.
  intros H. destruct (nodes s !! p) as [o|] eqn:Ho; [by exists o|]. destruct (gone_node s p) as (_ & _ & He & Hs & _); [intros [o' Ho']; congruence|].
  destruct pl; simpl in H; [by rewrite He in H|rewrite Hs in H; by destruct H].
Qed.
Lemma held_exists p pl k c : holds_at s p pl k c -> exists_node s c.
Proof.
  intros H. destruct pl; simpl in H; [|destruct H as [H _]]; rewrite value_at_spec in H; apply dget_Some_in in H.
  - pose proof (entries_known s p W) as F. rewrite Forall_forall in F. by apply F in H as [_ ?].
  - pose proof (spaces_known s p W) as F. rewrite Forall_forall in F. by apply F in H as [_ ?].
Qed.
Lemma dup_chain_old y l : chain s y l -> exists_node s y -> chain s' y l.
Proof.
  induction 1 as [y Hy Hp|y p l Hp C IH]; intros Hx.
  - apply chain_root; [apply dup_exists; by left|]. by rewrite (Observe.sn_parent _ _ _ (dup_same _ Hx)).
  - apply (chain_up _ _ p); [by rewrite (Observe.sn_parent _ _ _ (dup_same _ Hx))|]. apply IH. inversion C; [done|]. 
    destruct (nodes s !! p) as [o|] eqn:Ho; [by exists o|]. unfold parent_at in H. by rewrite Ho in H.
Qed.
Lemma dup_chain_new y l : chain s y l -> exists_node s y -> chain s' (n + y) (Nat.add n <$> l).
Proof.
  induction 1 as [y Hy Hp|y p l Hp C IH]; intros Hx.
  - apply chain_root; [apply dup_exists; right; by eexists|]. by rewrite (mi_parent _ _ _ _ (dup_mirrored s s' D y Hx)), Hp.
  - apply (chain_up _ _ (n + p)); [by rewrite (mi_parent _ _ _ _ (dup_mirrored s s' D y Hx)), Hp|]. apply IH. inversion C; [done|].
    destruct (nodes s !! p) as [o|] eqn:Ho; [by exists o|]. unfold parent_at in H. by rewrite Ho in H.
Qed.
Lemma dup_acyclic : acyclic s -> acyclic s'.
Proof.
  intros A z Hz. apply dup_exists in Hz as [Hz|(y & -> & Hy)].
  - destruct (A z Hz) as [l C]. exists l. by apply dup_chain_old.
  - destruct (A y Hy) as [l C]. eexists. by apply dup_chain_new.
Qed.
Lemma dup_consistent : consistent s -> consistent s'.
Proof.
  intros Hc p pl k c [H|(q & d & -> & -> & H)]%dup_holds; destruct (Hc _ _ _ _ H) as [H1 H2].
  - destruct (dup_same c (held_exists _ _ _ _ H)) as [_ -> -> _ _ _ _ _ _ _]. done.
  - destruct (dup_mirrored s s' D d (held_exists _ _ _ _ H)) as [_ -> -> _ _ _ _ _ _ _ _]. by rewrite H2.
Qed.
Lemma dup_apart : spaces_apart s -> spaces_apart s'.
Proof.
  intros Ha z cls k v Hc Hin. destruct (dup_cases z) as [H|[(y & -> & H)|(H & _)]].
  - destruct (dup_same _ H) as [Ec _ _ Ee _ _ _ _ _ _]. rewrite Ec in Hc. rewrite Ee in Hin. by apply (Ha z cls k v).
  - pose proof (dup_mirrored s s' D y H) as Mi. rewrite (mi_class _ _ _ _ Mi) in Hc. rewrite (mi_entries _ _ _ _ Mi) in Hin.
    apply elem_of_list_fmap in Hin as ([k' v'] & [= -> ->] & Hin). by apply (Ha y cls k' v').
  - by rewrite (proj1 (gone_node _ _ H)) in Hc.
Qed.
Lemma dup_child p k c : child s' p k c <-> child s p k c \/ exists q d, p = n + q /\ c = n + d /\ child s q k d.
Proof. apply (dup_holds p InEntries k c). Qed.
Lemma dup_listed_old y : exists_node s y -> listed s' y <-> listed s y.
Proof.
  intros H. unfold listed. by rewrite (Observe.sn_uuid _ _ _ (dup_same _ H)), (dup_index s s' W D y H).
Qed.
Lemma listed_node s0 y : listed s0 y -> exists_node s0 y.
Proof. intros (u & Hu & _). unfold uuid_at in Hu. destruct (nodes s0 !! y) as [o|] eqn:Ho; [by exists o|done]. Qed.
Lemma dup_listed_new y : exists_node s y -> listed s' (n + y) <-> listed s y.
Proof.
  intros H. unfold listed. rewrite (dup_uuid s s' D), (mi_index _ _ _ _ (dup_mirrored s s' D y H)).
  split; intros (u & Hu & Hi); exists u; (split; [done|]); rewrite lookup_fmap in *.
  - apply fmap_Some in Hi as (z & -> & E). f_equal. lia.
  - by rewrite Hi.
Qed.
Lemma dup_listed z : listed s' z <-> listed s z \/ exists y, z = n + y /\ listed s y.
Proof.
  split.
  - intros HL. pose proof (listed_node _ _ HL) as Hz. apply dup_exists in Hz as [Hz|(y & -> & Hy)]; [left; by apply dup_listed_old|].
    right. exists y. split; [done|]. by apply dup_listed_new.
  - intros [HL|(y & -> & HL)]; [apply dup_listed_old; [by eapply listed_node|done]|apply dup_listed_new; [by eapply listed_node|done]].
Qed.
End copies.
