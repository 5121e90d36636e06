(** Proofs about positions in trees. *)
From Verif Require Import SpecCache CacheProofs Dup InvalEff Py Odict OdictFacts Aliaser Heap Model MonadFacts WF WFOps Views SpecMapping
  MappingProofs StorageProofs Observe TreeOps SetEff DelEff DetachEff NewEff AttrsEff ObserveFacts SpecTree SpecUtils MappingProps SpecOrder OrderProofs
  Reach OpLift SpecPlace.
From stdpp Require Import list.

(** * Observations *)
Lemma exists_class s x : exists_node s x <-> is_Some (class_of s x).
Proof. unfold exists_node, class_of. by rewrite fmap_is_Some. Qed.
Lemma exists_same s s' x : class_of s' x = class_of s x -> exists_node s' x <-> exists_node s x.
Proof. intros H. by rewrite !exists_class, H. Qed.
Definition spaces_known := Dup.spaces_known.
Lemma holds_known s p pl k c : wf s -> holds_at s p pl k c -> exists_node s c.
Proof.
  intros W H. destruct pl; simpl in H; [|destruct H as [H _]]; rewrite value_at_spec in H; apply dget_Some_in in H.
  - pose proof (entries_known s p W) as F. rewrite Forall_forall in F. apply (F _ H).
  - pose proof (spaces_known s p W) as F. rewrite Forall_forall in F. apply (F _ H).
Qed.
Lemma holds_holder s p pl k c : holds_at s p pl k c -> exists_node s p.
Proof.
  unfold holds_at, entries_at, spaces_at, exists_node. destruct (nodes s !! p); [by eexists|]. destruct pl; simpl; [done|]. by intros [? _].
Qed.
Lemma value_at_put k v k' d : NoDup (dkeys d) -> value_at k' (put k v d) = if decide (k' = k) then Some v else value_at k' d.
Proof.
  intros ND. rewrite put_spec by done. rewrite !value_at_spec. case_decide as E; [subst; apply dget_dset_eq|by apply dget_dset_ne].
Qed.
Lemma value_at_remove k k' d : NoDup (dkeys d) -> value_at k' (SpecMapping.remove k d) = if decide (k' = k) then None else value_at k' d.
Proof.
  intros ND. rewrite remove_spec by done. rewrite !value_at_spec. case_decide as E; [subst; by apply dget_ddel_eq|by apply dget_ddel_ne].
Qed.

(** * Chains *)
Lemma chain_fun s x l : chain s x l -> forall l', chain s x l' -> l = l'.
Proof.
  induction 1 as [x Hx Hp|x p l Hp C IH]; intros l' C'; inversion C' as [? Hx' Hp'|? p' l1 Hp' C1]; subst; try congruence.
  f_equal. rewrite Hp in Hp'. injection Hp' as <-. by apply IH.
Qed.
Lemma chain_exists s x l : chain s x l -> wf s -> exists_node s x.
Proof.
  intros C W. inversion C as [|? p l1 Hp]; subst; [done|]. unfold parent_at in Hp. unfold exists_node. destruct (nodes s !! x); [by eexists|done].
Qed.
Lemma chain_self s x l : chain s x l -> x ∈ l.
Proof. intros []; by left. Qed.
Lemma chain_keep s s' x l : chain s x l -> (forall y, y ∈ l -> parent_at s' y = parent_at s y) -> (forall y, y ∈ l -> exists_node s y -> exists_node s' y) -> chain s' x l.
Proof.
  induction 1 as [x Hx Hp|x p l Hp C IH]; intros H1 H2.
  - apply chain_root; [apply H2; [left|done]|by rewrite H1 by left].
  - apply chain_up with p; [by rewrite H1 by left|]. apply IH; intros y Hy; [apply H1|apply H2]; by right.
Qed.
(** every node on a chain has its own chain, the rest of it *)
Lemma chain_tail s x l : chain s x l -> forall y, y ∈ l -> exists l1 l2, l = l1 ++ l2 /\ chain s y l2.
Proof.
  induction 1 as [x Hx Hp|x p l Hp C IH]; intros y Hy.
  - apply elem_of_list_singleton in Hy as ->. exists [], [x]. split; [done|by apply chain_root].
  - apply elem_of_cons in Hy as [->|Hy]; [exists [], (x :: l); split; [done|by apply chain_up with p]|].
    destruct (IH y Hy) as (l1 & l2 & -> & C2). exists (x :: l1), l2. done.
Qed.
Lemma chain_nodup s x l : chain s x l -> NoDup l.
Proof.
  induction 1 as [x Hx Hp|x p l Hp C IH]; [apply NoDup_singleton|]. apply NoDup_cons. split; [|done]. intros Hin.
  destruct (chain_tail s p l C x Hin) as (l1 & l2 & -> & C2).
  assert (C3 : chain s x (x :: l1 ++ l2)) by (by apply chain_up with p). pose proof (chain_fun _ _ _ C2 _ C3) as E.
  apply (f_equal length) in E. simpl in E. rewrite app_length in E. lia.
Qed.

(** * One step *)
(** [oc] may be put into [x] under [k] *)
Lemma place_step s s' x oc k :
  (forall y, class_of s' y = class_of s y) ->
  (forall p pl k' c', holds_at s' p pl k' c' -> holds_at s p pl k' c' \/
     (oc = Some c' /\ p = x /\ k' = k /\ name_at s' c' = Some k /\ parent_at s' c' = Some x)) ->
  (forall y, oc <> Some y -> keeps_place s s' y) ->
  (forall c, oc = Some c -> free s x c /\ (keeps_place s s' c \/ (name_at s' c = Some k /\ parent_at s' c = Some x))) ->
  exists_node s x -> consistent s -> acyclic s ->
  consistent s' /\ acyclic s' /\ forall c', free s x c' -> oc <> Some c' -> free s' x c'.
Proof.
  intros Hc Hh Hk Hf Hx Hcons Hac.
  assert (Hex : forall y, exists_node s' y <-> exists_node s y) by (intros y; by apply exists_same).
  destruct (Hac x Hx) as [lx Cx].
  assert (Cx' : chain s' x lx).
  { apply (chain_keep s); [done| |intros y _; by apply Hex]. intros y Hy. apply Hk. intros E. destruct (Hf y E) as [[_ Hn] _]. by apply (Hn lx). }
  split; [|split].
  - intros p pl k' c' H. destruct (Hh _ _ _ _ H) as [H0|(E & -> & -> & ? & ?)]; [|done].
    destruct (Hcons _ _ _ _ H0) as [Hn Hp]. destruct (Hk c') as [-> ->]; [|done]. intros E. destruct (Hf c' E) as [[Hu _] _]. by apply (Hu p pl k').
  - intros y Hy. apply Hex in Hy. destruct (Hac y Hy) as [l C]. clear Hy.
    induction C as [y Hy Hp|y p l Hp C IH].
    + destruct (decide (oc = Some y)) as [E|E].
      * destruct (Hf y E) as [_ [[_ Hp']|[_ Hp']]].
        -- exists [y]. apply chain_root; [by apply Hex|by rewrite Hp'].
        -- exists (y :: lx). by apply chain_up with x.
      * exists [y]. apply chain_root; [by apply Hex|]. destruct (Hk y E) as [_ ->]. done.
    + destruct IH as [l' C']. destruct (decide (oc = Some y)) as [E|E].
      * destruct (Hf y E) as [_ [[_ Hp']|[_ Hp']]].
        -- exists (y :: l'). apply chain_up with p; [by rewrite Hp'|done].
        -- exists (y :: lx). by apply chain_up with x.
      * exists (y :: l'). apply chain_up with p; [|done]. destruct (Hk y E) as [_ ->]. done.
  - intros c' [Hu Hn] Hne. split.
    + intros p pl k' H. destruct (Hh _ _ _ _ H) as [H0|(E & _)]; [by apply (Hu p pl k')|done].
    + intros l C. rewrite (chain_fun _ _ _ C _ Cx'). by apply Hn.
Qed.
Lemma holds_same s s' : entries_everywhere s s' -> forall p pl k c, holds_at s' p pl k c -> holds_at s p pl k c.
Proof. intros H p pl k c. destruct (H p) as [H1 H2]. unfold holds_at. by rewrite H1, H2. Qed.
(** nothing is held both as an entry and as a nodespace *)
Definition once (s : st) : Prop := forall p k c, holds_at s p InEntries k c -> ~ holds_at s p InSpaces k c.
Lemma once_step s s' oc pl0 : (forall p pl k c, holds_at s' p pl k c -> holds_at s p pl k c \/ (oc = Some c /\ pl = pl0)) ->
  (forall c, oc = Some c -> unheld s c) -> once s -> once s'.
Proof.
  intros H Hu Ho p k c H1 H2. destruct (H _ _ _ _ H1) as [H1'|[E1 F1]], (H _ _ _ _ H2) as [H2'|[E2 F2]].
  - by apply (Ho p k c).
  - by apply (Hu c E2 p InEntries k).
  - by apply (Hu c E1 p InSpaces k).
  - congruence.
Qed.
Lemma once_keep s s' : (forall p pl k c, holds_at s' p pl k c -> holds_at s p pl k c) -> once s -> once s'.
Proof. intros H. apply (once_step s s' None InEntries); [|done]. intros. left. by apply H. Qed.
Lemma apart_step s s' : (forall y, class_of s' y = class_of s y) ->
  (forall x cls k v, class_of s x = Some cls -> (k, v) ∈ entries_at s' x -> (exists v0, (k, v0) ∈ entries_at s x) \/ ~ to_spaces cls k) -> spaces_apart s -> spaces_apart s'.
Proof.
  intros Hc H Ha x cls k v Hx Hin. rewrite Hc in Hx. destruct (H x cls k v Hx Hin) as [[v0 H0]|H0]; [by apply (Ha x cls k v0)|done].
Qed.

(** * The world *)
Record world (H : classdef -> Prop) (s : st) : Prop := World {
  wd_wf : wf s;
  wd_uuid : (0 < next_uuid s)%N;
  wd_table : forall cn cls, classes s !! cn = Some cls -> H cls;
  wd_nodes : forall x cls, class_of s x = Some cls -> H cls
}.
Lemma world_same H s s' : wf s' -> next_uuid s' = next_uuid s -> classes s' = classes s -> (forall y, class_of s' y = class_of s y) -> world H s -> world H s'.
Proof. intros W U C Hc []. constructor; rewrite ?U, ?C; try done. intros x cls. rewrite Hc. apply wd_nodes0. Qed.
Lemma world_eqv H s s' : eqv s s' -> wf s' -> world H s -> world H s'.
Proof.
  intros Q W. apply world_same; [done|by apply e_uuid|by apply e_classes|]. intros y. rewrite !ob_class. by apply fld_eqv.
Qed.
Lemma new_tree bs : new_class bs = true -> tree_class bs = true.
Proof. unfold new_class. by intros [[[? _]%andb_prop _]%andb_prop _]%andb_prop. Qed.
Lemma adopting_trees s : world adopting s -> all_tree_classes s.
Proof. intros W x cls Hc. apply new_tree. by apply (wd_nodes _ _ W x). Qed.

(** * Trees *)
Record tree_ok (s : st) : Prop := TreeOk {
  tk_cons : consistent s;
  tk_acyc : acyclic s;
  tk_apart : spaces_apart s;
  tk_once : once s
}.
Lemma tree_eqv s s' : eqv s s' -> tree_ok s -> tree_ok s'.
Proof.
  intros Q [H1 H2 H3 H4]. pose proof (same_world_eqv _ _ Q) as [Hs _ _].
  assert (Hc : forall y, class_of s' y = class_of s y) by (intros y; by destruct (Hs y)).
  assert (He : entries_everywhere s s') by (intros y; by destruct (Hs y)).
  assert (Hk : forall y, keeps_place s s' y) by (intros y; by destruct (Hs y)).
  constructor.
  - intros p pl k c H. destruct (Hk c) as [-> ->]. apply (H1 p pl k c). by apply (holds_same s s').
  - intros y Hy. apply (exists_same s s') in Hy; [|done]. destruct (H2 y Hy) as [l C]. exists l. apply (chain_keep s); [done| |].
    + intros z _. by destruct (Hk z).
    + intros z _. by apply exists_same.
  - apply (apart_step s); try done. intros x cls k v _ Hin. left. exists v. by destruct (He x) as [<- _].
  - apply (once_keep s); [|done]. by apply holds_same.
Qed.
Lemma free_eqv s s' x c : eqv s s' -> free s x c -> free s' x c.
Proof.
  intros Q [H1 H2]. pose proof (same_world_eqv _ _ Q) as [Hs _ _].
  split.
  - intros p pl k H. apply (H1 p pl k). apply (holds_same s s'); [|done]. intros y; by destruct (Hs y).
  - intros l C. apply H2. apply (chain_keep s'); [done| |].
    + intros y _. by destruct (Hs y).
    + intros y _. apply exists_same. by destruct (Hs y).
Qed.

(** The invariant while the assignments [l] to [x] are still to be made. *)
Record growing (x : nat) (l : list (key * val)) (s : st) : Prop := Growing {
  gr_world : world adopting s;
  gr_tree : tree_ok s;
  gr_self : exists_node s x;
  gr_known : Forall (known s) (map snd l);
  gr_free : assignable s x (map snd l)
}.
Lemma assignable_nil s x : assignable s x [].
Proof. split; [apply NoDup_nil_2|by constructor]. Qed.
Lemma growing_weak x l s : growing x l s -> growing x [] s.
Proof. intros []. constructor; try done; [by constructor|apply assignable_nil]. Qed.
Lemma growing_eqv x l s s' : eqv s s' -> wf s' -> growing x l s -> growing x l s'.
Proof.
  intros Q W [H1 H2 H3 H4 [H5 H6]]. constructor.
  - by apply (world_eqv _ s).
  - by apply (tree_eqv s).
  - by apply (eqv_live s).
  - eapply Forall_impl; [exact H4|]. intros v. destruct v; simpl; try done. by apply (eqv_live s).
  - split; [done|]. eapply Forall_impl; [exact H6|]. intros c. by apply free_eqv.
Qed.
Lemma growing_view x l s : growing x l s -> exists w, views s !! x = Some w /\ class_of s x = Some (w_cls w) /\ adopting (w_cls w) /\ tree_class (c_behs (w_cls w)) = true.
Proof.
  intros [W _ Hx _ _]. apply views_live in Hx as [w Hw]. assert (Hc : class_of s x = Some (w_cls w)) by (rewrite ob_class; unfold fld; by rewrite Hw).
  exists w. split; [done|]. split; [done|]. pose proof (wd_nodes _ _ W _ _ Hc) as Ha. split; [done|]. apply new_tree. apply Ha.
Qed.
Lemma growing_get x l s k : growing x l s -> growing x l (snd (getitem x k s)).
Proof.
  intros G. destruct (growing_view _ _ _ G) as (w & Hw & _ & _ & Ht).
  destruct (getitem_eff s x w k (wd_wf _ _ (gr_world _ _ _ G)) Hw Ht) as (s' & E & Q & W'). rewrite E. by apply (growing_eqv x l s).
Qed.
Lemma growing_iter x l s : growing x l s -> growing x l (snd (Model.iter x s)).
Proof.
  intros G. destruct (growing_view _ _ _ G) as (w & Hw & _ & _ & Ht).
  destruct (iter_eff s x w (wd_wf _ _ (gr_world _ _ _ G)) Hw Ht) as (s' & E & Q & W'). rewrite E. by apply (growing_eqv x l s).
Qed.

Global Instance to_spaces_dec cls k : Decision (to_spaces cls k).
Proof.
  destruct (nskey (c_behs cls) k) eqn:E; [left; by apply nskey_dunder|right; by apply nskey_dunder_false].
Defined.
(** ** Assignment *)
Lemma np_place s s' x c k : fld w_np s' c = fld w_np s c \/ fld w_np s' c = Some (k, Some x) ->
  keeps_place s s' c \/ (name_at s' c = Some k /\ parent_at s' c = Some x).
Proof.
  intros [H|H]; [left; by apply fld_np|right]. rewrite ob_name, ob_parent. unfold fld in *. destruct (views s' !! c); simpl in *; [|done]. by injection H as -> ->.
Qed.
Lemma holds_assigned cls s x k v s' : wf s -> assigned cls s x k v s' -> forall p pl k' c', holds_at s' p pl k' c' ->
  holds_at s p pl k' c' \/ (v = VNode c' /\ p = x /\ k' = k /\ pl = if decide (to_spaces cls k) then InSpaces else InEntries).
Proof.
  intros W [A1 A2 A3 _ _ _] p pl k' c' H. destruct (decide (p = x)) as [->|Hp].
  2:{ left. destruct (A1 p Hp) as [E1 E2]. unfold holds_at in *. by rewrite E1, E2 in H. }
  destruct (decide (to_spaces cls k)) as [Hs|Hs].
  - destruct (A3 Hs) as [E1 E2]. unfold holds_at in *. rewrite E1, E2 in H. destruct pl; [by left|]. destruct H as [H Hne].
    rewrite value_at_put in H by (by apply spaces_nodup). case_decide as E; [|by left]. right. split; [congruence|done].
  - destruct (A2 Hs) as [E1 E2]. unfold holds_at in *. rewrite E1, E2 in H. destruct pl; [|by left].
    rewrite value_at_put in H by (by apply entries_nodup). case_decide as E; [|by left]. right. split; [congruence|done].
Qed.
Lemma nodes_among_cons v vs : nodes_among (v :: vs) = (match v with VNode c => [c] | _ => [] end) ++ nodes_among vs.
Proof. done. Qed.
Lemma growing_set x l s k v : growing x ((k, v) :: l) s -> growing x l (snd (setitem x k v s)).
Proof.
  intros G. destruct (growing_view _ _ _ G) as (w & Hw & Hc & Ha & Ht). destruct G as [W T Hx Hkn [Hnd Hfr]].
  pose proof (wd_wf _ _ W) as Wf. cbn [map snd] in Hkn, Hnd, Hfr. apply Forall_cons in Hkn as [Hv Hkn].
  pose proof Hc as Hc'. rewrite ob_class in Hc'.
  destruct (setitem_eff s x (w_cls w) k v Wf Hc' Ht Hv) as (r & s' & E & F & _). rewrite E. simpl.
  assert (Hcl : forall y, class_of s' y = class_of s y). { intros y. apply core_obs. apply F. }
  pose (oc := match v with VNode c => Some c | _ => None end).
  assert (Hoc : forall c, oc = Some c <-> v = VNode c). { intros c. unfold oc. destruct v; split; intros; simplify_eq; done. }
  assert (Had : hasc Adopt (c_behs (w_cls w)) = true) by (apply hasc_in, Ha).
  assert (Hfree : forall c, oc = Some c -> free s x c).
  { intros c Hc0%Hoc. subst v. rewrite nodes_among_cons in Hfr. apply Forall_app in Hfr as [Hfr _]. by apply Forall_cons in Hfr as [? _]. }
  destruct T as [T1 T2 T3 T4].
  assert (Hstep : consistent s' /\ acyclic s' /\ forall c', free s x c' -> oc <> Some c' -> free s' x c').
  { apply (place_step s s' x oc k); try done.
    - intros p pl k' c' H. destruct r as [[]|e].
      + pose proof (setitem_assigned s x (w_cls w) k v s' Wf Hc Ht Hv E) as A. destruct (holds_assigned _ _ _ _ _ _ Wf A _ _ _ _ H) as [H0|(-> & -> & -> & _)]; [by left|right].
        split; [done|]. split; [done|]. split; [done|]. destruct (adoption s x _ k c' s' Wf Hc Ht (proj2 Ha) Hv E) as (? & ? & _). done.
      + left. apply (holds_same s s'); [|done]. by destruct (setitem_failed s x _ k v e s' Wf Hc Ht Hv E).
    - intros y Hy. apply fld_np. apply F. intros E0. apply Hy. by apply Hoc.
    - intros c Hc0. split; [by apply Hfree|]. apply Hoc in Hc0. apply np_place. destruct r as [[]|e].
      + right. rewrite (se_np_ret _ _ _ _ _ _ _ _ _ _ F c Hc0 eq_refl), Had. done.
      + destruct (se_np_exc _ _ _ _ _ _ _ _ _ _ F c e Hc0 eq_refl) as [H|[_ H]]; auto. }
  destruct Hstep as (S1 & S2 & S3). constructor.
  - apply (world_same _ s); try done; apply F.
  - constructor; try done.
    2:{ destruct r as [[]|e].
        - apply (once_step s s' oc (if decide (to_spaces (w_cls w) k) then InSpaces else InEntries)); [|intros c Hc0; by apply Hfree|done].
          intros p pl k' c' H. pose proof (setitem_assigned s x (w_cls w) k v s' Wf Hc Ht Hv E) as A.
          destruct (holds_assigned _ _ _ _ _ _ Wf A _ _ _ _ H) as [H0|(-> & _ & _ & ->)]; [by left|by right].
        - apply (once_keep s); [|done]. apply holds_same. by destruct (setitem_failed s x _ k v e s' Wf Hc Ht Hv E). }
    apply (apart_step s); try done. intros y cls k' v' Hy Hin. destruct r as [[]|e].
    + destruct (setitem_assigned s x (w_cls w) k v s' Wf Hc Ht Hv E) as [A1 A2 A3 _ _ _]. destruct (decide (y = x)) as [->|Hne].
      * assert (cls = w_cls w) as -> by congruence. destruct (decide (to_spaces (w_cls w) k)) as [Hs|Hs].
        -- left. exists v'. destruct (A3 Hs) as [_ <-]. done.
        -- destruct (A2 Hs) as [E1 _]. rewrite E1 in Hin. rewrite put_spec in Hin by (by apply entries_nodup).
           assert (Hin' : k' ∈ dkeys (dset k v (entries_at s x))) by (apply elem_of_dkeys; eauto).
           apply elem_of_dkeys_dset in Hin' as [->|Hin']; [by right|left]. by apply elem_of_dkeys.
      * left. exists v'. destruct (A1 y Hne) as [<- _]. done.
    + left. exists v'. destruct (setitem_failed s x _ k v e s' Wf Hc Ht Hv E) as [He _]. destruct (He y) as [<- _]. done.
  - by apply (exists_same s s').
  - eapply Forall_impl; [exact Hkn|]. intros u. destruct u; simpl; try done. by apply exists_same.
  - rewrite nodes_among_cons in Hnd, Hfr. apply NoDup_app in Hnd as (_ & Hdis & Hnd). apply Forall_app in Hfr as [_ Hfr]. split; [done|].
    apply Forall_forall. intros c Hin. rewrite Forall_forall in Hfr. apply S3; [by apply Hfr|]. intros Hc0%Hoc. subst v. apply (Hdis c); [left|done].
Qed.

(** ** Deletion and detaching: [x] lost an entry, or nothing changed *)
Definition lost (cls : classdef) (s : st) (x : nat) (k : key) (s' : st) : Prop := removed cls s x k s' \/ (entries_everywhere s s' /\ forall y, keeps_place s s' y).
Lemma holds_removed cls s x k s' : wf s -> removed cls s x k s' -> forall p pl k' c', holds_at s' p pl k' c' -> holds_at s p pl k' c'.
Proof.
  intros W [A1 A2 A3 _ _ _] p pl k' c' H. destruct (decide (p = x)) as [->|Hp].
  2:{ destruct (A1 p Hp) as [E1 E2]. unfold holds_at in *. by rewrite E1, E2 in H. }
  destruct (decide (to_spaces cls k)) as [Hs|Hs].
  - destruct (A3 Hs) as (_ & E1 & E2). unfold holds_at in *. rewrite E1, E2 in H. destruct pl; [done|]. destruct H as [H Hne].
    rewrite value_at_remove in H by (by apply spaces_nodup). by case_decide.
  - destruct (A2 Hs) as (_ & E1 & E2). unfold holds_at in *. rewrite E1, E2 in H. destruct pl; [|done].
    rewrite value_at_remove in H by (by apply entries_nodup). by case_decide.
Qed.
Lemma tree_lost cls s x k s' : wf s -> exists_node s x -> (forall y, class_of s' y = class_of s y) -> lost cls s x k s' -> tree_ok s -> tree_ok s'.
Proof.
  intros W Hx Hcl Hl [T1 T2 T3 T4].
  assert (Hh : forall p pl k' c', holds_at s' p pl k' c' -> holds_at s p pl k' c').
  { intros p pl k' c' H. destruct Hl as [R|[He _]]; [by apply (holds_removed cls s x k s')|by apply (holds_same s s')]. }
  destruct (place_step s s' x None k) as (S1 & S2 & _); try done.
  - intros p pl k' c' H. left. by apply Hh.
  - intros y _. destruct Hl as [R|[_ H]]; [apply R|apply H].
  - constructor; try done; [|by apply (once_keep s)]. apply (apart_step s); try done. intros y cls' k' v' Hy Hin. left. exists v'.
    destruct Hl as [[A1 A2 A3 _ _ _]|[He _]]; [|by destruct (He y) as [<- _]]. destruct (decide (y = x)) as [->|Hne]; [|by destruct (A1 y Hne) as [<- _]].
    destruct (decide (to_spaces cls k)) as [Hs|Hs]; [by destruct (A3 Hs) as (_ & _ & <-)|]. destruct (A2 Hs) as (_ & E1 & _). rewrite E1 in Hin.
    rewrite remove_spec in Hin by (by apply entries_nodup). apply elem_of_ddel in Hin as [? _]; [done|]. by apply entries_nodup.
Qed.
Lemma growing_del x s k : growing x [] s -> growing x [] (snd (delitem x k s)).
Proof.
  intros G. destruct (growing_view _ _ _ G) as (w & Hw & Hc & Ha & Ht). destruct G as [W T Hx _ _]. pose proof (wd_wf _ _ W) as Wf.
  destruct (delitem_eff s x w k Wf Hw Ht) as (r & s' & E & F & _). { intros _. apply all_tree_all. by apply adopting_trees. }
  rewrite E. simpl. assert (Hcl : forall y, class_of s' y = class_of s y). { intros y. apply core_obs. apply F. }
  constructor.
  - apply (world_same _ s); try done; apply F.
  - apply (tree_lost (w_cls w) s x k s'); try done. destruct r as [[]|e].
    + left. eapply delitem_removed; try done. intros _. by apply adopting_trees.
    + right. eapply delitem_failed; try done. intros _. by apply adopting_trees.
  - by apply (exists_same s s').
  - by constructor.
  - apply assignable_nil.
Qed.
Lemma core2_obs s s' x : fld w_core2 s' x = fld w_core2 s x -> class_of s' x = class_of s x /\ uuid_at s' x = uuid_at s x.
Proof.
  intros H. rewrite !ob_class, !ob_uuid. unfold fld in *. destruct (views s' !! x), (views s !! x); simpl in *; try done.
  by injection H as -> ? ? ->.
Qed.
Lemma growing_detach x s k : growing x [] s -> growing x [] (snd (detach x k s)).
Proof.
  intros G. destruct (growing_view _ _ _ G) as (w & Hw & Hc & Ha & Ht). destruct G as [W T Hx _ _]. pose proof (wd_wf _ _ W) as Wf.
  destruct (detach_eff s x w k Wf Hw Ht) as (r & s' & d & ix & E & F). { intros _. apply all_tree_all. by apply adopting_trees. }
  rewrite E. simpl. assert (Hcl : forall y, class_of s' y = class_of s y). { intros y. apply core2_obs. apply F. }
  assert (Hl : live s x) by done.
  constructor.
  - apply (world_same _ s); try done; apply F.
  - destruct T as [T1 T2 T3 T4]. assert (Hkp : forall y, keeps_place s s' y) by (intros y; apply fld_np, F).
    assert (He : forall y, (entries_at s' y = entries_at s y \/ entries_at s' y = ddel k (entries_at s y)) /\ (spaces_at s' y = spaces_at s y \/ spaces_at s' y = ddel k (spaces_at s y))).
    { intros y. rewrite (ob_entries s'), (ob_spaces s'), (dt_ent _ _ _ _ _ _ _ _ _ _ F), (dt_ns _ _ _ _ _ _ _ _ _ _ F). split.
      - case_decide; [|left; by rewrite ob_entries]. subst. destruct (d && _); [right; by rewrite ent_fmap|left; by rewrite ob_entries].
      - case_decide; [|left; by rewrite ob_spaces]. subst. destruct (d && _); [right; by rewrite ns_fmap|left; by rewrite ob_spaces]. }
    assert (Hdel : forall k' v e, NoDup (dkeys e) -> value_at k' (ddel k e) = Some v -> value_at k' e = Some v).
    { intros k' v e ND. rewrite !value_at_spec. destruct (decide (k' = k)) as [->|Hne]; [by rewrite dget_ddel_eq|by rewrite dget_ddel_ne]. }
    assert (Hh : forall p pl k' c', holds_at s' p pl k' c' -> holds_at s p pl k' c').
    { intros p pl k' c' H. destruct (He p) as [H1 H2]. destruct pl; simpl in *.
      - destruct H1 as [H1|H1]; rewrite H1 in H; [done|]. apply Hdel in H; [done|by apply entries_nodup].
      - destruct H as [H Hne]. split; [|done]. destruct H2 as [H2|H2]; rewrite H2 in H; [done|]. apply Hdel in H; [done|by apply spaces_nodup]. }
    destruct (place_step s s' x None k) as (S1 & S2 & _); try done.
    + intros p pl k' c' H. left. by apply Hh.
    + constructor; try done; [|by apply (once_keep s)]. apply (apart_step s); try done. intros y cls' k' v' Hy Hin. left. exists v'. destruct (He y) as [[H1|H1] _]; rewrite H1 in Hin; [done|].
      apply elem_of_ddel in Hin as [? _]; [done|]. by apply entries_nodup.
  - by apply (exists_same s s').
  - by constructor.
  - apply assignable_nil.
Qed.

(** ** Calls that move nothing *)
Record calm (s s' : st) : Prop := Calm {
  cm_class : forall y, class_of s' y = class_of s y;
  cm_place : forall y, keeps_place s s' y;
  cm_ent : forall y k, value_at k (entries_at s' y) = value_at k (entries_at s y);
  cm_ns : forall y k, value_at k (spaces_at s' y) = value_at k (spaces_at s y)
}.
Lemma tree_calm s s' : wf s' -> calm s s' -> tree_ok s -> tree_ok s'.
Proof.
  intros W [Hc Hk He Hn] [T1 T2 T3 T4].
  assert (Hh : forall p pl k c, holds_at s' p pl k c -> holds_at s p pl k c).
  { intros p pl k c. destruct pl; simpl; [by rewrite He|by rewrite Hn]. }
  constructor.
  - intros p pl k c H. destruct (Hk c) as [-> ->]. apply (T1 p pl k c). by apply Hh.
  - intros y Hy. apply (exists_same s s') in Hy; [|done]. destruct (T2 y Hy) as [l C]. exists l. apply (chain_keep s); [done| |].
    + intros z _. by destruct (Hk z).
    + intros z _. by apply exists_same.
  - apply (apart_step s); try done. intros x cls k v _ Hin. left.
    assert (Hv : value_at k (entries_at s' x) = Some v) by (rewrite value_at_spec; apply in_dget; [by apply entries_nodup|done]).
    rewrite He, value_at_spec in Hv. exists v. by apply dget_Some_in.
  - by apply (once_keep s).
Qed.
Lemma same_world_calm s s' : same_world s s' -> calm s s'.
Proof. intros [H _ _]. constructor; intros y; destruct (H y); try congruence; done. Qed.
Lemma world_old H s s' : wf s' -> (0 < next_uuid s')%N -> ext s s' -> (forall y, exists_node s' y -> exists_node s y) -> world H s -> world H s'.
Proof.
  intros W U X Hn []. constructor; try done.
  - intros cn cls. rewrite (ext_classes _ _ X). apply wd_table0.
  - intros x cls Hc. assert (Hx : exists_node s' x) by (apply exists_class; by eexists). apply Hn in Hx as [o Ho].
    destruct (ext_nodes _ _ X _ _ Ho) as (o' & Ho' & E). unfold class_of in Hc. rewrite Ho' in Hc. simpl in Hc. injection Hc as <-. rewrite E.
    apply (wd_nodes0 x). unfold class_of. by rewrite Ho.
Qed.

(** ** A new node *)
Lemma chain_known s x l : wf s -> chain s x l -> forall y, y ∈ l -> exists_node s y.
Proof.
  intros W C y Hy. destruct (chain_tail _ _ _ C y Hy) as (_ & l2 & _ & C2). by apply (chain_exists s y l2).
Qed.
Lemma tree_alloc s s' a : wf s -> wf s' -> ~ exists_node s a -> (forall y, y <> a -> class_of s' y = class_of s y /\ keeps_place s s' y) ->
  (forall p pl k c, holds_at s' p pl k c -> holds_at s p pl k c \/ (c = a /\ pl = InSpaces /\ name_at s' a = Some k /\ parent_at s' a = Some p)) ->
  (forall x cls k v, class_of s' x = Some cls -> (k, v) ∈ entries_at s' x -> (k, v) ∈ entries_at s x) ->
  (forall p, parent_at s' a = Some p -> exists_node s p) -> tree_ok s -> tree_ok s'.
Proof.
  intros W W' Ha Hk Hh He Hp [T1 T2 T3 T4].
  assert (Hch : forall y l, chain s y l -> chain s' y l).
  { intros y l C. apply (chain_keep s); [done| |].
    - intros z Hz. destruct (Hk z) as [_ [_ ->]]; [|done]. intros ->. apply Ha. by apply (chain_known s y l).
    - intros z Hz Hex. destruct (Hk z) as [E _]; [by intros ->|]. by apply (exists_same s s'). }
  constructor.
  - intros p pl k c H. destruct (Hh _ _ _ _ H) as [H0|(-> & _ & ? & ?)]; [|done]. destruct (Hk c) as [_ [-> ->]]; [|by apply (T1 p pl)].
    intros ->. apply Ha. by apply (holds_known s p pl k).
  - intros y Hy. destruct (decide (y = a)) as [->|Hne].
    + destruct (parent_at s' a) as [p|] eqn:Ep.
      * destruct (T2 p (Hp _ eq_refl)) as [l C]. exists (a :: l). apply chain_up with p; [done|]. by apply Hch.
      * exists [a]. by apply chain_root.
    + destruct (T2 y) as [l C]; [apply (exists_same s s'); [|done]; by apply Hk|]. exists l. by apply Hch.
  - intros x cls k v Hc Hin. destruct (decide (x = a)) as [->|Hne].
    + apply He with (cls := cls) in Hin; [|done]. exfalso. apply Ha. unfold entries_at in Hin. unfold exists_node. destruct (nodes s !! a); [by eexists|by apply elem_of_nil in Hin].
    + apply (T3 x cls k v); [by destruct (Hk x Hne) as [<- _]|by apply (He x cls)].
  - apply (once_step s s' (Some a) InSpaces); [| |done].
    + intros p pl k c H. destruct (Hh _ _ _ _ H) as [H0|(-> & -> & _)]; [by left|by right].
    + intros c [= <-] p pl k H. apply Ha. by apply (holds_known s p pl k).
Qed.
Lemma tree_new c name parent s x s' : wf s -> new_eff c name parent s x s' -> (forall p, parent = Some p -> exists_node s p) -> tree_ok s -> tree_ok s'.
Proof.
  intros W [Nid Nw Nf No (i & u & Ns & _) _ _ _] Hp T.
  assert (Hx : ~ exists_node s x). { intros H. apply views_live in H. rewrite Nf in H. by destruct H. }
  assert (Hsame : forall y, y <> x -> Observe.same_node s s' y) by (intros y Hy; by apply same_node_views, No).
  apply (tree_alloc s s' x); try done.
  - intros y Hy. by destruct (Hsame y Hy).
  - intros p pl k c' H. destruct (decide (p = x)) as [->|Hne].
    + exfalso. unfold holds_at in H. rewrite ob_entries, ob_spaces in H. unfold fld in H. rewrite Ns in H. simpl in H. destruct pl; [done|].
      unfold value_at in H. simpl in H. case_bool_decide as E; simpl in H; [|by destruct H]. destruct H as [[= <-] H]. apply H. done.
    + left. destruct (Hsame p Hne) as [_ _ _ E1 E2 _ _ _ _ _]. unfold holds_at in *. by rewrite E1, E2 in H.
  - intros y cls k v Hc Hin. destruct (decide (y = x)) as [->|Hne].
    + rewrite ob_entries in Hin. unfold fld in Hin. rewrite Ns in Hin. simpl in Hin. by apply elem_of_nil in Hin.
    + by destruct (Hsame y Hne) as [_ _ _ <- _ _ _ _ _ _].
  - intros p Hpp. rewrite ob_parent in Hpp. unfold fld in Hpp. rewrite Ns in Hpp. simpl in Hpp. by apply Hp.
Qed.
Lemma world_new (H : classdef -> Prop) c name parent s x s' : new_eff c name parent s x s' -> H c -> wf s' -> (0 < next_uuid s')%N -> ext s s' -> world H s -> world H s'.
Proof.
  intros [Nid Nw Nf No (i & u & Ns & _) _ _ Nc] Hc W U X []. constructor; try done.
  - intros cn cls. rewrite Nc. apply wd_table0.
  - intros y cls Hy. destruct (decide (y = x)) as [->|Hne].
    + rewrite ob_class in Hy. unfold fld in Hy. rewrite Ns in Hy. simpl in Hy. by injection Hy as <-.
    + apply (wd_nodes0 y). rewrite ob_class in *. unfold fld in *. by rewrite <- No.
Qed.
Lemma tree_attrs c s x a s' : wf s -> attrs_eff c x a s s' -> tree_ok s -> tree_ok s'.
Proof.
  intros W [Nw Nf No (w & Hw & Hw') (i & u & Ns & _) _ _ _] T.
  assert (Ha : ~ exists_node s a). { intros H. apply views_live in H. rewrite Nf in H. by destruct H. }
  assert (Hax : x <> a) by congruence.
  assert (Hsame : forall y, y <> a -> y <> x -> Observe.same_node s s' y) by (intros y Hy1 Hy2; apply same_node_views; by apply No).
  assert (Hx : class_of s' x = class_of s x /\ keeps_place s s' x /\ entries_at s' x = entries_at s x).
  { unfold keeps_place. rewrite !ob_class, !ob_name, !ob_parent, !ob_entries. unfold fld. rewrite Hw, Hw'. done. }
  apply (tree_alloc s s' a); try done.
  - intros y Hy. destruct (decide (y = x)) as [->|Hne]; [destruct Hx as (? & ? & _); done|]. by destruct (Hsame y Hy Hne).
  - intros p pl k c' H. destruct (decide (p = a)) as [->|Hpa]; [|destruct (decide (p = x)) as [->|Hpx]].
    + exfalso. unfold holds_at in H. rewrite ob_entries, ob_spaces in H. unfold fld in H. rewrite Ns in H. simpl in H. destruct pl; [done|].
      unfold value_at in H. simpl in H. case_bool_decide as E; simpl in H; [|by destruct H]. destruct H as [[= <-] H]. apply H. done.
    + destruct pl; simpl in *; [left; by destruct Hx as (_ & _ & <-)|]. destruct H as [H Hne]. rewrite !ob_spaces in *. unfold fld in *. rewrite Hw, Hw' in *.
      simpl in *. rewrite !value_at_spec in *. destruct (decide (k = attrs_key)) as [->|Hk].
      * rewrite dget_dset_eq in H. injection H as <-. right. split; [done|]. rewrite ob_name, ob_parent. unfold fld. by rewrite Ns.
      * rewrite dget_dset_ne in H by done. by left.
    + left. destruct (Hsame p Hpa Hpx) as [_ _ _ E1 E2 _ _ _ _ _]. unfold holds_at in *. by rewrite E1, E2 in H.
  - intros y cls k v Hc Hin. destruct (decide (y = a)) as [->|Hne]; [|destruct (decide (y = x)) as [->|Hne']].
    + rewrite ob_entries in Hin. unfold fld in Hin. rewrite Ns in Hin. simpl in Hin. by apply elem_of_nil in Hin.
    + by destruct Hx as (_ & _ & <-).
    + by destruct (Hsame y Hne Hne') as [_ _ _ <- _ _ _ _ _ _].
  - intros p Hpp. rewrite ob_parent in Hpp. unfold fld in Hpp. rewrite Ns in Hpp. simpl in Hpp. injection Hpp as <-. apply views_live. by eexists.
Qed.
Lemma world_attrs (H : classdef -> Prop) c s x a s' : attrs_eff c x a s s' -> H c -> wf s' -> (0 < next_uuid s')%N -> world H s -> world H s'.
Proof.
  intros [Nw Nf No (w & Hw & Hw') (i & u & Ns & _) _ _ Nc] Hc W U []. constructor; try done.
  - intros cn cls. rewrite Nc. apply wd_table0.
  - intros y cls Hy. destruct (decide (y = a)) as [->|Hne]; [|destruct (decide (y = x)) as [->|Hne']].
    + rewrite ob_class in Hy. unfold fld in Hy. rewrite Ns in Hy. simpl in Hy. by injection Hy as <-.
    + apply (wd_nodes0 x). rewrite ob_class in *. unfold fld in *. by rewrite Hw, Hw' in *.
    + apply (wd_nodes0 y). rewrite ob_class in *. unfold fld in *. by rewrite <- No.
Qed.

(** ** Order *)
Lemma exchanged_elem i j (d d' : list (key * val)) ei ej : d !! i = Some ei -> d !! j = Some ej -> exchanged i j d d' -> forall e, e ∈ d' -> e ∈ d.
Proof.
  intros Hi Hj (L & A & B & C) e He. apply elem_of_list_lookup in He as [m Hm]. apply elem_of_list_lookup.
  destruct (decide (m = i)) as [->|H1]; [exists j; congruence|]. destruct (decide (m = j)) as [->|H2]; [exists i; congruence|]. exists m. by rewrite <- C.
Qed.
Lemma exchanged_sym i j (d d' : list (key * val)) : exchanged i j d d' -> exchanged i j d' d.
Proof. intros (L & A & B & C). repeat split; auto. intros m H1 H2. symmetry. auto. Qed.
Lemma same_elems_value (d d' : list (key * val)) k : NoDup (dkeys d) -> NoDup (dkeys d') -> (forall e, e ∈ d' <-> e ∈ d) -> value_at k d' = value_at k d.
Proof.
  intros N N' H. rewrite !value_at_spec. destruct (dget k d) as [v|] eqn:E.
  - apply in_dget; [done|]. apply H. by apply dget_Some_in.
  - apply dget_None. apply dget_None in E. intros Hin. apply E. apply elem_of_dkeys in Hin as [v Hv]. apply elem_of_dkeys. exists v. by apply H.
Qed.
Lemma swap_calm s x a b cls r s' : wf s -> wf s' -> class_of s x = Some cls -> tree_class (c_behs cls) = true -> exists_node s a -> exists_node s b ->
  swap x a b s = (r, s') -> calm s s'.
Proof.
  intros W W' Hc Ht [oa Hoa] [ob Hob] E. pose proof (tree_class_inv _ Ht) as [_ Hst].
  destruct (ordering (c_behs cls)) eqn:Hor.
  2:{ destruct (swap_other s x a b cls W Hc Hst Hor) as (s1 & E1 & Q & _). rewrite E in E1. injection E1 as -> <-. by apply same_world_calm, same_world_eqv. }
  assert (Ha : name_at s a = Some (o_name oa)) by (unfold name_at; by rewrite Hoa).
  assert (Hb : name_at s b = Some (o_name ob)) by (unfold name_at; by rewrite Hob).
  assert (Href : o_name oa = o_name ob \/ value_at (o_name oa) (entries_at s x) = None \/ value_at (o_name ob) (entries_at s x) = None -> calm s s').
  { intros H. destruct (swap_refused s x a b cls _ _ W Hc Hst Hor Ha Hb H) as (s1 & E1 & Sw). rewrite E in E1. injection E1 as -> <-. by apply same_world_calm. }
  destruct (decide (o_name oa = o_name ob)) as [He|Hne]; [auto|].
  destruct (value_at (o_name oa) (entries_at s x)) as [va|] eqn:Hva; [|auto]. destruct (value_at (o_name ob) (entries_at s x)) as [vb|] eqn:Hvb; [|auto]. clear Href.
  rewrite value_at_spec in Hva, Hvb. apply dget_Some_in in Hva, Hvb. apply elem_of_list_lookup in Hva as [i Hi], Hvb as [j Hj].
  destruct (swap_works s x a b cls _ _ i j va vb W Hc Hst Hor Ha Hb Hne Hi Hj) as (d & s1 & E1 & X & O). rewrite E in E1. injection E1 as -> <-.
  destruct O as [Oe Os Oo (Oc & Ok & _) _ _].
  constructor.
  - intros y. destruct (decide (y = x)) as [->|Hy]; [done|by destruct (Oo y Hy)].
  - intros y. destruct (decide (y = x)) as [->|Hy]; [done|by destruct (Oo y Hy)].
  - intros y k. destruct (decide (y = x)) as [->|Hy]; [|destruct (Oo y Hy) as [_ _ _ -> _ _ _ _ _ _]; done].
    apply same_elems_value; [by apply entries_nodup|by apply entries_nodup|]. rewrite Oe. intros e. split; [by apply (exchanged_elem i j _ _ _ _ Hi Hj)|].
    pose proof (exchanged_sym _ _ _ _ X) as X'. destruct X as (_ & A & B & _). rewrite Hi in B. rewrite Hj in A. by apply (exchanged_elem i j _ _ _ _ A B).
  - intros y k. destruct (decide (y = x)) as [->|Hy]; [by rewrite Os|destruct (Oo y Hy) as [_ _ _ _ -> _ _ _ _ _]; done].
Qed.
(** the new node among the entries *)
Definition joined (cls : classdef) (s : st) (x n : nat) (k : key) (s' : st) : Prop :=
  inserted cls s x n k s' /\ forall e, e ∈ entries_at s' x <-> e = (k, VNode n) \/ e ∈ entries_at s x.
Lemma beside_joined b rk (e0 : key * val) d d' : beside b rk e0 d d' -> forall e, e ∈ d' <-> e = e0 \/ e ∈ d.
Proof. intros (l1 & v & l2 & -> & ->) e. destruct b; set_unfold; naive_solver. Qed.
Lemma insert_at_joined before s x n r s' r0 cls t : wf s -> class_of s x = Some cls -> tree_class (c_behs cls) = true -> exists_node s r ->
  name_at s n = Some (KStr t) -> ~ to_spaces cls (KStr t) -> value_at (KStr t) (entries_at s x) = None -> joins cls s x n ->
  insert_at before x n r s = (r0, s') -> joined cls s x n (KStr t) s' \/ same_world s s'.
Proof.
  intros W Hc Ht [or Hor] Hn Hns Hk HJ E. destruct (ordering (c_behs cls)) eqn:Hod.
  2:{ destruct (insert_at_other before s x n r cls W Hc (proj2 (tree_class_inv _ Ht)) Hod) as (e & s1 & E1 & _ & Q & _). rewrite E in E1. injection E1 as -> <-.
      right. by apply same_world_eqv. }
  assert (Hr : name_at s r = Some (o_name or)) by (unfold name_at; by rewrite Hor).
  destruct (value_at (o_name or) (entries_at s x)) as [vr|] eqn:Hv.
  - left. destruct (insert_works before s x n r cls t _ W Hc Ht Hod Hn Hns Hk Hr (mk_is_Some _ _ Hv) HJ) as (s1 & E1 & B & I). rewrite E in E1. injection E1 as -> <-.
    split; [done|]. by apply (beside_joined before (o_name or)).
  - right. destruct (absent_refused before s x n r cls (KStr t) _ W Hc Ht Hod Hn (joins_admitted cls s x n (KStr t) HJ Hn ltac:(done)) Hr Hv) as (m & s1 & E1 & Sw).
    rewrite E in E1. by injection E1 as -> <-.
Qed.
Lemma insert_end_joined first s x n s' r0 cls t : wf s -> tree_ok s -> class_of s x = Some cls -> tree_class (c_behs cls) = true ->
  name_at s n = Some (KStr t) -> ~ to_spaces cls (KStr t) -> value_at (KStr t) (entries_at s x) = None -> joins cls s x n ->
  insert_end first x n s = (r0, s') -> joined cls s x n (KStr t) s' \/ same_world s s'.
Proof.
  intros W T Hc Ht Hn Hns Hk HJ E. destruct (hasc Order (c_behs cls)) eqn:Hor.
  2:{ rewrite (insert_end_other first s x n cls Hc Hor) in E. injection E as <- <-. right. by apply same_world_eqv, eqv_refl. }
  destruct (end_of first (entries_at s x)) as [[rk v]|] eqn:Ee.
  - assert (Hin : (rk, v) ∈ entries_at s x).
    { destruct first; simpl in Ee; [destruct (entries_at s x); [done|]; injection Ee as ->; left|]. apply last_Some in Ee as [l ->]. apply elem_of_app. right. by left. }
    assert (Hrs : ~ to_spaces cls rk) by (by apply (tk_apart _ T x cls rk v)).
    assert (Hg : value_at rk (entries_at s x) = Some v). { rewrite value_at_spec. apply in_dget; [by apply entries_nodup|done]. }
    assert (Hv : (exists r, v = VNode r) \/ not_a_node v). { destruct v; eauto; right; intros c; done. }
    destruct Hv as [[r ->]|Hv].
    + destruct (ordering (c_behs cls)) eqn:Hod.
      2:{ right. destruct (insert_end_eff first s x n cls W Hc Ht Hor) as (s1 & Q1 & W1 & E1). rewrite E1, Ee in E.
          pose proof (same_world_eqv _ _ Q1) as [Hs1 _ _]. destruct (Hs1 x) as [Gc _ _ _ _ _ _ _ _ _].
          assert (Hc1 : class_of s1 x = Some cls) by congruence. destruct (class_view _ _ _ Hc1) as (w1 & Hw1 & Hw1c).
          destruct (getitem_eff s1 x w1 rk W1 Hw1) as (s2 & E2 & Q2 & W2); [by rewrite Hw1c|]. unfold bind in E. rewrite E2 in E.
          assert (Q : eqv s s2) by (by apply (eqv_trans s s1)). destruct (get_res w1 rk) as [v'|e]; [|injection E as <- <-; by apply same_world_eqv].
          destruct v'; try (injection E as <- <-; by apply same_world_eqv).
          pose proof (same_world_eqv _ _ Q) as [Hs2 _ _]. destruct (Hs2 x) as [Gc2 _ _ _ _ _ _ _ _ _].
          edestruct (insert_at_other first s2 x n) as (e & s3 & E3 & _ & Q3 & _); [done|rewrite Gc2; exact Hc|apply (proj2 (tree_class_inv _ Ht))|done|].
          rewrite E3 in E. injection E as <- <-. apply same_world_eqv. by apply (eqv_trans s s2). }
      left. destruct (insert_end_works first s x n cls t W Hc Ht Hor (fun _ => Hod) Hn Hns Hk HJ) as (s1 & E1 & B & I).
      { intros rk' v' [= <- <-]%(eq_trans (eq_sym Ee)). split; [done|]. exists r. split; [done|]. by apply (tk_cons _ T x InEntries). }
      rewrite E in E1. injection E1 as -> <-. split; [done|]. rewrite B. intros e. destruct first; set_unfold; naive_solver.
    + right. destruct (insert_end_eff first s x n cls W Hc Ht Hor) as (s1 & Q1 & W1 & E1). rewrite E1, Ee in E.
      pose proof (same_world_eqv _ _ Q1) as [Hs1 _ _]. destruct (Hs1 x) as [Gc _ _ Ge _ _ _ _ _ _].
      assert (Hc1 : class_of s1 x = Some cls) by congruence. destruct (class_view _ _ _ Hc1) as (w1 & Hw1 & Hw1c).
      destruct (getitem_eff s1 x w1 rk W1 Hw1) as (s2 & E2 & Q2 & W2); [by rewrite Hw1c|].
      assert (Eg : get_res w1 rk = Ret v).
      { unfold get_res, look. rewrite Hw1c. assert (nskey (c_behs cls) rk = false) as -> by (by apply nskey_dunder_false).
        pose proof (entries_known s x W) as HF. rewrite Forall_forall in HF. destruct (HF _ Hin) as [Hh _]. simpl in Hh. rewrite Hh.
        rewrite <- (ent_obs _ _ _ Hw1), Ge, <- value_at_spec, Hg. done. }
      rewrite Eg in E2. rewrite (bind_Ret _ _ _ _ _ E2) in E.
      assert (s' = s2) as ->. { destruct v; try (by injection E as <- <-). by edestruct Hv. }
      apply same_world_eqv. by apply (eqv_trans s s1).
  - left. assert (E0 : entries_at s x = []). { destruct first; simpl in Ee; [by destruct (entries_at s x)|]. by apply last_None in Ee. }
    destruct (insert_end_works first s x n cls t W Hc Ht Hor (fun H => False_ind _ (H E0)) Hn Hns Hk HJ) as (s1 & E1 & B & I).
    { intros rk' v' H. congruence. }
    rewrite E in E1. injection E1 as -> <-. split; [done|]. rewrite B. intros e. destruct first; set_unfold; naive_solver.
Qed.
Lemma tree_joined cls s x n k s' : wf s -> wf s' -> adopting cls -> class_of s x = Some cls -> ~ to_spaces cls k -> value_at k (entries_at s x) = None ->
  free s x n -> joined cls s x n k s' -> tree_ok s -> tree_ok s'.
Proof.
  intros W W' Had Hc Hns Hk Hf [[I1 I2 I3 I4 I5 I6] Hj] [T1 T2 T3 T4]. destruct (I4 (proj2 Had)) as [Hn Hp].
  assert (Hh : forall p pl k' c', holds_at s' p pl k' c' -> holds_at s p pl k' c' \/ (c' = n /\ pl = InEntries /\ p = x /\ k' = k)).
  { intros p pl k' c' H. destruct (decide (p = x)) as [->|Hpx].
    2:{ left. destruct (I1 p Hpx) as [E1 E2]. unfold holds_at in *. by rewrite E1, E2 in H. }
    destruct pl; simpl in *; [|left; by rewrite I2 in H]. rewrite value_at_spec in H. apply dget_Some_in in H. apply Hj in H as [[= -> ->]|H]; [by right|].
    left. rewrite value_at_spec. apply in_dget; [by apply entries_nodup|done]. }
  destruct (place_step s s' x (Some n) k) as (S1 & S2 & _); try done.
  - intros p pl k' c' H. destruct (Hh _ _ _ _ H) as [H0|(-> & _ & -> & ->)]; [by left|by right].
  - intros y Hy. apply I3. congruence.
  - intros c [= <-]. split; [done|]. by right.
  - apply exists_class. by eexists.
  - constructor; try done.
    2:{ apply (once_step s s' (Some n) InEntries); [|by intros c [= <-]; apply Hf|done].
        intros p pl k' c' H. destruct (Hh _ _ _ _ H) as [H0|(-> & -> & _)]; [by left|by right]. }
    apply (apart_step s); try done. intros y cls' k' v' Hy Hin. destruct (decide (y = x)) as [->|Hne].
    + assert (cls' = cls) as -> by congruence. apply Hj in Hin as [[= -> ->]|Hin]; [by right|left; by exists v'].
    + left. exists v'. by destruct (I1 y Hne) as [<- _].
Qed.

(** ** Setters *)
Record mild (s s' : st) : Prop := Mild {
  ml_dicts : dicts s' = dicts s;
  ml_nodes : forall y, match nodes s !! y, nodes s' !! y with
    | Some o, Some o' => o_cls o' = o_cls o /\ o_name o' = o_name o /\ o_parent o' = o_parent o /\ o_storage o' = o_storage o /\ o_nodespaces o' = o_nodespaces o
    | None, None => True
    | _, _ => False end
}.
Lemma mild_refl s : mild s s.
Proof. constructor; [done|]. intros y. by destruct (nodes s !! y). Qed.
Lemma mild_trans s1 s2 s3 : mild s1 s2 -> mild s2 s3 -> mild s1 s3.
Proof.
  intros [A B] [C D]. constructor; [congruence|]. intros y. specialize (B y). specialize (D y).
  destruct (nodes s1 !! y), (nodes s2 !! y), (nodes s3 !! y); try done. naive_solver congruence.
Qed.
Lemma mild_calm s s' : mild s s' -> calm s s'.
Proof.
  intros [A B]. constructor; intros y; specialize (B y); unfold keeps_place, class_of, name_at, parent_at, entries_at, spaces_at;
    destruct (nodes s !! y), (nodes s' !! y); simpl in *; try done; destruct B as (B1 & B2 & B3 & B4 & B5); rewrite ?B1, ?B2, ?B3, ?B4, ?B5, ?A; done.
Qed.
Definition mild_op {A} (m : M A) : Prop := forall s, mild s (snd (m s)).
Lemma mild_bind {A B} (m : M A) (f : A -> M B) : mild_op m -> (forall a, mild_op (f a)) -> mild_op (bind m f).
Proof. intros Hm Hf s. specialize (Hm s). unfold bind. destruct (m s) as [[a|e] s1]; simpl in *; [|done]. eapply mild_trans; [done|apply Hf]. Qed.
Lemma mild_same {A} (m : M A) : (forall s, snd (m s) = s) -> mild_op m.
Proof. intros H s. rewrite H. apply mild_refl. Qed.
Lemma mild_modify x f : (forall o, o_cls (f o) = o_cls o /\ o_name (f o) = o_name o /\ o_parent (f o) = o_parent o /\ o_storage (f o) = o_storage o /\ o_nodespaces (f o) = o_nodespaces o) -> mild_op (modify x f).
Proof.
  intros Hf s. unfold modify. destruct (nodes s !! x) as [o|] eqn:Ho; [|apply mild_refl]. constructor; [done|]. intros y. simpl.
  destruct (decide (x = y)) as [<-|Hne]; [rewrite lookup_insert, Ho; apply Hf|rewrite lookup_insert_ne by done; by destruct (nodes s !! y)].
Qed.
Lemma mild_load x : mild_op (load x).
Proof. apply mild_same. intros s. unfold load. by destruct (nodes s !! x). Qed.
Lemma mild_saw u : mild_op (saw_uuid u).
Proof. intros s. destruct u; simpl; [|apply mild_refl]. constructor; [done|]. intros y. simpl. by destruct (nodes s !! y). Qed.
Lemma mild_assign_uuid x u : mild_op (assign_uuid x u).
Proof.
  unfold assign_uuid. apply mild_bind; [apply mild_load|]. intros o. destruct (has Reference o).
  - unfold set_uuid, index_of. apply mild_bind; [apply mild_bind; [apply mild_load|]; intros o'; destruct (o_index o'); by apply mild_same|]. intros i.
    apply mild_bind; [apply mild_same; intros s; unfold read_idx; by destruct (idxs s !! i)|]. intros m.
    destruct (match m !! iuuid u with Some o => _ | None => _ end); [by apply mild_same|].
    apply mild_bind; [apply mild_load|]. intros o'. apply mild_bind.
    { intros s. constructor; [done|]. intros y. simpl. by destruct (nodes s !! y). }
    intros _. apply mild_bind; [apply mild_saw|]. intros _. by apply mild_modify.
  - apply mild_bind; [apply mild_saw|]. intros _. by apply mild_modify.
Qed.

(** * Histories *)
Definition read_only {A} (m : M A) : Prop := forall s, snd (m s) = s.
Lemma ro_bind {A B} (m : M A) (f : A -> M B) : read_only m -> (forall a, read_only (f a)) -> read_only (bind m f).
Proof. intros Hm Hf s. specialize (Hm s). unfold bind. destruct (m s) as [[a|e] s1]; simpl in *; subst s1; [apply Hf|done]. Qed.
Lemma ro_load x : read_only (load x).
Proof. intros s. unfold load. by destruct (nodes s !! x). Qed.
Lemma ro_mapM {A B} (f : A -> M B) l : (forall a, read_only (f a)) -> read_only (mapM_ f l).
Proof. intros H. induction l as [|a l IH]; [by intros s|]. simpl. apply ro_bind; [done|]. intros b. apply ro_bind; [done|]. by intros bs s. Qed.
Lemma ro_loc f o : read_only (location_iterator f o).
Proof.
  revert o. induction f as [|f IH]; intros [x|]; try (by intros s). simpl. apply ro_bind; [apply ro_load|]. intros ob. apply ro_bind; [apply IH|]. by intros r s.
Qed.
Lemma ro_fuel {A} (f : nat -> M A) : (forall n, read_only (f n)) -> read_only (with_fuel f).
Proof. intros H s. apply H. Qed.
Lemma ro_path x : read_only (path_of x).
Proof.
  apply ro_bind; [apply ro_fuel; intros n; apply ro_loc|]. intros l. apply ro_bind; [|by intros r s]. apply ro_mapM. intros a. apply ro_bind; [apply ro_load|by intros r s].
Qed.
Lemma ro_root x : read_only (root_of x).
Proof. apply ro_bind; [apply ro_fuel; intros n; apply ro_loc|]. by intros l s. Qed.
Lemma snd_ignore {A} (m : M A) s : snd (ignore m s) = snd (m s).
Proof. unfold ignore, bind. by destruct (m s) as [[?|?] ?]. Qed.

Lemma new_no_uuid bs : new_class bs = true -> UUIDAware ∉ bs.
Proof.
  unfold new_class. intros [[[_ _]%andb_prop H]%andb_prop _]%andb_prop. apply negb_true_iff in H. intros Hin. by rewrite (proj2 (hasc_in _ _) Hin) in H.
Qed.
Lemma deepcopy_is_deep s x cls y s' : class_of s x = Some cls -> deep x s = (Ret y, s') -> UUIDAware ∉ c_behs cls -> deepcopy x s = (Ret y, s').
Proof.
  intros Hc E Hu. unfold class_of in Hc. destruct (nodes s !! x) as [o|] eqn:Ho; [|done]. injection Hc as <-.
  unfold deepcopy. rewrite (bind_load _ _ _ _ Ho). by rewrite deepcopy_stack_plain.
Qed.
Lemma world_dup H s s' : wf s' -> (0 < next_uuid s')%N -> ext s s' -> duplicate s s' -> world H s -> world H s'.
Proof.
  intros W' U X D W. constructor; try done.
  - intros cn cls. rewrite (ext_classes _ _ X). apply (wd_table _ _ W).
  - intros z cls [Hc|(y & -> & Hc)]%(dup_class s s' (wd_wf _ _ W) D); by eapply (wd_nodes _ _ W).
Qed.
Lemma grown_reach H D s : grown H D s -> reach s.
Proof. induction 1; [constructor|]. by eapply reach_step. Qed.
Lemma old_nodes s s' : (forall y, class_of s' y = class_of s y) -> forall y, exists_node s' y -> exists_node s y.
Proof. intros H y Hy. by apply (exists_same s s'). Qed.

Lemma basic_careful_step s o : basic o = true -> world adopting s -> tree_ok s -> op_ok s o -> careful s o ->
  wf (snd (run_op o s)) -> ext s (snd (run_op o s)) -> (0 < next_uuid (snd (run_op o s)))%N ->
  world adopting (snd (run_op o s)) /\ tree_ok (snd (run_op o s)).
Proof.
  intros Hb W T Hok HD W' X U. pose proof (wd_wf _ _ W) as Wf.
  assert (Hcalm : calm s (snd (run_op o s)) -> world adopting (snd (run_op o s)) /\ tree_ok (snd (run_op o s))).
  { intros C. split; [|by apply (tree_calm s)]. apply (world_old adopting s); try done. apply old_nodes. apply C. }
  assert (Hlift : forall x, op_target o = Some x -> exists_node s x -> Forall (known s) (map snd (op_sets o)) -> assignable s x (map snd (op_sets o)) ->
    world adopting (snd (run_op o s)) /\ tree_ok (snd (run_op o s))).
  { intros x Ht Hx Hkn Has.
    assert (G : growing x [] (snd (run_op o s))); [|by destruct G].
    apply (lift_op x (growing x) (fun _ => True)); try done.
    - intros s1 k. apply growing_get.
    - intros s1 k v. apply growing_get.
    - apply growing_iter.
    - intros l s1 k v. apply growing_set.
    - intros s1 k _. apply growing_del.
    - apply growing_weak.
    - by apply Forall_true.
    - intros _ s1 ks _ _. by apply Forall_true. }
  assert (Hself : forall x, exists_node s x -> growing x [] s).
  { intros x Hx. constructor; try done; [constructor|apply assignable_nil]. }
  destruct o; simpl in Hok, HD; try done;
    try (by (apply (Hlift x); [done|tauto|constructor|apply assignable_nil])).
  - (* ONew *) simpl in *. rewrite !snd_ignore in *. destruct (classes s !! cn) as [c|] eqn:Ec.
    + destruct (new_node_eff s cn c name parent Wf Ec) as (x & s1 & E1 & N).
      { by apply (wd_table _ _ W cn). } { done. } { by apply wd_uuid in W. }
      rewrite E1 in *. simpl in *. split; [eapply world_new; [exact N|by apply (wd_table _ _ W cn)|done..]|by eapply tree_new].
    + assert (E : snd (new_node cn name parent s) = s); [|by rewrite E]. unfold new_node. cbn [instantiate]. unfold bind at 1, get_class. by rewrite Ec.
  - (* OSet *) destruct Hok as [H1 H2]. apply (Hlift x); [done|done|by constructor|done].
  - (* ODetach *) simpl. rewrite snd_ignore. pose proof (growing_detach x s k (Hself x Hok)) as G. by destruct G.
  - (* OUpdate *) destruct Hok as (H1 & H2 & H3). apply (Hlift x); [done|done| |done]. simpl. rewrite map_app. by apply Forall_app.
  - (* OSetdefault *) destruct Hok as [H1 H2]. apply (Hlift x); [done|done|by constructor|done].
  - (* OAttrs *) simpl in *. rewrite !snd_ignore in *. apply views_live in Hok as [w Hw].
    destruct (with_attrs (c_behs (w_cls w))) eqn:Ea.
    2:{ destruct (attrs_refused s x w Wf Hw Ea) as (e & s1 & E & Q & W1). rewrite E in *. simpl. split; [by apply (world_eqv _ s)|by apply (tree_eqv s)]. }
    destruct (dget attrs_key (w_ns w)) as [v|] eqn:Ev.
    + destruct (attrs_found s x w v Wf Hw Ea Ev) as (s1 & E & Q & W1). rewrite E in *. simpl. split; [by apply (world_eqv _ s)|by apply (tree_eqv s)].
    + destruct (classes s !! c_attrs_factory (w_cls w)) as [c|] eqn:Ec.
      * pose proof (wd_table _ _ W _ _ Ec) as Hc. destruct (attrs_missing s x w c Wf Hw Ea Ev Ec) as (a & s1 & E & A); [apply Hc|by apply wd_uuid in W|].
        rewrite E in *. simpl in *. split; [by eapply world_attrs|by eapply tree_attrs].
      * destruct (attrs_no_class s x w Wf Hw Ea Ev Ec) as (e & s1 & E & Q & W1). rewrite E in *. simpl. split; [by apply (world_eqv _ s)|by apply (tree_eqv s)].
  - (* OSwap *) apply Hcalm. destruct Hok as (H1 & H2 & H3). apply exists_class in H1 as [cls Hc].
    simpl in *. destruct (swap x a b s) as [r s'] eqn:E. by apply (swap_calm s x a b cls r s'); [..|apply (adopting_trees s W x)| | |].
  - (* OInsertAt *) destruct Hok as (H1 & H2 & H3). destruct HD as (cls & t & Hc & Hn & Hns & Hk & HJ & Hf).
    simpl in *. destruct (insert_at before x n r s) as [r0 s'] eqn:E. simpl in *.
    destruct (insert_at_joined before s x n r s' r0 cls t Wf Hc (adopting_trees s W x cls Hc) H3 Hn Hns Hk HJ E) as [J|Sw]; [|by apply Hcalm, same_world_calm].
    split; [|by eapply (tree_joined cls s x n (KStr t)); [..|by apply (wd_nodes _ _ W x)| | | | | |]].
    apply (world_old adopting s); try done. apply old_nodes. destruct J as [[]]. done.
  - (* OInsertEnd *) destruct Hok as (H1 & H2). destruct HD as (cls & t & Hc & Hn & Hns & Hk & HJ & Hf).
    simpl in *. destruct (insert_end first x n s) as [r0 s'] eqn:E. simpl in *.
    destruct (insert_end_joined first s x n s' r0 cls t Wf T Hc (adopting_trees s W x cls Hc) Hn Hns Hk HJ E) as [J|Sw]; [|by apply Hcalm, same_world_calm].
    split; [|by eapply (tree_joined cls s x n (KStr t)); [..|by apply (wd_nodes _ _ W x)| | | | | |]].
    apply (world_old adopting s); try done. apply old_nodes. destruct J as [[]]. done.
  - (* OSetUuid *) apply Hcalm, mild_calm. apply mild_assign_uuid.
  - (* OSetAllow *) apply Hcalm, mild_calm. by apply mild_modify.
  - (* OSetFallback *) apply Hcalm, mild_calm. by apply mild_modify.
  - (* OPath *) simpl. rewrite snd_ignore. by rewrite ro_path.
  - (* ORoot *) simpl. rewrite snd_ignore. by rewrite ro_root.
Qed.

(** A removal of entries from the storage of [x], below the node. *)
Lemma wrote_within s x d s1 s' : wf s -> eqv s s1 -> wrote SStorage x d s1 s' ->
  (forall y, class_of s' y = class_of s y) /\ (forall y, keeps_place s s' y) /\ (forall y, spaces_at s' y = spaces_at s y) /\
  (forall y, y <> x -> entries_at s' y = entries_at s y) /\ entries_at s' x = d /\ (forall y, uuid_at s' y = uuid_at s y) /\ (forall y, index_id s' y = index_id s y) /\
  (forall y, y <> x -> views s' !! y = views s !! y) /\ classes s' = classes s /\ next_uuid s' = next_uuid s /\ idxs s' = idxs s.
Proof.
  intros Wf Q [(w & Hw & Hv) Hix Hu _ _ Hcs]. rewrite (e_views _ _ Q) in Hw, Hv.
  assert (HF : forall B (F : view -> B) y, F (vw_slot SStorage d w) = F w -> fld F s' y = fld F s y).
  { intros B F y HF. unfold fld. rewrite Hv. destruct (decide (x = y)) as [<-|Hne]; [rewrite lookup_insert, Hw; simpl; by rewrite <- HF|by rewrite lookup_insert_ne]. }
  repeat split.
  - intros y. rewrite !ob_class. by apply HF.
  - rewrite !ob_name. by apply HF.
  - rewrite !ob_parent. by rewrite HF.
  - intros y. rewrite !ob_spaces. by rewrite HF.
  - intros y Hy. rewrite !ob_entries. unfold fld. by rewrite Hv, lookup_insert_ne.
  - rewrite ob_entries. unfold fld. by rewrite Hv, lookup_insert.
  - intros y. rewrite !ob_uuid. by rewrite HF.
  - intros y. rewrite !ob_index_id. by rewrite HF.
  - intros y Hy. by rewrite Hv, lookup_insert_ne.
  - rewrite Hcs. by apply e_classes.
  - rewrite Hu. by apply e_uuid.
  - rewrite Hix. by apply e_idxs.
Qed.
Lemma below_sub s x k (d : entries) : wf s -> d = (if decide (k = KNone) then [] else ddel k (entries_at s x)) ->
  (forall k' v, (k', v) ∈ d -> (k', v) ∈ entries_at s x) /\ forall k' v, value_at k' d = Some v -> value_at k' (entries_at s x) = Some v.
Proof.
  intros W ->. pose proof (entries_nodup s x W) as ND. case_decide; [split; [by intros k' v ?%elem_of_nil|done]|]. split.
  - intros k' v. rewrite elem_of_ddel by done. by intros [? _].
  - intros k' v. rewrite !value_at_spec. destruct (decide (k' = k)) as [->|Hne]; [by rewrite dget_ddel_eq|by rewrite dget_ddel_ne].
Qed.
(** ** Name and parent assigned directly *)
Record placed (s : st) (x : nat) (p : option nat) (s' : st) : Prop := Placed {
  pd_class : forall y, class_of s' y = class_of s y;
  pd_ent : forall y, entries_at s' y = entries_at s y;
  pd_ns : forall y, spaces_at s' y = spaces_at s y;
  pd_uuid : forall y, uuid_at s' y = uuid_at s y;
  pd_index : forall y, index_id s' y = index_id s y;
  pd_allow : forall y, allows s' y = allows s y;
  pd_parent : parent_at s' x = p;
  pd_place : forall y, y <> x -> keeps_place s s' y;
  pd_classes : classes s' = classes s;
  pd_next : next_uuid s' = next_uuid s;
  pd_idxs : idxs s' = idxs s
}.
Lemma place_eff s x k p : exists_node s x -> exists s', run_op (OPlace x k p) s = (Ret tt, s') /\ placed s x p s'.
Proof.
  intros [o Ho]. cbn [run_op]. unfold bind, modify at 1. rewrite Ho. unfold modify, set_nodes. cbn [nodes]. rewrite lookup_insert. eexists. split; [reflexivity|].
  constructor; try done.
  1-6: intros y; unfold class_of, entries_at, spaces_at, uuid_at, index_id, allows; cbn [nodes]; rewrite insert_insert; destruct (decide (y = x)) as [->|Hne]; [by rewrite lookup_insert, Ho|by rewrite lookup_insert_ne].
  - unfold parent_at. cbn [nodes]. by rewrite lookup_insert.
  - intros y Hne. unfold keeps_place, name_at, parent_at. cbn [nodes]. by rewrite !lookup_insert_ne.
Qed.
Lemma careful_step s o : world adopting s -> tree_ok s -> op_ok s o -> careful s o ->
  wf (snd (run_op o s)) -> ext s (snd (run_op o s)) -> (0 < next_uuid (snd (run_op o s)))%N ->
  world adopting (snd (run_op o s)) /\ tree_ok (snd (run_op o s)).
Proof.
  intros W T Hok HD W' X U. destruct (basic o) eqn:Hb; [by apply basic_careful_step|]. pose proof (wd_wf _ _ W) as Wf. destruct o; try done.
  - (* OInvalidate *) simpl in Hok. pose proof Hok as Hx. apply exists_class in Hx as [cls Hc].
    pose proof (inval_eff s x cls k Wf Hc (adopting_trees s W x cls Hc)) as E. destruct (invalidator (c_behs cls)) as [[|]|].
    + assert (E' : run_op (OInvalidate x k) s = run_op (stands_for x k) s) by exact E. rewrite E' in *. apply basic_careful_step; try done; [apply stands_basic|..]; unfold stands_for; by case_decide.
    + destruct E as (r & s1 & s' & E & Q & W1 & Hs). cbn [run_op] in *. rewrite E in *. cbn [snd] in *. destruct Hs as [->|Hwr]; [split; [by apply (world_eqv _ s)|by apply (tree_eqv s)]|].
      destruct (wrote_within s x _ s1 s' Wf Q Hwr) as (H1 & H2 & H3 & H4 & H5 & _ & _ & _ & H6 & H7 & _). split; [by apply (world_same _ s)|].
      destruct (below_sub s x k _ Wf H5) as [B1 B2].
      assert (Hh : forall p pl k' c, holds_at s' p pl k' c -> holds_at s p pl k' c).
      { intros p pl k' c. destruct pl; simpl; [|by rewrite H3]. destruct (decide (p = x)) as [->|Hp]; [by apply B2|by rewrite H4]. }
      destruct T as [T1 T2 T3 T4]. constructor.
      * intros p pl k' c H. destruct (H2 c) as [-> ->]. apply (T1 p pl k' c). by apply Hh.
      * intros y Hy. apply (exists_same s s') in Hy; [|done]. destruct (T2 y Hy) as [l C]. exists l. apply (chain_keep s); [done| |].
        -- intros z _. by destruct (H2 z).
        -- intros z _. by apply exists_same.
      * apply (apart_step s); try done. intros y cls' k' v _ Hin. left. exists v. destruct (decide (y = x)) as [->|Hy]; [by apply B1|by rewrite <- H4].
      * by apply (once_keep s).
    + cbn [run_op]. by rewrite E.
  - (* ODeepcopy *) simpl in Hok. pose proof Hok as Hx. apply exists_class in Hx as [cls Hc]. pose proof (wd_nodes _ _ W _ _ Hc) as [Hn _].
    destruct (deep_eff s x Wf) as (s' & E & D & _).
    assert (E' : run_op (ODeepcopy x) s = (Ret tt, s')).
    { cbn [run_op]. unfold ignore. erewrite bind_Ret; [|by eapply deepcopy_is_deep, new_no_uuid]. done. }
    rewrite E' in *. cbn [snd] in *. split; [by apply (world_dup _ s)|]. destruct T as [T1 T2 T3 T4]. constructor.
    + by apply (dup_consistent s).
    + by apply (dup_acyclic s).
    + by apply (dup_apart s).
    + intros p k c H1 H2. apply (dup_holds s s' Wf D) in H1 as [H1|(q & d & -> & -> & H1)], H2 as [H2|(q' & d' & Eq & Ed & H2)].
      * by apply (T4 p k c).
      * apply holds_holder in H1. apply (dup_below s Wf) in H1. lia.
      * apply holds_holder in H2. apply (dup_below s Wf) in H2. lia.
      * assert (q' = q) as -> by lia. assert (d' = d) as -> by lia. by apply (T4 q k d).
  - (* OPlace *) destruct Hok as [Hx Hp]. destruct HD as [Hu Hl]. destruct (place_eff s x k p Hx) as (s' & E & [H1 H2 H3 _ _ _ H4 H5 H6 H7 _]).
    rewrite E in *. cbn [snd] in *. split; [by apply (world_same _ s)|].
    assert (Hh : forall q pl k' c, holds_at s' q pl k' c -> holds_at s q pl k' c) by (intros q pl k' c; destruct pl; simpl; [by rewrite H2|by rewrite H3]).
    destruct T as [T1 T2 T3 T4]. constructor.
    + intros q pl k' c H. apply Hh in H. destruct (decide (c = x)) as [->|Hc]; [by destruct (Hu q pl k')|]. destruct (H5 c Hc) as [-> ->]. by apply (T1 q pl k' c).
    + assert (Hk : forall y l, chain s y l -> x ∉ l -> chain s' y l).
      { intros y l C Hn. apply (chain_keep s); [done|intros z Hz; apply H5; by intros ->|intros z _ Hz; by apply (exists_same s s')]. }
      assert (Hxc : exists l, chain s' x l).
      { destruct p as [q|]; [|exists [x]; apply chain_root; [by apply (exists_same s s')|done]].
        destruct (T2 q (Hp q eq_refl)) as [l C]. exists (x :: l). apply chain_up with q; [done|]. apply Hk; [done|]. by apply (Hl q). }
      intros y Hy. apply (exists_same s s') in Hy; [|done]. destruct (T2 y Hy) as [l C]. clear Hy. induction C as [y Hy Hpy|y q l Hq C IH].
      * destruct (decide (y = x)) as [->|Hne]; [done|]. exists [y]. apply chain_root; [by apply (exists_same s s')|]. by rewrite (proj2 (H5 y Hne)).
      * destruct (decide (y = x)) as [->|Hne]; [done|]. destruct IH as [l' C']. exists (y :: l'). apply chain_up with q; [|done]. by rewrite (proj2 (H5 y Hne)).
    + apply (apart_step s); try done. intros y cls k' v _ Hin. left. exists v. by rewrite <- H2.
    + by apply (once_keep s).
Qed.

Theorem grown_ok s : grown adopting careful s -> world adopting s /\ tree_ok s.
Proof.
  induction 1 as [cs Hcs|s o r s' G [W T] Hok HD E].
  - split; [constructor; try done; apply wf_empty|]. constructor.
    + intros p pl k c Hh. destruct pl; unfold holds_at, entries_at, spaces_at in Hh; simpl in Hh; [|destruct Hh as [Hh _]]; by rewrite lookup_empty in Hh.
    + intros x [o Ho]. simpl in Ho. by rewrite lookup_empty in Ho.
    + intros x cls k v Hc. unfold class_of in Hc. simpl in Hc. by rewrite lookup_empty in Hc.
    + intros p k c Hh. unfold holds_at, entries_at in Hh; simpl in Hh. by rewrite lookup_empty in Hh.
  - assert (R : reach s') by (eapply reach_step; [by apply (grown_reach adopting careful)|done|done]).
    destruct (safe_run_op s o Hok (wd_wf _ _ W)) as (_ & X & _). rewrite E in X.
    pose proof (careful_step s o W T Hok HD) as S. rewrite E in S. simpl in S. apply S; [by apply reach_wf|done|by apply reach_uuid].
Qed.
