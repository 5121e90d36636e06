(** C06, C07: containment, path and root. *)
From Verif Require Import Py Odict Aliaser Heap Model Classes WF Views SpecMapping MappingProofs TreeOps Observe ObserveFacts SpecTree
  Reach MappingProps Play SpecOrder SpecPlace Utils SpecUtils OrderProofs PlaceProofs PathTree PlayPlace.

(** * C06 *)
(** In every history of calls, deepcopy and invalidate among them, in which nodes are only assigned or
    inserted while they are held nowhere and are not above the node they are put into, calls that raise included, every held
    child has its key as name and its holder as parent. *)
Theorem C06_held_children_know_their_place : forall s p pl k c,
  grown adopting careful s -> holds_at s p pl k c -> name_at s c = Some k /\ parent_at s c = Some p.
Proof. intros s p pl k c G. exact (tk_cons s (proj2 (grown_ok s G)) p pl k c). Qed.
(** and no node is held twice *)
Theorem C06_held_once : forall s p pl k p' pl' k' c,
  grown adopting careful s -> holds_at s p pl k c -> holds_at s p' pl' k' c -> p = p' /\ pl = pl' /\ k = k'.
Proof. intros s p pl k p' pl' k' c G. exact (held_once s (proj2 (grown_ok s G)) p pl k p' pl' k' c). Qed.
(** Keys that belong to the nodespaces are in no entries. *)
Theorem C06_spaces_apart : forall s, grown adopting careful s -> spaces_apart s.
Proof. intros s G. exact (tk_apart s (proj2 (grown_ok s G))). Qed.

(** A root with the children a and b, b holding c with a child and an attribute node; a is
    deleted and comes back below c. *)
Definition tree_classes := [BaseNode; OrderedNode; Node; NodeAttributes; OrderableNode].
Definition C06_s := tended tree_classes [ONew NN (KStr "root") None; ONew NN (KStr "x") None; ONew NN (KStr "b") None; ONew NN (KStr "c") None;
  OSet 0 (KStr "a") (VNode 2); OSet 0 (KStr "b") (VNode 4); OSet 4 (KStr "c") (VNode 6); OAttrs 6; OSet 0 (KStr "b") (VInt 1);
  ODel 0 (KStr "a"); OSet 6 (KStr "d") (VNode 2); ONew NN (KStr "e") None; OUpdate 2 [[(KStr "e", VNode 14)]] []; OSet 0 (KInt 3) VNone].
Example C06_example : grown adopting careful C06_s /\ size (nodes C06_s) = 6 /\
  holds_at C06_s 0 InEntries (KStr "b") 4 /\ holds_at C06_s 4 InEntries (KStr "c") 6 /\
  holds_at C06_s 6 InEntries (KStr "d") 2 /\ holds_at C06_s 6 InSpaces (KStr "__attrs__") 13 /\ holds_at C06_s 2 InEntries (KStr "e") 14 /\
  name_at C06_s 2 = Some (KStr "d") /\ value_at (KStr "a") (entries_at C06_s 0) = None.
Proof.
  split; [apply tended_grown; by apply adoptingb_spec|]. repeat split; try (vm_compute; done). by intros [H _].
Qed.

(** A chain of three is deepcopied, root and all, through its middle node; then the original is invalidated. *)
Definition InvNode := mkclass "Inv" [Invalidate; Adopt; DefaultInit; Nodify; OdictStorage].
Definition C06_s2 := tended (InvNode :: tree_classes) [ONew "Inv" (KStr "root") None; ONew "Inv" (KStr "a") None; ONew BN (KStr "b") None;
  OSet 0 (KStr "a") (VNode 1); OSet 1 (KStr "b") (VNode 2); ODeepcopy 1; OInvalidate 0 (KStr "a"); OInvalidate 0 (KStr "a"); OInvalidate 2 KNone].
Example C06_copy_example : grown adopting careful C06_s2 /\ size (nodes C06_s2) = 6 /\ entries_at C06_s2 0 = [] /\
  holds_at C06_s2 5 InEntries (KStr "a") 6 /\ holds_at C06_s2 6 InEntries (KStr "b") 7 /\ parent_at C06_s2 7 = Some 6 /\ parent_at C06_s2 2 = Some 1.
Proof. split; [apply tended_grown; by apply adoptingb_spec|]. repeat split; vm_compute; done. Qed.

(** A free node is given a name and a parent by hand, which gives it no place in that parent's entries; it is then assigned elsewhere. *)
Definition C06_s3 := tended tree_classes [ONew BN (KStr "root") None; ONew BN (KStr "a") None; ONew BN (KStr "b") None; OSet 0 (KStr "a") (VNode 1);
  OPlace 2 (KStr "z") (Some 1); OSet 0 (KStr "b") (VNode 2); ODel 0 (KStr "b"); OPlace 2 KNone (Some 0)].
Example C06_placed_example : grown adopting careful C06_s3 /\ size (nodes C06_s3) = 3 /\ entries_at C06_s3 0 = [(KStr "a", VNode 1)] /\
  name_at C06_s3 2 = Some KNone /\ parent_at C06_s3 2 = Some 0.
Proof. split; [apply tended_grown; by apply adoptingb_spec|]. repeat split; vm_compute; done. Qed.
(** Placed by hand where it is held, a node no longer names its key. *)
Theorem C06_place_undisciplined_refuted : exists s p k c, reach s /\ holds_at s p InEntries k c /\ name_at s c <> Some k.
Proof.
  exists (after [ONew BN (KStr "root") None; ONew BN (KStr "c") None; OSet 0 (KStr "a") (VNode 1); OPlace 1 (KStr "b") (Some 0)]), 0, (KStr "a"), 1.
  split; [apply after_reach|]. split; vm_compute; done.
Qed.

(** Without the care it fails: one node under two keys. *)
Theorem C06_undisciplined_refuted : exists s p k c, reach s /\ holds_at s p InEntries k c /\ name_at s c <> Some k.
Proof.
  exists (after [ONew BN (KStr "root") None; ONew BN (KStr "c") None; OSet 0 (KStr "a") (VNode 1); OSet 0 (KStr "b") (VNode 1)]), 0, (KStr "a"), 1.
  split; [apply after_reach|]. split; vm_compute; done.
Qed.

(** * C07 *)
(** Reading path and root always terminates. The path is made of the names on the parent
    chain from the top, the root is the node without a parent at its end. *)
Theorem C07_path_and_root : forall s x, grown adopting careful s -> exists_node s x ->
  exists l ks r, chain s x l /\ path_of x s = (Ret ks, s) /\ root_of x s = (Ret (Some r), s) /\
    Forall2 (fun y k => name_at s y = Some k) l (rev ks) /\ last l = Some r /\ parent_at s r = None.
Proof.
  intros s x G Hx. destruct (grown_ok s G) as [W T]. pose proof (wd_wf _ _ W) as Wf. destruct (tk_acyc _ T x Hx) as [l C].
  destruct (chain_last _ _ _ C) as (r & El & _ & Er). exists l, (rev (names_of s l)), r. rewrite rev_involutive.
  exact (conj C (conj (path_chain s x l Wf C) (conj (eq_trans (root_chain s x l Wf C) (f_equal (fun r => (Ret r, s)) El))
    (conj (names_name s x l Wf C) (conj El Er))))).
Qed.
(** The path of a held child is the path of its holder and the key; the root is the same. *)
Theorem C07_child : forall s p pl k c, grown adopting careful s -> holds_at s p pl k c ->
  exists kp r, path_of p s = (Ret kp, s) /\ path_of c s = (Ret (kp ++ [k]), s) /\
    root_of p s = (Ret (Some r), s) /\ root_of c s = (Ret (Some r), s).
Proof. intros s p pl k c G. exact (child_path s p pl k c (wd_wf _ _ (proj1 (grown_ok s G))) (proj2 (grown_ok s G))). Qed.
(** The path of a node below [p] is the path of [p] and the keys that lead down to it, and
    following these keys from [p] leads to the node. *)
Theorem C07_descendant : forall s p ks d, grown adopting careful s -> descends s p ks d ->
  (exists kp r, path_of p s = (Ret kp, s) /\ path_of d s = (Ret (kp ++ ks), s) /\
     root_of p s = (Ret (Some r), s) /\ root_of d s = (Ret (Some r), s)) /\
  exists s', subscripts (VNode p) ks s = (Ret (VNode d), s') /\ same_world s s'.
Proof.
  intros s p ks d G D. destruct (grown_ok s G) as [W T]. pose proof (wd_wf _ _ W) as Wf. split; [exact (descends_path s p ks d Wf T D)|].
  destruct (descends_found s p ks d Wf (adopting_trees s W) (tk_apart _ T) D s Wf (eqv_refl s)) as (s' & E & Q). exists s'. exact (conj E (same_world_eqv _ _ Q)).
Qed.
(** Whatever node is found by following keys other than [__children__] is found there. *)
Theorem C07_found : forall s p ks d s', grown adopting careful s -> exists_node s p -> Forall (fun k => k <> KStr "__children__") ks ->
  subscripts (VNode p) ks s = (Ret (VNode d), s') -> descends s p ks d.
Proof.
  intros s p ks d s' G Hp Hk E. destruct (grown_ok s G) as [W T]. pose proof (wd_wf _ _ W) as Wf.
  exact (found_descends s ks Wf (adopting_trees s W) Hk p d s s' Hp Wf (eqv_refl s) E).
Qed.
Example C07_example : grown adopting careful C06_s /\ descends C06_s 0 [KStr "b"; KStr "c"; KStr "d"; KStr "e"] 14 /\
  fst (path_of 14 C06_s) = Ret [KStr "root"; KStr "b"; KStr "c"; KStr "d"; KStr "e"] /\ fst (root_of 14 C06_s) = Ret (Some 0) /\
  descends C06_s 4 [KStr "c"; KStr "__attrs__"] 13 /\ fst (path_of 13 C06_s) = Ret [KStr "root"; KStr "b"; KStr "c"; KStr "__attrs__"].
Proof.
  destruct C06_example as (G & _ & H1 & H2 & H3 & H4 & H5 & _). split; [done|].
  assert (He : exists_node C06_s 14) by (vm_compute; by eexists). assert (Ha : exists_node C06_s 13) by (vm_compute; by eexists).
  split; [|split; [vm_compute; done|split; [vm_compute; done|split; [|vm_compute; done]]]].
  - eapply desc_step; [exact H1|by intros [=]|]. eapply desc_step; [exact H2|by intros [=]|]. eapply desc_step; [exact H3|by intros [=]|].
    eapply desc_step; [exact H5|by intros [=]|]. by apply desc_here.
  - eapply desc_step; [exact H2|by intros [=]|]. eapply desc_step; [exact H4| |by apply desc_here]. intros _. exists Node. split; [vm_compute; done|by apply nskey_dunder].
Qed.

(** Without the care path runs for ever: a child is detached and its former parent assigned
    below it. Following the parents of either node never ends. *)
Theorem C07_undisciplined_refuted : exists s x y, reach s /\ parent_at s x = Some y /\ parent_at s y = Some x /\
  (forall l, ~ chain s x l) /\ forall f, fst (location_iterator f (Some x) s) = Exc OutOfFuel.
Proof.
  exists (after [ONew BN (KStr "a") None; ONew BN (KStr "b") None; OSet 0 (KStr "b") (VNode 1); ODetach 0 (KStr "b"); OSet 1 (KStr "a") (VNode 0)]), 0, 1.
  split; [apply after_reach|]. split; [vm_compute; done|]. split; [vm_compute; done|].
  set (s := after _).
  assert (P0 : parent_at s 0 = Some 1) by (vm_compute; done). assert (P1 : parent_at s 1 = Some 0) by (vm_compute; done).
  clearbody s. split.
  - intros l C. assert (E : chain s 0 l \/ chain s 1 l) by (by left). clear C. induction l as [|z l IH]; [destruct E as [C|C]; inversion C|].
    apply IH. destruct E as [C|C]; inversion C; subst; try congruence.
    + right. assert (p = 1) as -> by congruence. done.
    + left. assert (p = 0) as -> by congruence. done.
  - assert (N : forall x, x = 0 \/ x = 1 -> forall f, fst (location_iterator f (Some x) s) = Exc OutOfFuel).
    { intros x Hx f. revert x Hx. induction f as [|f IH]; intros x Hx; [done|]. simpl.
      assert (Hq : exists o q, nodes s !! x = Some o /\ o_parent o = Some q /\ (q = 0 \/ q = 1)).
      { destruct Hx as [-> | ->]; [unfold parent_at in P0; destruct (nodes s !! 0) as [o|]; [|done]; exists o, 1; auto|
                                   unfold parent_at in P1; destruct (nodes s !! 1) as [o|]; [|done]; exists o, 0; auto]. }
      destruct Hq as (o & q & Ho & Hp & Hq). rewrite (MonadFacts.bind_load _ _ _ _ Ho), Hp. specialize (IH q Hq). unfold bind.
      by destruct (location_iterator f (Some q) s) as [[?|?] ?]. }
    intros f. apply N. by left.
Qed.

Print Assumptions C06_held_children_know_their_place.
Print Assumptions C06_held_once.
Print Assumptions C06_spaces_apart.
Print Assumptions C06_undisciplined_refuted.
Print Assumptions C07_path_and_root.
Print Assumptions C07_child.
Print Assumptions C07_descendant.
Print Assumptions C07_found.
Print Assumptions C07_undisciplined_refuted.
Print Assumptions C06_place_undisciplined_refuted.
