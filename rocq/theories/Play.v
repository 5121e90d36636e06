(** Concrete histories, used by the examples beside the theorems. *)
From Verif Require Import Py Odict Aliaser Heap Model Classes MonadFacts WF TreeOps Observe Reach MappingProps.

Definition existsb_node (s : st) (x : nat) : bool := bool_decide (is_Some (nodes s !! x)).
Definition knownb (s : st) (v : val) : bool := match v with VNode c => existsb_node s c | _ => true end.

Definition op_okb (s : st) (o : op) : bool :=
  match o with
  | ONew _ _ p => match p with Some q => existsb_node s q | None => true end
  | OGet x _ | ODel x _ | ODetach x _ | OPopitem x | OClear x | OIter x | OValues x | OItems x | OAttrs x
  | OInvalidate x _ | OSetUuid x _ | OSetAllow x _ | OSetFallback x _ | OPath x | ORoot x | ODeepcopy x | OUnstore x _ => existsb_node s x
  | OSet x _ v | OSetdefault x _ v | OStore x _ v => existsb_node s x && knownb s v
  | OPop x _ d => existsb_node s x && match d with Some v => knownb s v | None => true end
  | OUpdate x a kw => existsb_node s x && forallb (knownb s) (map snd (concat a)) && forallb (knownb s) (map snd kw)
  | OSwap x a b => existsb_node s x && existsb_node s a && existsb_node s b
  | OInsertAt _ x n r => existsb_node s x && existsb_node s n && existsb_node s r
  | OInsertEnd _ x n => existsb_node s x && existsb_node s n
  | OPlace x _ p => existsb_node s x && match p with Some q => existsb_node s q | None => true end
  end.

Lemma existsb_node_spec s x : existsb_node s x = true <-> exists_node s x.
Proof. unfold existsb_node. by rewrite bool_decide_eq_true. Qed.
Lemma knownb_spec s v : knownb s v = true <-> known s v.
Proof. destruct v; simpl; try done. apply existsb_node_spec. Qed.
Lemma forallb_known s l : forallb (knownb s) l = true -> Forall (known s) l.
Proof.
  induction l as [|v l IH]; simpl; [done|]. rewrite andb_true_iff. intros [H1 H2]. constructor; [by apply knownb_spec|auto].
Qed.
Lemma op_okb_spec s o : op_okb s o = true -> op_ok s o.
Proof.
  destruct o; simpl; rewrite ?andb_true_iff, ?existsb_node_spec; try done.
  - destruct parent; [|done]. rewrite existsb_node_spec. by intros ? ? [= <-].
  - by rewrite knownb_spec.
  - intros [[H1 H2] H3]. split; [done|]. split; by apply forallb_known.
  - by rewrite knownb_spec.
  - intros [H1 H2]. split; [done|]. intros v ->. by apply knownb_spec.
  - naive_solver.
  - naive_solver.
  - by rewrite knownb_spec.
  - intros [H1 H2]. split; [done|]. intros q ->. by apply existsb_node_spec.
Qed.

Fixpoint play (l : list op) (s : st) : option st :=
  match l with
  | [] => Some s
  | o :: r => if op_okb s o then play r (snd (run_op o s)) else None
  end.
Lemma play_reach l : forall s s', reach s -> play l s = Some s' -> reach s'.
Proof.
  induction l as [|o l IH]; simpl; intros s s' R E; [congruence|].
  destruct (op_okb s o) eqn:Hok; [|done]. eapply IH; [|exact E].
  eapply reach_step; [exact R|by apply op_okb_spec|]. apply surjective_pairing.
Qed.
(** the state a history leads to from a process that has imported [std_classes] *)
Definition after (l : list op) : st := default st0 (play l st0).
Lemma after_reach l : reach (after l).
Proof.
  unfold after. destruct (play l st0) eqn:E; simpl; [|apply reach_init]. eapply play_reach; [apply reach_init|exact E].
Qed.
(** the same with other classes imported *)
Definition after_in (cs : list classdef) (l : list op) : st :=
  let s := St ∅ ∅ ∅ 0 1 [] (-1) (list_to_map (map (fun c => (c_name c, c)) cs)) in default s (play l s).
Lemma after_in_reach cs l : reach (after_in cs l).
Proof.
  unfold after_in. destruct (play l _) eqn:E; simpl; [|apply reach_init]. eapply play_reach; [apply reach_init|exact E].
Qed.
(** every call of the history mentions existing nodes only *)
Definition fine (l : list op) : bool := match play l st0 with Some _ => true | None => false end.

(** checking that all nodes are of tree classes *)
Definition treesb (s : st) : bool := forallb (fun p : nat * obj => tree_class (c_behs (o_cls p.2))) (map_to_list (nodes s)).
Lemma treesb_spec s : treesb s = true -> all_tree_classes s.
Proof.
  unfold treesb. rewrite forallb_forall. intros H x cls Hc. unfold class_of in Hc.
  destruct (nodes s !! x) as [o|] eqn:Ho; simpl in Hc; [|done]. injection Hc as <-.
  apply (H (x, o)). apply elem_of_list_In. by apply elem_of_map_to_list.
Qed.

Notation BN := "node.base.BaseNode" (only parsing).
Notation ON := "node.base.OrderedNode" (only parsing).
Notation NN := "node.base.Node" (only parsing).
Notation AN := "node.base.AbstractNode" (only parsing).
