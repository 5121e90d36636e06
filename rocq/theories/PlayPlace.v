(** Concrete careful histories, used by the examples. *)
From Verif Require Import Py Odict OdictFacts Aliaser Heap Model Classes MonadFacts WF TreeOps NewEff Observe SpecMapping MappingProofs Reach MappingProps Play SpecPlace PlaceProofs.
From stdpp Require Import list.

Definition isb (c : nat) (v : val) : bool := match v with VNode d => c =? d | _ => false end.
Definition unheldb (s : st) (c : nat) : bool :=
  forallb (fun po : nat * obj =>
    forallb (fun e : key * val => negb (isb c (snd e))) (entries_at s (fst po)) &&
    forallb (fun e : key * val => negb (isb c (snd e)) || (bool_decide (fst e = KStr "__children__") && (c =? fst po))) (spaces_at s (fst po)))
    (map_to_list (nodes s)).
Lemma unheldb_spec s c : unheldb s c = true -> unheld s c.
Proof.
  unfold unheldb. rewrite forallb_forall. intros H p pl k Hh. destruct (holds_holder _ _ _ _ _ Hh) as [o Ho].
  specialize (H (p, o)). rewrite <- elem_of_list_In, elem_of_map_to_list in H. specialize (H Ho). simpl in H. apply andb_prop in H as [H1 H2].
  rewrite forallb_forall in H1, H2. destruct pl; simpl in Hh; [|destruct Hh as [Hh Hne]]; rewrite value_at_spec in Hh; apply dget_Some_in, elem_of_list_In in Hh.
  - specialize (H1 _ Hh). simpl in H1. by rewrite Nat.eqb_refl in H1.
  - specialize (H2 _ Hh). simpl in H2. rewrite Nat.eqb_refl in H2. simpl in H2. apply andb_prop in H2 as [H2 H3]. apply bool_decide_eq_true in H2. apply Nat.eqb_eq in H3. naive_solver.
Qed.
Fixpoint offb (f : nat) (s : st) (x c : nat) : bool :=
  match f with
  | O => false
  | S f => negb (c =? x) && match parent_at s x with None => true | Some p => offb f s p c end
  end.
Lemma offb_spec f s x c : offb f s x c = true -> forall l, chain s x l -> c ∉ l.
Proof.
  revert x. induction f as [|f IH]; intros x; [done|]. simpl. rewrite andb_true_iff. intros [H1 H2] l C.
  apply negb_true_iff, Nat.eqb_neq in H1. inversion C as [? Hx Hp|? p l' Hp C']; subst.
  - rewrite elem_of_list_singleton. done.
  - rewrite Hp in H2. specialize (IH p H2 l' C'). set_solver.
Qed.
Definition freeb (s : st) (x c : nat) : bool := unheldb s c && offb (S (size (nodes s))) s x c.
Lemma freeb_spec s x c : freeb s x c = true -> free s x c.
Proof. intros [H1 H2]%andb_prop. split; [by apply unheldb_spec|by eapply offb_spec]. Qed.
Definition assignableb (s : st) (x : nat) (vs : list val) : bool := bool_decide (NoDup (nodes_among vs)) && forallb (freeb s x) (nodes_among vs).
Lemma assignableb_spec s x vs : assignableb s x vs = true -> assignable s x vs.
Proof.
  intros [H1 H2]%andb_prop. split; [by apply bool_decide_eq_true in H1|]. apply Forall_forall. intros c Hc. apply freeb_spec.
  rewrite forallb_forall in H2. apply H2. by apply elem_of_list_In.
Qed.
Definition copyableb (s : st) : bool :=
  forallb (fun po : nat * obj => bool_decide (GetattrChildren ∉ c_behs (o_cls (snd po)))) (map_to_list (nodes s)).
Lemma copyableb_spec s : copyableb s = true -> copyable s.
Proof.
  unfold copyableb. rewrite forallb_forall. intros H x cls Hc. unfold class_of in Hc. destruct (nodes s !! x) as [o|] eqn:Ho; [|done]. injection Hc as <-.
  specialize (H (x, o)). rewrite <- elem_of_list_In, elem_of_map_to_list in H. specialize (H Ho). by apply bool_decide_eq_true in H.
Qed.
(** the discipline, without the ordered insertions *)
Definition carefulb (s : st) (o : op) : bool :=
  match o with
  | OSet x _ v | OSetdefault x _ v => assignableb s x [v]
  | OUpdate x a kw => assignableb s x (map snd (concat a ++ kw))
  | OInsertAt _ _ _ _ | OInsertEnd _ _ _ => false
  | ODeepcopy _ => copyableb s
  | OStore _ _ _ | OUnstore _ _ => false
  | OPlace x _ p => unheldb s x && match p with Some q => offb (S (size (nodes s))) s q x | None => true end
  | _ => true
  end.
Lemma carefulb_spec s o : carefulb s o = true -> careful s o.
Proof.
  destruct o; simpl; try done; try first [by apply assignableb_spec|by apply copyableb_spec].
  intros [H1 H2]%andb_prop. split; [by apply unheldb_spec|]. intros q l -> C. exact (offb_spec (S (size (nodes s))) s q _ H2 l C).
Qed.
Fixpoint tend (l : list op) (s : st) : option st :=
  match l with
  | [] => Some s
  | o :: r => if op_okb s o && carefulb s o then tend r (snd (run_op o s)) else None
  end.
Lemma tend_grown H l : forall s s', grown H careful s -> tend l s = Some s' -> grown H careful s'.
Proof.
  induction l as [|o l IH]; simpl; intros s s' R E; [congruence|].
  destruct (op_okb s o && carefulb s o) eqn:Hok; [|done]. apply andb_prop in Hok as [H1 H2]. eapply IH; [|exact E].
  eapply grown_step; [exact R|by apply op_okb_spec|by apply carefulb_spec|]. apply surjective_pairing.
Qed.
Definition tended (cs : list classdef) (l : list op) : st :=
  let s := St ∅ ∅ ∅ 0 1 [] (-1) (list_to_map (map (fun c => (c_name c, c)) cs)) in default s (tend l s).
Lemma tended_grown (H : classdef -> Prop) cs l : Forall H cs -> grown H careful (tended cs l).
Proof.
  intros Hcs. assert (G : grown H careful (St ∅ ∅ ∅ 0 1 [] (-1) (list_to_map (map (fun c => (c_name c, c)) cs)))).
  { apply grown_init. intros cn cls E. apply elem_of_list_to_map_2 in E. apply elem_of_list_fmap in E as (c & [= -> ->] & Hin). rewrite Forall_forall in Hcs. by apply Hcs. }
  unfold tended. destruct (tend l _) eqn:E; simpl; [|done]. by eapply tend_grown.
Qed.
Definition adoptingb (cls : classdef) : bool := new_class (c_behs cls) && bool_decide (Adopt ∈ c_behs cls).
Lemma adoptingb_spec cs : forallb adoptingb cs = true -> Forall adopting cs.
Proof.
  rewrite forallb_forall. intros H. apply Forall_forall. intros cls Hc%elem_of_list_In. specialize (H _ Hc). apply andb_prop in H as [H1 H2].
  split; [done|]. by apply bool_decide_eq_true in H2.
Qed.
