(** Concrete tidy histories, used by the examples. *)
From Verif Require Import Py Odict OdictFacts Aliaser Heap Model Classes MonadFacts WF TreeOps NewEff Observe SpecMapping MappingProofs ObserveFacts SpecTree Reach MappingProps Play SpecPlace SpecReference PlayPlace.
From stdpp Require Import list.

Definition listedb (s : st) (x : nat) : bool :=
  match uuid_at s x with Some u => bool_decide (index_at s x !! Some u = Some x) | None => false end.
Lemma listedb_spec s x : listedb s x = true <-> listed s x.
Proof.
  unfold listedb, listed. destruct (uuid_at s x) as [u|]; [|naive_solver]. rewrite bool_decide_eq_true. naive_solver.
Qed.
Definition item_keyb (s : st) (x : nat) (k : key) : bool :=
  match class_of s x with Some cls => negb (nskey (c_behs cls) k) | None => false end.
Lemma item_keyb_spec s x k : item_keyb s x k = true -> item_key s x k.
Proof.
  unfold item_keyb, item_key. destruct (class_of s x) as [cls|]; [|done]. intros H%negb_true_iff. exists cls. split; [done|]. by apply nskey_dunder_false.
Qed.
Definition topb (s : st) (c : nat) : bool :=
  forallb (fun po : nat * obj => forallb (fun e : key * val => negb (isb c (snd e))) (entries_at s (fst po))) (map_to_list (nodes s)).
Lemma topb_spec s c : topb s c = true -> SpecReference.top s c.
Proof.
  unfold topb. rewrite forallb_forall. intros H p k Hh. unfold child in Hh. rewrite value_at_spec in Hh. apply dget_Some_in, elem_of_list_In in Hh.
  destruct (nodes s !! p) as [o|] eqn:Ho; [|unfold entries_at in Hh; by rewrite Ho in Hh].
  specialize (H (p, o)). rewrite <- elem_of_list_In, elem_of_map_to_list in H. specialize (H Ho). simpl in H.
  rewrite forallb_forall in H. specialize (H _ Hh). simpl in H. by rewrite Nat.eqb_refl in H.
Qed.
Definition loneb (s : st) (x c : nat) : bool :=
  listedb s c && (match entries_at s c with [] => true | _ => false end) && topb s c &&
  match uuid_at s c with Some u => bool_decide (index_at s x !! Some u = None) | None => true end.
Lemma loneb_spec s x c : loneb s x c = true -> lone s x c.
Proof.
  unfold loneb. rewrite !andb_true_iff. intros [[[H1 H2] H3] H4]. split; [by apply listedb_spec|]. split; [by destruct (entries_at s c)|].
  split; [by apply topb_spec|]. intros u Hu. rewrite Hu in H4. by apply bool_decide_eq_true in H4.
Qed.
Definition childb (s : st) (x : nat) (k : key) : bool := match value_at k (entries_at s x) with Some (VNode _) => true | _ => false end.
Definition tidy_setb (s : st) (x : nat) (k : key) (v : val) : bool :=
  item_keyb s x k && negb (childb s x k) &&
  match v with VNode c => listedb s x && loneb s x c && match k with KStr _ => true | _ => false end | _ => true end.
Lemma tidy_setb_spec s x k v : tidy_setb s x k v = true -> tidy_set s x k v.
Proof.
  unfold tidy_setb. rewrite !andb_true_iff. intros [[H1 H2] H3]. split; [by apply item_keyb_spec|]. split; [intros c Hc; unfold childb in H2; unfold child in Hc; by rewrite Hc in H2|].
  intros c ->. rewrite !andb_true_iff in H3. destruct H3 as [[H3 H4] H5]. split; [by apply listedb_spec|]. split; [by apply loneb_spec|]. destruct k as [t| | |]; try done. by exists t.
Qed.
Definition tidy_setsb (s : st) (x : nat) (l : list (key * val)) : bool :=
  bool_decide (NoDup (map fst l)) && bool_decide (NoDup (map (uuid_at s) (nodes_among (map snd l)))) && forallb (fun kv => tidy_setb s x (fst kv) (snd kv)) l.
Lemma tidy_setsb_spec s x l : tidy_setsb s x l = true -> tidy_sets s x l.
Proof.
  unfold tidy_setsb. rewrite !andb_true_iff, !bool_decide_eq_true, forallb_forall. intros [[H1 H2] H3]. split; [done|]. split; [done|].
  apply Forall_forall. intros kv Hin. apply tidy_setb_spec, H3. by apply elem_of_list_In.
Qed.
Definition tidy_insertb (s : st) (x n : nat) : bool :=
  match name_at s n with Some (KStr t) => (match value_at (KStr t) (entries_at s x) with None => true | _ => false end) && tidy_setb s x (KStr t) (VNode n) | _ => false end.
Lemma tidy_insertb_spec s x n : tidy_insertb s x n = true -> tidy_insert s x n.
Proof. unfold tidy_insertb. destruct (name_at s n) as [[t| | |]|] eqn:E; try done. rewrite andb_true_iff. intros [H1 H2%tidy_setb_spec]. exists t. split; [done|]. split; [by destruct (value_at (KStr t) (entries_at s x))|done]. Qed.
Definition tidyb (s : st) (o : op) : bool :=
  match o with
  | OSet x k v | OSetdefault x k v => tidy_setb s x k v
  | ODel x k | OPop x k _ => listedb s x && item_keyb s x k
  | ODetach x k => listedb s x && item_keyb s x k && childb s x k
  | OPopitem x | OClear x => listedb s x
  | OSetUuid x u => listedb s x && match u with Some n => bool_decide (n <> 0%N) | None => false end
  | OUpdate x a kw => tidy_setsb s x (concat a ++ kw)
  | OInsertAt _ x n _ | OInsertEnd _ x n => tidy_insertb s x n
  | OInvalidate x k => listedb s x && (bool_decide (k = KNone) || item_keyb s x k) &&
      match class_of s x with Some cls => bool_decide (VolatileStorageInvalidate ∉ c_behs cls) | None => false end
  | ODeepcopy _ => copyableb s
  | OStore _ _ _ | OUnstore _ _ => false
  | _ => true
  end.
Lemma tidyb_spec s o : tidyb s o = true -> tidy s o.
Proof.
  destruct o; simpl; rewrite ?andb_true_iff, ?listedb_spec; try done.
  - apply tidy_setb_spec.
  - intros [H1 H2]. split; [done|by apply item_keyb_spec].
  - intros [[H1 H2] H3]. split; [done|]. split; [by apply item_keyb_spec|]. unfold childb in H3. unfold child.
    destruct (value_at k (entries_at s x)) as [[| | | | | | |c| | | |]|]; try done. by exists c.
  - apply tidy_setsb_spec.
  - apply tidy_setb_spec.
  - intros [H1 H2]. split; [done|by apply item_keyb_spec].
  - intros [[H1 H2] H3]. split; [done|]. split; [apply orb_prop in H2 as [H2|H2]; [left; by apply bool_decide_eq_true in H2|right; by apply item_keyb_spec]|].
    intros cls Hc. rewrite Hc in H3. by apply bool_decide_eq_true in H3.
  - apply tidy_insertb_spec.
  - apply tidy_insertb_spec.
  - intros [H1 H2]. split; [done|]. destruct u as [n|]; [|done]. apply bool_decide_eq_true in H2. by exists n.
  - apply copyableb_spec.
Qed.
Fixpoint groom (l : list op) (s : st) : option st :=
  match l with
  | [] => Some s
  | o :: r => if op_okb s o && tidyb s o then groom r (snd (run_op o s)) else None
  end.
Lemma groom_grown H l : forall s s', grown H tidy s -> groom l s = Some s' -> grown H tidy s'.
Proof.
  induction l as [|o l IH]; simpl; intros s s' R E; [congruence|].
  destruct (op_okb s o && tidyb s o) eqn:Hok; [|done]. apply andb_prop in Hok as [H1 H2]. eapply IH; [|exact E].
  eapply grown_step; [exact R|by apply op_okb_spec|by apply tidyb_spec|]. apply surjective_pairing.
Qed.
Definition groomed (cs : list classdef) (l : list op) : st :=
  let s := St ∅ ∅ ∅ 0 1 [] (-1) (list_to_map (map (fun c => (c_name c, c)) cs)) in default s (groom l s).
Lemma groomed_grown cs l : forallb (fun c => new_class (c_behs c)) cs = true -> grown creatable tidy (groomed cs l).
Proof.
  intros Hcs. assert (G : grown creatable tidy (St ∅ ∅ ∅ 0 1 [] (-1) (list_to_map (map (fun c => (c_name c, c)) cs)))).
  { apply grown_init. intros cn cls E. apply elem_of_list_to_map_2 in E. apply elem_of_list_fmap in E as (c & [= -> ->] & Hin). rewrite forallb_forall in Hcs. by apply Hcs, elem_of_list_In. }
  unfold groomed. destruct (groom l _) eqn:E; simpl; [|done]. by eapply groom_grown.
Qed.
