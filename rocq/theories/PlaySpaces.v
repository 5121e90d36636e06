(** Concrete histories under a discipline, used by the examples. *)
From Verif Require Import Py Aliaser Heap Model Classes NewEff Observe SpecMapping SpecPlace SpecSpaces Reach Play PlayPlace.
From stdpp Require Import list.

Section discipline.
Context (D : st -> op -> Prop) (Db : st -> op -> bool) (Dspec : forall s o, Db s o = true -> D s o).
Fixpoint live_on (l : list op) (s : st) : option st :=
  match l with
  | [] => Some s
  | o :: r => if op_okb s o && Db s o then live_on r (snd (run_op o s)) else None
  end.
Lemma live_on_grown H l : forall s s', grown H D s -> live_on l s = Some s' -> grown H D s'.
Proof.
  induction l as [|o l IH]; simpl; intros s s' R E; [congruence|].
  destruct (op_okb s o && Db s o) eqn:Hok; [|done]. apply andb_prop in Hok as [H1 H2]. eapply IH; [|exact E].
  eapply grown_step; [exact R|by apply op_okb_spec|by apply Dspec|]. apply surjective_pairing.
Qed.
Lemma live_on_later l : forall s0 s s', later D s0 s -> live_on l s = Some s' -> later D s0 s'.
Proof.
  induction l as [|o l IH]; simpl; intros s0 s s' R E; [congruence|].
  destruct (op_okb s o && Db s o) eqn:Hok; [|done]. apply andb_prop in Hok as [H1 H2]. eapply IH; [|exact E].
  eapply later_step; [exact R|by apply op_okb_spec|by apply Dspec|]. apply surjective_pairing.
Qed.
Definition lived (cs : list classdef) (l : list op) : st :=
  let s := St ∅ ∅ ∅ 0 1 [] (-1) (list_to_map (map (fun c => (c_name c, c)) cs)) in default s (live_on l s).
Lemma lived_grown (H : classdef -> Prop) cs l : Forall H cs -> grown H D (lived cs l).
Proof.
  intros Hcs. assert (G : grown H D (St ∅ ∅ ∅ 0 1 [] (-1) (list_to_map (map (fun c => (c_name c, c)) cs)))).
  { apply grown_init. intros cn cls E. apply elem_of_list_to_map_2 in E. apply elem_of_list_fmap in E as (c & [= -> ->] & Hin). rewrite Forall_forall in Hcs. by apply Hcs. }
  unfold lived. destruct (live_on l _) eqn:E; simpl; [|done]. by eapply live_on_grown.
Qed.
Definition lived_on (s : st) (l : list op) : st := default s (live_on l s).
Lemma lived_on_later s l : later D s (lived_on s l).
Proof. unfold lived_on. destruct (live_on l s) eqn:E; simpl; [|by constructor]. eapply live_on_later; [by constructor|exact E]. Qed.
End discipline.

Definition plainb (s : st) (o : op) : bool :=
  match o with
  | OInsertAt _ _ _ _ | OInsertEnd _ _ _ => false
  | ODeepcopy _ => copyableb s
  | OStore _ _ _ | OUnstore _ _ => false
  | _ => true
  end.
Lemma plainb_spec s o : plainb s o = true -> plain s o.
Proof. destruct o; try done. apply copyableb_spec. Qed.
Lemma simple_all cs : forallb (fun c => new_class (c_behs c)) cs = true -> Forall simple cs.
Proof. rewrite forallb_forall. intros H. apply Forall_forall. intros c Hc%elem_of_list_In. by apply H. Qed.
