(** C03: child validation. *)
From Verif Require Import Py Odict Aliaser Heap Model Classes WF Views SpecMapping MappingProofs TreeOps NewEff Observe ObserveFacts SpecTree
  Reach MappingProps Play SpecPlace PlaceProofs PlayPlace SpecSpaces SpaceProofs PlaySpaces SpecValidate ValidateProofs.
From stdpp Require Import list.

(** In every plumbing with NodeChildValidate outermost: a value that is not a node is refused,
    nothing at all changes. *)
Theorem C03_refuses : forall s x cls bs k v, class_of s x = Some cls -> c_behs cls = NodeChildValidate :: bs -> allows s x = false ->
  (forall c, v <> VNode c) -> exists msg, setitem x k v s = (Exc (ValueError msg), s).
Proof.
  intros s x cls bs k v Hc Hb Ha Hv. unfold class_of, allows in Hc, Ha. destruct (nodes s !! x) as [o|] eqn:Ho; [|done].
  injection Hc as <-. exact (validate_refuses s x o bs k v Ho Hb Ha Hv).
Qed.
(** A new node holds nodes only, *)
Theorem C03_fresh : forall s cn c name parent, grown simple calls s -> classes s !! cn = Some c ->
  (forall p, parent = Some p -> exists_node s p) ->
  exists x s', new_node cn name parent s = (Ret x, s') /\ class_of s' x = Some c /\ allows s' x = c_allow c /\ only_nodes s' x.
Proof.
  intros s cn c name parent G Ec Hp. pose proof (calls_world s G) as W.
  destruct (new_node_eff s cn c name parent (wd_wf _ _ W) Ec (wd_table _ _ W cn c Ec) Hp (wd_uuid _ _ W)) as (x & s1 & E1 & N).
  exists x, s1. split; [exact E1|]. destruct N as [_ _ _ _ (i & u & Ns & _) _ _ _].
  rewrite ob_class, ob_allows. unfold only_nodes. rewrite ob_entries, ob_spaces. unfold fld. rewrite Ns. split; [done|]. split; [done|].
  intros k v [H|H]; [by apply elem_of_nil in H|]. apply elem_of_list_singleton in H. injection H as -> ->. by exists x.
Qed.
(** and it stays like that in every history of calls, whichever nodes they are made on and
    whether they raise or not (nodes are deepcopied only while no GetattrChildren node exists), in which [allow_non_node_childs] is not set. *)
Theorem C03_only_nodes : forall s x cls bs s', grown simple calls s ->
  class_of s x = Some cls -> c_behs cls = NodeChildValidate :: bs -> allows s x = false -> only_nodes s x ->
  later (fun s o => calls s o /\ o <> OSetAllow x true) s s' ->
  only_nodes s' x /\ allows s' x = false.
Proof.
  intros s x cls bs s' G Hc Hb Ha O L. destruct (later_only x s s' G (ex_intro _ cls (ex_intro _ bs (conj Hc (conj Hb Ha)))) O L) as ((? & ? & _ & _ & A) & H & _).
  exact (conj H A).
Qed.

(** A Node; attempts to put an integer, ordered insertions, swaps, attrs and deletions *)
Definition callsb (s : st) (o : op) : bool := match o with ODeepcopy _ => copyableb s | OStore _ _ _ | OUnstore _ _ => false | OSetAllow 0 true => false | _ => true end.
Lemma callsb_spec s o : callsb s o = true -> calls s o.
Proof. destruct o; try done. apply copyableb_spec. Qed.
Definition C03_s := lived callsb [Node; NodeAttributes; OrderedNode] [ONew NN (KStr "root") None].
Definition C03_s' := lived_on callsb C03_s [ONew NN (KStr "a") None; ONew NN (KStr "b") None; OSet 0 (KStr "a") (VInt 1); OSet 0 (KStr "a") (VNode 2);
  OInsertEnd true 0 4; OSwap 0 2 4; OUpdate 0 [[(KStr "c", VStr "x")]] []; OSetdefault 0 (KStr "__d__") (VClass "c"); OAttrs 0; ONew ON (KStr "o") None;
  OSet 0 (KStr "o") (VNode 10); ODel 0 (KStr "a"); ODeepcopy 4; OInvalidate 0 (KStr "b"); OSetAllow 4 true; OSet 4 (KStr "v") (VInt 1)].
Example C03_example : grown simple calls C03_s /\ class_of C03_s 0 = Some Node /\ allows C03_s 0 = false /\ only_nodes C03_s 0 /\
  later (fun s o => calls s o /\ o <> OSetAllow 0 true) C03_s C03_s' /\
  entries_at C03_s' 0 = [(KStr "b", VNode 4)] /\ map fst (spaces_at C03_s' 0) = [KStr "__children__"; KStr "__attrs__"] /\
  fst (setitem 0 (KStr "x") (VInt 1) C03_s') = Exc (ValueError "Non-node childs are not allowed.").
Proof.
  split; [eapply lived_grown; [|by apply simple_all]; exact callsb_spec|]. split; [by vm_compute|]. split; [by vm_compute|].
  split; [intros k v; vm_compute; intros [H|H]; [by apply elem_of_nil in H|]; apply elem_of_list_singleton in H; injection H as _ ->; by exists 0|].
  split; [|by vm_compute]. apply lived_on_later. intros s o H. split; [by apply callsb_spec|]. by intros ->.
Qed.

Print Assumptions C03_refuses.
Print Assumptions C03_fresh.
Print Assumptions C03_only_nodes.
