(** C53: node.base.Node and AttributedNode as mappings. *)
From Verif Require Import Py Odict Aliaser Heap Model Classes WF Views SpecMapping MappingProofs TreeOps Observe ObserveFacts NewEff SpecTree
  Reach MappingProps Play SpecPlace SpecUtils PlaceProofs PlayPlace SpecReference RefTree RefSteps RefHistory PlayRef SpecNode NodeMapping.

(** In every state a tidy history leads to, for every listed node of class Node or AttributedNode,
    or any class with the same behaviors: every sequence of careful calls, those that raise
    included, answers what an ordered dictionary with the same entries and the class' policy
    would, leaves the entries that one would have, and leaves the node listed. *)
Theorem C53_ordered_mapping : forall s x cls l,
  grown creatable tidy s -> listed s x -> class_of s x = Some cls -> c_behs cls = Node_behs -> careful_calls s x l ->
  exists s', run_calls x l s = (fst (calls_spec (node_policy (allows s x)) l (entries_at s x)), s') /\
    entries_at s' x = snd (calls_spec (node_policy (allows s x)) l (entries_at s x)) /\ listed s' x.
Proof. exact node_mapping. Qed.
(** In particular a new node is an empty ordered dictionary. *)
Theorem C53_fresh_node_is_ordered_mapping : forall s cn cls name parent,
  grown creatable tidy s -> classes s !! cn = Some cls -> c_behs cls = Node_behs -> (forall p, parent = Some p -> exists_node s p) ->
  exists x s1, new_node cn name parent s = (Ret x, s1) /\ ~ exists_node s x /\ entries_at s1 x = [] /\
    forall l, careful_calls s1 x l ->
    exists s2, run_calls x l s1 = (fst (calls_spec (node_policy (c_allow cls)) l []), s2) /\
      entries_at s2 x = snd (calls_spec (node_policy (c_allow cls)) l []) /\ listed s2 x.
Proof. exact fresh_node_mapping. Qed.

(** Which calls are careful can be computed. *)
Definition carefulb (s : st) (x : nat) (c : call) : bool :=
  match c with
  | CSet k v => tidy_setb s x k v
  | CSetdefault k v => item_keyb s x k && match value_at k (entries_at s x) with None => tidy_setb s x k v | _ => true end
  | CGet k | CDel k | CGetDefault k _ | CIn k | CPop k _ => item_keyb s x k
  | CUpdate a kw => tidy_setsb s x (concat a ++ kw)
  | _ => true
  end.
Fixpoint careful_callsb (s : st) (x : nat) (l : list call) : bool :=
  match l with [] => true | c :: r => carefulb s x c && careful_callsb (snd (run_call x c s)) x r end.
Lemma careful_callsb_spec l : forall s x, careful_callsb s x l = true -> careful_calls s x l.
Proof.
  induction l as [|c l IH]; intros s x H; [exact I|]. simpl in H. apply andb_prop in H as [H1 H2]. split; [|by apply IH].
  destruct c; simpl in *; try exact I; try (by apply item_keyb_spec); try (by apply tidy_setb_spec); try (by apply tidy_setsb_spec).
  apply andb_prop in H1 as [H1 H3]. split; [by apply item_keyb_spec|]. intros E. rewrite E in H3. by apply tidy_setb_spec.
Qed.

(** A root that allows values, with the child a that has a child itself. *)
Definition C53_s := groomed [Node; AttributedNode; NodeAttributes] [ONew NN (KStr "root") None; ONew "node.base.AttributedNode" (KStr "a") None; ONew NN (KStr "b") None; ONew NN (KStr "c") None;
  OSet 0 (KStr "a") (VNode 2); OSet 2 (KStr "b") (VNode 4); OSetAllow 0 true].
Definition C53_calls := [CSet (KStr "v") (VInt 1); CSet (KInt 3) (VInt 2); CSetdefault (KStr "c") (VNode 6); CSet (KStr "v") (VInt 5); CGet (KInt 3); CIn (KUnhashable 0); CDel (KInt 3);
  CKeys; CPop (KStr "a") None; CGet (KStr "a"); CSetdefault (KStr "v") (VInt 9); CItems; CPopitem; CUpdate [[(KStr "w", VInt 1)]] [(KStr "x", VNone)]; CLen; CClear; CPopitem].
Example C53_example : grown creatable tidy C53_s /\ listed C53_s 0 /\ class_of C53_s 0 = Some Node /\ careful_calls C53_s 0 C53_calls /\
  fst (run_calls 0 C53_calls C53_s) = [ANone; AExc AttributeError; AVal (VNode 6); ANone; AExc (KeyError (KInt 3)); AExc TypeError; AExc AttributeError;
    AKeys [KStr "a"; KStr "v"; KStr "c"]; AVal (VNode 2); AExc (KeyError (KStr "a")); AVal (VInt 5); AItems [(KStr "v", VInt 5); (KStr "c", VNode 6)];
    AItem (KStr "c") (VNode 6); ANone; ALen 3; ANone; AExc (KeyError (KStr "popitem(): mapping is empty"))] /\
  careful_calls C53_s 2 [CGet (KStr "b"); CSet (KStr "d") (VInt 1)] /\
  fst (run_calls 2 [CGet (KStr "b"); CSet (KStr "d") (VInt 1)] C53_s) = [AVal (VNode 4); AExc (ValueError "Non-node childs are not allowed.")].
Proof.
  split; [apply groomed_grown; vm_compute; reflexivity|]. split; [apply listedb_spec; vm_compute; reflexivity|]. split; [vm_compute; reflexivity|].
  split; [apply careful_callsb_spec; vm_compute; reflexivity|]. split; [vm_compute; reflexivity|].
  split; [apply careful_callsb_spec; vm_compute; reflexivity|]. vm_compute; reflexivity.
Qed.

(** Without care the claim is false: a node is assigned twice, and the second [del] raises a
    KeyError with its uuid although the key is held. *)
Definition C53_twice := [CSet (KStr "c") (VNode 6); CSet (KStr "d") (VNode 6); CDel (KStr "c"); CDel (KStr "d")].
Theorem C53_careless_refuted : exists s x l, grown creatable tidy s /\ listed s x /\ class_of s x = Some Node /\
  Forall (fun c => Forall (known s) (call_values c)) l /\
  fst (run_calls x l s) = [ANone; ANone; ANone; AExc (KeyError (KInt 4))] /\
  fst (calls_spec (node_policy (allows s x)) l (entries_at s x)) = [ANone; ANone; ANone; ANone].
Proof.
  exists C53_s, 0, C53_twice. split; [apply groomed_grown; vm_compute; reflexivity|]. split; [apply listedb_spec; vm_compute; reflexivity|].
  split; [vm_compute; reflexivity|]. split; [|split; vm_compute; reflexivity].
  assert (K : known C53_s (VNode 6)) by (vm_compute; eexists; reflexivity).
  repeat (constructor; [repeat (constructor; [exact K|]); constructor|]). constructor.
Qed.

Print Assumptions C53_ordered_mapping.
Print Assumptions C53_fresh_node_is_ordered_mapping.
Print Assumptions C53_careless_refuted.
