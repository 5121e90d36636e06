(** C26, C27: aliasers and aliased nodes. *)
From Verif Require Import Py Odict Aliaser Heap Model Classes SpecMapping SpecAlias MappingProofs StorageProofs
  Observe Reach AliasProofs Play.

(** * C26 *)
(** [good]: PrefixAliaser, SuffixAliaser with a suffix, strict DictAliaser with distinct
    hashable aliases and distinct real keys, and chains of these. *)
Theorem C26_unalias_inverts_alias : forall a, good a -> forall k x, alias a k = Ret x -> unalias a x = Ret k.
Proof. exact unalias_alias. Qed.
Theorem C26_alias_inverts_unalias : forall a, good a -> forall k x, unalias a x = Ret k -> alias a k = Ret x.
Proof. exact alias_unalias. Qed.
Theorem C26_unalias_fails_off_the_image : forall a, good a ->
  forall x, (exists e, unalias a x = Exc e) <-> ~ exists k, alias a k = Ret x.
Proof. exact unalias_fails_iff. Qed.
(** [affix a f]: a is built from prefix and suffix aliasers and maps text t to f t *)
Theorem C26_affixes : forall a f, affix a f ->
  (forall t, alias a (KStr t) = Ret (KStr (f t))) /\
  forall x, (exists t, unalias a (KStr x) = Ret (KStr t) /\ x = f t) \/
            (exists m, unalias a (KStr x) = Exc (KeyError m)) /\ ~ exists t, x = f t.
Proof. exact (fun a f H => conj (affix_alias a f H) (affix_unalias a f H)). Qed.
Theorem C26_strict_dict_domain : forall d k, (exists x, alias (ADict d true) k = Ret x) <-> k ∈ map snd d.
Proof. exact dict_strict_alias. Qed.
(** Not strict: unalias(alias(k)) is k unless k is an alias without being a real key. *)
Theorem C26_loose_dict : forall d, NoDup (map fst d) -> Forall (fun a => hashable a = true) (map fst d) ->
  forall k, hashable k = true ->
  exists x, alias (ADict d false) k = Ret x /\ (unalias (ADict d false) x = Ret k <-> k ∈ map snd d \/ k ∉ map fst d).
Proof. exact dict_loose_inverts. Qed.
(** No suffix: every key is unaliased to ''. *)
Theorem C26_empty_suffix : forall t p, default "" p = "" -> unalias (ASuffix p) (KStr t) = Ret (KStr "").
Proof. exact empty_suffix. Qed.
Theorem C26_no_suffix_refuted : forall p s t, default "" s = "" -> t <> "" ->
  exists x, alias (PrefixSuffixAliaser p s) (KStr t) = Ret (KStr x) /\
    unalias (PrefixSuffixAliaser p s) (KStr x) <> Ret (KStr t).
Proof. exact prefix_suffix_broken. Qed.

Definition C26_d := [(KStr "a", KStr "x"); (KStr "b", KStr "y")].
Definition C26_chain := AChain [ADict C26_d true; APrefix (Some "pre-"); ASuffix (Some "-suf")].
Example C26_example : good C26_chain /\
  alias C26_chain (KStr "y") = Ret (KStr "pre-b-suf") /\ unalias C26_chain (KStr "pre-b-suf") = Ret (KStr "y") /\
  alias C26_chain (KStr "z") = Exc (KeyError (KStr "z")) /\
  unalias C26_chain (KStr "pre-c-suf") = Exc (KeyError (KStr "c")) /\
  unalias C26_chain (KStr "p") = Exc (KeyError (KStr "key 'p' does not match suffix '-suf'")) /\
  unalias C26_chain (KStr "p-suf") = Exc (KeyError (KStr "key 'p' does not match prefix 'pre-'")).
Proof.
  split; [|vm_compute; done]. apply good_chain. repeat constructor; simpl; set_solver.
Qed.
Example C26_affix_example : affix (PrefixSuffixAliaser (Some "pre-") (Some "-suf")) (fun t => ("pre-" ++ t ++ "-suf")%string).
Proof. exact (affix_cons _ _ _ _ (affix_prefix (Some "pre-")) (affix_cons _ _ _ _ (affix_suffix "-suf" ltac:(done)) affix_nil)). Qed.
Example C26_loose_example : alias (ADict C26_d false) (KStr "a") = Ret (KStr "a") /\
  unalias (ADict C26_d false) (KStr "a") = Ret (KStr "x").
Proof. done. Qed.
Example C26_no_suffix_example : alias (PrefixSuffixAliaser (Some "p") None) (KStr "k") = Ret (KStr "pk") /\
  unalias (PrefixSuffixAliaser (Some "p") None) (KStr "pk") = Exc (KeyError (KStr "key '' does not match prefix 'p'")).
Proof. done. Qed.

(** * C27 *)
(** Every sequence of mapping calls on a node whose class has Alias among storage,
    validation, adoption and passive behaviors: the answers are those of an ordered
    dictionary holding the renamed entries, and the entries without alias stay. *)
Theorem C27_aliased_node : forall s x cls pre post l,
  reach s -> class_of s x = Some cls -> c_behs cls = pre ++ Alias :: post ->
  forallb plain_beh pre = true -> forallb plain_beh post = true -> has_storage (c_behs cls) = true ->
  inverts (c_aliaser cls) -> Forall (aliasable (c_aliaser cls)) (map fst (entries_at s x)) ->
  Forall (fun c => Forall (known s) (call_values c)) l ->
  let out := alias_with alias (c_aliaser cls) in
  let pol := renamed_policy (alias_with unalias (c_aliaser cls)) (hasc NodeChildValidate pre) (hasc NodeChildValidate post) (allows s x) in
  exists s', run_calls x l s = (fst (calls_spec pol l (visible out (entries_at s x))), s') /\
    visible out (entries_at s' x) = snd (calls_spec pol l (visible out (entries_at s x))) /\
    hidden out (entries_at s' x) = hidden out (entries_at s x).
Proof. intros s x cls pre post l R. exact (aliased_node s x cls pre post l (reach_wf s R)). Qed.
(** the hypothesis on the underlying keys is kept *)
Theorem C27_keys_stay_aliasable : forall s x cls pre post l r s',
  reach s -> class_of s x = Some cls -> c_behs cls = pre ++ Alias :: post ->
  forallb plain_beh pre = true -> forallb plain_beh post = true -> has_storage (c_behs cls) = true ->
  inverts (c_aliaser cls) -> Forall (aliasable (c_aliaser cls)) (map fst (entries_at s x)) ->
  Forall (fun c => Forall (known s) (call_values c)) l -> run_calls x l s = (r, s') ->
  Forall (aliasable (c_aliaser cls)) (map fst (entries_at s' x)).
Proof. intros s x cls pre post l r s' R. exact (aliased_stays s x cls pre post l r s' (reach_wf s R)). Qed.
(** which aliasers meet the hypothesis *)
Theorem C27_inverting_aliasers : forall a, good a -> inverts (Some a).
Proof. exact good_inverts. Qed.

Definition C27_class := Class "AliasNode" [Alias; Adopt; NodeChildValidate; DefaultInit; Nodify; OdictStorage] [] []
  (Some (ADict C26_d true)) false "" true None.
Definition C27_ex := after_in [C27_class; OrderedNode]
  [ONew "AliasNode" KNone None; ONew ON KNone None; ONew ON KNone None; OSet 0 (KStr "b") (VNode 1)].
Example C27_example : reach C27_ex /\ class_of C27_ex 0 = Some C27_class /\ inverts (c_aliaser C27_class) /\
  Forall (aliasable (c_aliaser C27_class)) (map fst (entries_at C27_ex 0)) /\
  entries_at C27_ex 0 = [(KStr "y", VNode 1)] /\
  fst (run_calls 0 [CSet (KStr "a") (VNode 2); CKeys; CGet (KStr "b"); CGet (KStr "y"); CSet (KStr "z") (VNode 2);
                    CDel (KStr "b"); CGet (KStr "b"); CItems] C27_ex)
  = [ANone; AKeys [KStr "b"; KStr "a"]; AVal (VNode 1); AExc (KeyError (KStr "y")); AExc (KeyError (KStr "z"));
     ANone; AExc (KeyError (KStr "b")); AItems [(KStr "a", VNode 2)]].
Proof.
  split; [apply after_in_reach|]. split; [done|]. split.
  { apply good_inverts, good_dict; repeat constructor; set_solver. }
  split; [vm_compute; repeat constructor|]. vm_compute. done.
Qed.
(** An entry without alias is skipped. *)
Definition C27_hidden := after_in [C27_class; OrderedNode]
  [ONew "AliasNode" KNone None; ONew ON KNone None; OStore 0 (KStr "q") (VInt 1); OSet 0 (KStr "b") (VNode 1)].
Example C27_hidden_example : reach C27_hidden /\ class_of C27_hidden 0 = Some C27_class /\
  Forall (aliasable (c_aliaser C27_class)) (map fst (entries_at C27_hidden 0)) /\
  map fst (entries_at C27_hidden 0) = [KStr "q"; KStr "y"] /\
  fst (run_calls 0 [CKeys; CLen; CIn (KStr "q")] C27_hidden) = [AKeys [KStr "b"]; ALen 1; ABool false].
Proof.
  split; [apply after_in_reach|]. split; [vm_compute; reflexivity|]. split; [vm_compute; repeat constructor|].
  split; vm_compute; reflexivity.
Qed.

Print Assumptions C26_unalias_inverts_alias.
Print Assumptions C26_alias_inverts_unalias.
Print Assumptions C26_unalias_fails_off_the_image.
Print Assumptions C26_affixes.
Print Assumptions C26_strict_dict_domain.
Print Assumptions C26_loose_dict.
Print Assumptions C26_empty_suffix.
Print Assumptions C26_no_suffix_refuted.
Print Assumptions C27_aliased_node.
Print Assumptions C27_keys_stay_aliasable.
Print Assumptions C27_inverting_aliasers.
