(** C71: reading nodes does not influence what is read later. *)
From Verif Require Import Py Odict Aliaser Heap Model Classes WF Views SpecMapping MappingProofs Observe Reach Play Utils Reads ReadProofs ReadCache.

(** In any history of questions, to any nodes, every question is answered as if it had been the
    first one, and nothing that can be seen changes. *)
Theorem C71_reads : forall s l, reach s -> unassuming s ->
  fst (ask_all l s) = map (fun e => fst (ask (fst e) (snd e) s)) l /\ same_world s (snd (ask_all l s)).
Proof. exact reads_commute. Qed.
(** With caching nodes as well, fresh or stale, as long as no class has Fallback right of Cache: then
    only the caches change. *)
Theorem C71_caching : forall s l, reach s -> modest s ->
  fst (ask_all l s) = map (fun e => fst (ask (fst e) (snd e) s)) l /\ same_but_caches s (snd (ask_all l s)).
Proof. exact caching_commute. Qed.
(** The order of the questions makes no difference. *)
Theorem C71_order : forall s l l', reach s -> modest s -> Permutation l l' ->
  Permutation (zip l (fst (ask_all l s))) (zip l' (fst (ask_all l' s))).
Proof. exact reads_permute. Qed.

(** A tree with fallback keys: root/a/x and root/a/y lack k, which root/d/x has. *)
Definition CFNode := Class "CFNode" [Cache; Fallback; Adopt; Invalidate; DefaultInit; Nodify; OdictStorage] [] [] None false "CFNode" true None.
Definition FBNode := Class "FBNode" [Fallback; Adopt; DefaultInit; Nodify; OdictStorage] [] [] None false "FBNode" true None.
Definition C71_build (n : string) : list op := ([ONew n (KStr "root") None] ++ repeat (ONew n KNone None) 5 ++
 [OSet 0 (KStr "d") (VNode 1); OSet 0 (KStr "a") (VNode 2); OSet 2 (KStr "x") (VNode 3); OSet 2 (KStr "y") (VNode 4); OSet 1 (KStr "x") (VNode 5); OSet 5 (KStr "k") (VInt 5);
  OSetFallback 0 (Some (KStr "d")); OSetFallback 2 (Some (KStr "x"))])%list.
Definition C71_s : st := after_in [FBNode] (C71_build "FBNode").
Definition C71_questions : list (nat * query) :=
  [(3, QGet (KStr "k")); (4, QGet (KStr "k")); (4, QGetDefault (KStr "k") (VInt 9)); (3, QIn (KStr "k")); (4, QIn (KStr "k")); (2, QKeys); (2, QIterkeys); (1, QItems); (3, QValues); (2, QLen);
   (0, QFiltered (fun v => match v with VNode 2 => true | _ => false end)); (5, QPath); (5, QRoot); (5, QAcquire (fun _ => true)); (0, QByPath (PStr "/a/x/k/")); (5, QGet (KUnhashable 0))].
Example C71_example : reach C71_s /\ unassuming C71_s /\
  fst (ask_all C71_questions C71_s) =
    [AVal (VInt 5); AExc (KeyError (KStr "k")); AVal (VInt 9); ABool true; ABool false; AKeys [KStr "x"; KStr "y"]; AKeys [KStr "x"; KStr "y"]; AItems [(KStr "x", VNode 5)]; AVals []; ALen 2;
     AVals [VNode 2]; AKeys [KStr "root"; KStr "d"; KStr "x"]; AVal (VNode 0); AVal (VNode 1); AVal (VInt 5); AExc TypeError] /\
  log (snd (ask_all C71_questions C71_s)) = log C71_s /\ map (entries_at (snd (ask_all C71_questions C71_s))) [0; 1; 2; 3; 4; 5] = map (entries_at C71_s) [0; 1; 2; 3; 4; 5].
Proof.
  split; [apply after_in_reach|]. split; [apply unassumingb; vm_compute; reflexivity|]. split; [vm_compute; reflexivity|]. split; vm_compute; reflexivity.
Qed.

(** The same tree with Fallback left of Cache, over aliased entries; root/a was asked for 'p-x'
    before the storage got something else under 'x'. *)
Definition FCNode := Class "FCNode" [Nodespaces; Fallback; Adopt; Cache; Alias; Invalidate; DefaultInit; Nodify; OdictStorage] [] [] (Some (APrefix (Some "p-"))) false "FCNode" true None.
Definition C71_stale : st := after_in [FCNode] (
  [ONew "FCNode" (KStr "root") None] ++ repeat (ONew "FCNode" KNone None) 5 ++
  [OSet 0 (KStr "p-d") (VNode 1); OSet 0 (KStr "p-a") (VNode 2); OSet 2 (KStr "p-x") (VNode 3); OSet 2 (KStr "p-y") (VNode 4); OSet 1 (KStr "p-x") (VNode 5); OSet 5 (KStr "p-k") (VInt 5);
   OSetFallback 0 (Some (KStr "p-d")); OSetFallback 2 (Some (KStr "p-x")); OGet 2 (KStr "p-x"); OStore 2 (KStr "x") (VInt 7); OStore 2 (KStr "z") (VInt 8)])%list.
Definition C71_again : list (nat * query) :=
  [(3, QGet (KStr "p-k")); (4, QGet (KStr "p-k")); (2, QGet (KStr "p-x")); (2, QGet (KStr "p-z")); (2, QValues); (5, QGet (KStr "p-k")); (3, QGet (KStr "p-k")); (4, QIn (KStr "p-k")); (2, QGet (KUnhashable 0))].
Example C71_caching_example : reach C71_stale /\ modest C71_stale /\
  fst (ask_all C71_again C71_stale) =
    [AVal (VInt 5); AExc (KeyError (KStr "p-k")); AVal (VNode 3); AVal (VInt 8); AVals [VNode 3; VNode 4; VInt 8]; AVal (VInt 5); AVal (VInt 5); ABool false; AExc TypeError] /\
  cache_at C71_stale 2 = [(KStr "p-x", VNode 3)] /\
  cache_at (snd (ask_all C71_again C71_stale)) 2 = [(KStr "p-x", VNode 3); (KStr "p-z", VInt 8); (KStr "p-y", VNode 4)].
Proof.
  split; [apply after_in_reach|]. split; [apply modest_all; vm_compute; reflexivity|]. vm_compute. repeat split; reflexivity.
Qed.

(** Caching nodes: having read root/a/x[k], which is found by way of the fallback key of the root
    and kept in the cache of root/a/x, root/a/y[k] finds it there; it did not before. *)
Definition C71_cache : st := after_in [CFNode] (C71_build "CFNode").
Theorem C71_cache_refuted : exists s x y k v, reach s /\ fst (ask y (QGet k) s) = AExc (KeyError k) /\
  fst (ask_all [(x, QGet k); (y, QGet k)] s) = [AVal v; AVal v].
Proof. exists C71_cache, 3, 4, (KStr "k"), (VInt 5). split; [apply after_in_reach|]. split; vm_compute; reflexivity. Qed.
(** Child factories left of which a storage stands: asking whether there is a child adds it to the keys. *)
Definition SFNode := Class "SFNode" [OdictStorage; ChildFactory; Adopt; DefaultInit; Nodify] [(KStr "f", "SFNode")] [] None false "SFNode" true None.
Theorem C71_factory_refuted : exists s x k, reach s /\ fst (ask x QKeys s) = AKeys [] /\
  fst (ask_all [(x, QIn k); (x, QKeys)] s) = [ABool true; AKeys [k]].
Proof. exists (after_in [SFNode] [ONew "SFNode" (KStr "x") None]), 0, (KStr "f"). split; [apply after_in_reach|]. split; vm_compute; reflexivity. Qed.

Print Assumptions C71_reads.
Print Assumptions C71_caching.
Print Assumptions C71_order.
Print Assumptions C71_cache_refuted.
Print Assumptions C71_factory_refuted.
