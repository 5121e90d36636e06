(** C28, C29, C38: fallback lookups. *)
From Verif Require Import Py Odict Aliaser Heap Model Classes WF Views SpecMapping MappingProofs TreeOps Observe ObserveFacts SpecTree
  Reach MappingProps Play SpecPlace PlaceProofs FbCount FbSearch SpecFallback FallbackProofs FbThread PlayFallback.

(** * C28 *)
(** A node's own value is returned, whatever fallback keys there are. *)
Theorem C28_own_value_first : forall s x k v, fallback_tree s -> own s x k v -> exists s', getitem x k s = (Ret v, s') /\ same_world s s'.
Proof. intros s x k v T H. pose proof H as (cls & Hc & _). exact (own_found s x cls k v T Hc H). Qed.
(** Otherwise what is returned is found at the requested path with one or more components
    replaced by fallback keys; if the key itself is reported missing, no node at such a place has
    it; any other exception tells of a fallback key that is missing, unhashable or no node, or of
    something on the path that is no node.  Nothing observable changes. *)
Theorem C28_search_outcome : forall s r ks x cls k,
  fallback_tree s -> path_to s r ks x -> class_of s x = Some cls -> searches cls k -> hashable k = true -> lacks s x k ->
  exists res s', getitem x k s = (res, s') /\ same_world s s' /\
    ((exists v w, res = Ret v /\ strays s r ks w true /\ own s w k v) \/
     (res = Exc (KeyError k) /\ forall w b, strays s r ks w b -> lacks s w k) \/
     (exists e, res = Exc e /\ stuck s r ks e)).
Proof. exact lookup_cases. Qed.
(** With sound fallback keys the search is complete: KeyError for the key exactly if no such place has it. *)
Theorem C28_search_complete : forall s r ks x cls k,
  fallback_tree s -> path_to s r ks x -> class_of s x = Some cls -> searches cls k -> hashable k = true -> lacks s x k -> sound_keys s ks ->
  exists res s', getitem x k s = (res, s') /\
    ((exists v w, res = Ret v /\ strays s r ks w true /\ own s w k v) \/
     (res = Exc (KeyError k) /\ forall w b v, strays s r ks w b -> ~ own s w k v)).
Proof. exact lookup_complete. Qed.
(** The nearest ancestor with a fallback key is tried first. *)
Theorem C28_nearest_fallback_first : forall s r pre p n y post x cls k fk c w v,
  fallback_tree s -> path_to s r (pre ++ n :: post) x -> class_of s x = Some cls -> searches cls k -> hashable k = true -> lacks s x k ->
  leads s r pre p -> own s p n (VNode y) -> leads s y post x ->
  (forall l m rest q f, post = l ++ m :: rest -> leads s y l q -> ~ falls s q f) ->
  falls s p fk -> own s p fk (VNode c) -> leads s c post w -> own s w k v ->
  exists s', getitem x k s = (Ret v, s') /\ same_world s s'.
Proof. exact nearest. Qed.
(** A fallback key without a child ends the search with a KeyError for it. *)
Theorem C28_missing_fallback_key : forall s r ks n p x cls k fk,
  fallback_tree s -> path_to s r (ks ++ [n]) x -> leads s r ks p -> class_of s x = Some cls -> searches cls k -> hashable k = true -> lacks s x k ->
  falls s p fk -> hashable fk = true -> lacks s p fk -> exists s', getitem x k s = (Exc (KeyError fk), s') /\ same_world s s'.
Proof. exact missing_key. Qed.
(** An unhashable key is refused without a search. *)
Theorem C28_unhashable_key : forall s x cls k,
  fallback_tree s -> class_of s x = Some cls -> hashable k = false -> exists s', getitem x k s = (Exc TypeError, s') /\ same_world s s'.
Proof. exact unhashable_key. Qed.

(** The tree of tests/test_fallback.py: attribute nodes fall back, the nodes above declare keys. *)
Definition FbAttrs := Class "FbAttrs" FallbackNodeAttributes_behs [] [] None true "FbAttrs" true None.
Definition FbN := Class "FbN" [NodeChildValidate; Nodespaces; Adopt; Attributes; DefaultInit; Nodify; OdictStorage] [] [] None false "FbAttrs" true None.
Definition C28_build : list op := ([ONew "FbN" (KStr "root") None] ++ repeat (ONew "FbN" KNone None) 6 ++
  [OSet 0 (KStr "x") (VNode 1); OSet 1 (KStr "1") (VNode 2); OSet 1 (KStr "2") (VNode 3); OSet 0 (KStr "y") (VNode 4); OSet 4 (KStr "1") (VNode 5);
   OSet 4 (KStr "2") (VNode 6); OSetFallback 0 (Some (KStr "x")); OSetFallback 1 (Some (KStr "1")); OSetFallback 4 (Some (KStr "1"));
   OAttrs 2; OAttrs 3; OAttrs 5; OAttrs 6;
   OSet 11 (KStr "a") (VInt 1); OSet 11 (KStr "d") (VInt (-3)); OSet 13 (KStr "b") (VInt 2); OSet 13 (KStr "d") (VInt (-2));
   OSet 15 (KStr "c") (VInt 3); OSet 15 (KStr "d") (VInt (-1)); OSet 17 (KStr "d") (VInt 4)])%list.
Definition C28_s : st := after_in [FbN; FbAttrs] C28_build.
Definition C28_path := [KStr "y"; KStr "2"; KStr "__attrs__"].
Lemma C28_tree : fallback_tree C28_s.
Proof. apply treeb_spec; [apply after_in_reach|]. by vm_compute. Qed.
Lemma C28_searches k : ~ dunder k -> searches FbAttrs k.
Proof. intros H. exists [Nodespaces], [Adopt; DefaultInit; Nodify; OdictStorage]. split; [done|]. split; [set_solver|]. split; [set_solver|]. by intros [_ ?]. Qed.
Ltac owns := first [eapply own_entries; [vm_compute; reflexivity|vm_compute; reflexivity|vm_compute; reflexivity] | eapply own_spaces; [vm_compute; reflexivity|vm_compute; reflexivity|vm_compute; reflexivity]].
Lemma C28_leads : leads C28_s 0 C28_path 17.
Proof.
  change C28_path with ((([] ++ [KStr "y"]) ++ [KStr "2"]) ++ [KStr "__attrs__"])%list.
  eapply ld_step; [eapply ld_step; [eapply ld_step; [constructor|]|]|]; owns.
Qed.
Example C28_example :
  fallback_tree C28_s /\ path_to C28_s 0 C28_path 17 /\ class_of C28_s 17 = Some FbAttrs /\ searches FbAttrs (KStr "a") /\ lacks C28_s 17 (KStr "a") /\
  sound_keys C28_s C28_path /\ own C28_s 17 (KStr "d") (VInt 4) /\
  fst (getitem 17 (KStr "d") C28_s) = Ret (VInt 4) /\ fst (getitem 17 (KStr "c") C28_s) = Ret (VInt 3) /\
  fst (getitem 17 (KStr "b") C28_s) = Ret (VInt 2) /\ fst (getitem 17 (KStr "a") C28_s) = Ret (VInt 1) /\
  fst (getitem 17 (KStr "e") C28_s) = Exc (KeyError (KStr "e")).
Proof.
  split; [apply C28_tree|]. split.
  { split; [by vm_compute; eexists|]. split; [by vm_compute|]. split; [apply C28_leads|]. unfold C28_path. set_solver. }
  split; [by vm_compute|]. split; [apply C28_searches; intros H; apply dunder_res_key in H; by vm_compute in H|].
  split; [eapply lacks_entries; vm_compute; reflexivity|]. split; [apply soundb_spec; by vm_compute|]. split; [owns|].
  repeat split; vm_compute; reflexivity.
Qed.
(** The value of c comes from the nearest fallback. *)
Example C28_nearest_example : leads C28_s 0 [KStr "y"] 4 /\ own C28_s 4 (KStr "2") (VNode 6) /\ leads C28_s 6 [KStr "__attrs__"] 17 /\
  (forall l m rest q f, [KStr "__attrs__"] = (l ++ m :: rest)%list -> leads C28_s 6 l q -> ~ falls C28_s q f) /\
  falls C28_s 4 (KStr "1") /\ own C28_s 4 (KStr "1") (VNode 5) /\ leads C28_s 5 [KStr "__attrs__"] 15 /\ own C28_s 15 (KStr "c") (VInt 3).
Proof.
  split; [change [KStr "y"] with ([] ++ [KStr "y"])%list; eapply ld_step; [constructor|owns]|]. split; [owns|].
  split; [change [KStr "__attrs__"] with ([] ++ [KStr "__attrs__"])%list; eapply ld_step; [constructor|owns]|]. split.
  { intros l m rest q f E Hl. destruct l as [|a l]; [|by destruct l]. inversion Hl as [H|a b c d H1 H2 H3]; [|by destruct a]. subst q. intros [(o & Ho & Hf) _]. vm_compute in Ho. injection Ho as <-. done. }
  split; [eapply falls_spec; vm_compute; reflexivity|]. split; [owns|].
  split; [change [KStr "__attrs__"] with ([] ++ [KStr "__attrs__"])%list; eapply ld_step; [constructor|owns]|owns].
Qed.
(** y declares a key it has no child for. *)
Definition C28_broken : st := after_in [FbN; FbAttrs] (C28_build ++ [OSetFallback 6 (Some (KStr "nowhere"))])%list.
Example C28_missing_example : fallback_tree C28_broken /\ path_to C28_broken 0 ([KStr "y"; KStr "2"] ++ [KStr "__attrs__"]) 17 /\ leads C28_broken 0 [KStr "y"; KStr "2"] 6 /\
  class_of C28_broken 17 = Some FbAttrs /\ lacks C28_broken 17 (KStr "a") /\ falls C28_broken 6 (KStr "nowhere") /\ lacks C28_broken 6 (KStr "nowhere") /\
  fst (getitem 17 (KStr "a") C28_broken) = Exc (KeyError (KStr "nowhere")).
Proof.
  split; [apply treeb_spec; [apply after_in_reach|by vm_compute]|].
  assert (L : leads C28_broken 0 [KStr "y"; KStr "2"] 6).
  { change [KStr "y"; KStr "2"] with (([] ++ [KStr "y"]) ++ [KStr "2"])%list. eapply ld_step; [eapply ld_step; [constructor|]|]; owns. }
  split. { split; [by vm_compute; eexists|]. split; [by vm_compute|]. split; [eapply ld_step; [exact L|owns]|set_solver]. }
  split; [exact L|]. split; [by vm_compute|]. split; [eapply lacks_entries; vm_compute; reflexivity|]. split; [eapply falls_spec; vm_compute; reflexivity|].
  split; [eapply lacks_entries; vm_compute; reflexivity|]. by vm_compute.
Qed.
(** Replacements where there is no child under the key itself are not tried: the attribute a is
    at root, x, 1, two components replaced, but x has no child 2. *)
Definition C28_gap : st := after_in [FbN; FbAttrs] (C28_build ++ [ODel 1 (KStr "2")])%list.
Theorem C28_every_replacement_tried_refuted : exists s r ks x cls k w v,
  fallback_tree s /\ path_to s r ks x /\ class_of s x = Some cls /\ searches cls k /\ hashable k = true /\ lacks s x k /\ sound_keys s ks /\
  detours s r ks w /\ own s w k v /\ fst (getitem x k s) = Exc (KeyError k).
Proof.
  exists C28_gap, 0, C28_path, 17, FbAttrs, (KStr "a"), 11, (VInt 1).
  split; [apply treeb_spec; [apply after_in_reach|by vm_compute]|]. split.
  { split; [by vm_compute; eexists|]. split; [by vm_compute|]. split; [|unfold C28_path; set_solver].
    change C28_path with ((([] ++ [KStr "y"]) ++ [KStr "2"]) ++ [KStr "__attrs__"])%list.
    eapply ld_step; [eapply ld_step; [eapply ld_step; [constructor|]|]|]; owns. }
  split; [by vm_compute|]. split; [apply C28_searches; intros H; apply dunder_res_key in H; by vm_compute in H|]. split; [done|].
  split; [eapply lacks_entries; vm_compute; reflexivity|]. split; [apply soundb_spec; by vm_compute|]. split.
  { change C28_path with ((([] ++ [KStr "y"]) ++ [KStr "2"]) ++ [KStr "__attrs__"])%list. eapply (dt_on _ _ _ 2); [eapply (dt_fall _ _ _ 1 _ (KStr "1")); [eapply (dt_fall _ _ _ 0 _ (KStr "x")); [apply dt_here|..]|..]|]; try owns; eapply falls_spec; vm_compute; reflexivity. }
  split; [owns|]. by vm_compute.
Qed.

(** * C29 *)
(** In trees the search ends: no lookup runs out of the (n+2)^2 steps granted to it, n the number of nodes. *)
Theorem C29_search_ends : forall s r ks x cls k,
  fallback_tree s -> path_to s r ks x -> class_of s x = Some cls -> searches cls k -> fst (getitem x k s) <> Exc OutOfFuel.
Proof.
  intros s r ks x cls k T Hp Hc Hs. destruct (hashable k) eqn:Hh.
  2: { destruct (unhashable_key s x cls k T Hc Hh) as (s' & E & _). by rewrite E. }
  destruct (item s x k) as [v|e] eqn:Ei.
  - pose proof (x_live s T r ks x Hp) as Hx. apply (item_own s) in Ei as [_ Ho]; [|done]. destruct (own_found s x cls k v T Hc Ho) as (s' & E & _). by rewrite E.
  - pose proof (x_live s T r ks x Hp) as Hx. pose proof (item_exc s T x k e Hx Ei) as Hi. rewrite Hh in Hi. destruct Hi as [_ Hl].
    destruct (lookup_cases s r ks x cls k T Hp Hc Hs Hh Hl) as (res & s' & E & _ & [(v & w & -> & _)|[[-> _]|(e' & -> & H)]]); rewrite E; try done.
    destruct H as (pre & n & post & p & b & _ & _ & [(fk & _ & _ & _ & ->)|[(fk & _ & _ & ->)|[(fk & v & _ & _ & _ & ->)|(v & _ & _ & ->)]]]); done.
Qed.
(** The counter is left as it was found, for every class, state and outcome. *)
Theorem C29_counter_restored : forall x k s, fbcount (snd (getitem x k s)) = fbcount s.
Proof. exact kf_getitem. Qed.
(** So it is by every other operation, and no search is running between calls. *)
Theorem C29_counter_restored_by_every_call : forall o s, fbcount (snd (run_op o s)) = fbcount s.
Proof. exact kf_run. Qed.
Theorem C29_no_search_between_calls : forall s, reach s -> fbcount s = (-1)%Z.
Proof. exact reach_fbcount. Qed.
(** A lookup during a search never starts one: any two search functions make no difference to it. *)
Theorem C29_nested_lookups_do_not_search : forall fb fb' all bs x k s,
  (0 <= fbcount s)%Z -> get_stack fb all bs x k s = get_stack fb' all bs x k s.
Proof. exact nested_any. Qed.
(** and is what the same lookup would be elsewhere *)
Theorem C29_nested_lookup_is_item_access : forall x k s, (0 <= fbcount s)%Z -> getitem_nested x k s = getitem x k s.
Proof. exact nested_getitem. Qed.
(** The nested lookup on the attributes of x/2 fails where the outer one would go on to x/1. *)
Example C29_example : let s := set_fbcount (fun _ => 0%Z) C28_s in
  fst (getitem 13 (KStr "a") C28_s) = Ret (VInt 1) /\ fst (getitem 13 (KStr "a") s) = Exc (KeyError (KStr "a")) /\
  fbcount (snd (getitem 13 (KStr "a") s)) = 0%Z /\ fbcount (snd (getitem 17 (KStr "nothing") C28_s)) = (-1)%Z /\
  fst (getitem 17 (KStr "nothing") C28_s) = Exc (KeyError (KStr "nothing")).
Proof. repeat split; vm_compute; reflexivity. Qed.

(** * C38 *)
(** In a thread other than the importing one a lookup that would search raises AttributeError,
    whatever fallback keys there are. *)
Theorem C38_fallback_elsewhere_refuted : forall s x cls k,
  fallback_tree s -> class_of s x = Some cls -> searches cls k -> hashable k = true -> lacks s x k ->
  exists s', getitem_elsewhere x k s = (Exc AttributeError, s') /\ same_world s s'.
Proof. exact elsewhere_attribute_error. Qed.
Example C38_fallback_example : fst (getitem 17 (KStr "a") C28_s) = Ret (VInt 1) /\ fst (getitem_elsewhere 17 (KStr "a") C28_s) = Exc AttributeError /\
  fst (getitem_elsewhere 17 (KStr "d") C28_s) = Ret (VInt 4).
Proof. repeat split; vm_compute; reflexivity. Qed.

Print Assumptions C28_own_value_first.
Print Assumptions C28_search_outcome.
Print Assumptions C28_search_complete.
Print Assumptions C28_nearest_fallback_first.
Print Assumptions C28_missing_fallback_key.
Print Assumptions C28_unhashable_key.
Print Assumptions C28_every_replacement_tried_refuted.
Print Assumptions C29_search_ends.
Print Assumptions C29_counter_restored.
Print Assumptions C29_counter_restored_by_every_call.
Print Assumptions C29_no_search_between_calls.
Print Assumptions C29_nested_lookups_do_not_search.
Print Assumptions C29_nested_lookup_is_item_access.
Print Assumptions C38_fallback_elsewhere_refuted.
