(** C68: event attributes kept in the attributes of a node. *)
From Verif Require Import Py Odict Heap Model Classes WF Views SpecMapping MappingProofs StorageProofs Observe SpecTree
  Reach Play SpecCache CacheProofs CacheConcert NodeEvents SpecNodeEvents NodeEventsProofs OdictFacts ObserveFacts.
From Verif Require Events.

(** [x] has attributes [a], a node of mapping behaviors.  Any history of reading, assigning and
    deleting event attributes of [x] and of calls on [x.attrs] is one on a single dictionary, the
    entries of [a]; the events dispatched are those of assignments that change what reading
    gives (all assignments with always_dispatch) and of deletions; nothing is dispatched if the
    attributes refuse the value, or when [x.attrs] is used.  [x] itself keeps what it holds. *)
Theorem C68_history : forall veqb ad s x a cls acls l,
  reach s -> class_of s x = Some cls -> with_attrs (c_behs cls) = true ->
  value_at (KStr "__attrs__") (spaces_at s x) = Some (VNode a) ->
  class_of s a = Some acls -> cache_class (c_behs acls) = true ->
  up_to_date (cache_at s a) (entries_at s a) -> (Cache ∉ c_behs acls -> cache_at s a = []) ->
  Forall (fun o => Forall (known s) (eop_values o)) l ->
  exists s', run_eops veqb false ad x l s = (fst (eops_spec veqb ad (pol acls (allows s a)) l (entries_at s a)), s') /\
    entries_at s' a = snd (eops_spec veqb ad (pol acls (allows s a)) l (entries_at s a)) /\
    same_contents s s' x.
Proof.
  intros veqb ad s x a cls acls l R Hc Ha Hv Hca Hcls Hu Hn Hk. pose proof (reach_wf s R) as W.
  destruct (RE_of_wf s x a cls acls W Hc Ha Hv Hca Hcls Hu Hn) as [Hxa H].
  destruct (RE_eops x a cls acls (allows s a) Hxa Ha Hcls veqb ad l s (entries_at s a) H) as (s' & E & [_ _ (dc & Hr & _)] & K).
  { eapply Forall_impl; [exact Hk|]. intros o Ho. eapply Forall_impl; [exact Ho|]. intros v. apply known_valid. }
  exists s'. split; [exact E|]. split; [|by apply keep_same]. by destruct (cst_entries _ _ _ _ _ _ Hr).
Qed.
(** In particular an assigned attribute reads back, also from [x.attrs], and one assigned in
    [x.attrs] is read as the attribute. *)
Theorem C68_both_ways : forall veqb ad s x a cls acls n v,
  reach s -> class_of s x = Some cls -> with_attrs (c_behs cls) = true ->
  value_at (KStr "__attrs__") (spaces_at s x) = Some (VNode a) ->
  class_of s a = Some acls -> cache_class (c_behs acls) = true ->
  up_to_date (cache_at s a) (entries_at s a) -> (Cache ∉ c_behs acls -> cache_at s a = []) -> known s v ->
  NodeChildValidate ∉ c_behs acls \/ allows s a = true ->
  map fst (fst (run_eops veqb false ad x [ESet n v; EGet n; EAttrs (CGet (KStr n))] s)) = [ANone; AVal v; AVal v] /\
  fst (run_eops veqb false ad x [EAttrs (CSet (KStr n) v); EGet n] s) = [(ANone, None); (AVal v, None)].
Proof.
  intros veqb ad s x a cls acls n v R Hc Ha Hv Hca Hcls Hu Hn Hk Hok.
  assert (Hp : p_set (pol acls (allows s a)) (KStr n) v = None).
  { unfold pol. assert (negb (hasc NodeChildValidate (c_behs acls)) || allows s a = true) as ->; [|cbn; by destruct v].
    destruct Hok as [Hok| ->]; [|by rewrite orb_true_r]. unfold hasc. by rewrite bool_decide_eq_false_2. }
  assert (Hput : value_at (KStr n) (put (KStr n) v (entries_at s a)) = Some v).
  { rewrite value_at_spec, put_spec by (apply entries_nodup; by apply reach_wf). apply dget_dset_eq. }
  split.
  - destruct (C68_history veqb ad s x a cls acls [ESet n v; EGet n; EAttrs (CGet (KStr n))] R Hc Ha Hv Hca Hcls Hu Hn) as (s' & -> & _).
    { repeat (apply Forall_cons; split; [simpl; repeat constructor; done|]). by apply Forall_nil. }
    cbn [eops_spec eop_spec]. unfold do_set. rewrite Hp. cbn [fst snd call_spec]. unfold now, do_get. rewrite Hput. done.
  - destruct (C68_history veqb ad s x a cls acls [EAttrs (CSet (KStr n) v); EGet n] R Hc Ha Hv Hca Hcls Hu Hn) as (s' & -> & _).
    { repeat (apply Forall_cons; split; [simpl; repeat constructor; done|]). by apply Forall_nil. }
    cbn [eops_spec eop_spec call_spec]. unfold do_set. rewrite Hp. cbn [fst snd]. unfold now. rewrite Hput. done.
Qed.
(** What is dispatched is what an event attribute of the default storage dispatches that holds
    the same values (Events.v: there C34-C37 say what the dispatch does). *)
Theorem C68_as_in_dict : forall veqb behave attribute run f th (e : Events.est val) x n v ad p d dflt always subs,
  attribute x n = Some (Events.Desc dflt always subs) -> ad n = EventAttribute dflt always ->
  (forall m, Events.e_vals e !! (x, m) = value_at (KStr m) d) -> NoDup (map fst d) -> p_set p (KStr n) v = None ->
  let '((_, ev), d') := eop_spec veqb ad p (ESet n v) d in
  let e1 := Events.set_vals <[(x, n) := v]> e in
  (forall m, Events.e_vals e1 !! (x, m) = value_at (KStr m) d') /\
  Events.set_attr veqb behave attribute run f th x n v e =
    match ev with
    | Some (n', v') => Events.dispatch behave run f th x n' ([v'], [])
        (Events.with_tl th (fun t => Events.Tl (Events.tl_suppress t) (Events.tl_events t) (Some subs)) e1)
    | None => (Events.EOk, e1)
    end.
Proof.
  intros veqb behave attribute run f th e x n v ad p d dflt always subs Hat Had Hvals Hnd Hp.
  cbn [eop_spec]. unfold do_set. rewrite Hp. cbn [fst snd]. split.
  - intros m. cbn. rewrite value_at_spec, put_spec by exact Hnd. destruct (decide (m = n)) as [->|Hmn].
    + rewrite lookup_insert, dget_dset_eq. done.
    + rewrite lookup_insert_ne by congruence. rewrite dget_dset_ne by congruence. rewrite <- value_at_spec. apply Hvals.
  - unfold Events.set_attr. rewrite Hat. unfold Events.attr_value. cbn [Events.ad_default Events.ad_always Events.ad_subs]. rewrite Hvals. unfold now. rewrite Had. cbn [ea_default ea_always].
    destruct (always || negb (veqb v (default dflt (value_at (KStr n) d)))); done.
Qed.
(** With attribute_access_for_attrs such attributes can neither be read nor assigned (unless
    there is an attribute named get): AttributeError, nothing is stored, nothing dispatched. *)
Theorem C68_attribute_access_refuted : forall veqb ad s x a cls acls n v,
  reach s -> class_of s x = Some cls -> with_attrs (c_behs cls) = true ->
  value_at (KStr "__attrs__") (spaces_at s x) = Some (VNode a) ->
  class_of s a = Some acls -> cache_class (c_behs acls) = true ->
  up_to_date (cache_at s a) (entries_at s a) -> (Cache ∉ c_behs acls -> cache_at s a = []) ->
  value_at (KStr "get") (entries_at s a) = None ->
  exists s', run_eop veqb true ad x (EGet n) s = ((AExc AttributeError, None), s') /\
    run_eop veqb true ad x (ESet n v) s = ((AExc AttributeError, None), s') /\
    entries_at s' a = entries_at s a /\ same_contents s s' x.
Proof.
  intros veqb ad s x a cls acls n v R Hc Ha Hv Hca Hcls Hu Hn Hg. pose proof (reach_wf s R) as W.
  destruct (RE_of_wf s x a cls acls W Hc Ha Hv Hca Hcls Hu Hn) as [Hxa H].
  destruct (RE_access x a cls acls (allows s a) Hxa Ha Hcls veqb ad s (entries_at s a) n v H Hg) as (s' & E1 & E2 & [_ _ (dc & Hr & _)] & K).
  exists s'. cbn [run_eop]. unfold wrap. rewrite E1, E2. split; [done|]. split; [done|]. split; [|by apply keep_same]. by destruct (cst_entries _ _ _ _ _ _ Hr).
Qed.

(** A node whose title is an event attribute with the default 1, kept in its attributes. *)
Definition C68_ad (n : string) : event_attribute := if bool_decide (n = "always") then EventAttribute VUnset true else EventAttribute (VInt 1) false.
Definition C68_eq (a b : val) : bool := match a, b with VInt x, VInt y => Z.eqb x y | VUnset, VUnset => true | _, _ => false end.
Definition C68_s := after [ONew "node.base.AttributedNode" (KStr "root") None; OAttrs 0].
Example C68_example : exists a, reach C68_s /\ class_of C68_s 0 = Some AttributedNode /\ with_attrs (c_behs AttributedNode) = true /\
  value_at (KStr "__attrs__") (spaces_at C68_s 0) = Some (VNode a) /\ class_of C68_s a = Some NodeAttributes /\
  cache_class (c_behs NodeAttributes) = true /\ cache_at C68_s a = [] /\ allows C68_s a = true /\
  fst (run_eops C68_eq false C68_ad 0
    [EGet "title"; ESet "title" (VInt 1); EAttrs CKeys; ESet "title" (VInt 2); EAttrs (CGet (KStr "title")); EAttrs (CSet (KStr "title") (VInt 3));
     ESet "title" (VInt 3); ESet "always" (VInt 3); ESet "always" (VInt 3); EDel "title"; EDel "title"; EGet "title"] C68_s) =
    [(AVal (VInt 1), None); (ANone, None); (AKeys [KStr "title"], None); (ANone, Some ("title", VInt 2)); (AVal (VInt 2), None); (ANone, None);
     (ANone, None); (ANone, Some ("always", VInt 3)); (ANone, Some ("always", VInt 3)); (ANone, Some ("title", VUnset)); (AExc (KeyError (KStr "title")), None); (AVal (VInt 1), None)] /\
  fst (fst (run_eop C68_eq true C68_ad 0 (ESet "title" (VInt 2)) C68_s)) = AExc AttributeError.
Proof. exists 3. split; [apply after_reach|]. vm_compute. repeat split. Qed.
(** Values the attributes refuse are not stored and send nothing. *)
Definition C68_refusing := after [ONew "node.base.AttributedNode" (KStr "root") None; OAttrs 0; OSetAllow 3 false].
Example C68_refusing_example : reach C68_refusing /\ allows C68_refusing 3 = false /\
  fst (run_eops C68_eq false C68_ad 0 [ESet "title" (VInt 2); EGet "title"; EAttrs CKeys] C68_refusing) =
    [(AExc (ValueError "Non-node childs are not allowed."), None); (AVal (VInt 1), None); (AKeys [], None)].
Proof. split; [apply after_reach|]. vm_compute. repeat split. Qed.
Print Assumptions C68_history.
Print Assumptions C68_both_ways.
Print Assumptions C68_as_in_dict.
Print Assumptions C68_attribute_access_refuted.
