(** No operation takes a storage away from a node, gives it another one, or changes its class;
    allow_non_node_childs changes by assignment only. *)
From Verif Require Import Py Odict Aliaser Heap Model Reach.

Definition stays (s s' : st) : Prop :=
  next_id s <= next_id s' /\ (forall l, is_Some (dicts s !! l) -> is_Some (dicts s' !! l)) /\
  forall x o, x < next_id s -> nodes s !! x = Some o ->
    exists o', nodes s' !! x = Some o' /\ o_cls o' = o_cls o /\ forall l, o_storage o = Some l -> o_storage o' = Some l.
Definition kept (s s' : st) : Prop :=
  next_id s <= next_id s' /\ (forall l, is_Some (dicts s !! l) -> is_Some (dicts s' !! l)) /\
  forall x o, x < next_id s -> nodes s !! x = Some o ->
    exists o', nodes s' !! x = Some o' /\ o_cls o' = o_cls o /\ o_allow o' = o_allow o /\ forall l, o_storage o = Some l -> o_storage o' = Some l.
Lemma kept_stays s s' : kept s s' -> stays s s'.
Proof. intros (A & B & C). split; [done|]. split; [done|]. intros x o Hx Ho. destruct (C x o Hx Ho) as (o' & ? & ? & _ & ?). by exists o'. Qed.
Lemma stays_refl s : stays s s.
Proof. split; [lia|]. split; [done|]. intros x o _ Ho. by exists o. Qed.
Lemma stays_trans s s1 s2 : stays s s1 -> stays s1 s2 -> stays s s2.
Proof.
  intros (A & B & C) (A' & B' & C'). split; [lia|]. split; [by auto|]. intros x o Hx Ho. destruct (C x o Hx Ho) as (o1 & Ho1 & E1 & F1).
  destruct (C' x o1 ltac:(lia) Ho1) as (o2 & Ho2 & E2 & F2). exists o2. split; [done|]. split; [congruence|]. auto.
Qed.
Lemma kept_refl s : kept s s.
Proof. split; [lia|]. split; [done|]. intros x o _ Ho. by exists o. Qed.
Lemma kept_trans s s1 s2 : kept s s1 -> kept s1 s2 -> kept s s2.
Proof.
  intros (A & B & C) (A' & B' & C'). split; [lia|]. split; [by auto|]. intros x o Hx Ho. destruct (C x o Hx Ho) as (o1 & Ho1 & E1 & G1 & F1).
  destruct (C' x o1 ltac:(lia) Ho1) as (o2 & Ho2 & E2 & G2 & F2). exists o2. split; [done|]. split; [congruence|]. split; [congruence|]. auto.
Qed.
Lemma kept_nodes s s' : next_id s <= next_id s' -> (forall l, is_Some (dicts s !! l) -> is_Some (dicts s' !! l)) -> nodes s' = nodes s -> kept s s'.
Proof. intros H D E. split; [done|]. split; [done|]. intros x o _ Ho. exists o. by rewrite E. Qed.
Definition kp {A} (m : M A) : Prop := forall s, kept s (snd (m s)).
Lemma kp_ret {A} (a : A) : kp (ret a).
Proof. intros s. apply kept_refl. Qed.
Lemma kp_raise {A} e : kp (raise (A := A) e).
Proof. intros s. apply kept_refl. Qed.
Lemma kp_bind {A B} (m : M A) (f : A -> M B) : kp m -> (forall a, kp (f a)) -> kp (bind m f).
Proof. intros Hm Hf s. specialize (Hm s). unfold bind. destruct (m s) as [[a|e] s1]; simpl in *; [|done]. eapply kept_trans; [exact Hm|apply Hf]. Qed.
Lemma kp_try {A} (m : M A) p h : kp m -> (forall e, kp (h e)) -> kp (try_catch m p h).
Proof. intros Hm Hf s. specialize (Hm s). unfold try_catch. destruct (m s) as [[a|e] s1]; simpl in *; [done|]. destruct (p e); simpl; [|done]. eapply kept_trans; [exact Hm|apply Hf]. Qed.
Lemma kp_finally {A} (m : M A) fin : kp m -> kp fin -> kp (try_finally m fin).
Proof. intros Hm Hf s. specialize (Hm s). specialize (Hf (snd (m s))). unfold try_finally. destruct (m s) as [r s1]; simpl in *. destruct (fin s1) as [[a|e] s2]; cbn [fst snd] in *; exact (kept_trans _ _ _ Hm Hf). Qed.
Lemma kp_iter {A} (f : A -> M unit) l : (forall a, kp (f a)) -> kp (iterM f l).
Proof. intros H. induction l as [|a l IH]; [apply kp_ret|]. simpl. by apply kp_bind. Qed.
Lemma kp_mapM {A B} (f : A -> M B) l : (forall a, kp (f a)) -> kp (mapM_ f l).
Proof. intros H. induction l as [|a l IH]; [apply kp_ret|]. simpl. apply kp_bind; [done|]. intros b. apply kp_bind; [done|]. intros bs. apply kp_ret. Qed.
Lemma kp_res {A} (r : res A) : kp (of_res r).
Proof. intros s. apply kept_refl. Qed.
Lemma kp_load x : kp (load x).
Proof. intros s. unfold load. destruct (nodes s !! x); apply kept_refl. Qed.
Lemma kp_modify x f : (forall o, o_cls (f o) = o_cls o) -> (forall o, o_allow (f o) = o_allow o) -> (forall o, o_storage (f o) = o_storage o) -> kp (modify x f).
Proof.
  intros H1 H2 H3 s. unfold modify. destruct (nodes s !! x) as [o|] eqn:E; [|apply kept_refl]. split; [done|]. split; [done|]. intros y o' Hy Ho'. simpl.
  destruct (decide (x = y)) as [->|]; [|exists o'; by rewrite lookup_insert_ne]. rewrite lookup_insert. exists (f o). assert (o' = o) as -> by congruence.
  split; [done|]. split; [done|]. split; [done|]. by rewrite H3.
Qed.
Lemma kp_read_dict x : kp (read_dict x).
Proof. intros s. unfold read_dict. destruct (dicts s !! x); apply kept_refl. Qed.
Lemma kp_write_dict x d : kp (write_dict x d).
Proof. intros s. apply kept_nodes; simpl; [lia| |done]. intros l' Hl'; simpl; destruct (decide (l' = x)) as [->|]; [by rewrite lookup_insert|by rewrite lookup_insert_ne]. Qed.
Lemma kp_read_idx x : kp (read_idx x).
Proof. intros s. unfold read_idx. destruct (idxs s !! x); apply kept_refl. Qed.
Lemma kp_write_idx x d : kp (write_idx x d).
Proof. intros s. apply kept_nodes; simpl; [lia|done|done]. Qed.
Lemma kp_alloc_dict d : kp (alloc_dict d).
Proof. intros s. apply kept_nodes; simpl; [lia| |done]. intros l' Hl'; simpl; destruct (decide (l' = next_id s)) as [->|]; [by rewrite lookup_insert|by rewrite lookup_insert_ne]. Qed.
Lemma kp_alloc_idx d : kp (alloc_idx d).
Proof. intros s. apply kept_nodes; simpl; [lia|done|done]. Qed.
Lemma kp_alloc_node d : kp (alloc_node d).
Proof. intros s. split; simpl; [lia|]. split; [done|]. intros x o Hx Ho. exists o. by rewrite lookup_insert_ne by lia. Qed.
Lemma kp_uuid4 : kp uuid4.
Proof. intros s. apply kept_nodes; simpl; [lia|done|done]. Qed.
Lemma kp_saw u : kp (saw_uuid u).
Proof. intros s. destruct u; (apply kept_nodes; simpl; [lia|done|done]). Qed.
Lemma kp_notify e : kp (notify e).
Proof. intros s. apply kept_nodes; simpl; [lia|done|done]. Qed.
Lemma kp_class cn : kp (get_class cn).
Proof. intros s. unfold get_class. destruct (classes s !! cn); apply kept_refl. Qed.
Lemma kp_fuel {A} (f : nat -> M A) : (forall n, kp (f n)) -> kp (with_fuel f).
Proof. intros H s. apply H. Qed.
Create HintDb kp.
Global Hint Resolve kp_ret kp_raise kp_iter kp_mapM kp_res kp_load kp_read_dict kp_write_dict kp_read_idx kp_write_idx
  kp_alloc_dict kp_alloc_idx kp_alloc_node kp_uuid4 kp_saw kp_notify kp_class : kp.
Ltac kp :=
  repeat (first
    [ progress (intros)
    | solve [eauto with kp]
    | (apply kp_modify; by intros [])
    | apply kp_bind | apply kp_try | apply kp_iter | apply kp_mapM | apply kp_fuel
    | match goal with |- kp (match ?x with _ => _ end) => destruct x end
    | match goal with |- kp (let '(_, _) := ?x in _) => destruct x end ]).
Ltac kpu f := unfold f; kp.

Lemma kp_dict_get l k : kp (dict_get l k). Proof. kpu dict_get. Qed.
Lemma kp_dict_set l k v : kp (dict_set l k v). Proof. kpu dict_set. Qed.
Lemma kp_dict_del l k : kp (dict_del l k). Proof. kpu dict_del. Qed.
Global Hint Resolve kp_dict_get kp_dict_set kp_dict_del : kp.
Lemma kp_storage_of x : kp (storage_of x).
Proof.
  intros s. unfold storage_of, bind at 1, load. destruct (nodes s !! x) as [o|] eqn:Ho; [|apply kept_refl].
  destruct (_ || _); [|apply kept_refl]. destruct (o_storage o) as [l|] eqn:Hl; [apply kept_refl|].
  unfold bind at 1, alloc_dict. cbn [fst snd]. unfold bind, modify. simpl. rewrite Ho. simpl. split; [simpl; lia|]. split.
  - intros l' Hl'. simpl. destruct (decide (l' = next_id s)) as [->|]; [by rewrite lookup_insert|by rewrite lookup_insert_ne].
  - intros y o' Hy Ho'. simpl. destruct (decide (x = y)) as [->|]; [|exists o'; by rewrite lookup_insert_ne].
    rewrite lookup_insert. eexists. split; [done|]. assert (o' = o) as -> by congruence. simpl. split; [done|]. split; [done|]. congruence.
Qed.
Lemma kp_cache_of x : kp (cache_of x). Proof. kpu cache_of. Qed.
Lemma kp_nodespaces_of x : kp (nodespaces_of x). Proof. kpu nodespaces_of. Qed.
Lemma kp_fixed_of x : kp (fixed_of x). Proof. kpu fixed_of. Qed.
Lemma kp_index_of x : kp (index_of x). Proof. kpu index_of. Qed.
Global Hint Resolve kp_storage_of kp_cache_of kp_nodespaces_of kp_fixed_of kp_index_of : kp.
Lemma kp_loc f x : kp (location_iterator f x).
Proof. revert x. induction f as [|f IH]; intros [x|]; simpl; kp. Qed.
Global Hint Resolve kp_loc : kp.
Lemma kp_path x : kp (path_of x). Proof. kpu path_of. Qed.
Lemma kp_root x : kp (root_of x). Proof. kpu root_of. Qed.
Global Hint Resolve kp_path kp_root : kp.
Lemma kp_iter_override bs x : kp (iter_override bs x).
Proof. induction bs as [|b bs IH]; simpl; kp. Qed.
Global Hint Resolve kp_iter_override : kp.
Lemma kp_iter_stack all bs x : kp (iter_stack all bs x).
Proof. induction bs as [|b bs IH]; simpl; [kpu iter_endpoint|kpu iter_stage]. Qed.
Global Hint Resolve kp_iter_stack : kp.
Lemma kp_iter_of x : kp (Model.iter x). Proof. kpu Model.iter. Qed.
Global Hint Resolve kp_iter_of : kp.
Lemma kp_iterkeys x : kp (iterkeys x). Proof. kpu iterkeys. Qed.
Lemma kp_keys x : kp (keys x). Proof. kpu keys. Qed.
Lemma kp_set_uuid x u : kp (set_uuid x u). Proof. kpu set_uuid. Qed.
Lemma kp_notify_modified x : kp (notify_modified x). Proof. kpu notify_modified. Qed.
Global Hint Resolve kp_iterkeys kp_keys kp_set_uuid kp_notify_modified : kp.
Lemma kp_set_stack all bs : forall x k v, kp (set_stack all bs x k v).
Proof. induction bs as [|b bs IH]; intros x k v; simpl; [kpu set_endpoint|kpu set_stage]. Qed.
Global Hint Resolve kp_set_stack : kp.
Lemma kp_setitem x k v : kp (setitem x k v). Proof. kpu setitem. Qed.
Lemma kp_assign_uuid x u : kp (assign_uuid x u). Proof. kpu assign_uuid. Qed.
Global Hint Resolve kp_setitem kp_assign_uuid : kp.
Lemma kp_init_stack mk all bs : (forall a, kp (mk a)) -> forall x n p, kp (init_stack mk all bs n p x).
Proof. intros H. induction bs as [|b bs IH]; intros x n p; simpl; [kpu init_endpoint|kpu init_stage]. Qed.
Lemma kp_instantiate f : forall cn n p, kp (instantiate f cn n p).
Proof. induction f as [|f IH]; intros cn n p; simpl; kp; try (apply kp_init_stack; intros ?); try apply IH. Qed.
Global Hint Resolve kp_instantiate : kp.
Lemma kp_new cn n p : kp (new_node cn n p). Proof. intros s. apply kp_instantiate. Qed.
Global Hint Resolve kp_new : kp.
Lemma kp_search {A} (count : Z -> M A) : (forall z, kp (count z)) -> kp (bind fb_enter (fun z => try_finally (count z) fb_exit)).
Proof.
  intros H. apply kp_bind; [intros s; apply kept_nodes; [simpl; lia|done|done]|]. intros z. apply kp_finally; [apply H|]. intros s. apply kept_nodes; [simpl; lia|done|done].
Qed.
Lemma kp_get_stack fb all bs : (forall x k, kp (fb x k)) -> forall x k, kp (get_stack fb all bs x k).
Proof.
  intros Hfb. induction bs as [|b bs IH]; intros x k; simpl; [kpu get_endpoint|]. destruct b; simpl; try apply IH; try solve [kp].
  apply kp_try; [apply IH|]. intros e. apply kp_search. intros z. kp.
Qed.
Lemma kp_nested x k : kp (getitem_nested x k).
Proof. unfold getitem_nested. apply kp_bind; [kp|]. intros o. apply kp_get_stack. intros y k'. kp. Qed.
Global Hint Resolve kp_nested : kp.
Lemma kp_to_leaf l : forall c, kp (to_leaf_loop c l).
Proof. induction l as [|n l IH]; intros c; simpl; kp. Qed.
Global Hint Resolve kp_to_leaf : kp.
Lemma kp_to_root f : forall n p v, kp (to_root f n p v).
Proof. induction f as [|f IH]; intros n p v; simpl; kp. Qed.
Lemma kp_fb_search x k : kp (fb_search x k).
Proof. unfold fb_search. apply kp_bind; [kp|]. intros p s. apply kp_to_root. Qed.
Lemma kp_getitem x k : kp (getitem x k).
Proof. unfold getitem. apply kp_bind; [kp|]. intros o. apply kp_get_stack. apply kp_fb_search. Qed.
Global Hint Resolve kp_getitem : kp.
Lemma kp_to_delete f : forall x, kp (to_delete f x).
Proof. induction f as [|f IH]; intros x; simpl; kp. Qed.
Global Hint Resolve kp_to_delete : kp.
Lemma kp_values x : kp (values x). Proof. kpu values. Qed.
Lemma kp_items x : kp (items x). Proof. kpu items. Qed.
Global Hint Resolve kp_values kp_items : kp.
Lemma kp_index_nodes f : forall a, kp (index_nodes f a).
Proof. induction f as [|f IH]; intros a; simpl; kp. Qed.
Global Hint Resolve kp_index_nodes : kp.
Lemma kp_idx_del i u : kp (idx_del i u). Proof. kpu idx_del. Qed.
Global Hint Resolve kp_idx_del : kp.
Lemma kp_del_stack all bs : forall x k, kp (del_stack all bs x k).
Proof. induction bs as [|b bs IH]; intros x k; simpl; [kpu del_endpoint|kpu del_stage]. Qed.
Global Hint Resolve kp_del_stack : kp.
Lemma kp_delitem x k : kp (delitem x k). Proof. kpu delitem. Qed.
Global Hint Resolve kp_delitem : kp.
Lemma kp_update x a kw : kp (update x a kw). Proof. kpu update. Qed.
Lemma kp_setdefault x k v : kp (setdefault x k v). Proof. kpu setdefault. Qed.
Lemma kp_pop x k d : kp (pop x k d). Proof. kpu pop. Qed.
Lemma kp_popitem x : kp (popitem x). Proof. kpu popitem. Qed.
Lemma kp_clear x : kp (clear x). Proof. kpu clear. Qed.
Lemma kp_attrs x : kp (attrs_of x). Proof. kpu attrs_of. Qed.
Global Hint Resolve kp_update kp_setdefault kp_pop kp_popitem kp_clear kp_attrs : kp.
Lemma kp_invalidate_endpoint bs : forall x k, kp (invalidate_endpoint bs x k).
Proof. induction bs as [|b bs IH]; intros x k; simpl; kp. Qed.
Global Hint Resolve kp_invalidate_endpoint : kp.
Lemma kp_invalidate_stack all bs : forall x k, kp (invalidate_stack all bs x k).
Proof. induction bs as [|b bs IH]; intros x k; simpl; [kp|kpu invalidate_stage]. Qed.
Global Hint Resolve kp_invalidate_stack : kp.
Lemma kp_invalidate x k : kp (invalidate x k). Proof. kpu invalidate. Qed.
Lemma kp_name_of x : kp (name_of x). Proof. kpu name_of. Qed.
Global Hint Resolve kp_invalidate kp_name_of : kp.
Lemma kp_odict_swap l a b : kp (odict_swap l a b). Proof. kpu odict_swap. Qed.
Lemma kp_odict_insert c l r k v : kp (odict_insert c l r k v). Proof. kpu odict_insert. Qed.
Global Hint Resolve kp_odict_swap kp_odict_insert : kp.
Lemma kp_own_storage x : kp (own_storage x). Proof. kpu own_storage. Qed.
Global Hint Resolve kp_own_storage : kp.
Lemma kp_odict_of x : kp (odict_of x). Proof. kpu odict_of. Qed.
Global Hint Resolve kp_odict_of : kp.
Lemma kp_swap x a b : kp (swap x a b). Proof. unfold swap. kpu @order_method. Qed.
Lemma kp_validateinsertion x n : kp (validateinsertion x n). Proof. kpu validateinsertion. Qed.
Global Hint Resolve kp_swap kp_validateinsertion : kp.
Lemma kp_insert_at c x n r : kp (insert_at c x n r). Proof. unfold insert_at. kpu @order_method. Qed.
Global Hint Resolve kp_insert_at : kp.
Lemma kp_insert_end c x n : kp (insert_end c x n). Proof. unfold insert_end. kpu @order_method. Qed.
Lemma kp_deep x : kp (deep x).
Proof.
  intros s. split; simpl; [lia|]. split.
  - intros l [d Hd]. rewrite lookup_union, Hd. destruct (kmap _ _ !! l); simpl; eauto.
  - intros y o Hy Ho. exists o. rewrite lookup_union, Ho. split; [|done]. by destruct (kmap _ _ !! y).
Qed.
Global Hint Resolve kp_insert_end kp_deep : kp.
Lemma kp_set_uuid_for f : forall r v, kp (set_uuid_for f r v).
Proof. induction f as [|f IH]; intros r v; simpl; kp. Qed.
Global Hint Resolve kp_set_uuid_for : kp.
Lemma kp_deepcopy_stack bs : forall x, kp (deepcopy_stack bs x).
Proof. induction bs as [|b bs IH]; intros x; simpl; [kp|kpu deepcopy_stage]. Qed.
Global Hint Resolve kp_deepcopy_stack : kp.
Lemma kp_deepcopy x : kp (deepcopy x). Proof. kpu deepcopy. Qed.
Global Hint Resolve kp_deepcopy : kp.
Lemma kp_store x k v : kp (store x k v). Proof. kpu store. Qed.
Lemma kp_unstore x k : kp (unstore x k). Proof. kpu unstore. Qed.
Global Hint Resolve kp_store kp_unstore : kp.
Lemma kp_detach_stack bs : forall x k, kp (detach_stack bs x k).
Proof. induction bs as [|b bs IH]; intros x k; simpl; [kpu detach_endpoint|kpu detach_stage]. Qed.
Global Hint Resolve kp_detach_stack : kp.
Lemma kp_detach x k : kp (detach x k). Proof. kpu detach. Qed.
Global Hint Resolve kp_detach : kp.
Lemma stays_run o s : stays s (snd (run_op o s)).
Proof.
  assert (H : (forall x b, o <> OSetAllow x b) -> kp (run_op o)).
  { intros H. destruct o; simpl; unfold ignore; try (by exfalso; eapply H); kp. }
  destruct o as [| | | | | | | | | | | | | | | | | | |x b| | | | | | |]; try (apply kept_stays, H; by intros). clear H. simpl.
  unfold modify. destruct (nodes s !! x) as [o|] eqn:E; [|apply stays_refl]. split; [done|]. split; [done|]. intros y o' Hy Ho'. simpl.
  destruct (decide (x = y)) as [->|]; [|exists o'; by rewrite lookup_insert_ne]. rewrite lookup_insert. eexists. split; [done|].
  assert (o' = o) as -> by congruence. done.
Qed.
