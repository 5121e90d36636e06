(** Only detach changes whether a node suppresses its notifications, and nothing changes the class of a node. *)
From Verif Require Import Py Odict Aliaser Heap Model Reach.

(** The nodes below the allocation counter keep class and suppression. *)
Definition quiet (s s' : st) : Prop :=
  next_id s <= next_id s' /\
  forall x, x < next_id s -> (o_suppress <$> nodes s' !! x) = (o_suppress <$> nodes s !! x) /\ (o_cls <$> nodes s' !! x) = (o_cls <$> nodes s !! x).
Lemma quiet_refl s : quiet s s.
Proof. by split. Qed.
Lemma quiet_trans s s1 s2 : quiet s s1 -> quiet s1 s2 -> quiet s s2.
Proof. intros [L1 H1] [L2 H2]. split; [lia|]. intros x Hx. destruct (H1 x Hx) as [A B]. destruct (H2 x) as [C D]; [lia|]. split; congruence. Qed.
Lemma quiet_nodes s s' : next_id s <= next_id s' -> nodes s' = nodes s -> quiet s s'.
Proof. intros H E. split; [done|]. intros x _. by rewrite E. Qed.
Definition ks {A} (m : M A) : Prop := forall s, quiet s (snd (m s)).
Lemma ks_ret {A} (a : A) : ks (ret a).
Proof. intros s. apply quiet_refl. Qed.
Lemma ks_raise {A} e : ks (raise (A := A) e).
Proof. intros s. apply quiet_refl. Qed.
Lemma ks_bind {A B} (m : M A) (f : A -> M B) : ks m -> (forall a, ks (f a)) -> ks (bind m f).
Proof. intros Hm Hf s. specialize (Hm s). unfold bind. destruct (m s) as [[a|e] s1]; simpl in *; [|done]. eapply quiet_trans; [exact Hm|apply Hf]. Qed.
Lemma ks_try {A} (m : M A) p h : ks m -> (forall e, ks (h e)) -> ks (try_catch m p h).
Proof. intros Hm Hf s. specialize (Hm s). unfold try_catch. destruct (m s) as [[a|e] s1]; simpl in *; [done|]. destruct (p e); simpl; [|done]. eapply quiet_trans; [exact Hm|apply Hf]. Qed.
Lemma ks_finally {A} (m : M A) fin : ks m -> ks fin -> ks (try_finally m fin).
Proof. intros Hm Hf s. specialize (Hm s). specialize (Hf (snd (m s))). unfold try_finally. destruct (m s) as [r s1]; simpl in *. destruct (fin s1) as [[a|e] s2]; simpl in *; by eapply quiet_trans. Qed.
Lemma ks_iter {A} (f : A -> M unit) l : (forall a, ks (f a)) -> ks (iterM f l).
Proof. intros H. induction l as [|a l IH]; [apply ks_ret|]. simpl. by apply ks_bind. Qed.
Lemma ks_mapM {A B} (f : A -> M B) l : (forall a, ks (f a)) -> ks (mapM_ f l).
Proof. intros H. induction l as [|a l IH]; [apply ks_ret|]. simpl. apply ks_bind; [done|]. intros b. by apply ks_bind. Qed.
Lemma ks_res {A} (r : res A) : ks (of_res r).
Proof. intros s. apply quiet_refl. Qed.
Lemma ks_load x : ks (load x).
Proof. intros s. unfold load. destruct (nodes s !! x); apply quiet_refl. Qed.
Lemma ks_modify x f : (forall o, o_suppress (f o) = o_suppress o) -> (forall o, o_cls (f o) = o_cls o) -> ks (modify x f).
Proof.
  intros H1 H2 s. unfold modify. destruct (nodes s !! x) as [o|] eqn:E; [|apply quiet_refl]. split; [done|]. intros y Hy. simpl.
  destruct (decide (x = y)) as [->|]; [|by rewrite lookup_insert_ne]. rewrite lookup_insert, E. simpl. by rewrite H1, H2.
Qed.
Lemma ks_read_dict x : ks (read_dict x).
Proof. intros s. unfold read_dict. destruct (dicts s !! x); apply quiet_refl. Qed.
Lemma ks_write_dict x d : ks (write_dict x d).
Proof. intros s. apply quiet_nodes; simpl; [lia|done]. Qed.
Lemma ks_read_idx x : ks (read_idx x).
Proof. intros s. unfold read_idx. destruct (idxs s !! x); apply quiet_refl. Qed.
Lemma ks_write_idx x d : ks (write_idx x d).
Proof. intros s. apply quiet_nodes; simpl; [lia|done]. Qed.
Lemma ks_alloc_dict d : ks (alloc_dict d).
Proof. intros s. apply quiet_nodes; simpl; [lia|done]. Qed.
Lemma ks_alloc_idx d : ks (alloc_idx d).
Proof. intros s. apply quiet_nodes; simpl; [lia|done]. Qed.
Lemma ks_alloc_node d : ks (alloc_node d).
Proof. intros s. split; simpl; [lia|]. intros x Hx. by rewrite lookup_insert_ne by lia. Qed.
Lemma ks_uuid4 : ks uuid4.
Proof. intros s. apply quiet_nodes; simpl; [lia|done]. Qed.
Lemma ks_saw u : ks (saw_uuid u).
Proof. intros s. destruct u; (apply quiet_nodes; simpl; [lia|done]). Qed.
Lemma ks_notify e : ks (notify e).
Proof. intros s. apply quiet_nodes; simpl; [lia|done]. Qed.
Lemma ks_class cn : ks (get_class cn).
Proof. intros s. unfold get_class. destruct (classes s !! cn); apply quiet_refl. Qed.
Lemma ks_fuel {A} (f : nat -> M A) : (forall n, ks (f n)) -> ks (with_fuel f).
Proof. intros H s. apply H. Qed.
Create HintDb ks.
Global Hint Resolve ks_ret ks_raise ks_iter ks_mapM ks_res ks_load ks_read_dict ks_write_dict ks_read_idx ks_write_idx
  ks_alloc_dict ks_alloc_idx ks_alloc_node ks_uuid4 ks_saw ks_notify ks_class : ks.
Ltac ks :=
  repeat (first
    [ progress (intros)
    | solve [eauto with ks]
    | (apply ks_modify; [by intros []|by intros []])
    | apply ks_bind | apply ks_try | apply ks_iter | apply ks_mapM | apply ks_fuel
    | match goal with |- ks (match ?x with _ => _ end) => destruct x end
    | match goal with |- ks (let '(_, _) := ?x in _) => destruct x end ]).
Ltac ksu f := unfold f; ks.

Lemma ks_dict_get l k : ks (dict_get l k). Proof. ksu dict_get. Qed.
Lemma ks_dict_set l k v : ks (dict_set l k v). Proof. ksu dict_set. Qed.
Lemma ks_dict_del l k : ks (dict_del l k). Proof. ksu dict_del. Qed.
Global Hint Resolve ks_dict_get ks_dict_set ks_dict_del : ks.
Lemma ks_storage_of x : ks (storage_of x). Proof. ksu storage_of. Qed.
Lemma ks_cache_of x : ks (cache_of x). Proof. ksu cache_of. Qed.
Lemma ks_nodespaces_of x : ks (nodespaces_of x). Proof. ksu nodespaces_of. Qed.
Lemma ks_fixed_of x : ks (fixed_of x). Proof. ksu fixed_of. Qed.
Lemma ks_index_of x : ks (index_of x). Proof. ksu index_of. Qed.
Global Hint Resolve ks_storage_of ks_cache_of ks_nodespaces_of ks_fixed_of ks_index_of : ks.
Lemma ks_loc f x : ks (location_iterator f x).
Proof. revert x. induction f as [|f IH]; intros [x|]; simpl; ks. Qed.
Global Hint Resolve ks_loc : ks.
Lemma ks_path x : ks (path_of x). Proof. ksu path_of. Qed.
Lemma ks_root x : ks (root_of x). Proof. ksu root_of. Qed.
Global Hint Resolve ks_path ks_root : ks.
Lemma ks_iter_override bs x : ks (iter_override bs x).
Proof. induction bs as [|b bs IH]; simpl; ks. Qed.
Global Hint Resolve ks_iter_override : ks.
Lemma ks_iter_stack all bs x : ks (iter_stack all bs x).
Proof. induction bs as [|b bs IH]; simpl; [ksu iter_endpoint|ksu iter_stage]. Qed.
Global Hint Resolve ks_iter_stack : ks.
Lemma ks_iter_of x : ks (Model.iter x). Proof. ksu Model.iter. Qed.
Global Hint Resolve ks_iter_of : ks.
Lemma ks_iterkeys x : ks (iterkeys x). Proof. ksu iterkeys. Qed.
Lemma ks_keys x : ks (keys x). Proof. ksu keys. Qed.
Lemma ks_set_uuid x u : ks (set_uuid x u). Proof. ksu set_uuid. Qed.
Lemma ks_notify_modified x : ks (notify_modified x). Proof. ksu notify_modified. Qed.
Global Hint Resolve ks_iterkeys ks_keys ks_set_uuid ks_notify_modified : ks.
Lemma ks_set_stack all bs : forall x k v, ks (set_stack all bs x k v).
Proof. induction bs as [|b bs IH]; intros x k v; simpl; [ksu set_endpoint|ksu set_stage]. Qed.
Global Hint Resolve ks_set_stack : ks.
Lemma ks_setitem x k v : ks (setitem x k v). Proof. ksu setitem. Qed.
Lemma ks_assign_uuid x u : ks (assign_uuid x u). Proof. ksu assign_uuid. Qed.
Global Hint Resolve ks_setitem ks_assign_uuid : ks.
Lemma ks_init_stack mk all bs : (forall a, ks (mk a)) -> forall x n p, ks (init_stack mk all bs n p x).
Proof. intros H. induction bs as [|b bs IH]; intros x n p; simpl; [ksu init_endpoint|ksu init_stage]. Qed.
Lemma ks_instantiate f : forall cn n p, ks (instantiate f cn n p).
Proof. induction f as [|f IH]; intros cn n p; simpl; ks; try (apply ks_init_stack; intros ?); try apply IH. Qed.
Global Hint Resolve ks_instantiate : ks.
Lemma ks_new cn n p : ks (new_node cn n p). Proof. intros s. apply ks_instantiate. Qed.
Global Hint Resolve ks_new : ks.
Lemma ks_search {A} (count : Z -> M A) : (forall z, ks (count z)) -> ks (bind fb_enter (fun z => try_finally (count z) fb_exit)).
Proof.
  intros H. apply ks_bind; [intros s; by apply quiet_nodes|]. intros z. apply ks_finally; [apply H|]. intros s. by apply quiet_nodes.
Qed.
Lemma ks_get_stack fb all bs : (forall x k, ks (fb x k)) -> forall x k, ks (get_stack fb all bs x k).
Proof.
  intros Hfb. induction bs as [|b bs IH]; intros x k; simpl; [ksu get_endpoint|]. destruct b; simpl; try apply IH; try solve [ks].
  apply ks_try; [apply IH|]. intros e. apply ks_search. intros z. ks.
Qed.
Lemma ks_nested x k : ks (getitem_nested x k).
Proof. unfold getitem_nested. apply ks_bind; [ks|]. intros o. apply ks_get_stack. intros y k'. ks. Qed.
Global Hint Resolve ks_nested : ks.
Lemma ks_to_leaf l : forall c, ks (to_leaf_loop c l).
Proof. induction l as [|n l IH]; intros c; simpl; ks. Qed.
Global Hint Resolve ks_to_leaf : ks.
Lemma ks_to_root f : forall n p v, ks (to_root f n p v).
Proof. induction f as [|f IH]; intros n p v; simpl; ks. Qed.
Lemma ks_fb_search x k : ks (fb_search x k).
Proof. unfold fb_search. apply ks_bind; [ks|]. intros p s. apply ks_to_root. Qed.
Lemma ks_getitem x k : ks (getitem x k).
Proof. unfold getitem. apply ks_bind; [ks|]. intros o. apply ks_get_stack. apply ks_fb_search. Qed.
Global Hint Resolve ks_getitem : ks.
Lemma ks_to_delete f : forall x, ks (to_delete f x).
Proof. induction f as [|f IH]; intros x; simpl; ks. Qed.
Global Hint Resolve ks_to_delete : ks.
Lemma ks_values x : ks (values x). Proof. ksu values. Qed.
Lemma ks_items x : ks (items x). Proof. ksu items. Qed.
Global Hint Resolve ks_values ks_items : ks.
Lemma ks_index_nodes f : forall a, ks (index_nodes f a).
Proof. induction f as [|f IH]; intros a; simpl; ks. Qed.
Global Hint Resolve ks_index_nodes : ks.
Lemma ks_idx_del i u : ks (idx_del i u). Proof. ksu idx_del. Qed.
Global Hint Resolve ks_idx_del : ks.
Lemma ks_del_stack all bs : forall x k, ks (del_stack all bs x k).
Proof. induction bs as [|b bs IH]; intros x k; simpl; [ksu del_endpoint|ksu del_stage]. Qed.
Global Hint Resolve ks_del_stack : ks.
Lemma ks_delitem x k : ks (delitem x k). Proof. ksu delitem. Qed.
Global Hint Resolve ks_delitem : ks.
Lemma ks_update x a kw : ks (update x a kw). Proof. ksu update. Qed.
Lemma ks_setdefault x k v : ks (setdefault x k v). Proof. ksu setdefault. Qed.
Lemma ks_pop x k d : ks (pop x k d). Proof. ksu pop. Qed.
Lemma ks_popitem x : ks (popitem x). Proof. ksu popitem. Qed.
Lemma ks_clear x : ks (clear x). Proof. ksu clear. Qed.
Lemma ks_attrs x : ks (attrs_of x). Proof. ksu attrs_of. Qed.
Global Hint Resolve ks_update ks_setdefault ks_pop ks_popitem ks_clear ks_attrs : ks.
Lemma ks_invalidate_endpoint bs : forall x k, ks (invalidate_endpoint bs x k).
Proof. induction bs as [|b bs IH]; intros x k; simpl; ks. Qed.
Global Hint Resolve ks_invalidate_endpoint : ks.
Lemma ks_invalidate_stack all bs : forall x k, ks (invalidate_stack all bs x k).
Proof. induction bs as [|b bs IH]; intros x k; simpl; [ks|ksu invalidate_stage]. Qed.
Global Hint Resolve ks_invalidate_stack : ks.
Lemma ks_invalidate x k : ks (invalidate x k). Proof. ksu invalidate. Qed.
Lemma ks_name_of x : ks (name_of x). Proof. ksu name_of. Qed.
Global Hint Resolve ks_invalidate ks_name_of : ks.
Lemma ks_odict_swap l a b : ks (odict_swap l a b). Proof. ksu odict_swap. Qed.
Lemma ks_odict_insert c l r k v : ks (odict_insert c l r k v). Proof. ksu odict_insert. Qed.
Global Hint Resolve ks_odict_swap ks_odict_insert : ks.
Lemma ks_own_storage x : ks (own_storage x). Proof. ksu own_storage. Qed.
Global Hint Resolve ks_own_storage : ks.
Lemma ks_odict_of x : ks (odict_of x). Proof. ksu odict_of. Qed.
Global Hint Resolve ks_odict_of : ks.
Lemma ks_swap x a b : ks (swap x a b). Proof. unfold swap. ksu @order_method. Qed.
Lemma ks_validateinsertion x n : ks (validateinsertion x n). Proof. ksu validateinsertion. Qed.
Global Hint Resolve ks_swap ks_validateinsertion : ks.
Lemma ks_insert_at c x n r : ks (insert_at c x n r). Proof. unfold insert_at. ksu @order_method. Qed.
Global Hint Resolve ks_insert_at : ks.
Lemma ks_insert_end c x n : ks (insert_end c x n). Proof. unfold insert_end. ksu @order_method. Qed.
Lemma ks_deep x : ks (deep x).
Proof.
  intros s. split; simpl; [lia|]. intros y Hy. rewrite lookup_union.
  assert (kmap (M2 := gmap nat) (Nat.add (next_id s)) (shift_obj (next_id s) <$> nodes s) !! y = None) as ->.
  { apply lookup_kmap_None; [intros ???; lia|]. intros i ->. lia. }
  by destruct (nodes s !! y).
Qed.
Global Hint Resolve ks_insert_end ks_deep : ks.
Lemma ks_set_uuid_for f : forall r v, ks (set_uuid_for f r v).
Proof. induction f as [|f IH]; intros r v; simpl; ks. Qed.
Global Hint Resolve ks_set_uuid_for : ks.
Lemma ks_deepcopy_stack bs : forall x, ks (deepcopy_stack bs x).
Proof. induction bs as [|b bs IH]; intros x; simpl; [ks|ksu deepcopy_stage]. Qed.
Global Hint Resolve ks_deepcopy_stack : ks.
Lemma ks_deepcopy x : ks (deepcopy x). Proof. ksu deepcopy. Qed.
Global Hint Resolve ks_deepcopy : ks.
Lemma ks_run o : (forall x k, o <> ODetach x k) -> ks (run_op o).
Proof. intros H. destruct o; simpl; unfold ignore; try (by exfalso; eapply H); ks. Qed.
