(** Every function of the model leaves the fallback counter as it found it. *)
From Verif Require Import Py Odict Aliaser Heap Model Reach.

Definition kf {A} (m : M A) : Prop := forall s, fbcount (snd (m s)) = fbcount s.
Lemma kf_ret {A} (a : A) : kf (ret a).
Proof. done. Qed.
Lemma kf_raise {A} e : kf (raise (A := A) e).
Proof. done. Qed.
Lemma kf_bind {A B} (m : M A) (f : A -> M B) : kf m -> (forall a, kf (f a)) -> kf (bind m f).
Proof. intros Hm Hf s. specialize (Hm s). unfold bind. destruct (m s) as [[a|e] s1]; simpl in *; [by rewrite Hf|done]. Qed.
Lemma kf_try {A} (m : M A) p h : kf m -> (forall e, kf (h e)) -> kf (try_catch m p h).
Proof. intros Hm Hf s. specialize (Hm s). unfold try_catch. destruct (m s) as [[a|e] s1]; simpl in *; [done|]. destruct (p e); simpl; [by rewrite Hf|done]. Qed.
Lemma kf_finally {A} (m : M A) fin : kf m -> kf fin -> kf (try_finally m fin).
Proof. intros Hm Hf s. specialize (Hm s). specialize (Hf (snd (m s))). unfold try_finally. destruct (m s) as [r s1]; simpl in *. destruct (fin s1) as [[a|e] s2]; simpl in *; congruence. Qed.
Lemma kf_iter {A} (f : A -> M unit) l : (forall a, kf (f a)) -> kf (iterM f l).
Proof. intros H. induction l as [|a l IH]; [apply kf_ret|]. simpl. by apply kf_bind. Qed.
Lemma kf_mapM {A B} (f : A -> M B) l : (forall a, kf (f a)) -> kf (mapM_ f l).
Proof. intros H. induction l as [|a l IH]; [apply kf_ret|]. simpl. apply kf_bind; [done|]. intros b. by apply kf_bind. Qed.
Lemma kf_res {A} (r : res A) : kf (of_res r).
Proof. done. Qed.
Lemma kf_load x : kf (load x).
Proof. intros s. unfold load. by destruct (nodes s !! x). Qed.
Lemma kf_modify x f : kf (modify x f).
Proof. intros s. unfold modify. by destruct (nodes s !! x). Qed.
Lemma kf_read_dict x : kf (read_dict x).
Proof. intros s. unfold read_dict. by destruct (dicts s !! x). Qed.
Lemma kf_write_dict x d : kf (write_dict x d).
Proof. done. Qed.
Lemma kf_read_idx x : kf (read_idx x).
Proof. intros s. unfold read_idx. by destruct (idxs s !! x). Qed.
Lemma kf_write_idx x d : kf (write_idx x d).
Proof. done. Qed.
Lemma kf_alloc_dict d : kf (alloc_dict d).
Proof. done. Qed.
Lemma kf_alloc_idx d : kf (alloc_idx d).
Proof. done. Qed.
Lemma kf_alloc_node d : kf (alloc_node d).
Proof. done. Qed.
Lemma kf_uuid4 : kf uuid4.
Proof. done. Qed.
Lemma kf_saw u : kf (saw_uuid u).
Proof. by destruct u. Qed.
Lemma kf_notify e : kf (notify e).
Proof. done. Qed.
Lemma kf_class cn : kf (get_class cn).
Proof. intros s. unfold get_class. by destruct (classes s !! cn). Qed.
Lemma kf_fuel {A} (f : nat -> M A) : (forall n, kf (f n)) -> kf (with_fuel f).
Proof. intros H s. apply H. Qed.
Create HintDb kf.
Global Hint Resolve kf_ret kf_raise kf_iter kf_mapM kf_res kf_load kf_modify kf_read_dict kf_write_dict kf_read_idx kf_write_idx
  kf_alloc_dict kf_alloc_idx kf_alloc_node kf_uuid4 kf_saw kf_notify kf_class : kf.
Ltac kf :=
  repeat (first
    [ progress (intros)
    | solve [eauto with kf]
    | apply kf_bind | apply kf_try | apply kf_iter | apply kf_mapM | apply kf_fuel
    | match goal with |- kf (match ?x with _ => _ end) => destruct x end
    | match goal with |- kf (let '(_, _) := ?x in _) => destruct x end ]).
Ltac kfu f := unfold f; kf.

Lemma kf_dict_get l k : kf (dict_get l k). Proof. kfu dict_get. Qed.
Lemma kf_dict_set l k v : kf (dict_set l k v). Proof. kfu dict_set. Qed.
Lemma kf_dict_del l k : kf (dict_del l k). Proof. kfu dict_del. Qed.
Global Hint Resolve kf_dict_get kf_dict_set kf_dict_del : kf.
Lemma kf_storage_of x : kf (storage_of x). Proof. kfu storage_of. Qed.
Lemma kf_cache_of x : kf (cache_of x). Proof. kfu cache_of. Qed.
Lemma kf_nodespaces_of x : kf (nodespaces_of x). Proof. kfu nodespaces_of. Qed.
Lemma kf_fixed_of x : kf (fixed_of x). Proof. kfu fixed_of. Qed.
Lemma kf_index_of x : kf (index_of x). Proof. kfu index_of. Qed.
Global Hint Resolve kf_storage_of kf_cache_of kf_nodespaces_of kf_fixed_of kf_index_of : kf.
Lemma kf_loc f x : kf (location_iterator f x).
Proof. revert x. induction f as [|f IH]; intros [x|]; simpl; kf. Qed.
Global Hint Resolve kf_loc : kf.
Lemma kf_path x : kf (path_of x). Proof. kfu path_of. Qed.
Lemma kf_root x : kf (root_of x). Proof. kfu root_of. Qed.
Global Hint Resolve kf_path kf_root : kf.
Lemma kf_iter_override bs x : kf (iter_override bs x).
Proof. induction bs as [|b bs IH]; simpl; kf. Qed.
Global Hint Resolve kf_iter_override : kf.
Lemma kf_iter_stack all bs x : kf (iter_stack all bs x).
Proof. induction bs as [|b bs IH]; simpl; [kfu iter_endpoint|kfu iter_stage]. Qed.
Global Hint Resolve kf_iter_stack : kf.
Lemma kf_iter_of x : kf (Model.iter x). Proof. kfu Model.iter. Qed.
Global Hint Resolve kf_iter_of : kf.
Lemma kf_iterkeys x : kf (iterkeys x). Proof. kfu iterkeys. Qed.
Lemma kf_keys x : kf (keys x). Proof. kfu keys. Qed.
Lemma kf_set_uuid x u : kf (set_uuid x u). Proof. kfu set_uuid. Qed.
Lemma kf_notify_modified x : kf (notify_modified x). Proof. kfu notify_modified. Qed.
Global Hint Resolve kf_iterkeys kf_keys kf_set_uuid kf_notify_modified : kf.
Lemma kf_set_stack all bs : forall x k v, kf (set_stack all bs x k v).
Proof. induction bs as [|b bs IH]; intros x k v; simpl; [kfu set_endpoint|kfu set_stage]. Qed.
Global Hint Resolve kf_set_stack : kf.
Lemma kf_setitem x k v : kf (setitem x k v). Proof. kfu setitem. Qed.
Lemma kf_assign_uuid x u : kf (assign_uuid x u). Proof. kfu assign_uuid. Qed.
Global Hint Resolve kf_setitem kf_assign_uuid : kf.
Lemma kf_init_stack mk all bs : (forall a, kf (mk a)) -> forall x n p, kf (init_stack mk all bs n p x).
Proof. intros H. induction bs as [|b bs IH]; intros x n p; simpl; [kfu init_endpoint|kfu init_stage]. Qed.
Lemma kf_instantiate f : forall cn n p, kf (instantiate f cn n p).
Proof. induction f as [|f IH]; intros cn n p; simpl; kf; try (apply kf_init_stack; intros ?); try apply IH. Qed.
Global Hint Resolve kf_instantiate : kf.
Lemma kf_new cn n p : kf (new_node cn n p). Proof. intros s. apply kf_instantiate. Qed.
Global Hint Resolve kf_new : kf.
Lemma kf_search {A} (count : Z -> M A) : (forall z, kf (count z)) -> kf (bind fb_enter (fun z => try_finally (count z) fb_exit)).
Proof.
  intros H s. unfold bind, fb_enter, try_finally. set (s1 := set_fbcount _ s). specialize (H (fbcount s + 1)%Z s1).
  destruct (count (fbcount s + 1)%Z s1) as [r s2]. simpl in *. rewrite H. simpl. lia.
Qed.
Lemma kf_get_stack fb all bs : (forall x k, kf (fb x k)) -> forall x k, kf (get_stack fb all bs x k).
Proof.
  intros Hfb. induction bs as [|b bs IH]; intros x k; simpl; [kfu get_endpoint|]. destruct b; simpl; try apply IH; try solve [kf].
  apply kf_try; [apply IH|]. intros e. apply kf_search. intros z. kf.
Qed.
Lemma kf_nested x k : kf (getitem_nested x k).
Proof. unfold getitem_nested. apply kf_bind; [kf|]. intros o. apply kf_get_stack. intros y k'. kf. Qed.
Global Hint Resolve kf_nested : kf.
Lemma kf_to_leaf l : forall c, kf (to_leaf_loop c l).
Proof. induction l as [|n l IH]; intros c; simpl; kf. Qed.
Global Hint Resolve kf_to_leaf : kf.
Lemma kf_to_root f : forall n p v, kf (to_root f n p v).
Proof. induction f as [|f IH]; intros n p v; simpl; kf. Qed.
Lemma kf_fb_search x k : kf (fb_search x k).
Proof. unfold fb_search. apply kf_bind; [kf|]. intros p s. apply kf_to_root. Qed.
Lemma kf_getitem x k : kf (getitem x k).
Proof. unfold getitem. apply kf_bind; [kf|]. intros o. apply kf_get_stack. apply kf_fb_search. Qed.
Global Hint Resolve kf_getitem : kf.
Lemma kf_to_delete f : forall x, kf (to_delete f x).
Proof. induction f as [|f IH]; intros x; simpl; kf. Qed.
Global Hint Resolve kf_to_delete : kf.
Lemma kf_values x : kf (values x). Proof. kfu values. Qed.
Lemma kf_items x : kf (items x). Proof. kfu items. Qed.
Global Hint Resolve kf_values kf_items : kf.
Lemma kf_index_nodes f : forall a, kf (index_nodes f a).
Proof. induction f as [|f IH]; intros a; simpl; kf. Qed.
Global Hint Resolve kf_index_nodes : kf.
Lemma kf_idx_del i u : kf (idx_del i u). Proof. kfu idx_del. Qed.
Global Hint Resolve kf_idx_del : kf.
Lemma kf_del_stack all bs : forall x k, kf (del_stack all bs x k).
Proof. induction bs as [|b bs IH]; intros x k; simpl; [kfu del_endpoint|kfu del_stage]. Qed.
Global Hint Resolve kf_del_stack : kf.
Lemma kf_delitem x k : kf (delitem x k). Proof. kfu delitem. Qed.
Global Hint Resolve kf_delitem : kf.
Lemma kf_detach_stack bs : forall x k, kf (detach_stack bs x k).
Proof. induction bs as [|b bs IH]; intros x k; simpl; [kfu detach_endpoint|kfu detach_stage]. Qed.
Global Hint Resolve kf_detach_stack : kf.
Lemma kf_detach x k : kf (detach x k). Proof. kfu detach. Qed.
Lemma kf_update x a kw : kf (update x a kw). Proof. kfu update. Qed.
Lemma kf_setdefault x k v : kf (setdefault x k v). Proof. kfu setdefault. Qed.
Lemma kf_pop x k d : kf (pop x k d). Proof. kfu pop. Qed.
Lemma kf_popitem x : kf (popitem x). Proof. kfu popitem. Qed.
Lemma kf_clear x : kf (clear x). Proof. kfu clear. Qed.
Lemma kf_attrs x : kf (attrs_of x). Proof. kfu attrs_of. Qed.
Global Hint Resolve kf_detach kf_update kf_setdefault kf_pop kf_popitem kf_clear kf_attrs : kf.
Lemma kf_invalidate_endpoint bs : forall x k, kf (invalidate_endpoint bs x k).
Proof. induction bs as [|b bs IH]; intros x k; simpl; kf. Qed.
Global Hint Resolve kf_invalidate_endpoint : kf.
Lemma kf_invalidate_stack all bs : forall x k, kf (invalidate_stack all bs x k).
Proof. induction bs as [|b bs IH]; intros x k; simpl; [kf|kfu invalidate_stage]. Qed.
Global Hint Resolve kf_invalidate_stack : kf.
Lemma kf_invalidate x k : kf (invalidate x k). Proof. kfu invalidate. Qed.
Lemma kf_name_of x : kf (name_of x). Proof. kfu name_of. Qed.
Global Hint Resolve kf_invalidate kf_name_of : kf.
Lemma kf_odict_swap l a b : kf (odict_swap l a b). Proof. kfu odict_swap. Qed.
Lemma kf_odict_insert c l r k v : kf (odict_insert c l r k v). Proof. kfu odict_insert. Qed.
Global Hint Resolve kf_odict_swap kf_odict_insert : kf.
Lemma kf_own_storage x : kf (own_storage x). Proof. kfu own_storage. Qed.
Global Hint Resolve kf_own_storage : kf.
Lemma kf_odict_of x : kf (odict_of x). Proof. kfu odict_of. Qed.
Global Hint Resolve kf_odict_of : kf.
Lemma kf_swap x a b : kf (swap x a b). Proof. unfold swap. kfu @order_method. Qed.
Lemma kf_validateinsertion x n : kf (validateinsertion x n). Proof. kfu validateinsertion. Qed.
Global Hint Resolve kf_swap kf_validateinsertion : kf.
Lemma kf_insert_at c x n r : kf (insert_at c x n r). Proof. unfold insert_at. kfu @order_method. Qed.
Global Hint Resolve kf_insert_at : kf.
Lemma kf_insert_end c x n : kf (insert_end c x n). Proof. unfold insert_end. kfu @order_method. Qed.
Lemma kf_deep x : kf (deep x). Proof. done. Qed.
Global Hint Resolve kf_insert_end kf_deep : kf.
Lemma kf_set_uuid_for f : forall r v, kf (set_uuid_for f r v).
Proof. induction f as [|f IH]; intros r v; simpl; kf. Qed.
Global Hint Resolve kf_set_uuid_for : kf.
Lemma kf_deepcopy_stack bs : forall x, kf (deepcopy_stack bs x).
Proof. induction bs as [|b bs IH]; intros x; simpl; [kf|kfu deepcopy_stage]. Qed.
Global Hint Resolve kf_deepcopy_stack : kf.
Lemma kf_deepcopy x : kf (deepcopy x). Proof. kfu deepcopy. Qed.
Global Hint Resolve kf_deepcopy : kf.
Lemma kf_run o : kf (run_op o).
Proof. destruct o; simpl; unfold ignore; kf. Qed.
Lemma reach_fbcount s : reach s -> fbcount s = (-1)%Z.
Proof. induction 1 as [cs|s o r s' R IH Hok E]; [done|]. pose proof (kf_run o s) as H. rewrite E in H. simpl in H. by rewrite H. Qed.

(** * A search is never started inside a search *)
Lemma nested_any fb fb' all bs : forall x k s, (0 <= fbcount s)%Z -> get_stack fb all bs x k s = get_stack fb' all bs x k s.
Proof.
  assert (G : forall bs x k s, (0 <= fbcount s)%Z -> get_stack fb all bs x k s = get_stack (fun _ _ => raise Unspecified) all bs x k s /\
      get_stack fb' all bs x k s = get_stack (fun _ _ => raise Unspecified) all bs x k s).
  { clear bs. intros bs. assert (K : forall x k, kf (get_stack (fun _ _ => raise Unspecified) all bs x k)) by (apply kf_get_stack; kf).
    assert (G1 : forall f : nat -> key -> M (option val), forall x k s, (0 <= fbcount s)%Z -> get_stack f all bs x k s = get_stack (fun _ _ => raise Unspecified) all bs x k s).
    2: { intros x k s Hs. split; by apply G1. }
    intros f. clear K. induction bs as [|b bs IH]; intros x k s Hs; [done|].
    assert (K : forall x k, kf (get_stack (fun _ _ => raise Unspecified) all bs x k)) by (apply kf_get_stack; kf).
    specialize (IH). destruct b; simpl; try (by apply IH).
    - unfold try_catch. rewrite IH by done. done.
    - destruct k; try (by apply IH). destruct (reserved s0); [done|by apply IH].
    - unfold bind. assert (Kl : fbcount (snd (load x s)) = fbcount s) by (assert (kf (load x)) as Q by kf; apply Q).
      destruct (load x s) as [[o|e] s1]; [|done]. simpl in Kl. unfold of_res. destruct (alias_with unalias (c_aliaser (o_cls o)) k) as [k'|e]; [|done].
      unfold try_catch. rewrite IH by lia. done.
    - unfold bind. pose proof (kf_cache_of x s) as Kc. destruct (cache_of x s) as [[l|e] s1]; [|done]. simpl in Kc.
      unfold try_catch. assert (Kd : fbcount (snd (dict_get l k s1)) = fbcount s1) by (assert (kf (dict_get l k)) as Q by kf; apply Q).
      destruct (dict_get l k s1) as [[v|e] s2]; [done|]. destruct (is_key_error e); [|done]. simpl in Kd.
      rewrite IH by lia. done.
    - unfold try_catch. rewrite IH by done. pose proof (K x k s) as Kn. destruct (get_stack _ all bs x k s) as [[a|e] s1]; [done|].
      simpl in Kn. destruct (is_key_error e); [|done]. unfold bind, fb_enter, try_finally. simpl.
      assert ((0 <? fbcount s1 + 1)%Z = true) as -> by (apply Z.ltb_lt; lia). done. }
  intros x k s Hs. destruct (G bs x k s Hs) as [-> ->]. done.
Qed.
(** An item access during a search is the ordinary item access. *)
Lemma nested_getitem x k s : (0 <= fbcount s)%Z -> getitem_nested x k s = getitem x k s.
Proof.
  intros H. unfold getitem_nested, getitem, bind. assert (Kl : fbcount (snd (load x s)) = fbcount s) by (assert (kf (load x)) as Q by kf; apply Q).
  destruct (load x s) as [[o|e] s1]; [|done]. simpl in Kl. apply nested_any. lia.
Qed.
