(** The dict of the fixed children of one node: no operation writes to it, and no operation gives the
    node another one. *)
From Verif Require Import Py Odict Aliaser Heap Model WF Reach.

Section Lasting.
  Context (y L : nat) (D : list (key * val)).
  Record safekept (s : st) : Prop := Safekept {
    sk_slot : exists o, nodes s !! y = Some o /\ o_children o = Some L;
    sk_dict : dicts s !! L = Some D;
    sk_old : y < next_id s /\ L < next_id s;
    sk_alone : forall z o, nodes s !! z = Some o -> o_storage o <> Some L /\ o_cache o <> Some L /\ o_nodespaces o <> Some L
  }.
  Definition sk {A} (m : M A) (Q : A -> Prop) : Prop :=
    forall s, safekept s -> safekept (snd (m s)) /\ match fst (m s) with Ret a => Q a | Exc _ => True end.
  Definition skt {A} (m : M A) : Prop := sk m (fun _ => True).
  Lemma sk_weaken {A} (m : M A) (Q : A -> Prop) : sk m Q -> skt m.
  Proof. intros H s K. destruct (H s K). split; [done|]. by destruct (fst (m s)). Qed.
  Lemma sk_ret {A} (a : A) (Q : A -> Prop) : Q a -> sk (ret a) Q.
  Proof. done. Qed.
  Lemma sk_raise {A} e (Q : A -> Prop) : sk (raise (A := A) e) Q.
  Proof. done. Qed.
  Lemma sk_bind {A B} (m : M A) (f : A -> M B) (P : A -> Prop) (Q : B -> Prop) : sk m P -> (forall a, P a -> sk (f a) Q) -> sk (bind m f) Q.
  Proof. intros Hm Hf s K. specialize (Hm s K). unfold bind. destruct (m s) as [[a|e] s1]; simpl in *; [|by destruct Hm]. destruct Hm. by apply Hf. Qed.
  Lemma skt_bind {A B} (m : M A) (f : A -> M B) (Q : B -> Prop) : skt m -> (forall a, sk (f a) Q) -> sk (bind m f) Q.
  Proof. intros Hm Hf. eapply sk_bind; [exact Hm|]. intros a _. apply Hf. Qed.
  Lemma sk_try {A} (m : M A) p h (Q : A -> Prop) : sk m Q -> (forall e, sk (h e) Q) -> sk (try_catch m p h) Q.
  Proof. intros Hm Hf s K. specialize (Hm s K). unfold try_catch. destruct (m s) as [[a|e] s1]; simpl in *; [done|]. destruct (p e); simpl; [|done]. destruct Hm. by apply Hf. Qed.
  Lemma sk_finally {A} (m : M A) fin (Q : A -> Prop) : sk m Q -> skt fin -> sk (try_finally m fin) Q.
  Proof. intros Hm Hf s K. specialize (Hm s K). unfold try_finally. destruct (m s) as [r s1]; simpl in *. destruct Hm as [K1 H]. destruct (Hf s1 K1) as [K2 _]. by destruct (fin s1) as [[a|e] s2]. Qed.
  Lemma skt_iter {A} (f : A -> M unit) l : (forall a, skt (f a)) -> skt (iterM f l).
  Proof. intros H. induction l as [|a l IH]; [by apply sk_ret|]. simpl. by apply skt_bind. Qed.
  Lemma skt_mapM {A B} (f : A -> M B) l : (forall a, skt (f a)) -> skt (mapM_ f l).
  Proof. intros H. induction l as [|a l IH]; [by apply sk_ret|]. simpl. apply skt_bind; [done|]. intros b. apply skt_bind; [done|]. intros bs. by apply sk_ret. Qed.
  Lemma skt_res {A} (r : res A) : skt (of_res r).
  Proof. intros s K. split; [done|]. by destruct r. Qed.
  Lemma sk_fuel {A} (f : nat -> M A) (Q : A -> Prop) : (forall n, sk (f n) Q) -> sk (with_fuel f) Q.
  Proof. intros H s. apply H. Qed.
  (** what is loaded does not point to the dict by mistake *)
  Definition apart (o : obj) : Prop := o_storage o <> Some L /\ o_cache o <> Some L /\ o_nodespaces o <> Some L.
  Lemma sk_load x : sk (load x) apart.
  Proof. intros s K. unfold load. destruct (nodes s !! x) eqn:E; split; try done. simpl. by eapply sk_alone. Qed.
  Lemma skt_modify x f : (forall o, apart o -> apart (f o)) -> (x = y -> forall o, o_children (f o) = o_children o) -> skt (modify x f).
  Proof.
    intros H1 H2 s K. unfold modify. destruct (nodes s !! x) as [o|] eqn:E; [|done]. split; [|done]. constructor; simpl.
    - destruct (sk_slot s K) as (o' & Ho' & E'). destruct (decide (x = y)) as [->|]; [|exists o'; by rewrite lookup_insert_ne].
      rewrite lookup_insert. eexists. split; [done|]. rewrite H2 by done. congruence.
    - apply K.
    - apply K.
    - intros z o' Hz. destruct (decide (x = z)) as [->|]; [|rewrite lookup_insert_ne in Hz by done; by eapply sk_alone].
      rewrite lookup_insert in Hz. injection Hz as <-. apply H1. by eapply sk_alone.
  Qed.
  Lemma skt_same {A} (m : M A) : (forall s, nodes (snd (m s)) = nodes s /\ dicts (snd (m s)) = dicts s /\ next_id s <= next_id (snd (m s))) -> skt m.
  Proof.
    intros H s K. destruct (H s) as (E1 & E2 & E3). split; [|by destruct (fst (m s))]. constructor; rewrite ?E1, ?E2; try apply K.
    destruct (sk_old s K). lia.
  Qed.
  Lemma skt_read_dict l : skt (read_dict l).
  Proof. apply skt_same. intros s. unfold read_dict. by destruct (dicts s !! l). Qed.
  Lemma skt_write_dict l d : l <> L -> skt (write_dict l d).
  Proof. intros Hl s K. split; [|done]. constructor; simpl; try apply K. rewrite lookup_insert_ne by done. apply K. Qed.
  Lemma skt_read_idx l : skt (read_idx l).
  Proof. apply skt_same. intros s. unfold read_idx. by destruct (idxs s !! l). Qed.
  Lemma skt_write_idx l d : skt (write_idx l d).
  Proof. by apply skt_same. Qed.
  Lemma sk_alloc_dict d : sk (alloc_dict d) (fun l => l <> L).
  Proof. intros s K. destruct (sk_old s K). split; [|simpl; lia]. constructor; simpl; try apply K; [|lia]. rewrite lookup_insert_ne by lia. apply K. Qed.
  Lemma skt_alloc_idx d : skt (alloc_idx d).
  Proof. apply skt_same. intros s. simpl. split; [done|]. split; [done|]. lia. Qed.
  Lemma sk_alloc_node o : apart o -> sk (alloc_node o) (fun x => x <> y).
  Proof.
    intros Ha s K. destruct (sk_old s K). split; [|simpl; lia]. constructor; simpl; try apply K; [|lia|].
    - destruct (sk_slot s K) as (o' & Ho' & E'). exists o'. by rewrite lookup_insert_ne by lia.
    - intros z o'. destruct (decide (next_id s = z)) as [<-|]; [rewrite lookup_insert; by intros [= <-]|]. rewrite lookup_insert_ne by done. by apply sk_alone.
  Qed.
  Lemma skt_uuid4 : skt uuid4. Proof. by apply skt_same. Qed.
  Lemma skt_saw u : skt (saw_uuid u). Proof. apply skt_same. intros s. by destruct u. Qed.
  Lemma skt_notify e : skt (notify e). Proof. by apply skt_same. Qed.
  Lemma skt_class cn : skt (get_class cn). Proof. apply skt_same. intros s. unfold get_class. by destruct (classes s !! cn). Qed.
  Lemma skt_load x : skt (load x). Proof. eapply sk_weaken, sk_load. Qed.
  Lemma skt_alloc_dict d : skt (alloc_dict d). Proof. eapply sk_weaken, sk_alloc_dict. Qed.
  Lemma skt_ret {A} (a : A) : skt (ret a). Proof. done. Qed.
  Lemma skt_raise {A} e : skt (raise (A := A) e). Proof. done. Qed.
  Hint Resolve skt_ret skt_raise skt_iter skt_mapM skt_res skt_load skt_read_dict skt_write_dict skt_read_idx skt_write_idx
    skt_alloc_dict skt_alloc_idx skt_uuid4 skt_saw skt_notify skt_class : sk.
  Hint Resolve sk_alloc_dict sk_load : skq.
  Ltac modified := apply skt_modify; [first [by intros [] | intros [] (? & ? & ?); (split; [|split]); simpl in *; congruence] | by intros _ []].
  Ltac sk :=
    repeat (first
      [ progress (intros)
      | match goal with |- sk ?m (fun _ => True) => change (skt m) end
      | solve [eauto with sk]
      | modified
      | (eapply sk_bind; [solve [eauto with skq]|intros ? ?])
      | apply skt_bind | apply sk_try | apply skt_iter | apply skt_mapM | apply sk_fuel
      | match goal with |- skt (bind _ _) => (eapply sk_bind; [solve [eauto with skq]|intros ? ?]) || apply skt_bind end
      | match goal with |- skt (try_catch _ _ _) => apply sk_try end
      | match goal with |- skt (with_fuel _) => apply sk_fuel end
      | match goal with |- skt (match ?x with _ => _ end) => destruct x end
      | match goal with |- sk (match ?x with _ => _ end) _ => destruct x end
      | match goal with |- skt (let '(_, _) := ?x in _) => destruct x end ]).
  Ltac sku f := unfold f; sk.

  Lemma skt_dict_get l k : skt (dict_get l k). Proof. sku dict_get. Qed.
  Lemma skt_dict_set l k v : l <> L -> skt (dict_set l k v). Proof. sku dict_set. Qed.
  Lemma skt_dict_del l k : l <> L -> skt (dict_del l k). Proof. sku dict_del. Qed.
  Hint Resolve skt_dict_get skt_dict_set skt_dict_del : sk.
  Lemma sk_fresh (l : nat) : l <> L -> forall x w, (w = with_storage \/ w = with_cache \/ w = with_nodespaces) -> skt (modify x (w (Some l))).
  Proof. intros Hl x w Hw. apply skt_modify; [|intros _ []; by destruct Hw as [->|[->| ->]]]. intros [] (? & ? & ?). destruct Hw as [->|[->| ->]]; (split; [|split]); simpl in *; congruence. Qed.
  Lemma sk_storage_of x : sk (storage_of x) (fun l => l <> L).
  Proof.
    unfold storage_of. eapply sk_bind; [apply sk_load|]. intros o (Ha & _). destruct (_ || _); [|apply sk_raise]. destruct (o_storage o) as [l|]; [apply sk_ret; congruence|].
    eapply sk_bind; [apply sk_alloc_dict|]. intros l Hl. apply skt_bind; [apply (sk_fresh l Hl); auto|]. intros _. by apply sk_ret.
  Qed.
  Lemma sk_cache_of x : sk (cache_of x) (fun l => l <> L).
  Proof.
    unfold cache_of. eapply sk_bind; [apply sk_load|]. intros o (_ & Ha & _). destruct (o_cache o) as [l|]; [apply sk_ret; congruence|].
    eapply sk_bind; [apply sk_alloc_dict|]. intros l Hl. apply skt_bind; [apply (sk_fresh l Hl); auto|]. intros _. by apply sk_ret.
  Qed.
  Lemma sk_nodespaces_of x : sk (nodespaces_of x) (fun l => l <> L).
  Proof.
    unfold nodespaces_of. eapply sk_bind; [apply sk_load|]. intros o (_ & _ & Ha). destruct (o_nodespaces o) as [l|]; [apply sk_ret; congruence|].
    eapply sk_bind; [apply sk_alloc_dict|]. intros l Hl. apply skt_bind; [apply (sk_fresh l Hl); auto|]. intros _. by apply sk_ret.
  Qed.
  Hint Resolve sk_storage_of sk_cache_of sk_nodespaces_of : skq.
  Lemma skt_fixed_of x : skt (fixed_of x). Proof. sku fixed_of. Qed.
  Lemma skt_index_of x : skt (index_of x). Proof. sku index_of. Qed.
  Hint Resolve skt_fixed_of skt_index_of : sk.
  Lemma sk_own_storage x : sk (own_storage x) (fun l => l <> L).
  Proof. unfold own_storage. apply skt_bind; [sk|]. intros o. destruct (_ || _); [apply sk_storage_of|apply sk_raise]. Qed.
  Hint Resolve sk_own_storage : skq.
  Lemma sk_odict_of x : sk (odict_of x) (fun l => l <> L).
  Proof. unfold odict_of. apply skt_bind; [sk|]. intros o. eapply sk_bind; [apply sk_own_storage|]. intros l Hl. destruct (keeps_order _); [by apply sk_ret|apply sk_raise]. Qed.
  Hint Resolve sk_odict_of : skq.
  Lemma skt_loc f x : skt (location_iterator f x).
  Proof. revert x. induction f as [|f IH]; intros [x|]; simpl; sk. Qed.
  Hint Resolve skt_loc : sk.
  Lemma skt_path x : skt (path_of x). Proof. sku path_of. Qed.
  Lemma skt_root x : skt (root_of x). Proof. sku root_of. Qed.
  Hint Resolve skt_path skt_root : sk.
  Lemma skt_iter_override bs x : skt (iter_override bs x).
  Proof. induction bs as [|b bs IH]; simpl; sk. Qed.
  Hint Resolve skt_iter_override : sk.
  Lemma skt_iter_stack all bs x : skt (iter_stack all bs x).
  Proof. induction bs as [|b bs IH]; simpl; [sku iter_endpoint|sku iter_stage]. Qed.
  Hint Resolve skt_iter_stack : sk.
  Lemma skt_iter_of x : skt (Model.iter x). Proof. sku Model.iter. Qed.
  Hint Resolve skt_iter_of : sk.
  Lemma skt_iterkeys x : skt (iterkeys x). Proof. sku iterkeys. Qed.
  Lemma skt_keys x : skt (keys x). Proof. sku keys. Qed.
  Lemma skt_set_uuid x u : skt (set_uuid x u). Proof. sku set_uuid. Qed.
  Lemma skt_notify_modified x : skt (notify_modified x). Proof. sku notify_modified. Qed.
  Hint Resolve skt_iterkeys skt_keys skt_set_uuid skt_notify_modified : sk.
  Lemma skt_set_stack all bs : forall x k v, skt (set_stack all bs x k v).
  Proof. induction bs as [|b bs IH]; intros x k v; simpl; [sku set_endpoint|sku set_stage]. Qed.
  Hint Resolve skt_set_stack : sk.
  Lemma skt_setitem x k v : skt (setitem x k v). Proof. sku setitem. Qed.
  Lemma skt_assign_uuid x u : skt (assign_uuid x u). Proof. sku assign_uuid. Qed.
  Hint Resolve skt_setitem skt_assign_uuid : sk.
  Lemma skt_init_stack mk all bs : (forall a, skt (mk a)) -> forall x n p, x <> y -> skt (init_stack mk all bs n p x).
  Proof.
    intros H. induction bs as [|b bs IH]; intros x n p Hx; simpl; [sku init_endpoint|]. destruct b; simpl; try solve [sk].
    apply skt_bind; [by apply IH|]. intros _. eapply sk_bind; [apply sk_alloc_dict|]. intros l Hl.
    apply skt_bind; [apply skt_modify; [by intros []|done]|]. intros _. sk.
  Qed.
  Lemma skt_instantiate f : forall cn n p, skt (instantiate f cn n p).
  Proof.
    induction f as [|f IH]; intros cn n p; simpl; [sk|]. apply skt_bind; [sk|]. intros c. eapply sk_bind; [by apply sk_alloc_node|]. intros x Hx.
    apply skt_bind; [|intros _; sk]. apply skt_init_stack; [|done]. intros a. apply IH.
  Qed.
  Hint Resolve skt_instantiate : sk.
  Lemma skt_new cn n p : skt (new_node cn n p). Proof. intros s. apply skt_instantiate. Qed.
  Hint Resolve skt_new : sk.
  Lemma skt_search {A} (count : Z -> M A) : (forall z, skt (count z)) -> skt (bind fb_enter (fun z => try_finally (count z) fb_exit)).
  Proof.
    intros H. apply skt_bind; [by apply skt_same|]. intros z. apply sk_finally; [apply H|]. by apply skt_same.
  Qed.
  Lemma skt_get_stack fb all bs : (forall x k, skt (fb x k)) -> forall x k, skt (get_stack fb all bs x k).
  Proof.
    intros Hfb. induction bs as [|b bs IH]; intros x k; simpl; [sku get_endpoint|]. destruct b; simpl; try apply IH; try solve [sk].
    apply sk_try; [apply IH|]. intros e. apply skt_search. intros z. sk.
  Qed.
  Lemma skt_nested x k : skt (getitem_nested x k).
  Proof. unfold getitem_nested. apply skt_bind; [sk|]. intros o. apply skt_get_stack. intros z k'. sk. Qed.
  Hint Resolve skt_nested : sk.
  Lemma skt_to_leaf l : forall c, skt (to_leaf_loop c l).
  Proof. induction l as [|n l IH]; intros c; simpl; sk. Qed.
  Hint Resolve skt_to_leaf : sk.
  Lemma skt_to_root f : forall n p v, skt (to_root f n p v).
  Proof. induction f as [|f IH]; intros n p v; simpl; sk. Qed.
  Lemma skt_fb_search x k : skt (fb_search x k).
  Proof. unfold fb_search. apply skt_bind; [sk|]. intros p s. apply skt_to_root. Qed.
  Lemma skt_getitem x k : skt (getitem x k).
  Proof. unfold getitem. apply skt_bind; [sk|]. intros o. apply skt_get_stack. apply skt_fb_search. Qed.
  Hint Resolve skt_getitem : sk.
  Lemma skt_to_delete f : forall x, skt (to_delete f x).
  Proof. induction f as [|f IH]; intros x; simpl; sk. Qed.
  Hint Resolve skt_to_delete : sk.
  Lemma skt_values x : skt (values x). Proof. sku values. Qed.
  Lemma skt_items x : skt (items x). Proof. sku items. Qed.
  Hint Resolve skt_values skt_items : sk.
  Lemma skt_index_nodes f : forall a, skt (index_nodes f a).
  Proof. induction f as [|f IH]; intros a; simpl; sk. Qed.
  Hint Resolve skt_index_nodes : sk.
  Lemma skt_idx_del i u : skt (idx_del i u). Proof. sku idx_del. Qed.
  Hint Resolve skt_idx_del : sk.
  Lemma skt_del_stack all bs : forall x k, skt (del_stack all bs x k).
  Proof. induction bs as [|b bs IH]; intros x k; simpl; [sku del_endpoint|sku del_stage]. Qed.
  Hint Resolve skt_del_stack : sk.
  Lemma skt_delitem x k : skt (delitem x k). Proof. sku delitem. Qed.
  Hint Resolve skt_delitem : sk.
  Lemma skt_update x a kw : skt (update x a kw). Proof. sku update. Qed.
  Lemma skt_setdefault x k v : skt (setdefault x k v). Proof. sku setdefault. Qed.
  Lemma skt_pop x k d : skt (pop x k d). Proof. sku pop. Qed.
  Lemma skt_popitem x : skt (popitem x). Proof. sku popitem. Qed.
  Lemma skt_clear x : skt (clear x). Proof. sku clear. Qed.
  Lemma skt_attrs x : skt (attrs_of x). Proof. sku attrs_of. Qed.
  Hint Resolve skt_update skt_setdefault skt_pop skt_popitem skt_clear skt_attrs : sk.
  Lemma skt_invalidate_endpoint bs : forall x k, skt (invalidate_endpoint bs x k).
  Proof. induction bs as [|b bs IH]; intros x k; simpl; sk. Qed.
  Hint Resolve skt_invalidate_endpoint : sk.
  Lemma skt_invalidate_stack all bs : forall x k, skt (invalidate_stack all bs x k).
  Proof. induction bs as [|b bs IH]; intros x k; simpl; [sk|sku invalidate_stage]. Qed.
  Hint Resolve skt_invalidate_stack : sk.
  Lemma skt_invalidate x k : skt (invalidate x k). Proof. sku invalidate. Qed.
  Lemma skt_name_of x : skt (name_of x). Proof. sku name_of. Qed.
  Hint Resolve skt_invalidate skt_name_of : sk.
  Lemma skt_odict_swap l a b : l <> L -> skt (odict_swap l a b). Proof. sku odict_swap. Qed.
  Lemma skt_odict_insert c l r k v : l <> L -> skt (odict_insert c l r k v). Proof. sku odict_insert. Qed.
  Hint Resolve skt_odict_swap skt_odict_insert : sk.
  Lemma skt_swap x a b : skt (swap x a b). Proof. unfold swap. sku @order_method. Qed.
  Lemma skt_validateinsertion x n : skt (validateinsertion x n). Proof. sku validateinsertion. Qed.
  Hint Resolve skt_swap skt_validateinsertion : sk.
  Lemma skt_insert_at c x n r : skt (insert_at c x n r). Proof. unfold insert_at. sku @order_method. Qed.
  Hint Resolve skt_insert_at : sk.
  Lemma skt_insert_end c x n : skt (insert_end c x n). Proof. unfold insert_end. sku @order_method. Qed.
  Lemma skt_deep x : skt (deep x).
  Proof.
    intros s K. split; [|done]. destruct (sk_old s K). constructor; simpl; [| |lia|].
    - destruct (sk_slot s K) as (o & Ho & E). exists o. split; [|done]. rewrite lookup_union, Ho. by destruct (kmap _ _ !! y).
    - rewrite lookup_union, (sk_dict s K). by destruct (kmap _ _ !! L).
    - intros z o. rewrite lookup_union. destruct (nodes s !! z) as [o1|] eqn:E.
      + destruct (kmap _ _ !! z); simpl; intros [= <-]; by eapply sk_alone.
      + rewrite lookup_shift. simpl. destruct (decide _); [|done]. destruct (nodes s !! (z - next_id s)) as [o1|] eqn:E1; [|done]. simpl. intros [= <-]. simpl.
        destruct (sk_alone s K _ _ E1) as (A & B & C). destruct (o_storage o1), (o_cache o1), (o_nodespaces o1); simpl; (split; [|split]); try done; intros [= F]; lia.
  Qed.
  Hint Resolve skt_insert_end skt_deep : sk.
  Lemma skt_set_uuid_for f : forall r v, skt (set_uuid_for f r v).
  Proof. induction f as [|f IH]; intros r v; simpl; sk. Qed.
  Hint Resolve skt_set_uuid_for : sk.
  Lemma skt_deepcopy_stack bs : forall x, skt (deepcopy_stack bs x).
  Proof. induction bs as [|b bs IH]; intros x; simpl; [sk|sku deepcopy_stage]. Qed.
  Hint Resolve skt_deepcopy_stack : sk.
  Lemma skt_deepcopy x : skt (deepcopy x). Proof. sku deepcopy. Qed.
  Hint Resolve skt_deepcopy : sk.
  Lemma skt_store x k v : skt (store x k v). Proof. sku store. Qed.
  Lemma skt_unstore x k : skt (unstore x k). Proof. sku unstore. Qed.
  Hint Resolve skt_store skt_unstore : sk.
  Lemma skt_detach_stack bs : forall x k, skt (detach_stack bs x k).
  Proof. induction bs as [|b bs IH]; intros x k; simpl; [sku detach_endpoint|sku detach_stage]. Qed.
  Hint Resolve skt_detach_stack : sk.
  Lemma skt_detach x k : skt (detach x k). Proof. sku detach. Qed.
  Hint Resolve skt_detach : sk.
  
  Lemma skt_run o : skt (run_op o).
  Proof. destruct o; simpl; unfold ignore; sk. Qed.
End Lasting.
