(** C44, C47, C48, C49, C50: treerepr and node.utils. *)
From Coq Require Import Sorted.
From Verif Require Import Py Odict Aliaser Heap Model Classes WF SpecMapping TreeOps Observe SpecTree Reach MappingProps Play
  Utils SpecUtils UtilsProofs PathProofs TreereprProofs.

(** * C44 *)
(** For every way [kstr] of turning keys into text and [vrepr] of showing values that are not
    nodes.  [tree_at n s x] is the tree below x, if it is finite. *)
Theorem C44_treerepr_prints_the_tree : forall kstr vrepr s x indent prefix n t,
  reach s -> all_tree_classes s -> spaces_apart s -> tree_at kstr vrepr n s x = Some t ->
  exists s', same_world s s' /\
    with_fuel (fun f => treerepr kstr vrepr f x indent prefix) s = (Ret (text_of indent prefix (lines 0 t)), s').
Proof. exact (fun kstr vrepr s x ind pre n t R => treerepr_text kstr vrepr s x ind pre n t (reach_wf s R)). Qed.
(** one line per node and per other entry *)
Theorem C44_line_count : forall d t, length (lines d t) = size_of t.
Proof. exact (fun d t => lines_length t d). Qed.
(** the children of an unordered node are printed sorted by the text of their keys; entries
    with the same text keep their order *)
Theorem C44_sorted : forall A (l : list (string * A)),
  Permutation (sort_by_text l) l /\
  StronglySorted (fun a b => text_le (fst a) (fst b)) (sort_by_text l) /\
  forall t, filter (fun e => fst e = t) (sort_by_text l) = filter (fun e => fst e = t) l.
Proof. exact (fun A l => sort_spec l). Qed.
(** Trees equal up to the order of the children of unordered nodes have the same treerepr,
    also in different states. *)
Theorem C44_canonical : forall kstr vrepr s x t s' x' t' n n' indent prefix,
  reach s -> all_tree_classes s -> spaces_apart s -> tree_at kstr vrepr n s x = Some t ->
  reach s' -> all_tree_classes s' -> spaces_apart s' -> tree_at kstr vrepr n' s' x' = Some t' ->
  same_tree t t' ->
  fst (with_fuel (fun f => treerepr kstr vrepr f x indent prefix) s) =
  fst (with_fuel (fun f => treerepr kstr vrepr f x' indent prefix) s').
Proof.
  exact (fun kstr vrepr s x t s' x' t' n n' ind pre R Ha Hs Ht R' =>
           treerepr_canonical kstr vrepr s x t s' x' t' n n' ind pre (reach_wf s R) Ha Hs Ht (reach_wf s' R')).
Qed.
(** Nodes with string keys show distinct texts, which is what [same_tree] asks for. *)
Theorem C44_string_keys : forall kstr vrepr s n x h b sub,
  reach s -> (forall t, kstr (KStr t) = t) -> (forall k v, (k, v) ∈ entries_at s x -> exists t, k = KStr t) ->
  tree_at kstr vrepr n s x = Some (TTree h b sub) ->
  map fst sub = map (fun e => kstr (fst e)) (entries_at s x) /\ NoDup (map fst sub).
Proof. exact (fun kstr vrepr s n x h b sub R => tree_keys kstr vrepr s n x h b sub (reach_wf s R)). Qed.

Definition ex_kstr (k : key) : string := match k with KStr t => t | KNone => "None" | _ => "?" end.
Definition ex_vrepr (v : val) : string := match v with VInt 1 => "1" | _ => "?" end.
(** two unordered trees built in different order: 0 holds "b" (holding "x" and "y") and "a" = 1 *)
Definition C44_ex1 := after [ONew BN (KStr "ns:r") None; ONew BN KNone None; ONew BN KNone None; ONew BN KNone None;
  OSetAllow 0 true; OSet 1 (KStr "x") (VNode 2); OSet 1 (KStr "y") (VNode 3); OSet 0 (KStr "b") (VNode 1); OSet 0 (KStr "a") (VInt 1)].
Definition C44_ex2 := after [ONew BN (KStr "ns:r") None; ONew BN KNone None; ONew BN KNone None; ONew BN KNone None;
  OSetAllow 0 true; OSet 0 (KStr "a") (VInt 1); OSet 0 (KStr "b") (VNode 1); OSet 1 (KStr "y") (VNode 3); OSet 1 (KStr "x") (VNode 2)].
Example C44_example :
  reach C44_ex1 /\ reach C44_ex2 /\ all_tree_classes C44_ex1 /\ all_tree_classes C44_ex2 /\
  spaces_apart C44_ex1 /\ spaces_apart C44_ex2 /\
  (exists t t', tree_at ex_kstr ex_vrepr 9 C44_ex1 0 = Some t /\ tree_at ex_kstr ex_vrepr 9 C44_ex2 0 = Some t' /\
                t <> t' /\ same_tree t t') /\
  fst (with_fuel (fun f => treerepr ex_kstr ex_vrepr f 0 1 ".") C44_ex2) = Ret
    (".<class 'node.base.BaseNode'>: r" +:+ newline +:+
     "...a: 1" +:+ newline +:+
     "...<class 'node.base.BaseNode'>: b" +:+ newline +:+
     ".....<class 'node.base.BaseNode'>: x" +:+ newline +:+
     ".....<class 'node.base.BaseNode'>: y" +:+ newline).
Proof.
  split; [apply after_reach|]. split; [apply after_reach|].
  split; [apply treesb_spec; done|]. split; [apply treesb_spec; done|].
  split; [apply apartb_spec; vm_compute; done|]. split; [apply apartb_spec; vm_compute; done|].
  split; [|vm_compute; done].
  eexists _, _. split; [vm_compute; done|]. split; [vm_compute; done|]. split; [done|].
  eapply same_unordered; [by apply (bool_decide_unpack _)|apply Permutation_swap|].
  repeat constructor. eapply same_unordered; [by apply (bool_decide_unpack _)|apply Permutation_swap|].
  repeat constructor; (eapply same_unordered; [constructor|constructor|constructor]).
Qed.

(** * C47 *)
Section C47.
(** any context behaving like a mapping with entries [d] while [I] holds; any equality *)
Context {K V : Type} (I : st -> Prop) (it : M (list K)) (get : K -> M V) (its : M (list (K * V))) (len : M nat)
  (eqv : V -> V -> bool) (d : list (K * V)).
Theorem C47_getitem : acts_like I it get its len d -> forall v s, I s ->
  exists r s', rm_getitem it get eqv v s = (Ret r, s') /\ I s' /\ first_key_holding eqv d v r.
Proof. exact (rm_getitem_spec I it get its len eqv d). Qed.
Theorem C47_get : acts_like I it get its len d -> forall v k0 s, I s ->
  exists r s', rm_get it get eqv v k0 s = (Ret (default k0 r), s') /\ I s' /\ first_key_holding eqv d v r.
Proof. exact (rm_get_spec I it get its len eqv d). Qed.
Theorem C47_contains : acts_like I it get its len d -> forall v s, I s ->
  exists b s', rm_contains it get eqv v s = (Ret b, s') /\ I s' /\ (b = true <-> exists k w, (k, w) ∈ d /\ eqv w v = true).
Proof. exact (rm_contains_spec I it get its len eqv d). Qed.
Theorem C47_keys_values_items_len : acts_like I it get its len d -> forall s, I s ->
  (exists s', rm_keys it get s = (Ret (map snd d), s') /\ I s') /\
  (exists s', rm_values it s = (Ret (map fst d), s') /\ I s') /\
  (exists s', rm_items its s = (Ret (map (fun e => (snd e, fst e)) d), s') /\ I s') /\
  (exists s', rm_len len s = (Ret (length d), s') /\ I s').
Proof.
  exact (fun A s Hs => conj (rm_keys_spec I it get its len d A s Hs) (conj (rm_values_spec I it get its len d A s Hs)
           (conj (rm_items_spec I it get its len d A s Hs) (rm_len_spec I it get its len d A s Hs)))).
Qed.
Theorem C47_inverse : acts_like I it get its len d -> forall v k s, I s ->
  (forall a b, eqv a b = true <-> a = b) -> NoDup (map snd d) ->
  (exists s', rm_getitem it get eqv v s = (Ret (Some k), s')) <-> (k, v) ∈ d.
Proof. exact (rm_inverse I it get its len eqv d). Qed.
End C47.
(** Nodes are such contexts, as long as nothing else happens to them. *)
Theorem C47_nodes : forall s x cls,
  reach s -> class_of s x = Some cls -> tree_class (c_behs cls) = true ->
  (forall k v, (k, v) ∈ entries_at s x -> ~ to_spaces cls k) ->
  exists I : st -> Prop, I s /\ (forall s', I s' -> same_world s s') /\
    acts_like I (Model.iter x) (getitem x) (items x) (len x) (entries_at s x).
Proof. exact (fun s x cls R => node_acts_like s x cls (reach_wf s R)). Qed.
(** {'a': 1, 'b': 2, 'c': 1} as a context, and node 0 of the example above *)
Definition C47_d : list (string * nat) := [("a", 1); ("b", 2); ("c", 1)].
Definition C47_get1 (k : string) : M nat := match list_find (fun e => fst e = k) C47_d with Some (_, e) => ret (snd e) | None => raise TypeError end.
Example C47_example :
  acts_like (fun _ => True) (ret (map fst C47_d)) C47_get1 (ret C47_d) (ret 3) C47_d /\
  fst (rm_getitem (ret (map fst C47_d)) C47_get1 Nat.eqb 1 st0) = Ret (Some "a") /\
  fst (rm_getitem (ret (map fst C47_d)) C47_get1 Nat.eqb 3 st0) = Ret None /\
  fst (rm_keys (ret (map fst C47_d)) C47_get1 st0) = Ret [1; 2; 1] /\
  fst (rm_getitem (Model.iter 0) (getitem 0) (fun a b => match a, b with VNode x, VNode y => Nat.eqb x y | _, _ => false end) (VNode 1) C44_ex1) = Ret (Some (KStr "b")).
Proof.
  split; [|vm_compute; done]. split; intros s; try (intros _; by exists s).
  intros k v _ Hin. exists s. split; [|done]. unfold C47_d in Hin.
  repeat (apply elem_of_cons in Hin as [[= -> ->]|Hin]; [done|]). by apply elem_of_nil in Hin.
Qed.

(** * C48 *)
(** [own]: the attribute names of the wrapper itself, [cls]: any class of the tree behaviors *)
Theorem C48_read : forall own s x cls n,
  reach s -> class_of s x = Some cls -> tree_class (c_behs cls) = true -> own n = false ->
  exists s', same_world s s' /\
    (~ to_spaces cls (KStr n) -> aa_getattr own x n s =
       (match value_at (KStr n) (entries_at s x) with Some v => Ret (FromContext v) | None => Exc AttributeError end, s')) /\
    (to_spaces cls (KStr n) -> aa_getattr own x n s =
       (match value_at (KStr n) (spaces_at s x) with Some v => Ret (FromContext v) | None => Exc AttributeError end, s')).
Proof. exact (fun own s x cls n R => aa_getattr_eff own s x cls n (reach_wf s R)). Qed.
Theorem C48_no_key_error : forall own x n s k, fst (aa_getattr own x n s) <> Exc (KeyError k).
Proof. exact aa_getattr_no_key_error. Qed.
(** A write reaches the node under every name; reading it back gives the value unless the
    wrapper has an attribute of that name. *)
Theorem C48_write : forall own s x cls n v s',
  reach s -> class_of s x = Some cls -> tree_class (c_behs cls) = true -> known s v ->
  aa_setattr x n v s = (Ret tt, s') ->
  assigned cls s x (KStr n) v s' /\
  fst (aa_getattr own x n s') = Ret (if own n then OwnAttribute n else FromContext v).
Proof. exact (fun own s x cls n v s' R => aa_setattr_eff own s x cls n v s' (reach_wf s R)). Qed.
Definition C48_own (n : string) : bool := bool_decide (n = "context").
Example C48_example :
  fst (aa_getattr C48_own 0 "a" C44_ex1) = Ret (FromContext (VInt 1)) /\
  fst (aa_getattr C48_own 0 "zz" C44_ex1) = Exc AttributeError /\
  (let '(r, s') := aa_setattr 0 "context" (VInt 5) C44_ex1 in
   r = Ret tt /\ fst (aa_getattr C48_own 0 "context" s') = Ret (OwnAttribute "context") /\
   fst (aa_getitem 0 (KStr "context") s') = Ret (VInt 5)).
Proof. vm_compute. done. Qed.

(** * C49 *)
(** [l] is any sequence of reads of properties of objects, [f o name i] the outcome of the
    i-th call of the function of property [name] on object [o]. *)
Theorem C49_cached : forall V (f : nat -> string -> nat -> res V) o name l s v,
  ip_attrs s !! (o, "_" +:+ name) = Some v ->
  let '(ans, s') := ip_reads f l s in
  answers_for (o, name) l ans = repeat (Ret v) (times_read (o, name) l) /\ ip_called s' o name = ip_called s o name /\
  ip_attrs s' !! (o, "_" +:+ name) = Some v.
Proof. exact (@ip_cached). Qed.
Theorem C49_failing : forall V (f : nat -> string -> nat -> res V) o name l s,
  ip_attrs s !! (o, "_" +:+ name) = None ->
  let g i := f o name (ip_called s o name + i) in
  (forall i, i < times_read (o, name) l -> fails (g i)) ->
  let '(ans, s') := ip_reads f l s in
  answers_for (o, name) l ans = map g (seq 0 (times_read (o, name) l)) /\
  ip_called s' o name = ip_called s o name + times_read (o, name) l /\ ip_attrs s' !! (o, "_" +:+ name) = None.
Proof. exact (@ip_failing). Qed.
Theorem C49_first_success : forall V (f : nat -> string -> nat -> res V) o name l s k v,
  ip_attrs s !! (o, "_" +:+ name) = None ->
  let g i := f o name (ip_called s o name + i) in
  k < times_read (o, name) l -> (forall i, i < k -> fails (g i)) -> g k = Ret v ->
  let '(ans, s') := ip_reads f l s in
  answers_for (o, name) l ans = map g (seq 0 k) ++ repeat (Ret v) (times_read (o, name) l - k) /\
  ip_called s' o name = ip_called s o name + k + 1 /\ ip_attrs s' !! (o, "_" +:+ name) = Some v.
Proof. exact (@ip_first_success). Qed.
(** a function that fails once; two objects, interleaved *)
Definition C49_f (o : nat) (_ : string) (i : nat) : res nat := match i with 0 => Exc TypeError | _ => Ret (10 * o + i) end.
Example C49_example :
  fst (ip_reads C49_f [(1, "p"); (2, "p"); (1, "p"); (1, "p"); (1, "q"); (2, "p"); (1, "p")] (Ip ∅ ∅)) =
  [Exc TypeError; Exc TypeError; Ret 11; Ret 11; Exc TypeError; Ret 21; Ret 11].
Proof. vm_compute. done. Qed.

(** * C50 *)
(** the keys are followed one by one among the entries of the nodes *)
Theorem C50_follows_keys : forall s x p,
  reach s -> all_tree_classes s -> exists_node s x -> Forall child_key (path_keys p) ->
  exists r s', node_by_path x p s = (r, s') /\ same_world s s' /\
    match walk s (VNode x) (path_keys p) with
    | Found v => r = Ret v
    | Missing k => r = Exc (KeyError k)
    | NotSubscriptable => exists e, r = Exc e
    end.
Proof. exact (fun s x p R => node_by_path_walk s x p (reach_wf s R)). Qed.
(** a list is used as it is; slash-free non-empty keys joined by '/' with any number of
    slashes around are the same path as the list of the keys *)
Theorem C50_list : forall ks, path_keys (PList ks) = ks.
Proof. exact (fun ks => eq_refl). Qed.
Theorem C50_joined : forall x n m ks, Forall no_slash ks -> Forall (fun k => k <> "") ks ->
  node_by_path x (PStr (slashes n +:+ join_path ks +:+ slashes m)) = node_by_path x (PList (map KStr ks)).
Proof. exact (fun x n m ks H1 H2 => f_equal (subscripts (VNode x)) (path_keys_join n m ks H1 H2)). Qed.
(** every string is read that way: outer slashes are dropped, what is between the others are
    the keys (possibly empty, but not the first and the last) *)
Theorem C50_every_string : forall s, exists n m ks, s = slashes n +:+ join_path ks +:+ slashes m /\
  path_keys (PStr s) = map KStr ks /\ Forall no_slash ks /\
  (forall k, head ks = Some k -> k <> "") /\ (forall k, last ks = Some k -> k <> "").
Proof. exact path_keys_parse. Qed.
Theorem C50_empty_path : forall x n, node_by_path x (PStr (slashes n)) = ret (VNode x) /\ node_by_path x (PList []) = ret (VNode x).
Proof. exact (fun x n => conj (node_by_path_empty x n) eq_refl). Qed.
Example C50_example :
  exists_node C44_ex1 0 /\ Forall child_key (path_keys (PStr "//b/x/")) /\
  path_keys (PStr "//b/x/") = [KStr "b"; KStr "x"] /\ path_keys (PStr "b//x") = [KStr "b"; KStr ""; KStr "x"] /\
  fst (node_by_path 0 (PStr "//b/x/") C44_ex1) = Ret (VNode 2) /\
  fst (node_by_path 0 (PStr "b/q/x") C44_ex1) = Exc (KeyError (KStr "q")) /\
  fst (node_by_path 0 (PStr "a/q") C44_ex1) = Exc TypeError.
Proof.
  split; [vm_compute; eauto|]. split; [|vm_compute; done].
  replace (path_keys (PStr "//b/x/")) with [KStr "b"; KStr "x"] by done.
  repeat constructor; rewrite ObserveFacts.dunder_res_key; done.
Qed.

Print Assumptions C44_treerepr_prints_the_tree.
Print Assumptions C44_line_count.
Print Assumptions C44_sorted.
Print Assumptions C44_canonical.
Print Assumptions C44_string_keys.
Print Assumptions C47_getitem.
Print Assumptions C47_get.
Print Assumptions C47_contains.
Print Assumptions C47_keys_values_items_len.
Print Assumptions C47_inverse.
Print Assumptions C47_nodes.
Print Assumptions C48_read.
Print Assumptions C48_no_key_error.
Print Assumptions C48_write.
Print Assumptions C49_cached.
Print Assumptions C49_failing.
Print Assumptions C49_first_success.
Print Assumptions C50_follows_keys.
Print Assumptions C50_joined.
Print Assumptions C50_every_string.
Print Assumptions C50_empty_path.

Print Assumptions C50_list.
