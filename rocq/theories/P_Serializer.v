(** C30, C31, C32, C52: JSON serialization. *)
From Coq Require Import Ascii.
From Verif Require Import Py Odict OdictFacts Aliaser Heap Model Classes MonadFacts WF Views SpecMapping MappingProofs StorageProofs TreeOps NewEff Observe ObserveFacts SpecTree
  Reach MappingProps Play RefTree Serializer SpecSerial SerialValues SerialData SerialEncode SerialDecode SerialReach.

(** * C30 *)
(** serialize() writes a tree in a fixed format ([json_tree]) and changes nothing, apart from creating
    attributes that were not asked for before. *)
Theorem C30_serialize : forall others s x sh imp, reach_json s -> tree_at s x sh -> storable (classes s) imp sh ->
  exists n, forall f, n <= f -> forall simple incl, exists s',
    serialize f (std_env others) simple incl (VNode x) s = (Ret (json_tree simple (if simple then incl else true) sh), s') /\ only_attrs_created s s'.
Proof.
  intros others s x sh imp R T Hst. destruct (reach_json_ok s R) as [W U]. exists (S (height sh)). intros f Hf simple incl.
  destruct (serialize_tree others simple incl imp sh s None x W U T Hst f Hf) as (s' & E & D). exists s'. split; [done|by apply settled_spec].
Qed.
(** deserialize() of that format, in any process that can import the classes, builds the tree out of
    new nodes, without the children that are no nodes; with a root that takes it, under its name there. *)
Theorem C30_deserialize : forall others t sh root, reach_json t -> storable (classes t) (importable (std_env others) t) sh -> is_leaf sh = false ->
  (forall q, root = Some q -> takes t q sh) ->
  exists n, forall f, n <= f -> exists x t',
    deserialize f (std_env others) (json_tree false true sh) root t = (Ret (VNode x), t') /\ rebuilt t t' root x (pruned sh).
Proof. intros others t sh root R Hst Hl Hr. destruct (reach_json_ok t R) as [W U]. exists (height sh). by apply deserialize_tree. Qed.
(** Both together, from one process to another: the same tree if all children are nodes. *)
Lemma only_nodes_pruned sh : only_nodes sh -> pruned sh = sh.
Proof.
  induction sh as [k v|cn n attrs kids IH IHa] using shape_nested; intros H; [done|]. cbn [pruned]. cbn [only_nodes] in H. destruct H as [H Ha]. f_equal.
  - destruct attrs as [al|]; [|done]. f_equal. simpl in IHa. clear -Ha IHa. induction al as [|e al IH]; [done|]. destruct Ha as [H1 H2]. apply Forall_cons in IHa as [I1 I2].
    cbn [map]. rewrite (IH I2 H2). f_equal. destruct H1 as [H1|H1]; [by destruct e|auto].
  - clear Ha IHa. induction kids as [|kid kids IHk]; [done|]. destruct H as [H1 H2]. apply Forall_cons in IH as [I1 I2]. cbn [flat_map].
    rewrite (IHk I2 H2). destruct kid as [cn' n' at' ks'|]; [|done]. cbn [is_leaf app]. by rewrite (I1 H1).
Qed.
Lemma tree_no_leaf s x sh : tree_at s x sh -> is_leaf sh = false.
Proof. by inversion 1. Qed.
Theorem C30_round_trip : forall others s t x sh root, reach_json s -> reach_json t -> classes t = classes s -> tree_at s x sh -> only_nodes sh ->
  storable (classes s) (importable (std_env others) s) sh -> (forall q, root = Some q -> takes t q sh) ->
  exists n, forall f, n <= f -> exists j s' y t',
    serialize f (std_env others) false true (VNode x) s = (Ret j, s') /\ only_attrs_created s s' /\
    deserialize f (std_env others) j root t = (Ret (VNode y), t') /\ rebuilt t t' root y sh.
Proof.
  intros others s t x sh root Rs Rt Hc T Hon Hst Hr. destruct (C30_serialize others s x sh _ Rs T Hst) as [n1 H1].
  assert (Hst' : storable (classes t) (importable (std_env others) t) sh) by (unfold importable; by rewrite Hc).
  destruct (C30_deserialize others t sh root Rt Hst' (tree_no_leaf _ _ _ T) Hr) as [n2 H2]. exists (n1 + n2). intros f Hf.
  destruct (H1 f ltac:(lia) false true) as (s' & E1 & D1). destruct (H2 f ltac:(lia)) as (y & t' & E2 & D2). rewrite only_nodes_pruned in D2 by done. eauto 10.
Qed.
(** The same right after serializing, in the same process; the root may be a node of the tree itself. *)
Lemma takes_settled s s' q sh : wf s -> settled s s' -> takes s q sh -> takes s' q sh.
Proof.
  intros W D (cls & Hc & H1 & H2 & H3 & H4 & H5). pose proof (settled_spec _ _ W D) as O. assert (exists_node s q) as Hq by (apply class_view in Hc as (w & Hw & _); apply views_live; eauto).
  exists cls. rewrite (oa_class _ _ O q Hq), (oa_classes _ _ O), (oa_index _ _ O q Hq). done.
Qed.
Theorem C30_round_trip_here : forall others s x sh root, reach_json s -> tree_at s x sh -> only_nodes sh ->
  storable (classes s) (importable (std_env others) s) sh -> (forall q, root = Some q -> takes s q sh) ->
  exists n, forall f, n <= f -> exists j s' y t',
    serialize f (std_env others) false true (VNode x) s = (Ret j, s') /\ only_attrs_created s s' /\
    deserialize f (std_env others) j root s' = (Ret (VNode y), t') /\ rebuilt s' t' root y sh.
Proof.
  intros others s x sh root R T Hon Hst Hr. destruct (reach_json_ok s R) as [W U]. exists (S (height sh)). intros f Hf.
  destruct (serialize_tree others false true _ sh s None x W U T Hst f Hf) as (s' & E & D).
  destruct (deserialize_tree others sh s' root) with (f := f) as (y & t' & E2 & D2).
  - apply D.
  - pose proof (sd_uuid _ _ D). lia.
  - unfold importable. by rewrite (sd_classes _ _ D).
  - by eapply tree_no_leaf.
  - intros q Hq. by apply (takes_settled s s' q sh W D), Hr.
  - lia.
  - rewrite only_nodes_pruned in D2 by done. exists (json_tree false true sh), s', y, t'. split; [done|]. split; [by apply settled_spec|done].
Qed.

(** A Node with two children, one of them with a child and attributes, among these a node with a child;
    no attributes asked for on it. *)
Definition C30_attrs := [Leaf (KStr "n") (VInt 0); Leaf (KStr "u") (VUuid 5); Leaf (KStr "l") (VList [VUnset; VClass BN; VStr "x"]); Leaf (KStr "d") (VDict [(KStr "k", VNone)]);
  Shape ON (KStr "m") None [Shape ON (KStr "p") None []]].
Definition C30_s := after [ONew NN (KStr "root") None; ONew NN (KStr "a") None; ONew NN (KStr "b") None; ONew NN (KStr "c") None;
  OSet 0 (KStr "b") (VNode 4); OSet 0 (KStr "a") (VNode 2); OSet 2 (KStr "c") (VNode 6);
  OAttrs 2; OSet 13 (KStr "n") (VInt 0); OSet 13 (KStr "u") (VUuid 5); OSet 13 (KStr "l") (VList [VUnset; VClass BN; VStr "x"]);
  OSet 13 (KStr "d") (VDict [(KStr "k", VNone)]); ONew ON (KStr "m") None; ONew ON (KStr "p") None; OSet 15 (KStr "p") (VNode 16); OSet 13 (KStr "m") (VNode 15)].
Definition C30_shape := Shape NN (KStr "root") (Some [])
  [Shape NN (KStr "b") (Some []) []; Shape NN (KStr "a") (Some C30_attrs) [Shape NN (KStr "c") (Some []) []]].
Notation plain_env := (std_env (fun _ => false)).
Local Ltac tree_tac cls := 
  apply (tree_node _ _ _ _ cls); [exact I|vm_compute; reflexivity|vm_compute; reflexivity|vm_compute; reflexivity| |].
Local Ltac not_space := intros [? (t0 & a0 & b0 & Ht & Ha & Hb)]; injection Ht as <-; discriminate Ha.
Lemma C30_reach : reach C30_s.
Proof. apply after_reach. Qed.
Opaque C30_s.
Lemma C30_tree : tree_at C30_s 0 C30_shape.
Proof.
  assert (E : forall x, value_at attrs_name (spaces_at C30_s x) = None -> attrs_in (fun _ _ => True) C30_s x Node (Some [])).
  { intros x H. apply attrs_unasked; [apply (bool_decide_unpack _); by vm_compute|exact H]. }
  assert (E' : forall x, attrs_in (fun _ _ => True) C30_s x OrderedNode None).
  { intros x. apply attrs_without, (bool_decide_unpack _). by vm_compute. }
  unfold tree_at, C30_shape. tree_tac Node; [apply E; by vm_compute|].
  replace (entries_at C30_s 0) with [(KStr "b", VNode 4); (KStr "a", VNode 2)] by (by vm_compute).
  constructor; [constructor|constructor; [constructor|constructor]].
  - tree_tac Node; [apply E; by vm_compute|]. replace (entries_at C30_s 4) with (@nil (key * val)) by (by vm_compute). constructor.
  - tree_tac Node.
    + apply (attrs_there _ _ _ _ 13 NodeAttributes); [apply (bool_decide_unpack _); by vm_compute|vm_compute; reflexivity|exact I|vm_compute; reflexivity|vm_compute; reflexivity|].
      replace (entries_at C30_s 13) with [(KStr "n", VInt 0); (KStr "u", VUuid 5); (KStr "l", VList [VUnset; VClass BN; VStr "x"]); (KStr "d", VDict [(KStr "k", VNone)]); (KStr "m", VNode 15)] by (by vm_compute).
      do 4 (constructor; [constructor; intros ?; discriminate|]). constructor; [constructor|constructor]. tree_tac OrderedNode; [apply E'|].
      replace (entries_at C30_s 15) with [(KStr "p", VNode 16)] by (by vm_compute). constructor; [constructor|constructor]. tree_tac OrderedNode; [apply E'|].
      replace (entries_at C30_s 16) with (@nil (key * val)) by (by vm_compute). constructor.
    + replace (entries_at C30_s 2) with [(KStr "c", VNode 6)] by (by vm_compute). constructor; [constructor|constructor].
      tree_tac Node; [apply E; by vm_compute|]. replace (entries_at C30_s 6) with (@nil (key * val)) by (by vm_compute). constructor.
Qed.
Lemma C30_storable : storable (classes C30_s) (importable plain_env C30_s) C30_shape.
Proof.
  assert (A : forall al, NoDup (map shape_key al) -> Forall (fun e => exists n, shape_key e = KStr n) al -> attrs_storable (classes C30_s) Node (Some al)).
  { intros al Hn Hp. split; [apply (bool_decide_unpack _); by vm_compute|]. split; [apply (bool_decide_unpack _); by vm_compute|]. exists NodeAttributes.
    split; [vm_compute; reflexivity|]. split; [by vm_compute|]. split; [done|]. split; [done|]. eapply Forall_impl; [exact Hp|]. intros e He. split; [done|]. split.
    - intros [K _]. apply (bool_decide_pack _) in K. by vm_compute in K.
    - intros _. split; apply (bool_decide_unpack _); by vm_compute. }
  assert (H : forall k al kids, Forall (fun kid => exists t at' ks, kid = Shape NN (KStr t) at' ks /\ ~ dunder (KStr t)) kids -> hashable k = true -> NoDup (map shape_key kids) ->
     NoDup (map shape_key al) -> Forall (fun e => exists n, shape_key e = KStr n) al -> Forall (storable (classes C30_s) (importable plain_env C30_s)) al ->
     Forall (storable (classes C30_s) (importable plain_env C30_s)) kids -> storable (classes C30_s) (importable plain_env C30_s) (Shape NN k (Some al) kids)).
  { intros k al kids Hk Hh Hn Hna Hp Ha Hst. apply (st_node _ _ Node); try done; [apply (bool_decide_unpack _); by vm_compute|by apply A|].
    eapply Forall_impl; [exact Hk|]. intros kid (t & at' & ks & -> & Hd). split; [|split; [by intros [_ ?]|done]].
    split; [apply (bool_decide_unpack _); by vm_compute|]. split; [eauto|]. intros _. exists Node. split; [vm_compute; reflexivity|apply (bool_decide_unpack _); by vm_compute]. }
  assert (O : forall k kids, hashable k = true -> NoDup (map shape_key kids) -> Forall (fun kid => hashable (shape_key kid) = true) kids ->
      Forall (storable (classes C30_s) (importable plain_env C30_s)) kids -> storable (classes C30_s) (importable plain_env C30_s) (Shape ON k None kids)).
  { intros k kids Hh Hn Hk Hst.
    apply (st_node _ _ OrderedNode); [vm_compute; reflexivity|by vm_compute|apply (bool_decide_unpack _); by vm_compute|done|apply (bool_decide_unpack _); by vm_compute|by apply Forall_nil| |done|done].
    eapply Forall_impl; [exact Hk|]. intros kid Hkid. split; [|split; [|done]].
    - destruct kid; [|done]. split; [apply (bool_decide_unpack _); by vm_compute|]. split; intros K; apply (bool_decide_pack _) in K; by vm_compute in K.
    - intros [K _]. apply (bool_decide_pack _) in K. by vm_compute in K. }
  assert (D : forall t, String.prefix "__" t = false -> ~ dunder (KStr t)).
  { intros t Ht (t0 & a0 & b0 & [= <-] & -> & _). destruct a0; vm_compute in Ht; discriminate Ht. }
  assert (L : forall k, hashable k = true -> storable (classes C30_s) (importable plain_env C30_s) (Shape NN k (Some []) [])).
  { intros k Hk. apply H; [by apply Forall_nil|done|by apply NoDup_nil|by apply NoDup_nil|by apply Forall_nil|by apply Forall_nil|by apply Forall_nil]. }
  apply H; [|done|apply (bool_decide_unpack _); by vm_compute|by apply NoDup_nil|by apply Forall_nil|by apply Forall_nil|].
  - repeat constructor; eexists _, _, _; (split; [reflexivity|by apply D]).
  - constructor; [by apply L|]. constructor; [|constructor].
    apply H; [|done|apply (bool_decide_unpack _); by vm_compute|apply (bool_decide_unpack _); by vm_compute| | |].
    + repeat constructor; eexists _, _, _; (split; [reflexivity|by apply D]).
    + repeat (apply Forall_cons; split; [by eexists|]). by apply Forall_nil.
    + constructor; [constructor; constructor|]. constructor; [constructor; constructor; by vm_compute|]. constructor; [|constructor; [|constructor; [|constructor]]].
      * constructor. constructor. constructor; [constructor|]. constructor; [constructor; left; eexists; vm_compute; reflexivity|]. constructor; [constructor; [done|intros r; done]|constructor].
      * constructor. constructor; [|by repeat constructor]. constructor; [apply (bool_decide_unpack _); by vm_compute|]. constructor; [|constructor]. split; [eauto|constructor].
      * apply O; [done|apply (bool_decide_unpack _); by vm_compute|by repeat constructor|]. constructor; [|constructor]. apply O; [done|by apply NoDup_nil|by apply Forall_nil|by apply Forall_nil].
    + constructor; [|constructor]. by apply L.
Qed.
Example C30_example : reach_json C30_s /\ tree_at C30_s 0 C30_shape /\ only_nodes C30_shape /\
  storable (classes C30_s) (importable plain_env C30_s) C30_shape /\ takes C30_s 4 C30_shape /\
  let '(r, s') := serialize 40 plain_env false true (VNode 0) C30_s in
  r = Ret (json_tree false true C30_shape) /\
  match r with
  | Ret j => let '(v, t) := deserialize 40 plain_env j (Some 4) s' in
      exists y, v = Ret (VNode y) /\ entries_at t 4 = [(KStr "root", VNode y)] /\ name_at t y = Some (KStr "root") /\
        map fst (entries_at t y) = [KStr "b"; KStr "a"] /\ uuid_at t y <> uuid_at t 0 /\ parent_at t y = Some 4 /\
        (exists b, value_at (KStr "b") (entries_at t y) = Some (VNode b) /\ parent_at t b = Some y) /\
        exists a aa m p, value_at (KStr "a") (entries_at t y) = Some (VNode a) /\ value_at attrs_name (spaces_at t a) = Some (VNode aa) /\ dkeys (entries_at t aa) = dkeys (entries_at C30_s 13) /\
          value_at (KStr "m") (entries_at t aa) = Some (VNode m) /\ parent_at t m = Some aa /\ entries_at t m = [(KStr "p", VNode p)] /\ parent_at t p = Some m
  | Exc _ => False
  end.
Proof.
  split; [apply reach_reach_json, C30_reach|]. split; [apply C30_tree|]. split; [cbn; tauto|]. split; [apply C30_storable|]. split.
  { exists Node. split; [vm_compute; reflexivity|]. split; [by vm_compute|]. split.
    - split; [apply (bool_decide_unpack _); by vm_compute|]. split; [eauto|]. intros _. exists Node. split; [vm_compute; reflexivity|apply (bool_decide_unpack _); by vm_compute].
    - split; [not_space|]. split; [done|]. intros _. eexists. vm_compute. reflexivity. }
  vm_compute. split; [done|]. eexists. repeat split; try done. { by eexists. } eexists _, _, _, _. repeat split.
Qed.

(** A tree that can be serialized may have a deep copy that cannot: the UNSET in it was copied (C42_unset_kept_refuted),
    and only UNSET itself is known to the encoder. *)
Definition C30_u := after [ONew NN (KStr "root") None; OAttrs 0; OSet 3 (KStr "u") VUnset].
Definition C30_outcome (r : res json) : res unit := match r with Ret _ => Ret tt | Exc e => Exc e end.
Theorem C30_deep_copy_serializes_refuted :
  exists s x, reach s /\ exists_node s x /\ C30_outcome (fst (serialize 40 plain_env false true (VNode x) s)) = Ret tt /\
    exists c s', deepcopy x s = (Ret c, s') /\
      fst (serialize 40 plain_env false true (VNode c) s') = Exc (ValueError "Circular reference detected").
Proof.
  exists C30_u, 0. split; [apply after_reach|]. split; [apply existsb_node_spec; vm_compute; reflexivity|]. split; [vm_compute; reflexivity|].
  exists (next_id C30_u), (snd (deepcopy 0 C30_u)). split; [|vm_compute; reflexivity].
  apply injective_projections; [vm_compute; reflexivity|reflexivity].
Qed.
Print Assumptions C30_deep_copy_serializes_refuted.

(** * C31 *)
(** Values come back as they were, in any process that can import the classes and functions. *)
Theorem C31_values_survive : forall ev v s t, plain (importable ev t) v ->
  exists n, forall f, n <= f -> forall incl root, exists j, serialize f ev false incl v s = (Ret j, s) /\ deserialize f ev j root t = (Ret v, t).
Proof. exact values_survive. Qed.
(** Nothing else does: a value without nodes and foreign objects inside that comes back is [plain]. *)
Theorem C31_nothing_else : forall ev v s s' t t' f g incl root j, closed v ->
  serialize f ev false incl v s = (Ret j, s') -> deserialize g ev j root t = (Ret v, t') -> plain (importable ev t) v.
Proof. intros ev v s s' t t' f g incl root j Hc. exact (plain_back ev _ root v Hc f g s j s' t t'). Qed.
(** How it is lossy: strings that look like markers, and markers inside dictionaries. *)
Theorem C31_unset_string : forall f ev incl root s t, exists j,
  serialize (S f) ev false incl (VStr "<UNSET>") s = (Ret j, s) /\ deserialize (S f) ev j root t = (Ret VUnset, t).
Proof. intros. eexists. split; reflexivity. Qed.
Theorem C31_uuid_string : forall f ev incl root s t r, exists j,
  serialize (S f) ev false incl (VStr ("<UUID>:" ++ r)) s = (Ret j, s) /\
  deserialize (S f) ev j root t = (match uuid_parse r with Some u => Ret (VUuid u) | None => Exc (ValueError "badly formed hexadecimal UUID string") end, t).
Proof.
  intros. eexists. split; [reflexivity|]. unfold deserialize. cbn [loads decode]. 
  assert (K1 : String.eqb ("<UUID>:" ++ r) "<UNSET>" = false) by done. assert (K2 : startswith "<UUID>:" ("<UUID>:" ++ r) = true) by (apply prefix_app; eauto).
  rewrite K1, K2, str_drop_uuid. by destruct (uuid_parse r).
Qed.
Theorem C31_unset_in_dict : forall f ev incl root s t k, k <> "__ob__" -> k <> "__node__" -> exists j,
  serialize (4 + f) ev false incl (VDict [(KStr k, VUnset)]) s = (Ret j, s) /\ deserialize (S f) ev j root t = (Ret (VDict [(KStr k, VStr "<UNSET>")]), t).
Proof.
  intros f ev incl root s t k H1 H2. eexists. split; [reflexivity|]. unfold deserialize. cbn [loads decode map fold_left set_member fst snd].
  rewrite !(proj2 (member_None _ _)); [done|..]; simpl; rewrite elem_of_list_singleton; congruence.
Qed.
Theorem C31_int_keys : forall f ev incl root s t, exists j,
  serialize (3 + f) ev false incl (VDict [(KInt 1, VNone)]) s = (Ret j, s) /\ deserialize (S f) ev j root t = (Ret (VDict [(KStr "1", VNone)]), t).
Proof. intros. eexists. split; reflexivity. Qed.
Theorem C31_ob_key : forall f ev incl root s t n, importable ev t n -> exists j,
  serialize (3 + f) ev false incl (VDict [(KStr "__ob__", VStr n)]) s = (Ret j, s) /\ deserialize (S f) ev j root t = (Ret (VClass n), t).
Proof.
  intros f ev incl root s t n Hn. eexists. split; [reflexivity|]. unfold deserialize. cbn. unfold bind.
  replace (bool_decide (is_Some (classes t !! n)) || v_others ev n) with true; [done|]. symmetry. apply orb_true_iff. destruct Hn; [left; by apply bool_decide_eq_true|by right].
Qed.
Definition C31_v := VList [VNone; VBool true; VInt (-3); VStr "a<UNSET>"; VUnset; VUuid 12345678901234567890; VClass "os.path.join"; VList [VList []; VClass NN];
  VDict [(KStr "k", VList [VStr "<UNSET>"; VDict [(KStr "__ob__", VInt 1)]]); (KStr "l", VNone)]].
Example C31_example : let ev := std_env (String.eqb "os.path.join") in plain (importable ev st0) C31_v /\
  match fst (serialize 20 ev false true C31_v st0) with Ret j => fst (deserialize 20 ev j None st0) = Ret C31_v | Exc _ => False end.
Proof.
  split; [|vm_compute; done]. unfold C31_v. apply pl_list.
  repeat (apply Forall_cons; split; [|]); [..|by apply Forall_nil].
  - apply pl_none.
  - apply pl_bool.
  - apply pl_int.
  - by apply pl_str.
  - apply pl_unset.
  - apply pl_uuid. by vm_compute.
  - apply pl_class. right. by vm_compute.
  - apply pl_list. repeat (apply Forall_cons; split; [|]); [..|by apply Forall_nil].
    + apply pl_list. by apply Forall_nil.
    + apply pl_class. left. eexists. vm_compute. reflexivity.
  - apply pl_dict.
    + apply nat_dict; [apply (bool_decide_unpack _); by vm_compute|]. repeat (apply Forall_cons; split; [split; [eauto|]|]); [..|by apply Forall_nil].
      * apply nat_list. repeat (apply Forall_cons; split; [|]); [..|by apply Forall_nil].
        -- apply nat_str.
        -- apply nat_dict; [apply NoDup_singleton|]. apply Forall_singleton. split; [eauto|apply nat_int].
      * apply nat_none.
    + repeat (apply Forall_cons; split; [done|]). by apply Forall_nil.
Qed.

(** * C32 *)
(** Children that are not nodes are in the JSON and do not come back. *)
Theorem C32_non_nodes_lost : forall others s t x sh root, reach_json s -> reach_json t -> classes t = classes s -> tree_at s x sh ->
  storable (classes s) (importable (std_env others) s) sh -> (forall q, root = Some q -> takes t q sh) ->
  exists n, forall f, n <= f -> exists s' y t',
    serialize f (std_env others) false true (VNode x) s = (Ret (json_tree false true sh), s') /\ only_attrs_created s s' /\
    deserialize f (std_env others) (json_tree false true sh) root t = (Ret (VNode y), t') /\ rebuilt t t' root y (pruned sh).
Proof.
  intros others s t x sh root Rs Rt Hc T Hst Hr. destruct (C30_serialize others s x sh _ Rs T Hst) as [n1 H1].
  assert (Hst' : storable (classes t) (importable (std_env others) t) sh) by (unfold importable; by rewrite Hc).
  destruct (C30_deserialize others t sh root Rt Hst' (tree_no_leaf _ _ _ T) Hr) as [n2 H2]. exists (n1 + n2). intros f Hf.
  destruct (H1 f ltac:(lia) false true) as (s' & E1 & D1). destruct (H2 f ltac:(lia)) as (y & t' & E2 & D2). eauto 10.
Qed.
(** An OrderedNode that keeps plain values besides nodes. *)
Definition C32_s := after [ONew ON (KStr "root") None; ONew ON (KStr "a") None; OSetAllow 0 true; OSet 0 (KStr "n") (VInt 1); OSet 0 (KStr "a") (VNode 1); OSet 0 (KStr "u") VUnset].
Definition C32_shape := Shape ON (KStr "root") None [Leaf (KStr "n") (VInt 1); Shape ON (KStr "a") None []; Leaf (KStr "u") VUnset].
Lemma C32_reach : reach C32_s.
Proof. apply after_reach. Qed.
Opaque C32_s.
Example C32_example : reach_json C32_s /\ tree_at C32_s 0 C32_shape /\ storable (classes C32_s) (importable plain_env C32_s) C32_shape /\
  pruned C32_shape = Shape ON (KStr "root") None [Shape ON (KStr "a") None []] /\
  fst (serialize 30 plain_env false true (VNode 0) C32_s) = Ret (json_tree false true C32_shape) /\
  let '(r, t) := deserialize 30 plain_env (json_tree false true C32_shape) None C32_s in
  exists y z, r = Ret (VNode y) /\ entries_at t y = [(KStr "a", VNode z)].
Proof.
  split; [apply reach_reach_json, C32_reach|]. split; [|split; [|split; [done|split; [vm_compute; done|]]]].
  - unfold tree_at, C32_shape. tree_tac OrderedNode; [apply attrs_without, (bool_decide_unpack _); by vm_compute|].
    replace (entries_at C32_s 0) with [(KStr "n", VInt 1); (KStr "a", VNode 1); (KStr "u", VUnset)] by (by vm_compute).
    repeat constructor; try done. tree_tac OrderedNode; [apply attrs_without, (bool_decide_unpack _); by vm_compute|].
    replace (entries_at C32_s 1) with (@nil (key * val)) by (by vm_compute). constructor.
  - assert (H : forall k kids, hashable k = true -> NoDup (map shape_key kids) -> Forall (fun kid => hashable (shape_key kid) = true) kids ->
      Forall (storable (classes C32_s) (importable plain_env C32_s)) kids -> storable (classes C32_s) (importable plain_env C32_s) (Shape ON k None kids)).
    { intros k kids Hh Hn Hk Hst. apply (st_node _ _ OrderedNode); [vm_compute; reflexivity|by vm_compute|apply (bool_decide_unpack _); by vm_compute|done|apply (bool_decide_unpack _); by vm_compute|by apply Forall_nil| |done|done].
      eapply Forall_impl; [exact Hk|]. intros kid Hkid. split; [|split; [|done]].
      - destruct kid; [|done]. split; [apply (bool_decide_unpack _); by vm_compute|]. split; intros K; apply (bool_decide_pack _) in K; by vm_compute in K.
      - intros [K _]. apply (bool_decide_pack _) in K. by vm_compute in K. }
    apply H; [done|apply (bool_decide_unpack _); by vm_compute|by repeat constructor|]. repeat constructor.
    apply H; [done|by apply NoDup_nil|by apply Forall_nil|by apply Forall_nil].
  - vm_compute. eexists _, _. split; reflexivity.
Qed.
(** The nodes that come back have other uuids than all nodes that were there: here, right after
    serializing in the same process. *)
Theorem C32_uuids_not_carried : forall others s x sh, reach_json s -> tree_at s x sh -> storable (classes s) (importable (std_env others) s) sh ->
  exists n, forall f, n <= f -> exists j s' y t',
    serialize f (std_env others) false true (VNode x) s = (Ret j, s') /\ deserialize f (std_env others) j None s' = (Ret (VNode y), t') /\
    tree_in (fun h z => forall u, uuid_at t' z = Some u -> forall o, exists_node s o -> uuid_at s o <> Some u) t' None y (pruned sh).
Proof.
  intros others s x sh R T Hst. destruct (reach_json_ok s R) as [W U]. exists (S (height sh)). intros f Hf.
  destruct (serialize_tree others false true _ sh s None x W U T Hst f Hf) as (s' & E & D).
  destruct (deserialize_tree others sh s' None) with (f := f) as (y & t' & E2 & D2).
  - apply D.
  - pose proof (sd_uuid _ _ D). lia.
  - unfold importable. by rewrite (sd_classes _ _ D).
  - by eapply tree_no_leaf.
  - done.
  - lia.
  - exists (json_tree false true sh), s', y, t'. split; [done|]. split; [done|]. eapply tree_keep; [reflexivity| |exact (rb_tree _ _ _ _ _ D2)].
    intros h z w [Hz _] Hw. split; [done|]. intros u Hu o Ho. pose proof (settled_spec _ _ W D) as O. rewrite <- (oa_uuid _ _ O o Ho).
    apply (rb_uuid _ _ _ _ _ D2 z u Hz Hu). destruct Ho as [ob Hob]. destruct (nodes s' !! o) eqn:K; [by eexists|].
    assert (Kc : class_of s' o = None) by (unfold class_of; by rewrite K). rewrite (oa_class _ _ O) in Kc by (by eexists). unfold class_of in Kc. by rewrite Hob in Kc.
Qed.
(** In simple mode no member __node__ is written, and class only if asked for. *)
Theorem C32_simple_mode : forall others s x sh imp cn name attrs kids, reach_json s -> tree_at s x sh -> storable (classes s) imp sh ->
  sh = Shape cn name attrs kids ->
  exists n, forall f, n <= f -> forall incl, exists s' ms, serialize f (std_env others) true incl (VNode x) s = (Ret (JObj ms), s') /\
    member "__node__" ms = None /\ member "class" ms = (if incl then Some (JStr cn) else None) /\ member "name" ms = Some (json_name name) /\
    member "children" ms = (match kids with [] => None | _ => Some (JList (map (json_tree true incl) kids)) end) /\
    member "attrs" ms = (match attrs with None => None | Some al => Some (JObj (map (fun e => (attr_name e, json_tree true incl e)) al)) end).
Proof.
  intros others s x sh imp cn name attrs kids R T Hst ->. destruct (C30_serialize others s x _ imp R T Hst) as [n H]. exists n. intros f Hf incl.
  destruct (H f Hf true incl) as (s' & E & _). eexists s', _. split; [exact E|]. by destruct incl, kids, attrs.
Qed.
Example C32_simple_example : fst (serialize 30 plain_env true false (VNode 0) C32_s) =
  Ret (JObj [("name", JStr "root"); ("children", JList [JInt 1; JObj [("name", JStr "a")]; JStr "<UNSET>"])]) /\
  fst (serialize 30 plain_env true true (VNode 1) C32_s) = Ret (JObj [("class", JStr ON); ("name", JStr "a")]).
Proof. split; vm_compute; reflexivity. Qed.

(** * C52 *)
(** Whatever has been registered ([h], in this order): serializing a node runs the callbacks of
    [due], in order, each on the data the previous ones left. *)
Definition start (simple incl : bool) (cls : classdef) (o : obj) : list (key * val) :=
  (if negb simple || incl then [(KStr "class", VStr (c_name cls))] else []) ++ [(KStr "name", key_val (o_name o))].
Theorem C52_serialize : forall ev h f simple incl x o s, v_ser ev = registered h -> nodes s !! x = Some o -> v_provides ev (o_cls o) INode = true ->
  default_ob (S f) ev simple incl (VNode x) s =
    (let! data := fold_left (fun (m : M (list (key * val))) (cb : sercb) => let! d := m in cb (default_ob f ev simple incl) x d)
                    (due (v_provides ev (o_cls o)) h) (ret (start simple incl (o_cls o) o)) in
     ret (if simple then VDict data else VDict [(KStr "__node__", VDict data)])) s.
Proof.
  intros ev h f simple incl x o s Hs Ho Hp. cbn [default_ob]. rewrite (bind_load _ _ _ _ Ho), Hp, Hs, matching_due. fold (start simple incl (o_cls o) o).
  assert (K : forall cbs (m : M (list (key * val))) s, fold_left (fun m (cb : sercb) => let! d := m in cb (default_ob f ev simple incl) x d) cbs m s =
    (let! d := m in run_ser (default_ob f ev simple incl) x cbs d) s).
  { induction cbs as [|cb cbs IH]; intros m s0; cbn [fold_left run_ser].
    - unfold bind. by destruct (m s0) as [[?|?] ?].
    - rewrite IH, bind_assoc. done. }
  unfold bind at 1. unfold bind at 1. rewrite (K _ (ret (start simple incl (o_cls o) o)) s), bind_ret. done.
Qed.
(** Deserializing does so for the new node. *)
Theorem C52_deserialize : forall ev h f parent l data x t t' o, v_deser ev = registered h -> member "__ob__" l = None -> member "__node__" l = Some data ->
  node_factory ev data parent t = (Ret x, t') -> nodes t' !! x = Some o ->
  decode (S f) ev parent (JObj l) t =
    (do! fold_left (fun (m : M unit) (cb : desercb) => do! m in cb (decode f ev) x (match data with JObj d => d | _ => [] end)) (due (v_provides ev (o_cls o)) h) (ret tt) in
     ret (VNode x)) t'.
Proof.
  intros ev h f parent l data x t t' o Hs H1 H2 E Ho. cbn [decode]. rewrite H1, H2, (bind_Ret _ _ _ _ _ E), (bind_load _ _ _ _ Ho), Hs, matching_due.
  assert (K : forall cbs (m : M unit) s, fold_left (fun (m : M unit) (cb : desercb) => do! m in cb (decode f ev) x (match data with JObj d => d | _ => [] end)) cbs m s =
    (do! m in iterM (fun cb : desercb => cb (decode f ev) x (match data with JObj d => d | _ => [] end)) cbs) s).
  { induction cbs as [|cb cbs IH]; intros m s0; cbn [fold_left iterM].
    - unfold bind. by destruct (m s0) as [[[]|?] ?].
    - rewrite IH, bind_assoc. done. }
  unfold bind at 1. unfold bind at 1. rewrite (K _ (ret tt) t'), bind_ret. done.
Qed.
(** [due] in other words: every key that matches has its turn once, in the order of first
    registration, with the callback registered last. *)
Lemma filter_split {A} (P : A -> Prop) `{!forall x, Decision (P x)} (l : list A) : forall l1 x l2, filter P l = l1 ++ x :: l2 ->
  exists m1 m2, l = m1 ++ x :: m2 /\ l1 = filter P m1 /\ P x.
Proof.
  induction l as [|y l IH]; intros l1 x l2 E; [by destruct l1|]. rewrite filter_cons in E. destruct (decide (P y)) as [Hy|Hy].
  - destruct l1 as [|z l1]; simpl in E; injection E as <- E.
    + exists [], l. split; [done|]. by split; [rewrite filter_nil|].
    + destruct (IH _ _ _ E) as (m1 & m2 & -> & -> & Hx). exists (y :: m1), m2. split; [done|]. split; [|done]. by rewrite filter_cons_True.
  - destruct (IH _ _ _ E) as (m1 & m2 & -> & -> & Hx). exists (y :: m1), m2. split; [done|]. split; [|done]. by rewrite filter_cons_False.
Qed.
Lemma first_order_before {C} (h : list (rkey * C)) : forall l1 k' l2, first_order h = l1 ++ k' :: l2 ->
  exists a b, h = a ++ b /\ k' ∉ map fst a /\ forall k, k ∈ l1 -> k ∈ map fst a.
Proof.
  induction h as [|[k0 c] h IH]; intros l1 k' l2 E; [by destruct l1|]. simpl in E. destruct l1 as [|z l1]; simpl in E; injection E as <- E.
  - exists [], ((k0, c) :: h). split; [done|]. split; [by intros ?%elem_of_nil|]. by intros k ?%elem_of_nil.
  - apply filter_split in E as (m1 & m2 & E & -> & Hk). destruct (IH _ _ _ E) as (a & b & -> & H1 & H2). exists ((k0, c) :: a), b. split; [done|]. simpl. split.
    + by rewrite not_elem_of_cons.
    + intros k [->|Hin]%elem_of_cons; [by left|]. right. apply elem_of_list_filter in Hin as [_ Hin]. auto.
Qed.
Lemma last_for_some {C} (h : list (rkey * C)) k : k ∈ map fst h -> exists c, last_for k h = Some c /\ exists a b, h = a ++ (k, c) :: b /\ k ∉ map fst b.
Proof.
  induction h as [|[k0 c0] h IH]; simpl; [by intros ?%elem_of_nil|]. intros Hin. destruct (decide (k ∈ map fst h)) as [H|H].
  - destruct (IH H) as (c & E & a & b & -> & Hb). exists c. rewrite E. split; [done|]. exists ((k0, c0) :: a), b. done.
  - apply elem_of_cons in Hin as [->|?]; [|done]. exists c0. replace (last_for k0 h) with (@None C).
    + rewrite decide_True by done. split; [done|]. by exists [], h.
    + clear IH. symmetry. induction h as [|[k1 c1] h IH]; [done|]. simpl in *. apply not_elem_of_cons in H as [H1 H2]. rewrite IH by done. by rewrite decide_False.
Qed.
Theorem C52_due : forall (C : Type) (matches : rkey -> bool) (h : list (rkey * C)),
  exists ks, NoDup ks /\ (forall k, k ∈ ks <-> k ∈ map fst h /\ matches k = true) /\
    (forall k k' i j, ks !! i = Some k -> ks !! j = Some k' -> i < j -> exists a b, h = a ++ b /\ k ∈ map fst a /\ k' ∉ map fst a) /\
    Forall2 (fun k c => exists a b, h = a ++ (k, c) :: b /\ k ∉ map fst b) ks (due matches h).
Proof.
  intros C matches h. exists (filter (fun k => matches k = true) (first_order h)).
  split; [apply NoDup_filter, first_order_nodup|]. split; [|split].
  - intros k. rewrite elem_of_list_filter, first_order_in. tauto.
  - intros k k' i j Hi Hj Hij. pose proof (take_drop_middle _ _ _ Hj) as E. symmetry in E. apply filter_split in E as (m1 & m2 & E & Em & _).
    destruct (first_order_before h _ _ _ E) as (a & b & -> & H1 & H2). exists a, b. split; [done|]. split; [|done]. apply H2.
    assert (k ∈ take j (filter (fun k => matches k = true) (first_order (a ++ b)))) as Hk by (apply elem_of_list_lookup; exists i; by rewrite lookup_take).
    rewrite Em in Hk. by apply elem_of_list_filter in Hk as [_ ?].
  - unfold due. assert (K : Forall (fun k => k ∈ map fst h) (first_order h)) by (apply Forall_forall; intros k; by rewrite first_order_in).
    induction (first_order h) as [|k l IH]; [constructor|]. apply Forall_cons in K as [K1 K2]. cbn [flat_map]. destruct (matches k) eqn:M.
    + destruct (last_for_some h k K1) as (c & E & Hc). rewrite filter_cons_True, E by done. cbn [app]. constructor; [done|auto].
    + rewrite filter_cons_False by congruence. cbn [app]. auto.
Qed.
(** A node that does not provide INode is refused. *)
Theorem C52_no_node : forall ev f simple incl x o s, nodes s !! x = Some o -> v_provides ev (o_cls o) INode = false ->
  dumps (S (S f)) ev simple incl (VNode x) s = (Exc (ValueError "Circular reference detected"), s).
Proof. intros ev f simple incl x o s Ho Hp. cbn [dumps default_ob]. rewrite bind_assoc, (bind_load _ _ _ _ Ho), Hp. done. Qed.
(** Callbacks that leave a mark: INode is registered again after IAttributes and the class, an
    interface the node does not provide is ignored. *)
Definition mark (n : Z) : sercb := fun enc x data => ret (data ++ [(KInt n, VNone)]).
Definition C52_env : env := Env std_provides
  (registered [(INode, mark 1); (IAttributes, mark 2); (RIface "other", mark 3); (RClass NN, mark 4); (INode, mark 5)]) [] (fun _ => false).
Example C52_example : fst (default_ob 9 C52_env true false (VNode 0) (after [ONew NN (KStr "n") None])) =
    Ret (VDict [(KStr "name", VStr "n"); (KInt 5, VNone); (KInt 2, VNone); (KInt 4, VNone)]) /\
  fst (default_ob 9 C52_env true false (VNode 0) (after [ONew ON (KStr "n") None])) = Ret (VDict [(KStr "name", VStr "n"); (KInt 5, VNone)]).
Proof. split; vm_compute; reflexivity. Qed.

Print Assumptions C30_serialize.
Print Assumptions C30_deserialize.
Print Assumptions C30_round_trip.
Print Assumptions C30_round_trip_here.
Print Assumptions C31_values_survive.
Print Assumptions C31_nothing_else.
Print Assumptions C31_unset_string.
Print Assumptions C31_uuid_string.
Print Assumptions C31_unset_in_dict.
Print Assumptions C31_int_keys.
Print Assumptions C31_ob_key.
Print Assumptions C32_non_nodes_lost.
Print Assumptions C32_uuids_not_carried.
Print Assumptions C32_simple_mode.
Print Assumptions C52_serialize.
Print Assumptions C52_deserialize.
Print Assumptions C52_due.
Print Assumptions C52_no_node.
