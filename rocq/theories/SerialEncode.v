(** Proofs about writing trees as JSON. *)
From Verif Require Import Py Odict OdictFacts Aliaser Heap Model MonadFacts WF WFOps Views SpecMapping MappingProofs StorageProofs TreeOps SetEff DelEff
  DetachEff NewEff AttrsEff Observe ObserveFacts Reach SpecTree MappingProps PlaceProofs UtilsProofs AliasProofs RefTree DeepProofs Serializer SpecSerial SerialValues SerialData.

Section shape_nested.
  Context (P : shape -> Prop) (HL : forall k v, P (Leaf k v)) (HS : forall cn n attrs kids, Forall P kids -> Forall P (default [] attrs) -> P (Shape cn n attrs kids)).
  Fixpoint shape_nested (sh : shape) : P sh :=
    match sh with
    | Leaf k v => HL k v
    | Shape cn n attrs kids => HS cn n attrs kids
        ((fix go l : Forall P l := match l with [] => Forall_nil_2 P | k :: r => Forall_cons_2 P k r (shape_nested k) (go r) end) kids)
        (match attrs return Forall P (default [] attrs) with
         | None => Forall_nil_2 P
         | Some al => (fix go l : Forall P l := match l with [] => Forall_nil_2 P | k :: r => Forall_cons_2 P k r (shape_nested k) (go r) end) al
         end)
    end.
End shape_nested.
Lemma attrs_in_iff P s x cls attrs : attrs_in P s x cls attrs <->
  match attrs with
  | None => Attributes ∉ c_behs cls
  | Some al => Attributes ∈ c_behs cls /\
      (value_at attrs_name (spaces_at s x) = None /\ al = [] \/
       exists a ca, value_at attrs_name (spaces_at s x) = Some (VNode a) /\ P (Some x) a /\
         class_of s a = Some ca /\ classes s !! c_attrs_factory cls = Some ca /\ Forall2 (entry_in P s a) (entries_at s a) al)
  end.
Proof.
  split.
  - intros [| |]; [done|split; [done|by left]|split; [done|right; eauto 10]].
  - destruct attrs as [al|]; [|by constructor]. intros [Ha [[Hv ->]|(a & ca & H1 & H2 & H3 & H4 & H5)]]; [by constructor|by econstructor].
Qed.

Fixpoint height (sh : shape) : nat :=
  match sh with
  | Leaf _ v => S (vheight v)
  | Shape _ _ attrs kids =>
      8 + Nat.max (list_max (map height kids))
            (match attrs with Some al => list_max (map height al) | None => 0 end)
  end.
Lemma height_kids cn n attrs kids kid : kid ∈ kids -> 8 + height kid <= height (Shape cn n attrs kids).
Proof. intros H. cbn [height]. assert (height kid <= list_max (map height kids)); [|lia]. apply list_max_in, elem_of_list_fmap. eauto. Qed.
Lemma height_attrs cn n al kids e : e ∈ al -> 8 + height e <= height (Shape cn n (Some al) kids).
Proof. intros H. cbn [height]. assert (height e <= list_max (map height al)); [|lia]. apply list_max_in, elem_of_list_fmap. eauto. Qed.

(** * Attributes coming into being *)
Record settled (s s' : st) : Prop := Settled {
  sd_wf : wf s';
  sd_uuid : (next_uuid s <= next_uuid s')%N;
  sd_classes : classes s' = classes s;
  sd_view : forall y w, views s !! y = Some w -> views s' !! y = Some w \/
    Attributes ∈ c_behs (w_cls w) /\ dget attrs_key (w_ns w) = None /\
    exists a wa, views s !! a = None /\ classes s !! c_attrs_factory (w_cls w) = Some (w_cls wa) /\
      views s' !! y = Some (vw_ns (dset attrs_key (VNode a) (w_ns w)) w) /\ views s' !! a = Some wa /\
      w_name wa = attrs_key /\ w_parent wa = Some y /\ w_ent wa = []
}.
Lemma settled_eqv s s' : eqv s s' -> wf s' -> settled s s'.
Proof. intros [] W. constructor; [done|lia|done|]. intros y w Hw. left. congruence. Qed.
Lemma settled_refl s : wf s -> settled s s.
Proof. intros W. by apply settled_eqv; [apply eqv_refl|]. Qed.
Lemma settled_trans s1 s2 s3 : settled s1 s2 -> settled s2 s3 -> settled s1 s3.
Proof.
  intros [W1 U1 C1 V1] [W2 U2 C2 V2]. constructor; [done|lia|congruence|]. intros y w Hw.
  destruct (V1 y w Hw) as [H|(Ha & Hd & a & wa & Hn & Hc & Hy & Hwa & Hnm & Hp & He)].
  - destruct (V2 y w H) as [H'|(Ha & Hd & a & wa & Hn & Hc & Hy & Hwa & Hnm & Hp & He)]; [by left|]. right. split; [done|]. split; [done|].
    exists a, wa. rewrite <- C1. split; [|done]. destruct (views s1 !! a) as [w1|] eqn:E; [|done].
    destruct (V1 a w1 E) as [K|(_ & _ & b & wb & _ & _ & K & _)]; congruence.
  - right. split; [done|]. split; [done|].
    assert (Hy3 : views s3 !! y = Some (vw_ns (dset attrs_key (VNode a) (w_ns w)) w)).
    { destruct (V2 _ _ Hy) as [K|(_ & K & _)]; [done|]. simpl in K. rewrite dget_dset_eq in K. done. }
    destruct (V2 _ _ Hwa) as [K|(_ & _ & b & wb & _ & _ & K & _)].
    + exists a, wa. done.
    + exists a. eexists. split; [done|]. split; [|split; [done|]; split; [exact K|]]; done.
Qed.
Lemma attrs_of_settled s x w c : wf s -> (0 < next_uuid s)%N -> views s !! x = Some w -> Attributes ∈ c_behs (w_cls w) -> Nodespaces ∈ c_behs (w_cls w) ->
  dget attrs_key (w_ns w) = None -> classes s !! c_attrs_factory (w_cls w) = Some c -> new_class (c_behs c) = true ->
  exists a s' wa, attrs_of x s = (Ret (VNode a), s') /\ settled s s' /\ views s' !! a = Some wa /\ w_cls wa = c /\ w_ent wa = [].
Proof.
  intros W Hu Hw Ha Hs Hd Hc Hn. destruct (attrs_missing s x w c W Hw (with_attrs_spec _ Ha Hs) Hd Hc Hn Hu) as (a & s' & E & [Wf Fr Ot (w0 & Hw0 & Se) (i & u & Na & Hu') _ _ Cl]).
  rewrite Hw in Hw0. injection Hw0 as <-. exists a, s', (fresh_view c attrs_key (Some x) i u a). split; [done|]. split; [|done].
  constructor; [done| |done|].
  - destruct (hasc Reference (c_behs c)); [destruct Hu' as (_ & _ & _ & _ & _ & ->)|destruct Hu' as (_ & _ & _ & ->)]; lia.
  - intros y wy Hy. destruct (decide (y = a)) as [->|Hya]; [congruence|]. destruct (decide (y = x)) as [->|Hyx].
    + rewrite Hw in Hy. injection Hy as <-. right. split; [done|]. split; [done|]. exists a. eexists. split; [done|]. split; [|split; [exact Se|split; [exact Na|]]]; done.
    + left. by rewrite Ot.
Qed.

(** observations through views *)
Lemma view_name s x w : views s !! x = Some w -> name_at s x = Some (w_name w).
Proof. intros H. rewrite ob_name. unfold fld. by rewrite H. Qed.
Lemma view_parent s x w : views s !! x = Some w -> parent_at s x = w_parent w.
Proof. intros H. rewrite ob_parent. unfold fld. by rewrite H. Qed.
Lemma view_spaces s x w : views s !! x = Some w -> spaces_at s x = w_ns w.
Proof. intros H. rewrite ob_spaces. unfold fld. by rewrite H. Qed.
Lemma put_spaces s x k v : wf s -> put k v (spaces_at s x) = dset k v (spaces_at s x).
Proof. intros W. symmetry. by apply wf_dset_put_ns. Qed.
Lemma settled_spec s s' : wf s -> settled s s' -> only_attrs_created s s'.
Proof.
  intros W [Wf Hu Hc V].
  assert (G : forall y, exists_node s y -> class_of s' y = class_of s y /\ name_at s' y = name_at s y /\ parent_at s' y = parent_at s y /\
    entries_at s' y = entries_at s y /\ uuid_at s' y = uuid_at s y /\ index_id s' y = index_id s y).
  { intros y [w Hw]%views_live. 
    assert (exists w', views s' !! y = Some w' /\ w_cls w' = w_cls w /\ w_name w' = w_name w /\ w_parent w' = w_parent w /\ w_ent w' = w_ent w /\ w_uuid w' = w_uuid w /\ w_index w' = w_index w) as (w' & Hw' & E1 & E2 & E3 & E4 & E5 & E6).
    { destruct (V y w Hw) as [K|(_ & _ & a & wa & _ & _ & K & _)]; eexists; (split; [exact K|]); done. }
    rewrite (view_class _ _ _ Hw), (view_class _ _ _ Hw'), (view_name _ _ _ Hw), (view_name _ _ _ Hw'), (view_parent _ _ _ Hw), (view_parent _ _ _ Hw'),
      (view_entries _ _ _ Hw), (view_entries _ _ _ Hw'), (view_uuid _ _ _ Hw), (view_uuid _ _ _ Hw'), (view_index _ _ _ Hw), (view_index _ _ _ Hw').
    repeat split; congruence. }
  constructor; try (intros y Hy; by apply G); [|done].
  intros y cls Hcl. destruct (class_view _ _ _ Hcl) as (w & Hw & <-).
  destruct (V y w Hw) as [K|(Ha & Hd & a & wa & Hn & Hf & K & Ka & Kn & Kp & Ke)].
  - left. by rewrite (view_spaces _ _ _ Hw), (view_spaces _ _ _ K).
  - right. split; [done|]. rewrite value_at_spec, (view_spaces _ _ _ Hw). split; [done|]. exists a, (w_cls wa).
    split; [intros [? ?]%views_live; congruence|].
    rewrite (view_spaces _ _ _ K), (view_class _ _ _ Ka), (view_name _ _ _ Ka), (view_parent _ _ _ Ka), (view_entries _ _ _ Ka). simpl.
    split; [|split; [done|split; [done|split; [congruence|done]]]].
    rewrite <- (view_spaces _ _ _ Hw). by rewrite put_spaces.
Qed.

(** * Trees stay trees *)
Notation anyone := (fun (_ : option nat) (_ : nat) => True).
Lemma map_entries (P P' : option nat -> nat -> Prop) s s' x es kids :
  Forall (fun sh => forall x h, tree_in P s h x sh -> tree_in P' s' h x sh) kids -> Forall2 (entry_in P s x) es kids -> Forall2 (entry_in P' s' x) es kids.
Proof.
  intros IH Hes. induction Hes as [|e kid es kids He Hes IHl]; constructor.
  - apply Forall_cons in IH as [IH _]. inversion He; subst; constructor; [done|]. by apply IH.
  - apply Forall_cons in IH as [_ IH]. by apply IHl.
Qed.
Lemma tree_settled s s' : settled s s' -> forall sh x h, tree_in anyone s h x sh -> tree_in anyone s' h x sh.
Proof.
  intros [Wf Hu Hc V]. induction sh as [k v|cn n attrs kids IH IHa] using shape_nested; intros x h T; [by inversion T|].
  inversion T as [h0 x0 cls n0 at0 k0 Hp Hcl Hcc Hnm Hat Hes]; subst. destruct (class_view _ _ _ Hcl) as (w & Hw & Ecl).
  assert (exists w', views s' !! x = Some w' /\ w_cls w' = w_cls w /\ w_name w' = w_name w /\ w_ent w' = w_ent w /\ 
     (w_ns w' = w_ns w \/ dget attrs_key (w_ns w) = None /\ exists a ca, dget attrs_key (w_ns w') = Some (VNode a) /\ classes s !! c_attrs_factory (w_cls w) = Some ca /\
         class_of s' a = Some ca /\ entries_at s' a = [])) as (w' & Hw' & E1 & E2 & E3 & E4).
  { destruct (V x w Hw) as [K|(_ & Hd & a & wa & _ & Hf & K & Ka & _ & _ & Ke)]; eexists; (split; [exact K|]); do 3 (split; [done|]); [by left|right].
    split; [done|]. exists a, (w_cls wa). simpl. rewrite dget_dset_eq. split; [done|]. split; [done|].
    by rewrite (view_class _ _ _ Ka), (view_entries _ _ _ Ka). }
  rewrite (view_name _ _ _ Hw) in Hnm. rewrite (view_entries _ _ _ Hw) in Hes.
  constructor.
  - done.
  - rewrite (view_class _ _ _ Hw'). congruence.
  - by rewrite Hc.
  - rewrite (view_name _ _ _ Hw'). congruence.
  - apply attrs_in_iff in Hat. apply attrs_in_iff.
    destruct attrs as [al|]; [|done]. destruct Hat as [Ha Hat]. split; [done|]. rewrite value_at_spec, (view_spaces _ _ _ Hw) in Hat.
    rewrite value_at_spec, (view_spaces _ _ _ Hw'). destruct Hat as [[Hd ->]|(a & ca & Hd & _ & Hca & Hcf & He)].
    + destruct E4 as [->|(_ & a & ca & K1 & K2 & K3 & K4)]; [by left|]. right. exists a, ca. rewrite Hc. split; [done|]. split; [done|].
      rewrite <- Ecl, K4. done.
    + right. exists a, ca. destruct E4 as [->|(K & _)]; [|congruence]. split; [done|]. split; [done|]. rewrite Hc.
      destruct (class_view _ _ _ Hca) as (wa & Hwa & Ewa). rewrite (view_entries _ _ _ Hwa) in He. simpl in IHa.
      destruct (V a wa Hwa) as [K|(_ & _ & b & wb & _ & _ & K & _)]; rewrite (view_class _ _ _ K), (view_entries _ _ _ K); simpl;
        (split; [congruence|]; split; [done|]; by apply (map_entries anyone anyone s s')).
  - rewrite (view_entries _ _ _ Hw'), E3. by apply (map_entries anyone anyone s s').
Qed.
Lemma entries_settled s s' x es kids : settled s s' -> Forall2 (entry_in anyone s x) es kids -> Forall2 (entry_in anyone s' x) es kids.
Proof. intros D. apply map_entries. apply Forall_forall. intros sh _ y h. by apply tree_settled. Qed.

(** * What default returns *)
Definition dval (simple : bool) (v : val) : val :=
  match v with
  | VUnset => VStr "<UNSET>"
  | VUuid u => VStr ("<UUID>:" ++ uuid_str u)
  | VClass n => if simple then VStr n else VDict [(KStr "__ob__", VStr n)]
  | _ => v
  end.
Fixpoint vtree (simple incl : bool) (sh : shape) : val :=
  match sh with
  | Leaf _ v => dval simple v
  | Shape cn name attrs kids =>
      let data := VDict ((if negb simple || incl then [(KStr "class", VStr cn)] else []) ++
                        [(KStr "name", key_val name)] ++
                        match kids with [] => [] | _ => [(KStr "children", VList (map (vtree simple incl) kids))] end ++
                        match attrs with None => [] | Some al => [(KStr "attrs", VDict (map (fun e => (shape_key e, vtree simple incl e)) al))] end) in
      if simple then data else VDict [(KStr "__node__", data)]
  end.
Lemma default_leaf f ev simple incl v s : not_a_node v -> default_ob (S f) ev simple incl v s = (Ret (dval simple v), s).
Proof. intros H. destruct v as [| | | | | | |c| | | |]; try reflexivity. by destruct (H c). Qed.
Lemma plain_not_node imp v : plain imp v -> not_a_node v.
Proof. intros H c ->. inversion H. Qed.

Lemma dset_absent k v (d : list (key * val)) : k ∉ dkeys d -> dset k v d = d ++ [(k, v)].
Proof.
  induction d as [|[k' v'] d IH]; simpl; [done|]. rewrite not_elem_of_cons. intros [H1 H2]. rewrite decide_False by congruence. by rewrite IH.
Qed.

(** * Running the encoder *)
Lemma std_inode cls others : Nodify ∈ c_behs cls -> v_provides (std_env others) cls INode = true.
Proof. intros H. cbn. by apply bool_decide_eq_true. Qed.
Lemma std_iattrs cls others : v_provides (std_env others) cls IAttributes = bool_decide (Attributes ∈ c_behs cls).
Proof. done. Qed.
Lemma std_matching {C} cls others (a b : C) : Nodify ∈ c_behs cls ->
  matching (std_env others) cls (registered [(INode, a); (IAttributes, b)]) = a :: (if bool_decide (Attributes ∈ c_behs cls) then [b] else []).
Proof.
  intros H. unfold matching. change (registered [(INode, a); (IAttributes, b)]) with [(INode, a); (IAttributes, b)].
  cbn [flat_map fst snd app]. rewrite (std_inode cls others H), std_iattrs. by destruct (bool_decide _).
Qed.
Lemma attrs_dset_class simple incl cn nm kids x :
  dset (KStr "attrs") (VDict x) ((if negb simple || incl then [(KStr "class", VStr cn)] else []) ++ [(KStr "name", nm)] ++ match kids with [] => [] | _ => [(KStr "children", VList kids)] end)
  = (if negb simple || incl then [(KStr "class", VStr cn)] else []) ++ [(KStr "name", nm)] ++ match kids with [] => [] | _ => [(KStr "children", VList kids)] end ++ [(KStr "attrs", VDict x)].
Proof. by destruct (negb simple || incl), kids. Qed.
Lemma children_dset simple incl cn nm kids :
  match kids with [] => (if negb simple || incl then [(KStr "class", VStr cn)] else []) ++ [(KStr "name", nm)]
    | _ => dset (KStr "children") (VList kids) ((if negb simple || incl then [(KStr "class", VStr cn)] else []) ++ [(KStr "name", nm)]) end
  = (if negb simple || incl then [(KStr "class", VStr cn)] else []) ++ [(KStr "name", nm)] ++ match kids with [] => [] | _ => [(KStr "children", VList kids)] end.
Proof. by destruct (negb simple || incl), kids. Qed.
Lemma attrs_absent simple incl cn nm kids :
  dget (KStr "attrs") ((if negb simple || incl then [(KStr "class", VStr cn)] else []) ++ [(KStr "name", nm)] ++ match kids with [] => [] | _ => [(KStr "children", VList kids)] end) = None.
Proof. by destruct (negb simple || incl), kids. Qed.

Section encode.
  Context (others : string -> bool) (simple incl : bool).
  Notation ev := (std_env others).
  Notation enc f := (default_ob f ev simple incl).
  Definition encodes (sh : shape) : Prop := forall f imp s h x, height sh <= f -> wf s -> (0 < next_uuid s)%N ->
    tree_in anyone s h x sh -> storable (classes s) imp sh ->
    exists s', enc f (VNode x) s = (Ret (vtree simple incl sh), s') /\ settled s s'.
  Lemma encode_kids f imp kids : Forall encodes kids -> Forall (fun k => height k <= S f) kids -> forall x es s, wf s -> (0 < next_uuid s)%N ->
    Forall2 (entry_in anyone s x) es kids -> Forall (storable (classes s) imp) kids ->
    exists s', mapM_ (enc (S f)) (map snd es) s = (Ret (map (vtree simple incl) kids), s') /\ settled s s'.
  Proof.
    induction kids as [|kid kids IHk]; intros He Hh x es s W Hu Hes Hst; inversion Hes as [|e ? es' ? H1 H2]; subst.
    - exists s. split; [done|by apply settled_refl].
    - apply Forall_cons in He as [He1 He2]. apply Forall_cons in Hh as [Hh1 Hh2]. apply Forall_cons in Hst as [Hs1 Hs2].
      assert (exists s1, enc (S f) (snd e) s = (Ret (vtree simple incl kid), s1) /\ settled s s1) as (s1 & E1 & D1).
      { inversion H1 as [? k v Hv|? k c cn at0 ks T]; subst.
        - exists s. split; [by apply default_leaf|by apply settled_refl].
        - by apply (He1 (S f) imp s (Some x) c). }
      cbn [map mapM_]. rewrite (bind_Ret _ _ _ _ _ E1).
      destruct (IHk He2 Hh2 x es' s1) as (s2 & E2 & D2).
      + apply D1.
      + pose proof (sd_uuid _ _ D1). lia.
      + by apply (entries_settled s).
      + by rewrite (sd_classes _ _ D1).
      + rewrite (bind_Ret _ _ _ _ _ E2). exists s2. split; [done|]. by eapply settled_trans.
  Qed.
  Lemma encode_attrs f imp al : Forall encodes al -> Forall (fun k => height k <= S f) al -> forall x es d s, wf s -> (0 < next_uuid s)%N ->
    Forall2 (entry_in anyone s x) es al -> Forall (storable (classes s) imp) al -> NoDup (dkeys d ++ map shape_key al) ->
    exists s', write_attrs (enc (S f)) es d s = (Ret (d ++ map (fun e => (shape_key e, vtree simple incl e)) al), s') /\ settled s s'.
  Proof.
    induction al as [|kid al IHk]; intros He Hh x es d s W Hu Hes Hst Hn; inversion Hes as [|e ? es' ? H1 H2]; subst.
    - exists s. rewrite app_nil_r. split; [done|by apply settled_refl].
    - apply Forall_cons in He as [He1 He2]. apply Forall_cons in Hh as [Hh1 Hh2]. apply Forall_cons in Hst as [Hs1 Hs2].
      assert (exists s1, enc (S f) (snd e) s = (Ret (vtree simple incl kid), s1) /\ settled s s1 /\ fst e = shape_key kid) as (s1 & E1 & D1 & Ek).
      { inversion H1 as [? k v Hv|? k c cn at0 ks T]; subst.
        - exists s. split; [by apply default_leaf|]. split; [by apply settled_refl|done].
        - destruct (He1 (S f) imp s (Some x) c) as (s1 & ? & ?); try done. eauto. }
      destruct e as [k v]. simpl in Ek, E1. subst k. cbn [write_attrs map]. rewrite (bind_Ret _ _ _ _ _ E1).
      assert (Hk : shape_key kid ∉ dkeys d). { simpl in Hn. apply NoDup_app in Hn as (_ & Hn & _). intros H. apply (Hn _ H). by left. }
      rewrite dset_absent by done.
      destruct (IHk He2 Hh2 x es' (d ++ [(shape_key kid, vtree simple incl kid)]) s1) as (s2 & E2 & D2).
      + apply D1.
      + pose proof (sd_uuid _ _ D1). lia.
      + by apply (entries_settled s).
      + by rewrite (sd_classes _ _ D1).
      + unfold dkeys in *. rewrite map_app, <- app_assoc. done.
      + exists s2. rewrite E2, <- app_assoc. split; [done|]. by eapply settled_trans.
  Qed.
  Lemma entry_keys x s es kids : Forall2 (entry_in anyone s x) es kids -> map fst es = map shape_key kids.
  Proof. induction 1 as [|e kid es kids He _ IH]; simpl; [done|]. rewrite IH. f_equal. by inversion He. Qed.
  Lemma encode_tree sh : encodes sh.
  Proof.
    induction sh as [k v|cn n attrs kids IH IHa] using shape_nested; intros f imp s h x Hf W Hu T Hst; [by inversion T|].
    assert (Hkids : forall kid, kid ∈ kids -> 8 + height kid <= f).
    { intros kid Hin. etrans; [by apply (height_kids cn n attrs)|done]. }
    assert (Hattrs : forall al e, attrs = Some al -> e ∈ al -> 8 + height e <= f).
    { intros al e -> Hin. etrans; [by apply (height_attrs cn n al kids)|done]. }
    assert (8 <= f) by (cbn [height] in Hf; lia).
    destruct f as [|f]; [lia|].
    inversion T as [h0 x0 cls n0 at0 k0 Hp Hcl Hcc Hnm Hat Hes]; subst.
    inversion Hst as [|cls' ? ? ? Hcs Hnew Hnod Hhash Hats Hast Hkd Hnd Hks]; subst.
    assert (cls' = cls) as -> by (rewrite H0 in Hcs; congruence). clear H0 Hcs.
    destruct (class_view _ _ _ Hcl) as (w & Hw & <-). destruct (view_obj _ _ _ Hw) as (o & Ho & Ew).
    assert (Htree : tree_class (c_behs (w_cls w)) = true) by (unfold new_class in Hnew; by rewrite !andb_true_iff in Hnew; destruct Hnew as [[[? _] _] _]).
    rewrite (view_name _ _ _ Hw) in Hnm. injection Hnm as Hnm.
    cbn [default_ob]. destruct f as [|f]; [lia|]. rewrite (bind_load _ _ _ _ Ho). replace (o_cls o) with (w_cls w) by (by subst w). replace (o_name o) with n by (subst; done).
    rewrite std_inode by done. change (v_ser ev) with (registered [(INode, serialize_node); (IAttributes, serialize_node_attributes)]). rewrite std_matching by done.
    cbn [run_ser]. 
    (* children *)
    unfold serialize_node at 1. rewrite !bind_assoc.
    destruct (values_eqv s x (w_cls w) W Hcl Htree) as (s1 & Ev & Q1 & W1).
    { pose proof (entry_keys _ _ _ _ Hes) as Ek. apply Forall_forall. intros e He.
      assert (fst e ∈ map shape_key kids) as (kid & Hk & Hin)%elem_of_list_fmap. { rewrite <- Ek. apply elem_of_list_fmap. eauto. }
      rewrite Hk. rewrite Forall_forall in Hkd. by apply Hkd. }
    rewrite (bind_Ret _ _ _ _ _ Ev).
    pose proof (settled_eqv _ _ Q1 W1) as D1.
    destruct (encode_kids f imp kids) with (x := x) (es := entries_at s x) (s := s1) as (s2 & E2 & D2); [done| |done|by rewrite (e_uuid _ _ Q1)| |by rewrite (e_classes _ _ Q1)|].
    { apply Forall_forall. intros kid Hin. specialize (Hkids kid Hin). lia. }
    { by apply (entries_settled s). }
    rewrite bind_assoc, (bind_Ret _ _ _ _ _ E2), bind_ret. rewrite children_dset.
    pose proof (settled_trans _ _ _ D1 D2) as D12. pose proof (tree_settled s s2 D12 _ x h T) as T2.
    assert (Ek : match map (vtree simple incl) kids with [] => [] | _ => [(KStr "children", VList (map (vtree simple incl) kids))] end =
                 match kids with [] => [] | _ => [(KStr "children", VList (map (vtree simple incl) kids))] end) by (by destruct kids).
    assert (U2 : (0 < next_uuid s2)%N) by (pose proof (sd_uuid _ _ D12); lia).
    destruct attrs as [al|].
    - (* attributes *)
      simpl in IHa, Hast.
      destruct Hats as (Ha & Hns & ca & Hca & Hcan & Hcv & Hnda & Hal).
      rewrite bool_decide_eq_true_2 by done. cbn [run_ser]. unfold serialize_node_attributes at 1.
      rewrite attrs_absent.
      assert (G : exists a s3 wa, attrs_of x s2 = (Ret (VNode a), s3) /\ settled s2 s3 /\ views s3 !! a = Some wa /\ w_cls wa = ca /\ Forall2 (entry_in anyone s3 a) (w_ent wa) al).
      { inversion T2 as [h0 x0 cls n0 at0 k0 _ Hcl2 _ _ Hat2 _]; subst. apply attrs_in_iff in Hat2. destruct Hat2 as [_ Hat2]. destruct (class_view _ _ _ Hcl2) as (w2 & Hw2 & Ew2).
        assert (Ec : w_cls w2 = cls) by done. assert (cls = o_cls o) as Hcc2. { rewrite (oa_class _ _ (settled_spec _ _ W D12)) in Hcl2 by (by eexists). rewrite (view_class _ _ _ Hw) in Hcl2. by injection Hcl2. }
        rewrite value_at_spec, (view_spaces _ _ _ Hw2) in Hat2. destruct Hat2 as [[Hd ->]|(a & ca' & Hd & _ & Hca' & Hcf & He)].
        - destruct (attrs_of_settled s2 x w2 ca) as (a & s3 & wa & E3 & D3 & Hwa & Hcwa & Hewa); try done; [apply D2|by rewrite Ec, Hcc2|by rewrite Ec, Hcc2| |].
          { rewrite (sd_classes _ _ D12). rewrite Ec, Hcc2. done. }
          exists a, s3, wa. rewrite Hewa. done.
        - destruct (attrs_found s2 x w2 (VNode a)) as (s3 & E3 & Q3 & W3); [apply D2|done|rewrite Ec, Hcc2; by apply with_attrs_spec|done|].
          destruct (class_view _ _ _ Hca') as (wa & Hwa & Ewa). exists a, s3, wa. split; [done|]. split; [by apply settled_eqv|].
          rewrite (e_views _ _ Q3). split; [done|]. rewrite <- (view_entries _ _ _ Hwa). split; [|apply (entries_settled s2); [by apply settled_eqv|done]].
          rewrite (sd_classes _ _ D12) in Hcf. simpl in Hca. rewrite Hcc2 in Hcf. congruence. }
      destruct G as (a & s3 & wa & E3 & D3 & Hwa & Hcwa & Hewa).
      rewrite !bind_assoc, (bind_Ret _ _ _ _ _ E3), bind_assoc.
      destruct (items_eff s3 a wa) as (s4 & E4 & Q4 & W4); [apply D3|done| | |].
      { rewrite Hcwa. unfold new_class in Hcan. by rewrite !andb_true_iff in Hcan; destruct Hcan as [[[? _] _] _]. }
      { rewrite (view_entries _ _ _ Hwa). intros k v Hin. apply nskey_dunder_false. rewrite Hcwa.
        pose proof (entry_keys _ _ _ _ Hewa) as Eka.
        assert (k ∈ map shape_key al) as (e & -> & Hin')%elem_of_list_fmap. { rewrite <- Eka. apply elem_of_list_fmap. by exists (k, v). }
        rewrite Forall_forall in Hal. by apply Hal. }
      rewrite (bind_Ret _ _ _ _ _ E4), bind_assoc. rewrite (view_entries _ _ _ Hwa).
      pose proof (settled_trans _ _ _ D3 (settled_eqv _ _ Q4 W4)) as D24. pose proof (settled_trans _ _ _ D12 D24) as D14.
      destruct (encode_attrs f imp al IHa) with (x := a) (es := w_ent wa) (d := @nil (key * val)) (s := s4) as (s5 & E5 & D5); [|done| | | |done|].
      { apply Forall_forall. intros e Hin. specialize (Hattrs al e eq_refl Hin). lia. }
      { pose proof (sd_uuid _ _ D14). lia. }
      { apply (entries_settled s3); [by apply settled_eqv|done]. }
      { by rewrite (sd_classes _ _ D14). }
      rewrite (bind_Ret _ _ _ _ _ E5), !bind_ret. exists s5. split.
      + rewrite attrs_dset_class, Ek. cbn [vtree app]. by destruct simple.
      + by eapply settled_trans.
    - rewrite bool_decide_eq_false_2 by done. cbn [run_ser]. rewrite bind_ret. exists s2. split; [|done].
      rewrite Ek. cbn [vtree]. rewrite app_nil_r. by destruct simple.
  Qed.
End encode.

(** * Writing what default returned *)
Lemma dumps_dict_members (d : val -> M json) s l js :
  Forall2 (fun (e : key * val) (m : string * json) => fst e = KStr (fst m) /\ d (snd e) s = (Ret (snd m), s)) l js -> dumps_dict d l s = (Ret js, s).
Proof.
  induction 1 as [|[k v] [n j] l js [Hk Hd] _ IH]; simpl; [done|]. simpl in Hk, Hd. subst k. simpl. by rewrite (bind_Ret _ _ _ _ _ Hd), (bind_Ret _ _ _ _ _ IH).
Qed.
Lemma dumps_list_values (d : val -> M json) s l js : Forall2 (fun v j => d v s = (Ret j, s)) l js -> dumps_list d l s = (Ret js, s).
Proof. induction 1 as [|v j l js Hd _ IH]; simpl; [done|]. by rewrite (bind_Ret _ _ _ _ _ Hd), (bind_Ret _ _ _ _ _ IH). Qed.
Lemma dumps_obj f ev simple incl s l js :
  Forall2 (fun (e : key * val) (m : string * json) => fst e = KStr (fst m) /\ dumps f ev simple incl (snd e) s = (Ret (snd m), s)) l js ->
  dumps (S f) ev simple incl (VDict l) s = (Ret (JObj js), s).
Proof. intros H. cbn [dumps]. by rewrite (bind_Ret _ _ _ _ _ (dumps_dict_members _ _ _ _ H)). Qed.
Lemma dumps_arr f ev simple incl s l js :
  Forall2 (fun v j => dumps f ev simple incl v s = (Ret j, s)) l js -> dumps (S f) ev simple incl (VList l) s = (Ret (JList js), s).
Proof. intros H. cbn [dumps]. by rewrite (bind_Ret _ _ _ _ _ (dumps_list_values _ _ _ _ H)). Qed.
Lemma dumps_str f ev simple incl s t : dumps (S f) ev simple incl (VStr t) s = (Ret (JStr t), s).
Proof. done. Qed.
Lemma dumps_dval imp v ev simple incl s f : plain imp v -> vheight v <= f -> dumps f ev simple incl (dval simple v) s = (Ret (json_of simple v), s).
Proof.
  intros Hp Hf. assert (K : dval simple v = v \/ exists g, f = S (S g) /\ (v = VUnset \/ (exists u, v = VUuid u) \/ exists n, v = VClass n)).
  { destruct v as [| | | | | | |c| | | |]; try (by left); right; simpl in Hf; (do 2 (destruct f as [|f]; [lia|])); eauto 10. }
  destruct K as [->|(g & -> & [->|[[u ->]|[n ->]]])].
  - by eapply dumps_plain.
  - done.
  - done.
  - by destruct simple.
Qed.
Lemma dumps_key f ev simple incl s k : hashable k = true -> dumps (S f) ev simple incl (key_val k) s = (Ret (json_name k), s).
Proof. by destruct k. Qed.
Lemma dumps_tree others simple incl cs imp sh s : storable cs imp sh -> forall f, height sh <= f ->
  dumps f (std_env others) simple incl (vtree simple incl sh) s = (Ret (json_tree simple incl sh), s).
Proof.
  induction sh as [k v|cn n attrs kids IH IHa] using shape_nested; intros Hst f Hf.
  - inversion Hst; subst. simpl in Hf. eapply dumps_dval; [done|lia].
  - assert (Hkids : forall kid, kid ∈ kids -> 8 + height kid <= f).
    { intros kid Hin. etrans; [by apply (height_kids cn n attrs)|done]. }
    assert (Hattrs : forall al e, attrs = Some al -> e ∈ al -> 8 + height e <= f).
    { intros al e -> Hin. etrans; [by apply (height_attrs cn n al kids)|done]. }
    assert (8 <= f) by (cbn [height] in Hf; lia). clear Hf.
    do 4 (destruct f as [|f]; [lia|]).
    inversion Hst as [|cls ? ? ? Hcs Hnew Hnod Hhash Hats Hast Hkd Hnd Hks]; subst.
    assert (G : forall g, S f <= g -> dumps (S g) (std_env others) simple incl (VDict ((if negb simple || incl then [(KStr "class", VStr (c_name cls))] else []) ++
                        [(KStr "name", key_val n)] ++
                        match kids with [] => [] | _ => [(KStr "children", VList (map (vtree simple incl) kids))] end ++
                        match attrs with None => [] | Some al => [(KStr "attrs", VDict (map (fun e => (shape_key e, vtree simple incl e)) al))] end)) s =
      (Ret (JObj ((if negb simple || incl then [("class", JStr (c_name cls))] else []) ++
                        [("name", json_name n)] ++
                        match kids with [] => [] | _ => [("children", JList (map (json_tree simple incl) kids))] end ++
                        match attrs with None => [] | Some al => [("attrs", JObj (map (fun e => (attr_name e, json_tree simple incl e)) al))] end)), s)).
    { intros g Hg. destruct g as [|g]; [lia|]. apply dumps_obj. apply Forall2_app; [|apply Forall2_app; [|apply Forall2_app]].
      - destruct (negb simple || incl); repeat constructor.
      - constructor; [|constructor]. split; [done|]. by apply dumps_key.
      - assert (K : dumps (S g) (std_env others) simple incl (VList (map (vtree simple incl) kids)) s = (Ret (JList (map (json_tree simple incl) kids)), s)).
        { apply dumps_arr. apply Forall2_fmap_2. apply Forall_Forall2_diag. rewrite Forall_forall in *. intros kid Hin. apply IH; [done|by apply Hks|].
          specialize (Hkids kid Hin). lia. }
        destruct kids; [constructor|]. constructor; [|constructor]. split; [done|]. exact K.
      - destruct attrs as [al|]; [|constructor]. constructor; [|constructor]. split; [done|]. apply dumps_obj. apply Forall2_fmap_2. apply Forall_Forall2_diag.
        destruct Hats as (_ & _ & ca & _ & _ & _ & _ & Hal). simpl in IHa, Hast. rewrite Forall_forall in *. intros e Hin. cbn [fst snd].
        destruct (Hal e Hin) as [[m Hm] _]. split; [unfold attr_name; by rewrite Hm|]. apply IHa; [done|by apply Hast|]. specialize (Hattrs al e eq_refl Hin). lia. }
    cbn [vtree json_tree]. destruct simple; [apply G; lia|]. apply dumps_obj. constructor; [|constructor]. split; [done|]. apply G. lia.
Qed.
Lemma serialize_tree others simple incl imp sh s h x : wf s -> (0 < next_uuid s)%N -> tree_in anyone s h x sh -> storable (classes s) imp sh ->
  forall f, S (height sh) <= f -> exists s', serialize f (std_env others) simple incl (VNode x) s = (Ret (json_tree simple (if simple then incl else true) sh), s') /\ settled s s'.
Proof.
  intros W Hu T Hst f Hf. unfold serialize. set (i := if simple then incl else true). clearbody i.
  destruct f as [|f]; [lia|]. destruct (encode_tree others simple i sh f imp s h x) as (s1 & E1 & D1); [lia|done..|].
  cbn [dumps]. rewrite (bind_Ret _ _ _ _ _ E1).
  assert (K : exists d, vtree simple i sh = VDict d) by (destruct sh; [|by inversion T]; simpl; destruct simple; eauto).
  pose proof (dumps_tree others simple i (classes s) imp sh s1 Hst f ltac:(lia)) as E2. destruct K as [d K]. rewrite K in *. exists s1. split; [exact E2|done].
Qed.
