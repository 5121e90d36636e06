From Verif Require Import Py Odict Aliaser Heap MonadFacts Model Serializer SerialCall SpecCall.

(** * Agreement with [Serializer] *)
Definition refines {A} (m m' : M A) : Prop := forall s, left_open (fst (m s)) \/ m s = m' s.

Lemma ref_refl {A} (m : M A) : refines m m.
Proof. intros s. by right. Qed.
Lemma ref_bind {A B} (m m' : M A) (f f' : A -> M B) :
  refines m m' -> (forall a, refines (f a) (f' a)) -> refines (bind m f) (bind m' f').
Proof.
  intros H1 H2 s. unfold bind. destruct (H1 s) as [H|H].
  - left. destruct (m s) as [[a|e] s1]; [by destruct H|]. simpl in *. destruct H as [H|H]; injection H as ->; [by left|by right].
  - rewrite <- H. destruct (m s) as [[a|e] s1]; [apply H2|by right].
Qed.
Lemma ref_iterM {A} (f f' : A -> M unit) l : (forall a, refines (f a) (f' a)) -> refines (iterM f l) (iterM f' l).
Proof.
  intros H. induction l as [|a l IH]; simpl; [apply ref_refl|].
  apply ref_bind; [apply H|]. intros _. apply IH.
Qed.
Lemma ref_raise {A B} e (f : A -> M B) : refines (bind (raise e) f) (raise e).
Proof. intros s. by right. Qed.
Lemma ref_open {A} (m : M A) : refines (raise Unspecified) m.
Proof. intros s. by left; left. Qed.
Lemma ref_fuel {A} (m : M A) : refines (raise OutOfFuel) m.
Proof. intros s. by left; right. Qed.

(** callbacks which only pass on what the decoder gives them *)
Definition tame (cb : desercb) : Prop :=
  forall d d', (forall p j, refines (d p j) (d' p j)) -> forall x data, refines (cb d x data) (cb d' x data).

Lemma tame_node : tame deserialize_node.
Proof.
  intros d d' H x data. unfold deserialize_node. destruct (member "children" data) as [j|]; [|apply ref_refl].
  destruct (truthy j); [|apply ref_refl]. destruct j; try apply ref_refl;
    apply ref_iterM; intros a; (apply ref_bind; [apply H|intros; apply ref_refl]).
Qed.
Lemma tame_attrs : tame deserialize_node_attributes.
Proof.
  intros d d' H x data. unfold deserialize_node_attributes. destruct (member "attrs" data) as [j|]; [|apply ref_refl].
  destruct (truthy j); [|apply ref_refl]. destruct j; try apply ref_refl.
  apply ref_iterM; intros a; (apply ref_bind; [apply H|intros; apply ref_refl]).
Qed.

Lemma decode_list_ref d d' l : (forall j, refines (d j) (d' j)) -> refines (decode_list d l) (decode_list d' l).
Proof.
  intros H. induction l as [|j l IH]; simpl; [apply ref_refl|].
  apply ref_bind; [apply H|]. intros v. apply ref_bind; [apply IH|]. intros; apply ref_refl.
Qed.

Section agree.
  Context (ce : callenv).
  Hypothesis Hcb : Forall (fun kc => tame (snd kc)) (v_deser (e_env ce)).

  Lemma factory_ref dec data parent :
    (forall s, dec None (JObj []) s = (Ret (VDict []), s)) ->
    refines (let! x := node_factory (e_env ce) data parent in ret (VNode x)) (call_factory ce dec data parent).
  Proof.
    intros Hd. unfold node_factory, call_factory. destruct data as [| | | | |l]; try apply ref_raise.
    destruct (member "class" _) as [c|]; [|apply ref_raise].
    intros s. rewrite bind_assoc. destruct (resolve (e_env ce) c s) as [[n|e] s1] eqn:E1;
      [rewrite !(bind_Ret _ _ _ _ _ E1)|rewrite !(bind_Exc _ _ _ _ _ E1); by right].
    enough (G : refines
      (let! x := match member "name" l with
         | None => raise (KeyError (KStr "name"))
         | Some nm => match name_key nm with
           | None => raise Unspecified
           | Some k =>
             let! cs := (fun s => (Ret (classes s), s)) in
             match cs !! n with
             | None => raise Unspecified
             | Some _ => let! x := new_node n KNone None in
                match parent with
                | Some p => do! setitem p k (VNode x) in ret x
                | None => do! modify x (with_name k) in ret x end
             end end end in ret (VNode x))
      (match member "name" l with
          | None => raise (KeyError (KStr "name"))
          | Some nm => match name_key nm with
              | None => raise Unspecified
              | Some k =>
                  let! kw := unpack (VDict []) in
                  let! v := call ce n kw in
                  match parent with
                  | Some p => do! setitem p k v in ret v
                  | None => do! set_name v k in ret v
                  end end end)).
    { destruct (member "kw" l) as [[| | | | |[|]]|]; try (by left; left);
        rewrite (bind_Ret _ _ _ _ _ (Hd s1)); exact (G s1). }
    clear s s1 E1. destruct (member "name" l) as [nm|]; [|apply ref_raise].
    destruct (name_key nm) as [k|]; [|apply ref_open].
    intros s. unfold unpack, call, bind; simpl. unfold ret. destruct (classes s !! n) as [c0|]; [|by left; left].
    simpl. unfold bind, ret. destruct (new_node n KNone None s) as [[x|e] s1]; [|by right].
    destruct parent as [p|]; simpl.
    - destruct (setitem p k (VNode x) s1) as [[u|e] s2]; by right.
    - destruct (modify x (with_name k) s1) as [[u|e] s2]; by right.
  Qed.

  Lemma matching_tame c : Forall tame (matching (e_env ce) c (v_deser (e_env ce))).
  Proof.
    unfold matching. generalize dependent Hcb. generalize (v_deser (e_env ce)). clear Hcb.
    intros l Hl. induction Hl as [|[k cb] l H _ IH]; simpl; [constructor|].
    destruct (v_provides (e_env ce) c k); simpl; [by constructor|exact IH].
  Qed.

  Lemma decode_ref f : forall parent j, refines (decode f (e_env ce) parent j) (decode_calls (S f) ce parent j).
  Proof.
    induction f as [|f IH]; intros parent j; [apply ref_fuel|].
    change (decode_calls (S (S f)) ce parent j) with
      (match j with
      | JStr s =>
          if String.eqb s "<UNSET>" then ret VUnset
          else if startswith "<UUID>:" s then
            match uuid_parse (str_drop 7 s) with
            | Some u => ret (VUuid u)
            | None => raise (ValueError "badly formed hexadecimal UUID string")
            end
          else ret (VStr s)
      | JList l => let! vs := decode_list (decode_calls (S f) ce parent) l in ret (VList vs)
      | JNull | JBool _ | JInt _ => ret (raw j)
      | JObj l =>
          match member "__ob__" l with
          | Some n => let! n := resolve (e_env ce) n in ret (VClass n)
          | None =>
              match member "__node__" l with
              | Some data =>
                  let! v := call_factory ce (decode_calls (S f) ce) data parent in
                  do! run_deser ce (decode_calls (S f) ce) v data in
                  ret v
              | None => ret (raw j)
              end
          end
      end).
    destruct j as [| | | |l|l]; try apply ref_refl.
    - simpl. apply ref_bind; [apply decode_list_ref; intros; apply IH|intros; apply ref_refl].
    - cbn [decode]. destruct (member "__ob__" l) as [n|]; [apply ref_refl|].
      destruct (member "__node__" l) as [data|]; [|apply ref_refl].
      intros s.
      assert (E : (let! x := node_factory (e_env ce) data parent in
                   let! o := load x in
                   do! iterM (fun cb : desercb => cb (decode f (e_env ce)) x (match data with JObj d => d | _ => [] end))
                        (matching (e_env ce) (o_cls o) (v_deser (e_env ce))) in
                   ret (VNode x)) s =
                  (let! v := (let! x := node_factory (e_env ce) data parent in ret (VNode x)) in
                   do! run_deser ce (decode f (e_env ce)) v data in ret v) s).
      { unfold bind. destruct (node_factory _ _ _ s) as [[x|e] s1]; [|done]. simpl. unfold bind.
        by destruct (load x s1) as [[o|e] s2]. }
      rewrite E. clear E. revert s.
      change (refines (let! v := (let! x := node_factory (e_env ce) data parent in ret (VNode x)) in
                   do! run_deser ce (decode f (e_env ce)) v data in ret v)
               (let! v := call_factory ce (decode_calls (S f) ce) data parent in
                  do! run_deser ce (decode_calls (S f) ce) v data in ret v)).
      apply ref_bind; [apply factory_ref; done|]. intros v.
      apply ref_bind; [|intros; apply ref_refl]. unfold run_deser. destruct v; try apply ref_refl.
      apply ref_bind; [apply ref_refl|]. intros o0.
      induction (matching_tame (o_cls o0)) as [|cb cbs Ht _ IHc]; simpl; [apply ref_refl|].
      apply ref_bind; [apply Ht, IH|intros _; apply IHc].
  Qed.
End agree.

Lemma deserialize_agree f ot calls j root s r s' :
  deserialize f (std_env ot) j root s = (r, s') -> ~ left_open r ->
  deserialize_calls (S f) (Callenv (std_env ot) calls) j root s = (r, s').
Proof.
  intros H Hr. unfold deserialize in H. unfold deserialize_calls.
  destruct (decode_ref (Callenv (std_env ot) calls)) with (f := f) (parent := root) (j := loads j) (s := s) as [G|G].
  - simpl. vm_compute registered. repeat (constructor; [first [apply tame_node|apply tame_attrs]|]). constructor.
  - change (e_env (Callenv (std_env ot) calls)) with (std_env ot) in G. rewrite H in G. done.
  - change (e_env (Callenv (std_env ot) calls)) with (std_env ot) in G. by rewrite <- G.
Qed.

(** * What is called *)
Lemma str_keys_raw l : str_keys (map (fun kj : string * json => (KStr (fst kj), raw (snd kj))) l)
  = Some (map (fun kj => (fst kj, raw (snd kj))) l).
Proof. induction l as [|[k j] l IH]; simpl; [done|]. by rewrite IH. Qed.

Definition args (kw : list (string * json)) : list (string * val) := map (fun kj => (fst kj, raw (snd kj))) kw.

Lemma json_forall (P : json -> Prop) :
  P JNull -> (forall b, P (JBool b)) -> (forall z, P (JInt z)) -> (forall s, P (JStr s)) ->
  (forall l, Forall P l -> P (JList l)) -> (forall l, Forall (fun kj => P (snd kj)) l -> P (JObj l)) -> forall j, P j.
Proof.
  intros H1 H2 H3 H4 H5 H6. fix IH 1. intros [|b|z|s|l|l]; [exact H1|apply H2|apply H3|apply H4|apply H5|apply H6].
  - induction l as [|j l IHl]; constructor; [apply IH|exact IHl].
  - induction l as [|[k j] l IHl]; constructor; [apply IH|exact IHl].
Qed.
Lemma raw_value j : json_value (raw j).
Proof.
  induction j as [| | | |l IH|l IH] using json_forall; simpl; constructor.
  - apply Forall_map. exact IH.
  - apply Forall_map. exact IH.
Qed.
Lemma args_values kw : Forall (fun kv => json_value (snd kv)) (args kw).
Proof. apply Forall_map, Forall_forall. intros [k j] _. apply raw_value. Qed.

Section called.
  Context (ce : callenv).

  Lemma called_eff n f kw nm k root fu s :
    imports ce n f s -> loads (JObj kw) = JObj kw -> loads nm = nm ->
    member "__ob__" kw = None -> member "__node__" kw = None -> name_key nm = Some k ->
    deserialize_calls (S (S fu)) ce (node_text n (JObj kw) nm) root s =
      (let! v := f (args kw) in
       do! match root with Some p => setitem p k v | None => set_name v k end in
       do! run_deser ce (decode_calls (S fu) ce) v (JObj [("class", JStr n); ("kw", JObj kw); ("name", nm)]) in
       ret v) s.
  Proof.
    intros (H1 & H2 & H3) Hk Hn M1 M2 Hnm. unfold deserialize_calls.
    assert (E : loads (node_text n (JObj kw) nm) = node_text n (JObj kw) nm).
    { unfold node_text. change (JObj [("__node__", JObj [("class", JStr n); ("kw", loads (JObj kw)); ("name", loads nm)])] =
        JObj [("__node__", JObj [("class", JStr n); ("kw", JObj kw); ("name", nm)])]). by rewrite Hk, Hn. }
    rewrite E. unfold node_text.
    change (bind (call_factory ce (decode_calls (S fu) ce) (JObj [("class", JStr n); ("kw", JObj kw); ("name", nm)]) root)
      (fun v => do! run_deser ce (decode_calls (S fu) ce) v (JObj [("class", JStr n); ("kw", JObj kw); ("name", nm)]) in ret v) s =
      (let! v := f (args kw) in
       do! match root with Some p => setitem p k v | None => set_name v k end in
       do! run_deser ce (decode_calls (S fu) ce) v (JObj [("class", JStr n); ("kw", JObj kw); ("name", nm)]) in
       ret v) s).
    assert (E2 : call_factory ce (decode_calls (S fu) ce) (JObj [("class", JStr n); ("kw", JObj kw); ("name", nm)]) root s =
      (let! v := f (args kw) in do! match root with Some p => setitem p k v | None => set_name v k end in ret v) s).
    { unfold call_factory.
      change (member "class" [("class", JStr n); ("kw", JObj kw); ("name", nm)]) with (Some (JStr n)).
      change (member "kw" [("class", JStr n); ("kw", JObj kw); ("name", nm)]) with (Some (JObj kw)).
      change (member "name" [("class", JStr n); ("kw", JObj kw); ("name", nm)]) with (Some nm). cbv iota.
      assert (R : resolve (e_env ce) (JStr n) s = (Ret n, s)).
      { simpl. by rewrite H2, orb_true_r. }
      rewrite (bind_Ret _ _ _ _ _ R).
      assert (D : decode_calls (S fu) ce None (JObj kw) s = (Ret (raw (JObj kw)), s)).
      { cbn [decode_calls]. by rewrite M1, M2. }
      rewrite (bind_Ret _ _ _ _ _ D), Hnm.
      assert (U : unpack (raw (JObj kw)) s = (Ret (args kw), s)).
      { cbn [raw unpack]. by rewrite str_keys_raw. }
      rewrite (bind_Ret _ _ _ _ _ U).
      assert (C : forall g : val -> M val, bind (call ce n (args kw)) g s = bind (f (args kw)) g s).
      { intros g. unfold call, bind at 1 2. by rewrite H1, H3. }
      rewrite C. unfold bind. destruct (f (args kw) s) as [[v|e] s1]; [|done]. by destruct root. }
    unfold bind in *. rewrite E2. destruct (f (args kw) s) as [[v|e] s1]; [|done].
    by destruct (match root with Some p => setitem p k v | None => set_name v k end s1) as [[u|e] s2].
  Qed.

  Lemma called_raises n f kw nm k root fu s e s' :
    imports ce n f s -> loads (JObj kw) = JObj kw -> loads nm = nm ->
    member "__ob__" kw = None -> member "__node__" kw = None -> name_key nm = Some k ->
    f (args kw) s = (Exc e, s') ->
    deserialize_calls (S (S fu)) ce (node_text n (JObj kw) nm) root s = (Exc e, s').
  Proof. intros Hi Hk Hn M1 M2 Hnm Hf. rewrite (called_eff _ f _ _ k) by done. apply (bind_Exc _ _ _ _ _ Hf). Qed.

  Lemma called_value n f kw nm k fu s v s' :
    imports ce n f s -> loads (JObj kw) = JObj kw -> loads nm = nm ->
    member "__ob__" kw = None -> member "__node__" kw = None -> name_key nm = Some k ->
    f (args kw) s = (Ret v, s') -> json_value v ->
    deserialize_calls (S (S fu)) ce (node_text n (JObj kw) nm) None s = (Exc AttributeError, s').
  Proof.
    intros Hi Hk Hn M1 M2 Hnm Hf Hv. rewrite (called_eff _ f _ _ k) by done. rewrite (bind_Ret _ _ _ _ _ Hf).
    by destruct Hv.
  Qed.

  Lemma called_child n f kw nm k p fu s v s' r s'' :
    imports ce n f s -> loads (JObj kw) = JObj kw -> loads nm = nm ->
    member "__ob__" kw = None -> member "__node__" kw = None -> name_key nm = Some k ->
    f (args kw) s = (Ret v, s') -> json_value v -> setitem p k v s' = (r, s'') ->
    deserialize_calls (S (S fu)) ce (node_text n (JObj kw) nm) (Some p) s =
      (match r with Ret _ => Ret v | Exc e => Exc e end, s'').
  Proof.
    intros Hi Hk Hn M1 M2 Hnm Hf Hv Hs. rewrite (called_eff _ f _ _ k) by done. rewrite (bind_Ret _ _ _ _ _ Hf).
    unfold bind. rewrite Hs. destruct r as [u|e]; [|done]. by destruct Hv.
  Qed.
End called.

Lemma called_node ot calls n f kw nm k fu s x o s' :
  imports (Callenv (std_env ot) calls) n f s -> loads (JObj kw) = JObj kw -> loads nm = nm ->
  member "__ob__" kw = None -> member "__node__" kw = None -> name_key nm = Some k ->
  f (args kw) s = (Ret (VNode x), s') -> nodes s' !! x = Some o ->
  deserialize_calls (S (S fu)) (Callenv (std_env ot) calls) (node_text n (JObj kw) nm) None s =
    (Ret (VNode x), set_nodes <[x := with_name k o]> s').
Proof.
  intros Hi Hk Hn M1 M2 Hnm Hf Ho. rewrite (called_eff _ _ f _ _ k) by done. rewrite (bind_Ret _ _ _ _ _ Hf).
  cbn [set_name]. rewrite (bind_modify _ _ _ _ _ Ho).
  unfold run_deser. set (s2 := set_nodes _ _).
  assert (H2 : nodes s2 !! x = Some (with_name k o)) by apply lookup_insert.
  set (data := JObj [("class", JStr n); ("kw", JObj kw); ("name", nm)]). unfold bind, load. rewrite H2.
  enough (E : forall c, iterM (fun cb : desercb => cb (decode_calls (S fu) (Callenv (std_env ot) calls)) x
      (match data with JObj d => d | _ => [] end)) (matching (std_env ot) c (v_deser (std_env ot))) s2 = (Ret tt, s2)).
  { change (e_env (Callenv (std_env ot) calls)) with (std_env ot). by rewrite E. }
  intros c. assert (T : Forall (fun cb : desercb => forall dec, cb dec x (match data with JObj d => d | _ => [] end) s2 = (Ret tt, s2))
    (matching (std_env ot) c (v_deser (std_env ot)))).
  { unfold matching. cbn [v_deser std_env registered fold_left register].
    vm_compute (registered _). simpl. by repeat (match goal with |- context [if ?b then _ else _] => destruct b end; simpl);
      repeat constructor. }
  induction T as [|cb cbs H _ IH]; simpl; [done|]. unfold bind. by rewrite H.
Qed.

(** * What is checked before the call *)
Lemma no_class ce d root fu s :
  member "class" d = None -> decode_calls (S fu) ce root (JObj [("__node__", JObj d)]) s = (Exc (KeyError (KStr "class")), s).
Proof. intros H. unfold decode_calls; fold decode_calls. cbn [member String.eqb]. simpl. unfold bind, call_factory. by rewrite H. Qed.
Lemma bad_class ce d n root fu s :
  member "class" d = Some (JStr n) -> classes s !! n = None -> v_others (e_env ce) n = false ->
  decode_calls (S fu) ce root (JObj [("__node__", JObj d)]) s = (Exc AttributeError, s).
Proof.
  intros H1 H2 H3. unfold decode_calls; fold decode_calls. cbn [member String.eqb]. simpl. unfold bind, call_factory. rewrite H1.
  unfold bind, resolve. by rewrite H2, H3.
Qed.
Lemma no_name ce d n kw root fu s :
  member "class" d = Some (JStr n) -> classes s !! n = None -> v_others (e_env ce) n = true ->
  member "kw" d = Some (JObj kw) -> member "__ob__" kw = None -> member "__node__" kw = None ->
  member "name" d = None ->
  decode_calls (S (S fu)) ce root (JObj [("__node__", JObj d)]) s = (Exc (KeyError (KStr "name")), s).
Proof.
  intros H1 H2 H3 H4 M1 M2 H5.
  change (bind (call_factory ce (decode_calls (S fu) ce) (JObj d) root)
    (fun v => do! run_deser ce (decode_calls (S fu) ce) v (JObj d) in ret v) s = (Exc (KeyError (KStr "name")), s)).
  apply bind_Exc. unfold call_factory. rewrite H1, H4, H5.
  assert (R : resolve (e_env ce) (JStr n) s = (Ret n, s)) by (simpl; by rewrite H3, orb_true_r).
  rewrite (bind_Ret _ _ _ _ _ R).
  assert (D : decode_calls (S fu) ce None (JObj kw) s = (Ret (raw (JObj kw)), s)).
  { cbn [decode_calls]. by rewrite M1, M2. }
  by rewrite (bind_Ret _ _ _ _ _ D).
Qed.
(** [__ob__] only looks a name up *)
Lemma ob_only_resolves ce n l root fu s :
  member "__ob__" l = Some n -> snd (decode_calls (S fu) ce root (JObj l) s) = s.
Proof.
  intros H. cbn [decode_calls]. rewrite H. unfold bind, resolve. destruct n; try done.
  by destruct (bool_decide _ || _).
Qed.
Lemma dumps_uuid_arg ot fu u s :
  serialize (S (S (S fu))) (std_env ot) false true (VDict [(KStr "uuid", VUuid u)]) s =
    (Ret (JObj [("uuid", JStr ("<UUID>:" ++ uuid_str u))]), s).
Proof. reflexivity. Qed.
