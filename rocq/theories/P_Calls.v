(** C62 *)
From Verif Require Import Py Odict Heap Model Observe Classes Reach Play Serializer SerialCall SpecCall SerialCallProofs.

(** What the other theorems say about deserialization holds of the decoder which
    calls anything: whatever [Serializer] settles, it does as well. *)
Theorem C62_same_for_nodes f ot calls j root s r s' :
  deserialize f (std_env ot) j root s = (r, s') -> ~ left_open r ->
  deserialize_calls (S f) (Callenv (std_env ot) calls) j root s = (r, s').
Proof. exact (deserialize_agree f ot calls j root s r s'). Qed.
Print Assumptions C62_same_for_nodes.

(** A text names what is called, and with which arguments: whatever can be imported. *)
Theorem C62_calls_anything_refuted ce n f kw nm k root fu s :
  imports ce n f s -> loads (JObj kw) = JObj kw -> loads nm = nm ->
  member "__ob__" kw = None -> member "__node__" kw = None -> name_key nm = Some k ->
  let text := node_text n (JObj kw) nm in
  let arguments := map (fun kj => (fst kj, raw (snd kj))) kw in
  (forall e s', f arguments s = (Exc e, s') -> deserialize_calls (S (S fu)) ce text root s = (Exc e, s')) /\
  (forall v s', f arguments s = (Ret v, s') -> json_value v ->
     deserialize_calls (S (S fu)) ce text None s = (Exc AttributeError, s')) /\
  (forall p v s' r s'', f arguments s = (Ret v, s') -> json_value v -> setitem p k v s' = (r, s'') ->
     deserialize_calls (S (S fu)) ce text (Some p) s = (match r with Ret _ => Ret v | Exc e => Exc e end, s'')) /\
  (forall ot calls x o s', ce = Callenv (std_env ot) calls -> f arguments s = (Ret (VNode x), s') -> nodes s' !! x = Some o ->
     deserialize_calls (S (S fu)) ce text None s = (Ret (VNode x), set_nodes <[x := with_name k o]> s')).
Proof.
  intros Hi Hk Hn M1 M2 Hnm. split; [|split; [|split]].
  - intros e s'. exact (called_raises ce n f kw nm k root fu s e s' Hi Hk Hn M1 M2 Hnm).
  - intros v s'. exact (called_value ce n f kw nm k fu s v s' Hi Hk Hn M1 M2 Hnm).
  - intros p v s' r s''. exact (called_child ce n f kw nm k p fu s v s' r s'' Hi Hk Hn M1 M2 Hnm).
  - intros ot calls x o s' ->. exact (called_node ot calls n f kw nm k fu s x o s' Hi Hk Hn M1 M2 Hnm).
Qed.
Print Assumptions C62_calls_anything_refuted.

(** Arguments are not decoded: a uuid written by the encoder arrives as a string. *)
Theorem C62_arguments_decoded_refuted ce n f nm k root fu ot u s :
  imports ce n f s -> loads nm = nm -> name_key nm = Some k ->
  exists j, serialize 3 (std_env ot) false true (VDict [(KStr "uuid", VUuid u)]) s = (Ret j, s) /\
  forall e s', f [("uuid", VStr ("<UUID>:" ++ uuid_str u))] s = (Exc e, s') ->
    deserialize_calls (S (S fu)) ce (node_text n j nm) root s = (Exc e, s').
Proof.
  intros Hi Hn Hnm. eexists. split; [exact (dumps_uuid_arg ot 0 u s)|].
  intros e s'. exact (called_raises ce n f [("uuid", JStr ("<UUID>:" ++ uuid_str u))] nm k root fu s e s' Hi eq_refl Hn eq_refl eq_refl Hnm).
Qed.
Print Assumptions C62_arguments_decoded_refuted.

(** Arguments of a text are values of JSON. *)
Theorem C62_arguments_plain (kw : list (string * json)) :
  Forall (fun kv => json_value (snd kv)) (map (fun kj => (fst kj, raw (snd kj))) kw).
Proof. exact (args_values kw). Qed.
Print Assumptions C62_arguments_plain.

(** Nothing is called, and nothing changes, if the class is missing, cannot be
    imported, or the name is missing; an object given by [__ob__] is never called. *)
Theorem C62_nothing_called ce d root fu s :
  (member "class" d = None ->
     decode_calls (S fu) ce root (JObj [("__node__", JObj d)]) s = (Exc (KeyError (KStr "class")), s)) /\
  (forall n, member "class" d = Some (JStr n) -> classes s !! n = None -> v_others (e_env ce) n = false ->
     decode_calls (S fu) ce root (JObj [("__node__", JObj d)]) s = (Exc AttributeError, s)) /\
  (forall n kw, member "class" d = Some (JStr n) -> classes s !! n = None -> v_others (e_env ce) n = true ->
     member "kw" d = Some (JObj kw) -> member "__ob__" kw = None -> member "__node__" kw = None -> member "name" d = None ->
     decode_calls (S (S fu)) ce root (JObj [("__node__", JObj d)]) s = (Exc (KeyError (KStr "name")), s)) /\
  (forall n, member "__ob__" d = Some n -> snd (decode_calls (S fu) ce root (JObj d) s) = s).
Proof.
  split; [exact (no_class ce d root fu s)|]. split; [intros n; exact (bad_class ce d n root fu s)|].
  split; [intros n kw; exact (no_name ce d n kw root fu s)|]. intros n. exact (ob_only_resolves ce n d root fu s).
Qed.
Print Assumptions C62_nothing_called.

(** A node with a child, and a function which deletes what its arguments name. *)
Definition C62_s : st := after [ONew BN KNone None; ONew BN KNone None; OSet 0 (KStr "a") (VNode 1)].
Definition C62_wipe : callable := fun kw =>
  match kw with
  | [("key", VStr k)] => do! delitem 0 (KStr k) in ret VNone
  | _ => raise TypeError
  end.
Definition C62_ce : callenv :=
  Callenv (std_env (fun n => String.eqb n "app.wipe")) (fun n => if String.eqb n "app.wipe" then Some C62_wipe else None).
Definition C62_keys (s : st) := fst (iter 0 s).
(** reading a text deletes the child and then fails *)
Example C62_example :
  imports C62_ce "app.wipe" C62_wipe C62_s /\ C62_keys C62_s = Ret [KStr "a"] /\
  let r := deserialize_calls 9 C62_ce (node_text "app.wipe" (JObj [("key", JStr "a")]) JNull) None C62_s in
  fst r = Exc AttributeError /\ C62_keys (snd r) = Ret [].
Proof.
  split; [split; [vm_compute; reflexivity|split; reflexivity]|].
  split; [vm_compute; reflexivity|]. cbv zeta. split; vm_compute; reflexivity.
Qed.
(** an argument which is a node: its children are the arguments *)
Example C62_node_argument_example :
  let arg := JObj [("__node__", JObj [("class", JStr BN); ("name", JNull); ("children", JList [
               JObj [("__node__", JObj [("class", JStr BN); ("name", JStr "name")])]])])] in
  let f : callable := fun kw => match kw with [("name", VNode _)] => raise RuntimeError | _ => ret VNone end in
  let ce := Callenv (std_env (fun n => String.eqb n "app.f")) (fun n => if String.eqb n "app.f" then Some f else None) in
  fst (deserialize_calls 9 ce (node_text "app.f" arg JNull) None C62_s) = Exc RuntimeError.
Proof. vm_compute. reflexivity. Qed.
(** a node class with a name given twice: the one of the text counts *)
Example C62_name_example :
  let r := deserialize_calls 9 C62_ce (node_text BN (JObj [("name", JStr "x")]) (JStr "y")) None C62_s in
  fst r = Ret (VNode 3) /\ fmap o_name (nodes (snd r) !! 3) = Some (KStr "y").
Proof. cbv zeta. split; vm_compute; reflexivity. Qed.
