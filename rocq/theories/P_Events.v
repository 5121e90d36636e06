(** C34-C38: events. *)
From Verif Require Import Py Events SpecEvents EventsProofs4.
From stdpp Require Import list.
Open Scope string_scope.

Section theorems.
Context {V : Type} (veqb : V -> V -> bool) (unset : V)
  (behave : ecall V -> est V -> list (act V)) (attribute : nat -> string -> option (desc V)) (th0 : nat).
Implicit Types (s : est V).
Notation exec := (exec veqb unset behave attribute).
Notation ereach := (ereach veqb unset behave attribute th0).
Notation inside := (inside veqb unset behave attribute).

(** C34.  bind adds each given subscriber once at the end of its event's list, in the order
    given, up to the first event that is neither registered nor declared, where it raises
    UnknownEvent (what was bound before stays bound). *)
Theorem C34_bind n th d kw s r s' :
  ereach s -> is_Some (e_dsp s !! d) -> exec n th [ABind d kw] s = (r, s') -> r <> EExc EFuel ->
  exists done,
    (forall e, bound s' d e = foldl add_once (bound s d e) (given_for e done)) /\
    (forall d' e, d' <> d -> bound s' d' e = bound s d' e) /\
    Forall (declared s d) (map fst done) /\
    ((r = EOk /\ done = kw) \/
     exists e x post, r = EExc (UnknownEvent e) /\ ~ declared s d e /\ kw = (done ++ (e, x) :: post)%list).
Proof. exact (bind_prop veqb unset behave attribute th0 n th d kw s r s'). Qed.
Theorem C34_unbind n th d oe ox s r s' :
  ereach s -> is_Some (e_dsp s !! d) -> exec n th [AUnbind d oe ox] s = (r, s') -> r <> EExc EFuel ->
  r = EOk /\
  (forall e, bound s' d e = if decide (selects oe e) then filter (fun x => ~ selects ox x) (bound s d e) else bound s d e) /\
  (forall d' e, d' <> d -> bound s' d' e = bound s d' e).
Proof. exact (unbind_prop veqb unset behave attribute th0 n th d oe ox s r s'). Qed.
Theorem C34_bound_once s d e : ereach s -> NoDup (bound s d e).
Proof. exact (bound_nodup veqb unset behave attribute th0 s d e). Qed.
(** With subscribers that leave this event's subscriptions alone: the calls made by the
    dispatch are the bound subscribers in order, with the given arguments; all of them if the
    dispatch returns, the first ones if one of them raises. *)
Theorem C34_dispatch n th d e a s r s' :
  ereach s -> is_Some (e_dsp s !! d) -> plain_thread s th ->
  (forall c s, Forall (keeps_subscriptions d e) (behave c s)) ->
  exec n th [ADispatch d e a] s = (r, s') -> r <> EExc EFuel ->
  exists k, calls_of (e_count s) s' = round (e_count s) d e a false (take k (bound s d e)) /\
    (r = EOk -> length (bound s d e) <= k).
Proof. exact (dispatch_prop veqb unset behave attribute th0 n th d e a s r s'). Qed.
(** Nobody bound: nothing happens, whatever other subscribers would do. *)
Theorem C34_dispatch_nobody n th d e a s r s' :
  plain_thread s th -> bound s d e = [] -> is_Some (e_dsp s !! d) ->
  exec n th [ADispatch d e a] s = (r, s') -> r <> EExc EFuel -> r = EOk /\ e_trace s' = e_trace s.
Proof. exact (dispatch_none veqb unset behave attribute n th d e a s r s'). Qed.

(** C35.  Subscribers that change the list being walked. *)
Theorem C35_self_unbind_skips_next th d e a s pre x y post n :
  ereach s -> plain_thread s th -> bound s d e = (pre ++ x :: y :: post)%list ->
  (forall c s, behave c s = if decide (c_sub c = x) then [AUnbind d (Some e) (Some x)] else []) ->
  length (bound s d e) + 3 <= n ->
  exists s', exec n th [ADispatch d e a] s = (EOk, s') /\
    calls_of (e_count s) s' = round (e_count s) d e a false (pre ++ x :: post)%list /\
    bound s' d e = (pre ++ y :: post)%list.
Proof. exact (self_unbind veqb unset behave attribute th0 th d e a s pre x y post n). Qed.
Theorem C35_bound_during_dispatch_is_called th d e a s pre x post z n :
  ereach s -> plain_thread s th -> bound s d e = (pre ++ x :: post)%list -> declared s d e -> z ∉ bound s d e ->
  (forall c s, behave c s = if decide (c_sub c = x) then [ABind d [(e, z)]] else []) ->
  length (bound s d e) + 4 <= n ->
  exists s', exec n th [ADispatch d e a] s = (EOk, s') /\
    calls_of (e_count s) s' = round (e_count s) d e a false (bound s d e ++ [z])%list.
Proof. exact (bind_during veqb unset behave attribute th0 th d e a s pre x post z n). Qed.

(** C36.  Event attributes. *)
Theorem C36_set n th d name v s ad r s' :
  ereach s -> is_Some (e_dsp s !! d) -> plain_thread s th -> attribute d name = Some ad ->
  (forall c s, Forall (keeps_subscriptions d name) (behave c s)) -> (forall c s, Forall (keeps_attribute d name) (behave c s)) ->
  exec n th [ASetAttr d name v] s = (r, s') -> r <> EExc EFuel ->
  attr_value s' d name ad = v /\
  (ad_always ad = true \/ veqb v (attr_value s d name ad) = false ->
   exists k, calls_of (e_count s) s' =
       take k (round (e_count s) d name ([v], []) true (ad_subs ad) ++ round (e_count s) d name ([v], []) false (bound s d name))%list /\
     (r = EOk -> length (ad_subs ad) + length (bound s d name) <= k)) /\
  (ad_always ad = false -> veqb v (attr_value s d name ad) = true ->
   r = EOk /\ e_count s' = e_count s /\ e_trace s' = e_trace s).
Proof. exact (set_prop veqb unset behave attribute th0 n th d name v s ad r s'). Qed.
Theorem C36_delete n th d name s ad r s' :
  ereach s -> is_Some (e_dsp s !! d) -> plain_thread s th -> attribute d name = Some ad ->
  (forall c s, Forall (keeps_subscriptions d name) (behave c s)) -> (forall c s, Forall (keeps_attribute d name) (behave c s)) ->
  exec n th [ADelAttr d name] s = (r, s') -> r <> EExc EFuel ->
  attr_value s' d name ad = ad_default ad /\
  match e_vals s !! (d, name) with
  | Some _ => exists k, calls_of (e_count s) s' = take k (round (e_count s) d name ([unset], []) false (bound s d name))%list /\
                (r = EOk -> length (bound s d name) <= k)
  | None => r = EExc (EKeyError name) /\ s' = s
  end.
Proof. exact (del_prop veqb unset behave attribute th0 n th d name s ad r s'). Qed.
(** Nothing but assigning or deleting an attribute changes its value. *)
Theorem C36_value_kept n th p d name ad s :
  (forall c s, Forall (keeps_attribute d name) (behave c s)) -> Forall (keeps_attribute d name) p ->
  attr_value (snd (exec n th p s)) d name ad = attr_value s d name ad.
Proof. exact (value_prop veqb unset behave attribute n th p d name ad s). Qed.
(** In any history, also with exceptions, nested assignments and suppression: a call with the
    object passed first is one of a decorator subscriber of the attribute dispatched. *)
Theorem C36_decorators_only_own_attribute s c :
  ereach s -> c ∈ e_trace s -> c_self c = true ->
  exists ad v, attribute (c_obj c) (c_event c) = Some ad /\ c_sub c ∈ ad_subs ad /\ c_args c = ([v], []).
Proof. exact (decorators_prop veqb unset behave attribute th0 s c). Qed.

(** C37.  suppress_events. *)
Theorem C37_restored n th p s r s' :
  ereach s -> (forall c s, Forall scoped (behave c s)) -> Forall scoped p ->
  exec n th p s = (r, s') -> r <> EExc EFuel ->
  forall th', same_suppression (tl_of s th') (tl_of s' th').
Proof. exact (restored_prop veqb unset behave attribute th0 n th p s r s'). Qed.
Theorem C37_held_back n th s bs s1 d e a r s' :
  ereach s -> (forall c s, Forall scoped (behave c s)) -> tl_of s th = Tl (Some 0) (Some []) (Some []) ->
  inside th s bs s1 -> held_back bs e ->
  exec n th [ADispatch d e a] s1 = (r, s') -> r <> EExc EFuel -> r = EOk /\ e_trace s' = e_trace s1.
Proof. exact (held_prop veqb unset behave attribute th0 n th s bs s1 d e a r s'). Qed.
Theorem C37_delivered n th s bs s1 d e a r s' :
  ereach s -> (forall c s, Forall scoped (behave c s)) -> tl_of s th = Tl (Some 0) (Some []) (Some []) ->
  inside th s bs s1 -> ~ held_back bs e ->
  is_Some (e_dsp s1 !! d) -> (forall c s, Forall (keeps_subscriptions d e) (behave c s)) ->
  exec n th [ADispatch d e a] s1 = (r, s') -> r <> EExc EFuel ->
  exists k, calls_of (e_count s1) s' = round (e_count s1) d e a false (take k (bound s1 d e)) /\
    (r = EOk -> length (bound s1 d e) <= k).
Proof. exact (delivered_prop veqb unset behave attribute th0 n th s bs s1 d e a r s'). Qed.
Theorem C37_leaving_succeeds th s bs names s1 :
  ereach s -> (forall c s, Forall scoped (behave c s)) -> tl_of s th = Tl (Some 0) (Some []) (Some []) ->
  inside th s (names :: bs) s1 -> fst (sup_exit th names s1) = EOk.
Proof. exact (leave_prop veqb unset behave attribute th0 th s bs names s1). Qed.
(** An object that was created but not entered: its event is held back inside any other block. *)
Theorem C37_unentered_object_refuted th d e e' a s o n evs inj :
  tl_of s th = Tl (Some 0) (Some evs) (Some inj) -> 4 <= n ->
  exists s', exec n th [ACreate o [Some e]; AWith [Some e'] [ADispatch d e a]] s = (EOk, s') /\ e_trace s' = e_trace s.
Proof. exact (leaked_object veqb unset behave attribute th d e e' a s o n evs inj). Qed.
(** Entering one object twice: leaving the second block raises ValueError. *)
Theorem C37_reentered_object_refuted th e s o n evs inj :
  tl_of s th = Tl (Some 0) (Some evs) (Some inj) -> Some e ∉ evs -> 4 <= n ->
  fst (exec n th [ACreate o [Some e]; AWithObj o [AWithObj o []]] s) = EExc EValueError.
Proof. exact (reused_object veqb unset behave attribute th e s o n evs inj). Qed.

(** C38.  Threads other than the importing one, in any history. *)
Theorem C38_dispatch_refuted th n s d e a r s' :
  ereach s -> th <> th0 -> exec n th [ADispatch d e a] s = (r, s') -> r <> EExc EFuel ->
  r = EExc EAttributeError /\ e_trace s' = e_trace s.
Proof. exact (other_thread veqb unset behave attribute th0 th n s d e a r s'). Qed.
Theorem C38_suppress_refuted th n s names body r s' :
  ereach s -> th <> th0 -> exec n th [AWith names body] s = (r, s') -> r <> EExc EFuel ->
  r = EExc EAttributeError /\ e_trace s' = e_trace s.
Proof. exact (other_thread_with veqb unset behave attribute th0 th n s names body r s'). Qed.
End theorems.

(** * Concrete cases *)

Definition attr (d : nat) (n : string) : option (desc nat) := if bool_decide (n = "x") then Some (Desc 0 false [50; 51]) else None.
Definition quiet : ecall nat -> est nat -> list (act nat) := fun _ _ => [].
Definition setup : list (act nat) :=
  [ADefClass 0 None (Some ["e"; "f"]) ["x"]; ANew 0 0; ANew 1 0; ARegister 1 "g";
   ABind 0 [("e", 10); ("f", 11); ("e", 12); ("e", 10)]; ABind 0 [("x", 13)]; ABind 1 [("g", 14)]; ABind 0 [("e", 15)]].
Definition run b n th p s := exec Nat.eqb 99 b attr n th p s.
Definition st := snd (run quiet 20 0 setup (est0 0)).
Lemma st_reach b : b = quiet -> ereach Nat.eqb 99 b attr 0 st.
Proof. intros ->. eapply ereach_step; [apply ereach_init|]. apply surjective_pairing. Qed.
Example st_bound : bound st 0 "e" = [10; 12; 15] /\ bound st 0 "f" = [11] /\ bound st 1 "g" = [14] /\ bound st 0 "g" = [].
Proof. by vm_compute. Qed.
Example st_plain : plain_thread st 0.
Proof. by exists []. Qed.
Example bind_unknown : exists s', run quiet 5 0 [ABind 0 [("f", 20); ("g", 21); ("e", 22)]] st = (EExc (UnknownEvent "g"), s') /\
  bound s' 0 "f" = [11; 20] /\ bound s' 0 "e" = [10; 12; 15].
Proof. eexists. split; [vm_compute; reflexivity|]. by vm_compute. Qed.
Example unbind_all : exists s', run quiet 5 0 [AUnbind 0 None (Some 10)] st = (EOk, s') /\ bound s' 0 "e" = [12; 15].
Proof. eexists. split; [vm_compute; reflexivity|]. by vm_compute. Qed.
Example dispatched : exists s', run quiet 9 0 [ADispatch 0 "e" ([1], [("k", 2)])] st = (EOk, s') /\
  e_trace s' = [Call 0 0 "e" 10 false ([1], [("k", 2)]); Call 0 0 "e" 12 false ([1], [("k", 2)]); Call 0 0 "e" 15 false ([1], [("k", 2)])].
Proof. eexists. split; [vm_compute; reflexivity|]. done. Qed.
(** a nested dispatch and an exception in a subscriber *)
Definition nested : ecall nat -> est nat -> list (act nat) :=
  fun c _ => if bool_decide (c_sub c = 12) then [ADispatch 0 "f" ([], []); ARaise 7] else [].
Example raising : exists s', run nested 9 0 [ADispatch 0 "e" ([], [])] st = (EExc (EUser 7), s') /\
  map c_sub (e_trace s') = [10; 12; 11] /\ map c_sub (calls_of 0 s') = [10; 12].
Proof. eexists. split; [vm_compute; reflexivity|]. done. Qed.
Lemma nested_keeps c s : Forall (keeps_subscriptions 0 "e") (nested c s).
Proof. unfold nested. destruct (bool_decide _); repeat constructor. Qed.
Example skipped : exists s', run (fun c _ => if decide (c_sub c = 10) then [AUnbind 0 (Some "e") (Some 10)] else []) 9 0 [ADispatch 0 "e" ([], [])] st = (EOk, s') /\
  map c_sub (e_trace s') = [10; 15].
Proof. eexists. split; [vm_compute; reflexivity|]. done. Qed.
Example joined : exists s', run (fun c _ => if decide (c_sub c = 10) then [ABind 0 [("e", 30)]] else []) 9 0 [ADispatch 0 "e" ([], [])] st = (EOk, s') /\
  map c_sub (e_trace s') = [10; 12; 15; 30].
Proof. eexists. split; [vm_compute; reflexivity|]. done. Qed.
(** attribute x: set, set to the same value, delete *)
Example attribute_run : exists s', run quiet 9 0 [ASetAttr 0 "x" 5; ASetAttr 0 "x" 5; ADelAttr 0 "x"] st = (EOk, s') /\
  e_trace s' = [Call 0 0 "x" 50 true ([5], []); Call 0 0 "x" 51 true ([5], []); Call 0 0 "x" 13 false ([5], []); Call 1 0 "x" 13 false ([99], [])].
Proof. eexists. split; [vm_compute; reflexivity|]. done. Qed.
(** nested blocks: e held back by the outer, f by the inner; afterwards both are delivered *)
Example blocks : exists s', run quiet 15 0
    [AWith [Some "e"] [ADispatch 0 "e" ([], []); ADispatch 0 "f" ([], []); AWith [Some "f"; Some "g"] [ADispatch 0 "e" ([], []); ADispatch 0 "f" ([], []); ADispatch 1 "g" ([], [])]; ADispatch 0 "f" ([], [])];
     ATry [AWith [None] [ADispatch 0 "f" ([], []); ARaise 3]]; ADispatch 0 "e" ([], [])] st = (EOk, s') /\
  map c_sub (e_trace s') = [11; 11; 10; 12; 15] /\ e_tl s' !! 0 = Some (Tl (Some 0) (Some []) (Some [])).
Proof. eexists. split; [vm_compute; reflexivity|]. done. Qed.
Definition in1 := snd (seq_ (sup_init 0 [Some "e"] st) (sup_enter 0)).
Definition in2 := snd (run quiet 5 0 [ADispatch 0 "f" ([], [])] in1).
Definition in3 := snd (seq_ (sup_init 0 [Some "f"; None] in2) (sup_enter 0)).
Example inside_case : inside Nat.eqb 99 quiet attr 0 st [[Some "f"; None]; [Some "e"]] in3 /\ held_back [[Some "f"; None]; [Some "e"]] "g" /\ ~ held_back [[Some "e"]] "f".
Proof.
  split; [|split].
  - apply (in_enter _ _ _ _ _ _ [[Some "e"]] [Some "f"; None] in2); [|by vm_compute].
    apply (in_run _ _ _ _ _ _ [[Some "e"]] in1 5 [ADispatch 0 "f" ([], [])] EOk); [|repeat constructor|by vm_compute|done].
    apply (in_enter _ _ _ _ _ _ [] [Some "e"] st); [apply in_start|by vm_compute].
  - exists [Some "f"; None]. split; [left|]. left. right. left.
  - intros (n & Hn & H). apply elem_of_list_singleton in Hn as ->. destruct H as [H|H]; apply elem_of_list_singleton in H; done.
Qed.
Example unentered : fst (run quiet 9 0 [ACreate 0 [Some "e"]; AWith [Some "f"] [ADispatch 0 "e" ([], [])]] st) = EOk /\
  e_trace (snd (run quiet 9 0 [ACreate 0 [Some "e"]; AWith [Some "f"] [ADispatch 0 "e" ([], [])]] st)) = [].
Proof. by vm_compute. Qed.
Example thread1 : fst (run quiet 9 1 [ADispatch 0 "e" ([], [])] st) = EExc EAttributeError /\
  (* an assignment stores the value, then fails *)
  fst (run quiet 9 1 [ASetAttr 0 "x" 5] st) = EExc EAttributeError /\ e_vals (snd (run quiet 9 1 [ASetAttr 0 "x" 5] st)) !! (0, "x") = Some 5.
Proof. by vm_compute. Qed.


(** C34: event attributes of a subclass without an own __events__ list become known on the
    base class as well, which can then be bound on instances that never dispatch them. *)
Theorem C34_subclass_attribute_on_base_refuted :
  exists (p : list (act nat)) s', exec Nat.eqb 99 quiet attr 9 0 p (est0 0) = (EOk, s') /\
    p = [ADefClass 0 None (Some ["e"]) []; ANew 0 0; ADefClass 1 (Some 0) None ["x"]] /\ declared s' 0 "x".
Proof. do 2 eexists. split; [|split; [reflexivity|]]; [vm_compute; reflexivity|]. eexists. split; [vm_compute; reflexivity|]. right. exists 0, ["e"; "x"]. repeat split. right. left. Qed.

Print Assumptions C34_bind.
Print Assumptions C34_unbind.
Print Assumptions C34_bound_once.
Print Assumptions C34_dispatch.
Print Assumptions C34_dispatch_nobody.
Print Assumptions C35_self_unbind_skips_next.
Print Assumptions C35_bound_during_dispatch_is_called.
Print Assumptions C36_set.
Print Assumptions C36_delete.
Print Assumptions C36_value_kept.
Print Assumptions C36_decorators_only_own_attribute.
Print Assumptions C37_restored.
Print Assumptions C37_held_back.
Print Assumptions C37_delivered.
Print Assumptions C37_leaving_succeeds.
Print Assumptions C37_unentered_object_refuted.
Print Assumptions C37_reentered_object_refuted.
Print Assumptions C38_dispatch_refuted.
Print Assumptions C38_suppress_refuted.
Print Assumptions C34_subclass_attribute_on_base_refuted.
