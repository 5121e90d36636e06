(** Specifications for events. *)
From Verif Require Import Py Events.

Section spec.
Context {V : Type}.
Implicit Types (s : est V).

(** The subscribers bound to an event of a dispatcher, in order. *)
Definition bound s (d : nat) (e : string) : list nat :=
  match e_dsp s !! d with
  | None => []
  | Some o => match assoc e (d_subs o) with Some l => default [] (e_lists s !! l) | None => [] end
  end.
(** An event is registered on the instance or declared on its class. *)
Definition declared s (d : nat) (e : string) : Prop :=
  exists o, e_dsp s !! d = Some o /\
    (e ∈ d_events o \/ exists l evs, e_cls s !! d_class o = Some l /\ e_evl s !! l = Some evs /\ e ∈ evs).
(** Adding a subscriber that is not there yet at the end. *)
Definition add_once (l : list nat) (x : nat) : list nat := if decide (x ∈ l) then l else l ++ [x].
(** The subscribers given for event [e] in keyword arguments. *)
Definition given_for (e : string) (kw : list (string * nat)) : list nat :=
  map snd (filter (fun p => fst p = e) kw).
(** Whether unbind(event, subscriber) is about event [e'], and about subscriber [x']. *)
Definition selects {A} (o : option A) (x : A) : Prop := match o with None => True | Some y => y = x end.
Global Instance selects_dec {A} `{EqDecision A} o (x : A) : Decision (selects o x).
Proof. destruct o; simpl; apply _. Defined.

(** The calls made by the dispatch numbered [i], and what a full round of a dispatch is. *)
Definition calls_of (i : nat) s : list (ecall V) := filter (fun c => c_dispatch c = i) (e_trace s).
Definition round (i d : nat) (e : string) (a : args V) (self : bool) (l : list nat) : list (ecall V) :=
  map (fun x => Call i d e x self a) l.

(** Events are neither suppressed nor are subscribers injected in the thread. *)
Definition plain_thread s (th : nat) : Prop :=
  exists evs, e_tl s !! th = Some (Tl (Some 0) (Some evs) (Some [])).

(** Programs that leave the subscriptions of event [e] of dispatcher [d] alone, and those
    that leave attribute [name] of [d] alone. *)
Fixpoint keeps_subscriptions (d : nat) (e : string) (a : act V) : Prop :=
  match a with
  | ANew d' _ => d' <> d
  | ABind d' kw => d' <> d \/ e ∉ map fst kw
  | AUnbind d' e' _ => d' <> d \/ (exists e'', e' = Some e'' /\ e'' <> e)
  | AWith _ body | AWithObj _ body | ATry body =>
      (fix all l := match l with [] => True | b :: r => keeps_subscriptions d e b /\ all r end) body
  | _ => True
  end.
Fixpoint keeps_attribute (d : nat) (name : string) (a : act V) : Prop :=
  match a with
  | ASetAttr d' n _ | ADelAttr d' n => (d', n) <> (d, name)
  | AWith _ body | AWithObj _ body | ATry body =>
      (fix all l := match l with [] => True | b :: r => keeps_attribute d name b /\ all r end) body
  | _ => True
  end.
(** Programs that create suppress_events objects only in with statements. *)
Fixpoint scoped (a : act V) : Prop :=
  match a with
  | ACreate _ _ | AWithObj _ _ => False
  | AWith _ body | ATry body => (fix all l := match l with [] => True | b :: r => scoped b /\ all r end) body
  | _ => True
  end.

(** The state of suppression in a thread, up to the order of names. *)
Definition same_suppression (t t' : tlocal) : Prop :=
  tl_suppress t' = tl_suppress t /\
  match tl_events t, tl_events t' with
  | Some a, Some b => Permutation a b
  | None, None => True
  | _, _ => False
  end.
(** An event is held back by one of the enclosing blocks, each given by its names
    ([None]: all events). *)
Definition held_back (blocks : list (list (option string))) (e : string) : Prop :=
  exists names, names ∈ blocks /\ (None ∈ names \/ Some e ∈ names).
End spec.

(** States a process can get into: the module imported in thread [th0], then any programs in
    any threads (one at a time). *)
Definition est0 {V} (th0 : nat) : est V := Est ∅ ∅ 0 ∅ ∅ ∅ ∅ {[ th0 := tl_imported ]} [] 0.
Inductive ereach {V} (veqb : V -> V -> bool) (unset : V) behave attribute (th0 : nat) : est V -> Prop :=
| ereach_init : ereach veqb unset behave attribute th0 (est0 th0)
| ereach_step s n th p r s' :
    ereach veqb unset behave attribute th0 s -> exec veqb unset behave attribute n th p s = (r, s') ->
    ereach veqb unset behave attribute th0 s'.

(** From a state outside all blocks, executing scoped programs (that end, possibly with an
    exception that is caught), entering blocks and leaving the innermost one; [bs] are the
    names of the blocks one is inside, innermost first. *)
Inductive inside {V} (veqb : V -> V -> bool) (unset : V) behave attribute (th : nat) (s : est V) : list (list (option string)) -> est V -> Prop :=
| in_start : inside veqb unset behave attribute th s [] s
| in_run bs s1 n p r s2 :
    inside veqb unset behave attribute th s bs s1 -> Forall scoped p ->
    exec veqb unset behave attribute n th p s1 = (r, s2) -> r <> EExc EFuel ->
    inside veqb unset behave attribute th s bs s2
| in_enter bs names s1 s2 :
    inside veqb unset behave attribute th s bs s1 -> seq_ (sup_init th names s1) (sup_enter th) = (EOk, s2) ->
    inside veqb unset behave attribute th s (names :: bs) s2
| in_leave bs names s1 r s2 :
    inside veqb unset behave attribute th s (names :: bs) s1 -> sup_exit th names s1 = (r, s2) ->
    inside veqb unset behave attribute th s bs s2.
