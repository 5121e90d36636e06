(** behaviors/events.py: Events, EventAttribute, suppress_events; as an interpreter for
    programs over that API, where subscribers run programs themselves. *)
From Verif Require Import Py.

Notation sub := nat (only parsing).    (* a subscriber callable *)
Notation dispatcher := nat (only parsing).
Notation thread := nat (only parsing).

Section events.
(** Values passed around and stored; [veqb a b] is Python's [a == b]; [unset] is UNSET. *)
Context {V : Type} (veqb : V -> V -> bool) (unset : V).

(** Positional and keyword arguments of a dispatch. *)
Definition args : Type := list V * list (string * V).

(** One call of a subscriber.  Not code: the trace records who was called, by which dispatch
    (numbered), for which object and event, with which arguments; [c_self] tells whether the
    object was passed first (decorator subscribers). *)
Record ecall := Call { c_dispatch : nat; c_obj : dispatcher; c_event : string; c_sub : sub; c_self : bool; c_args : args }.

(** An event dispatcher: its class and the attributes set in __new__, events.py 235-242.
    __subscribers__ maps event names to list objects. *)
Record dsp := Dsp { d_class : nat; d_events : list string; d_subs : list (string * nat) }.
(** EventAttribute, events.py 156-170; the decorator subscribers are those registered when the
    class was defined (195-199). *)
Record desc := Desc { ad_default : V; ad_always : bool; ad_subs : list sub }.

(** The thread local objects suppress_events.data (64-66) and _attribute_subscribers (91-92);
    [None]: the attribute does not exist in the thread. *)
Record tlocal := Tl { tl_suppress : option nat; tl_events : option (list (option string)); tl_inject : option (list sub) }.
(** In the thread that imported the module, and in any other thread. *)
Definition tl_imported : tlocal := Tl (Some 0) (Some []) (Some []).
Definition tl_other : tlocal := Tl None None None.

Record est := Est {
  e_dsp : gmap dispatcher dsp;
  e_lists : gmap nat (list sub);       (* subscriber list objects *)
  e_next : nat;
  e_cls : gmap nat nat;                (* class -> its __events__ list object, own or inherited *)
  e_evl : gmap nat (list string);      (* class __events__ list objects *)
  e_vals : gmap (dispatcher * string) V; (* attribute storages *)
  e_sups : gmap nat (list (option string)); (* suppress_events objects kept by the client *)
  e_tl : gmap thread tlocal;
  e_trace : list ecall;
  e_count : nat                         (* dispatches so far *)
}.
Definition set_dsp f s := Est (f (e_dsp s)) (e_lists s) (e_next s) (e_cls s) (e_evl s) (e_vals s) (e_sups s) (e_tl s) (e_trace s) (e_count s).
Definition set_lists f s := Est (e_dsp s) (f (e_lists s)) (e_next s) (e_cls s) (e_evl s) (e_vals s) (e_sups s) (e_tl s) (e_trace s) (e_count s).
Definition bump s := Est (e_dsp s) (e_lists s) (S (e_next s)) (e_cls s) (e_evl s) (e_vals s) (e_sups s) (e_tl s) (e_trace s) (e_count s).
Definition set_cls f s := Est (e_dsp s) (e_lists s) (e_next s) (f (e_cls s)) (e_evl s) (e_vals s) (e_sups s) (e_tl s) (e_trace s) (e_count s).
Definition set_evl f s := Est (e_dsp s) (e_lists s) (e_next s) (e_cls s) (f (e_evl s)) (e_vals s) (e_sups s) (e_tl s) (e_trace s) (e_count s).
Definition set_vals f s := Est (e_dsp s) (e_lists s) (e_next s) (e_cls s) (e_evl s) (f (e_vals s)) (e_sups s) (e_tl s) (e_trace s) (e_count s).
Definition set_sups f s := Est (e_dsp s) (e_lists s) (e_next s) (e_cls s) (e_evl s) (e_vals s) (f (e_sups s)) (e_tl s) (e_trace s) (e_count s).
Definition set_tl f s := Est (e_dsp s) (e_lists s) (e_next s) (e_cls s) (e_evl s) (e_vals s) (e_sups s) (f (e_tl s)) (e_trace s) (e_count s).
Definition log_call c s := Est (e_dsp s) (e_lists s) (e_next s) (e_cls s) (e_evl s) (e_vals s) (e_sups s) (e_tl s) (e_trace s ++ [c]) (e_count s).
Definition count s := Est (e_dsp s) (e_lists s) (e_next s) (e_cls s) (e_evl s) (e_vals s) (e_sups s) (e_tl s) (e_trace s) (S (e_count s)).

Inductive eexc := UnknownEvent (e : string) | EAttributeError | EKeyError (e : string) | EValueError | EUser (n : nat) | EFuel.
Inductive eres := EOk | EExc (e : eexc).

(** What client code and subscribers may do. *)
Inductive act :=
| ADefClass (c : nat) (base : option nat) (own : option (list string)) (attrs : list string)
| ANew (d : dispatcher) (cls : nat)
| ARegister (d : dispatcher) (e : string)
| ABind (d : dispatcher) (kw : list (string * sub))
| AUnbind (d : dispatcher) (e : option string) (s : option sub)
| ADispatch (d : dispatcher) (e : string) (a : args)
| ASetAttr (d : dispatcher) (name : string) (v : V)
| ADelAttr (d : dispatcher) (name : string)
| AWith (names : list (option string)) (body : list act)    (* with suppress_events(...): body *)
| ACreate (o : nat) (names : list (option string))            (* o = suppress_events(...) *)
| AWithObj (o : nat) (body : list act)                        (* with o: body *)
| ATry (body : list act)                                      (* try: body; except Exception: pass *)
| ARaise (n : nat).

(** What each subscriber does when called, depending on everything it can see; and the event
    attributes of each dispatcher's class. *)
Context (behave : ecall -> est -> list act) (attribute : dispatcher -> string -> option desc).

Definition tl_of (s : est) (th : thread) : tlocal := default tl_other (e_tl s !! th).
Definition with_tl (th : thread) (f : tlocal -> tlocal) (s : est) : est := set_tl <[th := f (tl_of s th)]> s.
Definition list_at (s : est) (l : nat) : list sub := default [] (e_lists s !! l).
Definition seq_ (r : eres * est) (k : est -> eres * est) : eres * est :=
  match r with (EOk, s) => k s | _ => r end.

(** The metaclass hook, events.py 20-34: the class' __events__ is its own list if it declares
    one, else the one inherited from the base (the same object), else a new one; then names of
    event attributes not in it are appended. *)
Definition def_class (c : nat) (base : option nat) (own : option (list string)) (attrs : list string) (s : est) : eres * est :=
  let '(l, s1) :=
    match own, base ≫= (e_cls s !!.) with
    | Some evs, _ => (e_next s, bump (set_evl <[e_next s := evs]> s))
    | None, Some l => (l, s)
    | None, None => (e_next s, bump (set_evl <[e_next s := []]> s))
    end in
  let evs := foldl (fun evs a => if decide (a ∈ evs) then evs else evs ++ [a]) (default [] (e_evl s1 !! l)) attrs in
  (EOk, set_cls <[c := l]> (set_evl <[l := evs]> s1)).

(** __new__, events.py 235-242. *)
Definition new_dispatcher (d : dispatcher) (cls : nat) (s : est) : eres * est :=
  (EOk, set_dsp <[d := Dsp cls [] []]> s).

(** register_event, events.py 244-251. *)
Definition register (d : dispatcher) (e : string) (s : est) : eres * est :=
  match e_dsp s !! d with
  | None => (EExc EAttributeError, s)
  | Some x => (EOk, if decide (e ∈ d_events x) then s
                    else set_dsp <[d := Dsp (d_class x) (d_events x ++ [e]) (d_subs x)]> s)
  end.

(** self.__class__.__events__ *)
Definition class_events (s : est) (cls : nat) : list string :=
  default [] (e_cls s !! cls ≫= (e_evl s !!.)).

Fixpoint assoc (e : string) (l : list (string * nat)) : option nat :=
  match l with [] => None | (k, v) :: r => if decide (e = k) then Some v else assoc e r end.

(** bind, events.py 253-266, one keyword argument. *)
Definition bind1 (d : dispatcher) (e : string) (x : sub) (s : est) : eres * est :=
  match e_dsp s !! d with
  | None => (EExc EAttributeError, s)
  | Some o =>
      if decide (e ∈ d_events o \/ e ∈ class_events s (d_class o)) then
        let '(l, s1) :=
          match assoc e (d_subs o) with
          | Some l => (l, s)
          | None => (e_next s, bump (set_lists <[e_next s := []]>
                       (set_dsp <[d := Dsp (d_class o) (d_events o) (d_subs o ++ [(e, e_next s)])]> s)))
          end in
        (EOk, if decide (x ∈ list_at s1 l) then s1 else set_lists <[l := list_at s1 l ++ [x]]> s1)
      else (EExc (UnknownEvent e), s)
  end.
Fixpoint bind_ (d : dispatcher) (kw : list (string * sub)) (s : est) : eres * est :=
  match kw with
  | [] => (EOk, s)
  | (e, x) :: r => seq_ (bind1 d e x s) (bind_ d r)
  end.

(** list.remove of an element that is there *)
Fixpoint remove_first (x : sub) (l : list sub) : list sub :=
  match l with [] => [] | y :: r => if decide (x = y) then r else y :: remove_first x r end.
Definition remove_from (x : sub) (l : nat) (s : est) : est :=
  if decide (x ∈ list_at s l) then set_lists <[l := remove_first x (list_at s l)]> s else s.

(** unbind, events.py 268-288. *)
Definition unbind (d : dispatcher) (e : option string) (x : option sub) (s : est) : eres * est :=
  match e_dsp s !! d with
  | None => (EExc EAttributeError, s)
  | Some o =>
      (EOk,
       match e, x with
       | None, None => set_dsp <[d := Dsp (d_class o) (d_events o) []]> s
       | Some e, None => set_dsp <[d := Dsp (d_class o) (d_events o) (filter (fun p => fst p <> e) (d_subs o))]> s
       | None, Some x => foldl (fun s l => remove_from x l s) s (map snd (d_subs o))
       | Some e, Some x => match assoc e (d_subs o) with Some l => remove_from x l s | None => s end
       end)
  end.

(** [for subscriber in l: ...] over a list object that may change meanwhile: an index counts
    up until it reaches the current length. *)
Fixpoint live_loop (f : nat) (body : sub -> est -> eres * est) (l : nat) (i : nat) (s : est) : eres * est :=
  match list_at s l !! i with
  | None => (EOk, s)
  | Some x => match f with
              | O => (EExc EFuel, s)
              | S f' => seq_ (body x s) (live_loop f' body l (S i))
              end
  end.
Fixpoint fixed_loop (body : sub -> est -> eres * est) (l : list sub) (s : est) : eres * est :=
  match l with [] => (EOk, s) | x :: r => seq_ (body x s) (fixed_loop body r) end.

Definition suppressed_now (t : tlocal) (e : string) : option bool :=
  match tl_suppress t with
  | None => None
  | Some O => Some false
  | Some (S _) => match tl_events t with
                  | None => None
                  | Some evs => Some (bool_decide (None ∈ evs \/ Some e ∈ evs))
                  end
  end.

Section step.
(** running the program of a subscriber, and the fuel of the loop *)
Context (run : list act -> est -> eres * est) (f : nat).

Definition call_sub (c : ecall) (s : est) : eres * est := run (behave c s) (log_call c s).

(** dispatch, events.py 290-308.  The injected subscribers are a list no code changes after
    the class is defined. *)
Definition dispatch (th : thread) (d : dispatcher) (e : string) (a : args) (s0 : est) : eres * est :=
  let s := count s0 in
  let i := e_count s0 in
  match tl_inject (tl_of s th) with
  | None => (EExc EAttributeError, s)
  | Some inj =>
      let s1 := with_tl th (fun t => Tl (tl_suppress t) (tl_events t) (Some [])) s in
      match suppressed_now (tl_of s1 th) e with
      | None => (EExc EAttributeError, s1)
      | Some true => (EOk, s1)
      | Some false =>
          seq_ (fixed_loop (fun x => call_sub (Call i d e x true a)) inj s1)
            (fun s2 =>
               match e_dsp s2 !! d with
               | None => (EExc EAttributeError, s2)
               | Some o => match assoc e (d_subs o) with
                           | None => (EOk, s2)
                           | Some l => live_loop f (fun x => call_sub (Call i d e x false a)) l 0 s2
                           end
               end)
      end
  end.

(** EventAttribute.__get__, events.py 172-177. *)
Definition attr_value (s : est) (d : dispatcher) (name : string) (ad : desc) : V :=
  default (ad_default ad) (e_vals s !! (d, name)).

(** EventAttribute.__set__, events.py 179-187; _subscribers, 95-103. *)
Definition set_attr (th : thread) (d : dispatcher) (name : string) (v : V) (s : est) : eres * est :=
  match attribute d name with
  | None => (EExc EAttributeError, s)
  | Some ad =>
      let old := attr_value s d name ad in
      let s1 := set_vals <[(d, name) := v]> s in
      if ad_always ad || negb (veqb v old) then
        dispatch th d name ([v], [])
          (with_tl th (fun t => Tl (tl_suppress t) (tl_events t) (Some (ad_subs ad))) s1)
      else (EOk, s1)
  end.

(** EventAttribute.__delete__, events.py 189-193. *)
Definition del_attr (th : thread) (d : dispatcher) (name : string) (s : est) : eres * est :=
  match attribute d name with
  | None => (EExc EAttributeError, s)
  | Some ad =>
      match e_vals s !! (d, name) with
      | None => (EExc (EKeyError name), s)
      | Some _ => dispatch th d name ([unset], []) (set_vals (delete (d, name)) s)
      end
  end.

(** suppress_events.__init__, events.py 68-74: without names nothing is accessed. *)
Definition sup_init (th : thread) (names : list (option string)) (s : est) : eres * est :=
  match names, tl_events (tl_of s th) with
  | [], _ => (EOk, s)
  | _, None => (EExc EAttributeError, s)
  | _, Some evs => (EOk, with_tl th (fun t => Tl (tl_suppress t) (Some (evs ++ names)) (tl_inject t)) s)
  end.
(** __enter__, events.py 76-78. *)
Definition sup_enter (th : thread) (s : est) : eres * est :=
  match tl_suppress (tl_of s th) with
  | None => (EExc EAttributeError, s)
  | Some n => (EOk, with_tl th (fun t => Tl (Some (S n)) (tl_events t) (tl_inject t)) s)
  end.
(** list.remove for event names: None if it is not there (ValueError) *)
Fixpoint remove_name (x : option string) (l : list (option string)) : option (list (option string)) :=
  match l with [] => None | y :: r => if decide (x = y) then Some r else cons y <$> remove_name x r end.
Fixpoint remove_names (names : list (option string)) (evs : list (option string)) : bool * list (option string) :=
  match names with
  | [] => (true, evs)
  | x :: r => match remove_name x evs with Some evs' => remove_names r evs' | None => (false, evs) end
  end.
(** __exit__, events.py 80-83. *)
Definition sup_exit (th : thread) (names : list (option string)) (s : est) : eres * est :=
  match tl_suppress (tl_of s th) with
  | None => (EExc EAttributeError, s)
  | Some n =>
      let s1 := with_tl th (fun t => Tl (Some (pred n)) (tl_events t) (tl_inject t)) s in
      match names, tl_events (tl_of s1 th) with
      | [], _ => (EOk, s1)
      | _, None => (EExc EAttributeError, s1)
      | _, Some evs =>
          let '(ok, evs') := remove_names names evs in
          (if ok then EOk else EExc EValueError,
           with_tl th (fun t => Tl (tl_suppress t) (Some evs') (tl_inject t)) s1)
      end
  end.
(** with: __exit__ runs whatever the body does, and lets its exception through unless it
    raises itself. *)
Definition sup_with (th : thread) (names : list (option string)) (body : list act) (s : est) : eres * est :=
  seq_ (sup_enter th s) (fun s1 =>
    let '(r, s2) := run body s1 in
    match r with
    | EExc EFuel => (r, s2)
    | _ => match sup_exit th names s2 with (EOk, s3) => (r, s3) | x => x end
    end).

Definition step (th : thread) (a : act) (s : est) : eres * est :=
  match a with
  | ADefClass c base own attrs => def_class c base own attrs s
  | ANew d cls => new_dispatcher d cls s
  | ARegister d e => register d e s
  | ABind d kw => bind_ d kw s
  | AUnbind d e x => unbind d e x s
  | ADispatch d e a => dispatch th d e a s
  | ASetAttr d name v => set_attr th d name v s
  | ADelAttr d name => del_attr th d name s
  | AWith names body => seq_ (sup_init th names s) (sup_with th names body)
  | ACreate o names => seq_ (sup_init th names s) (fun s1 => (EOk, set_sups <[o := names]> s1))
  | AWithObj o body => match e_sups s !! o with
                       | None => (EExc EAttributeError, s)
                       | Some names => sup_with th names body s
                       end
  | ATry body => let '(r, s1) := run body s in
                 (match r with EExc EFuel => r | _ => EOk end, s1)
  | ARaise n => (EExc (EUser n), s)
  end.
End step.

(** Running a program in a thread.  Fuel bounds everything that may not end: recursion
    between dispatch and subscribers, and loops over lists that keep growing. *)
Fixpoint exec (n : nat) (th : thread) (p : list act) (s : est) : eres * est :=
  match n with
  | O => (EExc EFuel, s)
  | S m => match p with
           | [] => (EOk, s)
           | a :: r => seq_ (step (exec m th) m th a s) (exec m th r)
           end
  end.
End events.
Arguments est : clear implicits.
Arguments act : clear implicits.
Arguments ecall : clear implicits.
Arguments desc : clear implicits.
Arguments args : clear implicits.
