(** Specification of event attributes that are kept in the attributes of a node: one dictionary,
    written and read in two ways. *)
From Verif Require Import Py Heap SpecMapping NodeEvents.

(** Uses of the event attributes of a node, and calls on its [attrs]. *)
Inductive eop := EGet (n : string) | ESet (n : string) (v : val) | EDel (n : string) | EAttrs (c : call).
Definition eop_values (o : eop) : list val :=
  match o with ESet _ v => [v] | EAttrs c => call_values c | _ => [] end.

Section spec.
Context (veqb : val -> val -> bool) (ad : string -> event_attribute) (p : policy).
(** what reading the attribute gives *)
Definition now (n : string) (d : entries) : val := default (ea_default (ad n)) (value_at (KStr n) d).
(** the answer, the event dispatched, the dictionary *)
Definition eop_spec (o : eop) (d : entries) : (answer * option (string * val)) * entries :=
  match o with
  | EGet n => ((AVal (now n d), None), d)
  | ESet n v =>
      match do_set p (KStr n) v d with
      | (None, d') => ((ANone, if ea_always (ad n) || negb (veqb v (now n d)) then Some (n, v) else None), d')
      | (Some e, d') => ((AExc e, None), d')
      end
  | EDel n =>
      match do_del p (KStr n) d with
      | (None, d') => ((ANone, Some (n, VUnset)), d')
      | (Some e, d') => ((AExc e, None), d')
      end
  | EAttrs c => ((fst (call_spec p c d), None), snd (call_spec p c d))
  end.
Fixpoint eops_spec (l : list eop) (d : entries) : list (answer * option (string * val)) * entries :=
  match l with
  | [] => ([], d)
  | o :: r => let '(a, d1) := eop_spec o d in let '(as_, d2) := eops_spec r d1 in (a :: as_, d2)
  end.
End spec.
