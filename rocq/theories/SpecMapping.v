(** Specification of a mapping: what a client sees when calling an ordered
    dictionary.  Written with filter/map/append on a list of entries only; it
    does not use any definition of the model of node. *)
From Verif Require Import Py.

Notation entries := (list (key * val)) (only parsing).

(** The client's calls. *)
Inductive call :=
| CSet (k : key) (v : val)
| CGet (k : key)
| CDel (k : key)
| CGetDefault (k : key) (d : val)
| CIn (k : key)
| CKeys
| CValues
| CItems
| CLen
| CPop (k : key) (d : option val)
| CPopitem
| CSetdefault (k : key) (d : val)
| CUpdate (args : list (list (key * val))) (kw : list (key * val))
| CClear.

(** What comes back. *)
Inductive answer :=
| ANone
| AVal (v : val)
| ABool (b : bool)
| AKeys (l : list key)
| AVals (l : list val)
| AItems (l : list (key * val))
| ALen (n : nat)
| AItem (k : key) (v : val)
| AExc (e : exc).

(** Arguments a dictionary refuses, before looking at its content. *)
Record policy := Policy {
  p_set : key -> val -> option exc;
  p_get : key -> option exc;
  p_del : key -> option exc
}.

Definition held (k : key) (d : entries) : bool := existsb (fun e => bool_decide (fst e = k)) d.
Definition value_at (k : key) (d : entries) : option val :=
  snd <$> List.find (fun e => bool_decide (fst e = k)) d.
Definition put (k : key) (v : val) (d : entries) : entries :=
  if held k d then map (fun e => if bool_decide (fst e = k) then (k, v) else e) d
  else d ++ [(k, v)].
Definition remove (k : key) (d : entries) : entries :=
  List.filter (fun e => negb (bool_decide (fst e = k))) d.

Definition do_get (p : policy) (k : key) (d : entries) : res val :=
  match p_get p k with
  | Some e => Exc e
  | None => match value_at k d with Some v => Ret v | None => Exc (KeyError k) end
  end.
Definition do_set (p : policy) (k : key) (v : val) (d : entries) : option exc * entries :=
  match p_set p k v with
  | Some e => (Some e, d)
  | None => (None, put k v d)
  end.
Definition do_del (p : policy) (k : key) (d : entries) : option exc * entries :=
  match p_del p k with
  | Some e => (Some e, d)
  | None => if held k d then (None, remove k d) else (Some (KeyError k), d)
  end.
Definition answer_of (r : option exc) : answer :=
  match r with None => ANone | Some e => AExc e end.

(** assign pairs in order until one is refused *)
Fixpoint do_update (p : policy) (l : list (key * val)) (d : entries) : option exc * entries :=
  match l with
  | [] => (None, d)
  | (k, v) :: r =>
      match do_set p k v d with
      | (None, d') => do_update p r d'
      | (Some e, d') => (Some e, d')
      end
  end.

(** read the values of a list of keys; the first refusal or miss wins *)
Fixpoint do_values (p : policy) (ks : list key) (d : entries) : res (list val) :=
  match ks with
  | [] => Ret []
  | k :: r =>
      match do_get p k d with
      | Exc e => Exc e
      | Ret v => match do_values p r d with Exc e => Exc e | Ret vs => Ret (v :: vs) end
      end
  end.

(** remove entries from the front until one is refused *)
Fixpoint do_clear (p : policy) (d : entries) : option exc * entries :=
  match d with
  | [] => (None, [])
  | (k, v) :: r =>
      match p_del p k with
      | Some e => (Some e, d)
      | None => do_clear p r
      end
  end.

Definition call_spec (p : policy) (c : call) (d : entries) : answer * entries :=
  match c with
  | CSet k v => let '(r, d') := do_set p k v d in (answer_of r, d')
  | CGet k => (match do_get p k d with Ret v => AVal v | Exc e => AExc e end, d)
  | CDel k => let '(r, d') := do_del p k d in (answer_of r, d')
  | CGetDefault k dv =>
      (match do_get p k d with
       | Ret v => AVal v | Exc (KeyError _) => AVal dv | Exc e => AExc e end, d)
  | CIn k =>
      (match do_get p k d with
       | Ret v => ABool true | Exc (KeyError _) => ABool false | Exc e => AExc e end, d)
  | CKeys => (AKeys (map fst d), d)
  | CValues =>
      (match do_values p (map fst d) d with Ret l => AVals l | Exc e => AExc e end, d)
  | CItems =>
      (match do_values p (map fst d) d with
       | Ret l => AItems (zip (map fst d) l) | Exc e => AExc e end, d)
  | CLen => (ALen (length d), d)
  | CPop k dv =>
      let fail e := match e, dv with
                    | KeyError _, Some VUnset => AExc e
                    | KeyError _, Some v => AVal v
                    | _, _ => AExc e
                    end in
      match do_get p k d with
      | Exc e => (fail e, d)
      | Ret v => match do_del p k d with
                 | (None, d') => (AVal v, d')
                 | (Some e, d') => (fail e, d')
                 end
      end
  | CPopitem =>
      match last d with
      | None => (AExc (KeyError (KStr "popitem(): mapping is empty")), d)
      | Some (k, _) =>
          match do_get p k d with
          | Exc e => (AExc e, d)
          | Ret v => match do_del p k d with
                     | (None, d') => (AItem k v, d')
                     | (Some e, d') => (AExc e, d')
                     end
          end
      end
  | CSetdefault k dv =>
      match do_get p k d with
      | Ret v => (AVal v, d)
      | Exc (KeyError _) =>
          match do_set p k dv d with
          | (None, d') => (AVal dv, d')
          | (Some e, d') => (AExc e, d')
          end
      | Exc e => (AExc e, d)
      end
  | CUpdate args kw =>
      match args with
      | _ :: _ :: _ => (AExc TypeError, d)
      | _ => let '(r, d') := do_update p (concat args ++ kw) d in (answer_of r, d')
      end
  | CClear => let '(r, d') := do_clear p d in (answer_of r, d')
  end.

Fixpoint calls_spec (p : policy) (l : list call) (d : entries) : list answer * entries :=
  match l with
  | [] => ([], d)
  | c :: r =>
      let '(a, d1) := call_spec p c d in
      let '(as_, d2) := calls_spec p r d1 in (a :: as_, d2)
  end.

(** the values a client passes in *)
Definition call_values (c : call) : list val :=
  match c with
  | CSet _ v => [v]
  | CGetDefault _ v | CSetdefault _ v => [v]
  | CPop _ (Some v) => [v]
  | CUpdate args kw => map snd (concat args ++ kw)
  | _ => []
  end.

(** A dictionary that takes hashable keys and any value. *)
Definition plain_policy : policy :=
  let u k := match k with KUnhashable _ => Some TypeError | _ => None end in
  Policy (fun k _ => u k) u u.

(** A node with child validation: values must be nodes unless allowed. *)
Definition validating_policy (allow : bool) : policy :=
  let u k := match k with KUnhashable _ => Some TypeError | _ => None end in
  Policy (fun k v =>
            match v with
            | VNode _ => u k
            | VClass _ => if allow then u k
                          else Some (ValueError "It isn't allowed to use classes as values.")
            | _ => if allow then u k
                   else Some (ValueError "Non-node childs are not allowed.")
            end) u u.
