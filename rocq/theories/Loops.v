(** Iterating over a node step by step, with calls in between.

    Model.v gives [__iter__] as the list it yields when it is consumed at once.  Here an iterator is an
    object of its own that is asked for the next key, and between two questions any call may happen.
    For classes whose [__iter__] is that of a storage without Alias before it (storage.py 33-35; Cache's
    hook, cache.py 119-121, passes the iterator on).

    The iterator of a dict (CPython) compares the number of entries with the number at the start, on every
    question until it is exhausted: if they differ it raises RuntimeError, then and on every later question.  If the number is
    the same although keys were added and removed, what it does depends on the table behind the dict: [Unspecified].
    The iterator of an odict (odict.odict.__iter__) is a generator:
      curr_key = self.lh
      while curr_key != _nil: yield curr_key; curr_key = dict.__getitem__(self, curr_key)[2]
    where lh is the first key and item [2] of an entry the key after it. *)
From Verif Require Import Py Odict Aliaser Heap Model Reach.

Inductive cursor :=
| DictIter (l : nat) (ks : list key) (pos : nat) (calm : bool)  (* over dict [l] with the keys [ks], [pos] of them given; [calm]: no change seen *)
| DictBroken                                                    (* after RuntimeError *)
| OdictFresh (l : nat)                                          (* generator not started *)
| OdictAt (l : nat) (k : key)                                   (* suspended at yield *)
| Exhausted.

(** The leftmost storage (storage.py 38-52): its [storage] and [__iter__] are the ones of the class. *)
Fixpoint storage_kind (bs : list behavior) : option behavior :=
  match bs with
  | [] => None
  | DictStorage :: _ => Some DictStorage
  | OdictStorage :: _ => Some OdictStorage
  | _ :: r => storage_kind r
  end.
(** [iter(self)], storage.py 33-35 *)
Definition iter_start (self : nat) : M cursor :=
  let! o := load self in
  let! l := storage_of self in
  match storage_kind (c_behs (o_cls o)) with
  | Some DictStorage => let! d := read_dict l in ret (DictIter l (dkeys d) 0 true)
  | _ => ret (OdictFresh l)
  end.
Definition keys_in (s : st) (l : nat) : list key := dkeys (default [] (dicts s !! l)).
(** item [2] of the entry of [k]; [None] is _nil *)
Fixpoint key_after (k : key) (ks : list key) : option key :=
  match ks with
  | [] => None
  | k' :: r => if decide (k' = k) then head r else key_after k r
  end.
(** [next(iterator)]; [Ret None] is StopIteration *)
Definition iter_next (c : cursor) (s : st) : res (option key) * cursor :=
  match c with
  | DictIter l ks pos calm =>
      if decide (length (keys_in s l) <> length ks) then (Exc RuntimeError, DictBroken)
      else if calm then
        match ks !! pos with
        | Some k => (Ret (Some k), DictIter l ks (S pos) calm)
        | None => (Ret None, Exhausted)
        end
      else (Exc Unspecified, Exhausted)
  | DictBroken => (Exc RuntimeError, DictBroken)
  | OdictFresh l =>
      match keys_in s l with
      | k :: _ => (Ret (Some k), OdictAt l k)
      | [] => (Ret None, Exhausted)
      end
  | OdictAt l k =>
      if decide (k ∈ keys_in s l) then
        match key_after k (keys_in s l) with
        | Some k' => (Ret (Some k'), OdictAt l k')
        | None => (Ret None, Exhausted)
        end
      else (Exc (KeyError k), Exhausted)
  | Exhausted => (Ret None, Exhausted)
  end.
(** What a call from [s] to [s'] does to an iterator: no call removes a key and adds it again at the same place. *)
Definition iter_watch (s s' : st) (c : cursor) : cursor :=
  match c with
  | DictIter l ks pos calm => DictIter l ks pos (calm && bool_decide (keys_in s' l = keys_in s l))
  | _ => c
  end.

(** A program that holds one iterator: asks it, and makes calls. *)
Inductive action := Next | Call (o : op).
Fixpoint loop (c : cursor) (s : st) (l : list action) : list (res (option key)) * cursor * st :=
  match l with
  | [] => ([], c, s)
  | Next :: r => let '(a, c1) := iter_next c s in let '(al, c2, s2) := loop c1 s r in (a :: al, c2, s2)
  | Call o :: r => let s1 := snd (run_op o s) in loop (iter_watch s s1 c) s1 r
  end.
Definition answers (c : cursor) (s : st) (l : list action) : list (res (option key)) := fst (fst (loop c s l)).

(** [[f(key) for key in self]]: mapping.py 81-85, 91-105 as the loops they are. *)
Fixpoint draw {A} (fuel : nat) (f : key -> M A) (c : cursor) : M (list A) :=
  match fuel with
  | O => raise OutOfFuel
  | S n => fun s =>
      match iter_next c s with
      | (Ret (Some k), c') =>
          let '(r, s') := f k s in
          match r with
          | Ret a => bind (draw n f (iter_watch s s' c')) (fun l => ret (a :: l)) s'
          | Exc e => (Exc e, s')
          end
      | (Ret None, _) => (Ret [], s)
      | (Exc e, _) => (Exc e, s)
      end
  end.
Definition keys_loop (fuel : nat) (self : nat) : M (list key) := let! c := iter_start self in draw fuel ret c.
Definition values_loop (fuel : nat) (self : nat) : M (list val) := let! c := iter_start self in draw fuel (getitem self) c.
Definition items_loop (fuel : nat) (self : nat) : M (list (key * val)) :=
  let! c := iter_start self in draw fuel (fun k => let! v := getitem self k in ret (k, v)) c.
