(** Python dict and odict as insertion ordered association lists.

    Third party code (odict 1.7) and CPython's dict (insertion ordered since
    3.7) are not part of /repo; this file is their contract as far as node
    uses it.  Keys are unique by construction of the operations. *)
From Verif Require Import Py.

Section odict.
Context {A : Type}.

Definition dict := list (key * A).

Definition dkeys (d : list (key * A)) : list key := map fst d.

(** [d[k]] *)
Fixpoint dget (k : key) (d : list (key * A)) : option A :=
  match d with
  | [] => None
  | (k', v) :: r => if decide (k = k') then Some v else dget k r
  end.

(** [d[k] = v]: overwrite in place or append. *)
Fixpoint dset (k : key) (v : A) (d : list (key * A)) : list (key * A) :=
  match d with
  | [] => [(k, v)]
  | (k', v') :: r => if decide (k = k') then (k', v) :: r else (k', v') :: dset k v r
  end.

(** [del d[k]] (no effect if absent, callers check first). *)
Fixpoint ddel (k : key) (d : list (key * A)) : list (key * A) :=
  match d with
  | [] => []
  | (k', v') :: r => if decide (k = k') then r else (k', v') :: ddel k r
  end.

(** odict.insertbefore(ref, key, value) for present ref and absent key. *)
Fixpoint dinsert_before (ref k : key) (v : A) (d : list (key * A)) : list (key * A) :=
  match d with
  | [] => []
  | (k', v') :: r =>
      if decide (ref = k') then (k, v) :: (k', v') :: r
      else (k', v') :: dinsert_before ref k v r
  end.

(** odict.insertafter(ref, key, value) for present ref and absent key. *)
Fixpoint dinsert_after (ref k : key) (v : A) (d : list (key * A)) : list (key * A) :=
  match d with
  | [] => []
  | (k', v') :: r =>
      if decide (ref = k') then (k', v') :: (k, v) :: r
      else (k', v') :: dinsert_after ref k v r
  end.

(** odict.swap(a, b) for two present keys: entries exchange their positions. *)
Definition dswap (a b : key) (d : list (key * A)) : list (key * A) :=
  match dget a d, dget b d with
  | Some va, Some vb =>
      map (fun e => if decide (fst e = a) then (b, vb)
                    else if decide (fst e = b) then (a, va) else e) d
  | _, _ => d
  end.

End odict.
