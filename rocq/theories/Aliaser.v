(** Aliasers: src/node/behaviors/alias.py lines 14-120.  Pure functions. *)
From Verif Require Import Py Odict.

(** An aliaser object.  [ADict d strict] is a DictAliaser (an odict from alias
    to real key), [None] prefix/suffix is the default argument. *)
Inductive aliaser :=
| ADict (d : list (key * key)) (strict : bool)
| APrefix (p : option string)
| ASuffix (p : option string)
| AChain (l : list aliaser).

(** PrefixSuffixAliaser.__init__, alias.py lines 115-120. *)
Definition PrefixSuffixAliaser (p s : option string) : aliaser :=
  AChain [APrefix p; ASuffix s].

(** ReverseMapping.__getitem__ on an odict of keys, utils.py lines 62-66. *)
Fixpoint rev_lookup (v : key) (d : list (key * key)) : option key :=
  match d with
  | [] => None
  | (k, v') :: r => if decide (v' = v) then Some k else rev_lookup v r
  end.

Definition res_bind {A B} (r : res A) (f : A -> res B) : res B :=
  match r with Ret a => f a | Exc e => Exc e end.

(** alias: DictAliaser 24-30 (ReverseMapping lookup, non-strict returns the key),
    PrefixAliaser 51-52 and SuffixAliaser 76-77 (string concatenation, TypeError
    for non-strings), AliaserChain 103-106. *)
Fixpoint alias (a : aliaser) (k : key) : res key :=
  match a with
  | ADict d strict =>
      match rev_lookup k d with
      | Some x => Ret x
      | None => if strict then Exc (KeyError k) else Ret k
      end
  | APrefix p =>
      match k with
      | KStr s => Ret (KStr (default "" p ++ s)%string)
      | _ => Exc TypeError
      end
  | ASuffix p =>
      match k with
      | KStr s => Ret (KStr (s ++ default "" p)%string)
      | _ => Exc TypeError
      end
  | AChain l =>
      (fix go (l : list aliaser) (k : key) : res key :=
         match l with
         | [] => Ret k
         | a :: r => res_bind (alias a k) (go r)
         end) l k
  end.

(** unalias: DictAliaser 32-38, PrefixAliaser 54-64, SuffixAliaser 79-89
    (Python's [s[:-len(suffix)]], which is [s[:0]] for an empty suffix),
    AliaserChain 108-111 (reversed order).  Non-string keys have no startswith:
    AttributeError. *)
Fixpoint unalias (a : aliaser) (k : key) : res key :=
  match a with
  | ADict d strict =>
      if hashable k then
        match dget k d with
        | Some x => Ret x
        | None => if strict then Exc (KeyError k) else Ret k
        end
      else Exc TypeError
  | APrefix p =>
      match k with
      | KStr s =>
          if startswith (default "" p) s
          then Ret (KStr (str_drop (String.length (default "" p)) s))
          else Exc (KeyError (KStr ("key '" ++ s ++ "' does not match prefix '" ++ default "" p ++ "'")%string))
      | _ => Exc AttributeError
      end
  | ASuffix p =>
      match k with
      | KStr s =>
          if endswith (default "" p) s
          then Ret (KStr
                 (if String.eqb (default "" p) "" then ""
                  else str_take (String.length s - String.length (default "" p)) s))
          else Exc (KeyError (KStr ("key '" ++ s ++ "' does not match suffix '" ++ default "" p ++ "'")%string))
      | _ => Exc AttributeError
      end
  | AChain l =>
      (fix go (l : list aliaser) (k : key) : res key :=
         match l with
         | [] => Ret k
         | a :: r => res_bind (go r k) (unalias a)
         end) l k
  end.

(** [if self.aliaser:], alias.py line 128: a DictAliaser is an odict, so an
    empty one is false. *)
Definition aliaser_truthy (a : option aliaser) : bool :=
  match a with
  | None => false
  | Some (ADict [] _) => false
  | Some _ => true
  end.

(** IEnumerableMapping.providedBy(self.aliaser), alias.py line 169. *)
Definition aliaser_enumerable (a : option aliaser) : bool :=
  match a with Some (ADict _ _) => true | _ => false end.
