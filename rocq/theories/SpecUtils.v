(** Specifications for node.utils and treerepr. *)
From Verif Require Import Py Heap Model SpecMapping Observe SpecTree Utils.

(** * Mappings as entry lists *)
(** While [I] holds, the context object behaves like a mapping with the entries [d]. *)
Record acts_like {K V} (I : st -> Prop) (it : M (list K)) (get : K -> M V) (items : M (list (K * V))) (len : M nat)
    (d : list (K * V)) : Prop := ActsLike {
  al_iter : forall s, I s -> exists s', it s = (Ret (map fst d), s') /\ I s';
  al_get : forall s k v, I s -> (k, v) ∈ d -> exists s', get k s = (Ret v, s') /\ I s';
  al_items : forall s, I s -> exists s', items s = (Ret d, s') /\ I s';
  al_len : forall s, I s -> exists s', len s = (Ret (length d), s') /\ I s'
}.
(** [r] is the first key of [d] that holds a value equal to [v], if there is one. *)
Definition first_key_holding {K V} (eqv : V -> V -> bool) (d : list (K * V)) (v : V) (r : option K) : Prop :=
  match r with
  | Some k => exists pre w post, d = pre ++ (k, w) :: post /\ eqv w v = true /\ Forall (fun e => eqv (snd e) v = false) pre
  | None => Forall (fun e => eqv (snd e) v = false) d
  end.

(** * Reads of one property among a sequence of reads *)
Fixpoint answers_for {V} (t : nat * string) (l : list (nat * string)) (ans : list (res V)) : list (res V) :=
  match l, ans with
  | x :: l', a :: ans' => if decide (x = t) then a :: answers_for t l' ans' else answers_for t l' ans'
  | _, _ => []
  end.
Definition times_read (t : nat * string) (l : list (nat * string)) : nat := length (filter (fun x => x = t) l).
Definition fails {V} (r : res V) : Prop := exists e, r = Exc e.

(** * Following keys *)
Inductive walk_end := Found (v : val) | Missing (k : key) | NotSubscriptable.
Fixpoint walk (s : st) (v : val) (ks : list key) : walk_end :=
  match ks with
  | [] => Found v
  | k :: r =>
      match v with
      | VNode c => match value_at k (entries_at s c) with Some w => walk s w r | None => Missing k end
      | _ => NotSubscriptable
      end
  end.
(** keys that can be looked up among the children of every node *)
Definition child_key (k : key) : Prop := hashable k = true /\ ~ dunder k.
Fixpoint slashes (n : nat) : string := match n with O => "" | S m => "/" +:+ slashes m end.
Fixpoint join_path (ks : list string) : string :=
  match ks with [] => "" | [k] => k | k :: r => k +:+ "/" +:+ join_path r end.
Definition no_slash (k : string) : Prop := forall a b, k <> a +:+ "/" +:+ b.

(** No entry has a key that belongs to the nodespaces of its node. *)
Definition spaces_apart (s : st) : Prop :=
  forall x cls k v, class_of s x = Some cls -> (k, v) ∈ entries_at s x -> ~ to_spaces cls k.

(** * What treerepr prints *)
(** A tree as it is printed: the text for the node, whether its children are in order, and
    per entry the text of the key with the subtree or the text of the value. *)
Inductive ttree := TTree (head : string) (ordered : bool) (sub : list (string * (ttree + string))).
(** The tree below [x], read off the entries; [None] if it is deeper than [n] (or cyclic). *)
Section tree_at.
Context (kstr : key -> string) (vrepr : val -> string).
Definition all_some {A} (l : list (option A)) : option (list A) :=
  foldr (fun x acc => match x, acc with Some a, Some r => Some (a :: r) | _, _ => None end) (Some []) l.
Definition name_text (k : key) : string := default (kstr k) (after_colon (kstr k)).
Fixpoint tree_at (n : nat) (s : st) (x : nat) : option ttree :=
  match n, nodes s !! x with
  | S m, Some o =>
      match all_some (map (fun kv : key * val =>
               let '(k, v) := kv in
               match v with
               | VNode c => (fun t => (kstr k, inl t)) <$> tree_at m s c
               | _ => Some (kstr k, inr (vrepr v))
               end) (entries_at s x)) with
      | Some sub => Some (TTree ("<class '" +:+ c_name (o_cls o) +:+ "'>: " +:+ name_text (o_name o))
                                (bool_decide (OdictStorage ∈ c_behs (o_cls o))) sub)
      | None => None
      end
  | _, _ => None
  end.
End tree_at.

(** [a] is not after [b] in the dictionary order of code points: a prefix of it, or smaller at
    the first character that differs. *)
Definition text_le (a b : string) : Prop :=
  (exists r, b = a +:+ r) \/
  exists p x y a' b', a = p +:+ String x a' /\ b = p +:+ String y b' /\ Ascii.nat_of_ascii x < Ascii.nat_of_ascii y.

(** Lines in pre-order: depth and text. *)
Definition arranged {A} (ordered : bool) (l : list (string * A)) : list (string * A) :=
  if ordered then l else sort_by_text l.
Fixpoint size_of (t : ttree) : nat :=
  match t with
  | TTree _ _ sub =>
      S (foldr (fun e n => (match snd e with inl c => size_of c | inr _ => 1 end) + n) 0 sub)
  end.
(** [sort_by_text] only looks at the keys, so the lines of the entries can be computed first. *)
Fixpoint lines (d : nat) (t : ttree) : list (nat * string) :=
  match t with
  | TTree h b sub =>
      (d, h) ::
      concat (map snd (arranged b (map (fun e : string * (ttree + string) =>
        (fst e, match snd e with
                | inl c => lines (S d) c
                | inr r => [(S d, fst e +:+ ": " +:+ r)]
                end)) sub)))
  end.
Definition text_of (indent : nat) (prefix : string) (ls : list (nat * string)) : string :=
  String.concat "" (map (fun l => times (indent + 2 * fst l) prefix +:+ snd l +:+ newline) ls).

(** Equal up to the order of the children of unordered nodes. *)
Inductive same_tree : ttree -> ttree -> Prop :=
| same_ordered h sub sub' : Forall2 same_entry sub sub' -> same_tree (TTree h true sub) (TTree h true sub')
| same_unordered h sub mid sub' :
    NoDup (map fst sub) -> Permutation sub mid -> Forall2 same_entry mid sub' ->
    same_tree (TTree h false sub) (TTree h false sub')
with same_entry : string * (ttree + string) -> string * (ttree + string) -> Prop :=
| same_node k t t' : same_tree t t' -> same_entry (k, inl t) (k, inl t')
| same_value k r : same_entry (k, inr r) (k, inr r).
