(** Which objects an object refers to: what copy.deepcopy and the garbage collector follow. *)
From Verif Require Import Py Heap.

(** the nodes in a value *)
Fixpoint held (v : val) : list nat :=
  match v with
  | VNode x => [x]
  | VList l => concat (map held l)
  | VDict l => concat (map (fun kv => held (snd kv)) l)
  | _ => []
  end.
(** The references of an object: the attributes of a node (the instance's [__dict__]), the values of
    a dict, the nodes of an index. *)
Definition refs (s : st) (i : nat) : list nat :=
  match nodes s !! i with
  | Some o => concat (map (fun r : option nat => match r with Some j => [j] | None => [] end)
                [o_parent o; o_storage o; o_cache o; o_children o; o_nodespaces o; o_index o])
  | None => []
  end ++
  match dicts s !! i with Some d => concat (map (fun kv => held (snd kv)) d) | None => [] end ++
  match idxs s !! i with Some m => map snd (map_to_list m) | None => [] end.

(** Everything that can be reached from [x], itself included.  [grow] adds what the objects
    refer to; after as many rounds as there are objects nothing is missing. *)
Definition grow (s : st) (l : list nat) : list nat :=
  remove_dups (List.filter (fun j => Nat.ltb j (next_id s)) (concat (map (refs s) l)) ++ l).
Definition reached (s : st) (x : nat) : list nat := Nat.iter (next_id s) (grow s) [x].
