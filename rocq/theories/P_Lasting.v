(** C70: fixed children stay, whatever happens anywhere. *)
From Verif Require Import Py Odict Aliaser Heap Model Classes MonadFacts WF Views SpecMapping Observe Reach Play SpecFactory FixedProofs SpecCopy Loops SpecLoops FixedLoops LastingProofs P_Factories.

(** No operation on any node, successful or failing, changes which children are fixed in a node, their keys or
    their order.  The operations may be any, also with arguments that do not exist. *)
Theorem C70_forever : forall s x ops, reach s -> has_fixed s x -> has_fixed (after_ops ops s) x /\ fixed_at (after_ops ops s) x = fixed_at s x.
Proof. exact fixed_forever. Qed.
(** So every later access answers the same child, or KeyError, and every later listing the same keys. *)
Theorem C70_answers : forall s x cls ops k, reach s -> class_of s x = Some cls -> fixed_class (c_behs cls) = true -> has_fixed s x ->
  getitem x k (after_ops ops s) = (if hashable k then match value_at k (fixed_at s x) with Some v => Ret v | None => Exc (KeyError k) end else Exc TypeError, after_ops ops s) /\
  keys x (after_ops ops s) = (Ret (map fst (fixed_at s x)), after_ops ops s).
Proof. exact fixed_asked. Qed.
(** A loop over the node gets every key once, in order, whatever is called meanwhile. *)
Theorem C70_loop : forall s x, reach s -> has_fixed s x ->
  exists c, fixed_iter x s = (Ret c, s) /\ forall acts, answers c s acts = one_by_one (map fst (fixed_at s x)) (asked acts).
Proof. exact fixed_loop. Qed.
(** keys is that loop consumed at once. *)
Theorem C70_keys : forall s x cls, reach s -> class_of s x = Some cls -> FixedChildren ∈ c_behs cls -> Alias ∉ c_behs cls -> has_fixed s x ->
  exists n, forall f, n <= f -> fixed_keys_loop f x s = keys x s.
Proof. exact fixed_keys_at_once. Qed.

(** Children are fixed in 0; there is a storage besides, and another node that takes children. *)
Definition FixedBoth := Class "FixedBoth" [NodeChildValidate; Adopt; DefaultInit; Nodify; OdictStorage; FixedChildren]
  [] [(KStr "a", "node.base.BaseNode"); (KStr "b", "node.base.BaseNode")] None false "FixedBoth" true None.
Definition C70_s := after_in [FixedBoth; BaseNode] [ONew "FixedBoth" (KStr "root") None; ONew "node.base.BaseNode" KNone None].
Definition C70_ops (a other : nat) : list op :=
  [OStore 0 (KStr "a") (VNode other); OStore 0 (KStr "z") (VInt 1); OUnstore 0 (KStr "a"); OSet 0 (KStr "c") (VNode other); ODel 0 (KStr "a"); ODetach 0 (KStr "a"); OClear 0;
   OSet other (KStr "taken") (VNode a); ODeepcopy 0; OPlace a (KStr "b") None; OPop 0 (KStr "b") None; OPopitem 0; OSet 99 (KStr "c") (VNode 0); OSet a (KStr "below") (VNode other)].
Example C70_example : exists a b other,
  reach C70_s /\ class_of C70_s 0 = Some FixedBoth /\ fixed_class (c_behs FixedBoth) = true /\ has_fixed C70_s 0 /\ FixedChildren ∈ c_behs FixedBoth /\ Alias ∉ c_behs FixedBoth /\
  fixed_at C70_s 0 = [(KStr "a", VNode a); (KStr "b", VNode b)] /\
  let t := after_ops (C70_ops a other) C70_s in
  fixed_at t 0 = [(KStr "a", VNode a); (KStr "b", VNode b)] /\ entries_at t 0 = [(KStr "z", VInt 1)] /\ entries_at t other = [(KStr "taken", VNode a)] /\
  name_at t a = Some (KStr "b") /\ fst (getitem 0 (KStr "a") t) = Ret (VNode a) /\ fst (getitem 0 (KStr "z") t) = Exc (KeyError (KStr "z")) /\ fst (keys 0 t) = Ret [KStr "a"; KStr "b"].
Proof.
  eexists _, _, _. split; [apply after_in_reach|]. split; [vm_compute; reflexivity|]. split; [done|]. split; [vm_compute; eauto|]. split; [by apply (bool_decide_unpack _)|].
  split; [by apply (bool_decide_unpack _)|]. split; [vm_compute; reflexivity|]. instantiate (1 := 4). vm_compute. repeat split.
Qed.
Example C70_loop_example : match fixed_iter 0 C70_s with
  | (Ret c, s) => answers c s [Next; Call (OClear 0); Call (OStore 0 (KStr "c") (VInt 1)); Call (ODel 0 (KStr "a")); Next; Call (OUnstore 0 (KStr "c")); Next; Next] =
      [Ret (Some (KStr "a")); Ret (Some (KStr "b")); Ret None; Ret None]
  | _ => False
  end.
Proof. vm_compute. reflexivity. Qed.
(** Had one looped over the storage instead, the loop would have seen the changes. *)
Example C70_storage_example : match iter_start 0 C70_s with
  | (Ret c, s) => answers c s [Call (OStore 0 (KStr "c") (VInt 1)); Next; Call (OUnstore 0 (KStr "c")); Next] = [Ret (Some (KStr "c")); Exc (KeyError (KStr "c"))]
  | _ => False
  end.
Proof. vm_compute. reflexivity. Qed.

Print Assumptions C70_forever.
Print Assumptions C70_answers.
Print Assumptions C70_loop.
Print Assumptions C70_keys.
