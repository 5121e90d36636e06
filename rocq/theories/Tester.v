(** Model of the mapping tester that ships with the package: node.testing.base.BaseTester and
    node.testing.fullmapping.FullMappingTester. *)
From Verif Require Import Py Odict Heap Model.

(** What a test function does besides raising: [None] if it returns, [Some msg] if it gets to one of
    its own [raise Exception(msg)].  [Exception] itself is caught by no handler of the tests.
    Formatted parts of messages (lengths, keys, values) are left out. *)
Definition test := M (option string).
(** [if not b: raise Exception(msg)] and on with [t] *)
Definition check (b : bool) (msg : string) (t : test) : test := if b then t else ret (Some msg).
(** statements one after the other *)
Definition and_then (t u : test) : test := let! r := t in match r with None => u | Some m => ret (Some m) end.
Definition pass : test := ret None.
Definition is_type_error (e : exc) : bool := match e with TypeError => true | _ => false end.

(** [a is b].  Two reads of one stored value give one object; values that are equal are taken to be one. *)
Fixpoint same_value (a b : val) : bool :=
  match a, b with
  | VNone, VNone | VUnset, VUnset => true
  | VBool x, VBool y => Bool.eqb x y
  | VInt x, VInt y => Z.eqb x y
  | VStr x, VStr y | VClass x, VClass y => String.eqb x y
  | VUuid x, VUuid y => N.eqb x y
  | VNode x, VNode y | VObj x, VObj y | VUnsetCopy x, VUnsetCopy y => Nat.eqb x y
  | VList l, VList l' =>
      (fix go l l' := match l, l' with [], [] => true | x :: r, y :: r' => same_value x y && go r r' | _, _ => false end) l l'
  | VDict l, VDict l' =>
      (fix go l l' := match l, l' with
                      | [], [] => true
                      | (k, x) :: r, (k', y) :: r' => bool_decide (k = k') && same_value x y && go r r'
                      | _, _ => false
                      end) l l'
  | _, _ => false
  end.
(** [object()], taken not to be among the values of the context *)
Definition an_object := VObj 0.
(** [object()] as a parent: an identity with no node behind it *)
Definition new_object : M nat := fun s => (Ret (next_id s), set_next_id S s).
(** [value.__name__] *)
Definition name_of_value (v : val) : M key := match v with VNode c => name_of c | _ => raise AttributeError end.

Definition foo := KStr "foo".
Definition bar := KStr "bar".
Definition baz := KStr "baz".
Definition blub := KStr "blub".
Definition xxx := KStr "xxx".
Definition is_in (k : key) (l : list key) : bool := bool_decide (k ∈ l).

Section tester.
(** [self.context], [self.class_], [self.node_checks] *)
Context (x : nat) (cn : string) (nc : bool).

(** [self.class_()] *)
Definition child : M val := let! c := new_node cn KNone None in ret (VNode c).

(** test___setitem__, fullmapping.py 36-41 *)
Definition test_setitem : test :=
  let! f := child in
  do! setitem x foo f in
  let! b := (if nc then let! c := new_node cn xxx None in ret (VNode c) else child) in
  do! setitem x bar b in
  pass.
(** test___getitem__, 43-47 *)
Definition test_getitem : test :=
  do! getitem x foo in
  if nc then
    let! b := getitem x bar in
    let! n := name_of_value b in
    check (bool_decide (n = bar)) "Child ``bar`` has wrong ``__name__``" pass
  else pass.
(** test_get, 49-55 *)
Definition test_get : test :=
  let! v := get x foo an_object in
  check (negb (same_value v an_object)) "Expected value, got default"
  (let! w := get x xxx an_object in
   check (same_value w an_object) "Expected default, got" pass).
(** _check_keys, 57-68 *)
Definition check_keys (ks expected : list key) : test :=
  check (length ks =? length expected) "Expected -length result. Got"
  (check (forallb (fun k => is_in k expected) ks) "Expected as keys. Got" pass).
(** test___iter__, 70-72; test_keys, 74-76; test_iterkeys, 78-80 *)
Definition test_iter : test := let! ks := Model.iter x in check_keys ks [foo; bar].
Definition test_keys : test := let! ks := keys x in check_keys ks [foo; bar].
Definition test_iterkeys : test := let! ks := iterkeys x in check_keys ks [foo; bar].
(** _check_values, 82-96, without the sorting, which only decides which value is complained about
    (names are strings or None, so that it does not raise) *)
Fixpoint check_names (vs : list val) (expected : list key) : test :=
  match vs with
  | [] => pass
  | v :: r => let! n := name_of_value v in
              check (is_in n expected) "Expected __name__ of value invalid. Got" (check_names r expected)
  end.
Definition check_values (vs : list val) (expected : list key) : test :=
  check (length vs =? length expected) "Expected -length result. Got" (if nc then check_names vs expected else pass).
(** test_values, 98-100; test_itervalues, 102-104 *)
Definition test_values : test := let! vs := values x in check_values vs [foo; bar].
Definition test_itervalues : test := test_values.
(** _check_items, 106-133, again without the sorting *)
Fixpoint check_pairs (l : list (key * val)) (expected : list key) : test :=
  match l with
  | [] => pass
  | (k, v) :: r =>
      check (is_in k expected) "Expected keys. Got"
      (if nc then
         let! n := name_of_value v in
         check (bool_decide (k = n)) "Expected same value for ``key`` and ``__name__``" (check_pairs r expected)
       else check_pairs r expected)
  end.
Fixpoint check_same (l : list (key * val)) : test :=
  match l with
  | [] => pass
  | (k, v) :: r => let! w := getitem x k in check (same_value v w) "Expected, got" (check_same r)
  end.
Definition check_items (l : list (key * val)) (expected : list key) : test :=
  check (length l =? length expected) "Expected -length result. Got" (and_then (check_pairs l expected) (check_same l)).
(** test_items, 135-136; test_iteritems, 138-140 *)
Definition test_items : test := let! l := items x in check_items l [foo; bar].
Definition test_iteritems : test := test_items.
(** test___contains__, 142-151 *)
Definition test_contains : test :=
  let! f := contains x foo in
  let! b := (if f then contains x bar else ret false) in
  check b "Expected ``foo`` and ``bar`` return ``True`` by ``__contains__``"
  (let! n := contains x xxx in
   check (negb n) "Expected __contains__ to return False for non-existent key" pass).
(** test_has_key, 153-158 *)
Definition test_has_key : test :=
  let! f := contains x foo in
  let! b := (if f then contains x bar else ret false) in
  check b "Expected ``foo`` and ``bar`` return ``True`` by ``has_key``" pass.
(** test___len__, 160-165 *)
Definition test_len : test := let! n := len x in check (n =? 2) "Expected 2-length result. Got" pass.
(** test_update, 167-198.  The context has no attribute data, so that the second [try] raises as well. *)
Definition test_update : test :=
  let! z := new_node cn KNone None in
  let! b := child in
  do! update_from x z in
  do! update x [[(baz, VNode z)]] [(blub, b)] in
  and_then (try_catch (do! getitem x baz in do! getitem x blub in pass) is_key_error
              (fun _ => ret (Some "KeyError, Expected ``baz`` and ``blub`` after update")))
  (let! w := getitem x baz in
   check (same_value (VNode z) w) "Object at ``baz`` not expected one after update"
   (let! w := getitem x blub in
    check (same_value b w) "Object at ``blub`` not expected one after update"
    (do! try_catch (delitem x blub) (fun _ => true) (fun _ => raise RuntimeError) in
     try_catch (do! update x [[]; []] [] in ret (Some "Expected TypeError for update with more than one positional argument."))
       is_type_error (fun _ => pass)))).
(** test___delitem__, 200-205 *)
Definition test_delitem : test :=
  and_then (try_catch (do! delitem x bar in pass) is_key_error (fun _ => ret (Some "KeyError, expected ``bar``")))
  (let! ks := keys x in check_keys ks [baz; foo]).
(** test_copy, 207-225 *)
Definition test_copy : test :=
  let! m := new_object in
  let! o := load x in
  do! (if nc then do! modify x (with_name (KStr "nametopcopy")) in modify x (with_parent (Some m)) else ret tt) in
  let! c := copy x in
  check (negb (c =? x)) "``copied`` is ``context``"
  (let! u := getitem c foo in
   let! v := getitem x foo in
   check (same_value u v) "``copied['foo']`` is not ``context['foo']``"
   (if nc then
      let! oc := load c in
      let! ox := load x in
      check (bool_decide (o_name oc = o_name ox)) "__name__ of copied does not match"
      (check (bool_decide (o_parent oc = o_parent ox)) "__parent__ of copied does not match"
       (do! modify x (with_name (o_name o)) in do! modify x (with_parent (o_parent o)) in pass))
    else pass)).
(** test_setdefault, 227-233 *)
Definition test_setdefault : test :=
  let! new := child in
  let! v := setdefault x foo new in
  check (negb (same_value v new)) "Replaced already existing item."
  (let! w := setdefault x bar new in
   check (same_value w new) "Inserted item not same instance."
   (let! l := items x in check_items l [foo; bar; baz])).
(** test_pop, 235-252 *)
Definition test_pop : test :=
  and_then (try_catch (do! pop x xxx None in ret (Some "Expected ``KeyError`` for inexistent item.")) is_key_error (fun _ => pass))
  (let! d := pop x xxx (Some an_object) in
   check (same_value d an_object) "Returned default is not same instance"
   (let! originlen := len x in
    let! topop := getitem x foo in
    let! popped := pop x foo None in
    let! afterlen := len x in
    check (same_value topop popped) "Popped item not same instance"
    (check (Z.of_nat afterlen =? Z.of_nat originlen - 1)%Z "Invalid mapping length after ``pop``"
     (let! ks := keys x in check_keys ks [baz; bar])))).
(** test_popitem, 254-268 *)
Definition test_popitem : test :=
  do! popitem x in
  let! ks := keys x in
  check (length ks =? 1) "Expected 1-length result. Got"
  (do! popitem x in
   try_catch (do! popitem x in ret (Some "Expected ``KeyError`` when called on empty mapping")) is_key_error (fun _ => pass)).
(** test_clear, 270-275 *)
Definition test_clear : test :=
  let! f := child in
  do! setitem x foo f in
  let! b := child in
  do! setitem x bar b in
  let! ks := keys x in
  and_then (check_keys ks [foo; bar])
  (do! clear x in let! ks := keys x in check_keys ks []).

(** iface_contract, 9-30, in this order, with the test function of each name *)
Definition contract : list (string * test) :=
  [("__setitem__", test_setitem); ("__getitem__", test_getitem); ("get", test_get); ("__iter__", test_iter); ("keys", test_keys);
   ("iterkeys", test_iterkeys); ("values", test_values); ("itervalues", test_itervalues); ("items", test_items); ("iteritems", test_iteritems);
   ("__contains__", test_contains); ("has_key", test_has_key); ("__len__", test_len); ("update", test_update); ("__delitem__", test_delitem);
   ("copy", test_copy); ("setdefault", test_setdefault); ("pop", test_pop); ("popitem", test_popitem); ("clear", test_clear)].
End tester.

(** What is written to the results, base.py 14-24: 'OK', or 'failed: ' and the exception. *)
Inductive verdict := OK | Failed (msg : string) | Raised (e : exc).
(** BaseTester.run, base.py 80-98, with direct_error false: every test runs, whatever the others did. *)
Fixpoint run_tests (l : list (string * test)) (s : st) : list (string * verdict) * st :=
  match l with
  | [] => ([], s)
  | (n, t) :: r =>
      let '(o, s1) := t s in
      let v := match o with Ret None => OK | Ret (Some m) => Failed m | Exc e => Raised e end in
      let '(vs, s2) := run_tests r s1 in ((n, v) :: vs, s2)
  end.
Definition run_tester (cn : string) (x : nat) (nc : bool) (s : st) : list (string * verdict) * st := run_tests (contract x cn nc) s.
(** BaseTester.__init__ without a context, base.py 40-51: the context is [class_()]; then run. *)
Definition run_fresh (cn : string) (nc : bool) (s : st) : res nat * (list (string * verdict) * st) :=
  match new_node cn KNone None s with
  | (Ret x, s1) => (Ret x, run_tester cn x nc s1)
  | (Exc e, s1) => (Exc e, ([], s1))
  end.
