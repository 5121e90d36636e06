(** C61: threads that work inside of blocks of the tree's lock. *)
From Verif Require Import Py Odict Aliaser Heap Model Classes SpecMapping MappingProofs Observe TreeOps Reach AnyMapping SpecAny Play
  Lock SpecLock LockProofs Threads SpecThreads ThreadProofs ThreadCalls ThreadCallProofs.
From stdpp Require Import list relations.

(** Whatever the threads of a process do inside of [with TreeLock(node)] blocks for nodes of one tree
    that has been locked before, in however small steps and whatever the schedule: when no thread is inside a block, the
    data and what every thread knows are as after running whole blocks one after another, without
    any lock, each thread's blocks in its order. *)
Theorem C61_blocks_run_in_turn : forall {L D} (start : starts L) (act : work L D) r root attr next d l0 w,
  attr !! r = Some l0 -> disciplined r root start act -> threads_reach start act root attr next d w ->
  (forall t, ~ inside_block (w_cfg w) t (fun _ => True)) ->
  exists z, serial_reach start act d z /\ z_data z = w_data w /\ z_loc z = w_loc w /\
    (forall t m, g_thr (w_cfg w) !! t = Some ([], m) -> z_thr z !! t = Some ([], m)) /\
    (forall t, z_thr z !! t = None <-> g_thr (w_cfg w) !! t = None).
Proof. intros L D start act r root attr next d l0 w Ha [H1 H2]. exact (blocks_atomic start act r root attr next d l0 H1 H2 Ha w). Qed.

(** A thread inside a block: the data is what blocks run one after another left, changed by this thread
    alone since it entered; nobody else has changed it, and it has seen nothing of others' work. *)
Theorem C61_inside_alone : forall {L D} (start : starts L) (act : work L D) r root attr next d l0 w t,
  attr !! r = Some l0 -> disciplined r root start act -> threads_reach start act root attr next d w ->
  inside_block (w_cfg w) t (fun _ => True) ->
  exists z n b p K l K' m l', serial_reach start act d z /\
    z_thr z !! t = Some (KStmts (Locked n b :: p) :: K, Normal) /\ z_loc z !! t = Some l /\ w_loc w !! t = Some l' /\
    alone act t (Solo [KStmts b] Normal l (z_data z)) (Solo K' m l' (w_data w)) /\
    (forall t', t' <> t -> z_loc z !! t' = w_loc w !! t') /\
    (forall t' m', g_thr (w_cfg w) !! t' = Some ([], m') -> z_thr z !! t' = Some ([], m')).
Proof. intros L D start act r root attr next d l0 w t Ha [H1 H2]. exact (block_isolated start act r root attr next d l0 H1 H2 Ha w t). Qed.

(** So what every block, run alone, keeps holds whenever no thread is inside a block. *)
Theorem C61_invariant : forall {L D} (start : starts L) (act : work L D) r root attr next d l0 w (P : D -> Prop) (Q : list stmt -> Prop),
  attr !! r = Some l0 -> disciplined r root start act ->
  (forall t p l, start t p l -> Forall (bodies Q) p) -> P d ->
  (forall t b l d m l' d', Q b -> P d -> alone act t (Solo [KStmts b] Normal l d) (Solo [] m l' d') -> P d') ->
  threads_reach start act root attr next d w -> (forall t, ~ inside_block (w_cfg w) t (fun _ => True)) -> P (w_data w).
Proof.
  intros L D start act r root attr next d l0 w P Q Ha [H1 H2] Hs H0 Hb Hw Hn.
  destruct (blocks_atomic start act r root attr next d l0 H1 H2 Ha w Hw Hn) as (z & Z & <- & _).
  by apply (serial_keeps start act d P Q z Hs H0 Hb Z).
Qed.

(** Threads that call the mapping API of a node inside of such blocks: however the calls are cut into steps
    ([code], [act] and what threads know are arbitrary, as long as a block run alone makes its calls),
    when all are done there is an order of all blocks, each thread's blocks in its order, such that
    every thread got the answers, and the node ends with the entries, of an ordered dictionary on which the blocks
    were run in this order. *)
Theorem C61_node_calls : forall {L} (act : work L st) code know x n jobs s cls r root attr next l0 w,
  (forall t l d, Forall (inner r root) (snd (act t l d))) -> (forall cs, Forall (inner r root) (code cs)) ->
  (forall t cs rest got s m l' s', alone act t (Solo [KStmts (code cs)] Normal (know (cs :: rest) got) s) (Solo [] m l' s') ->
     m = Normal /\ l' = know rest (got ++ fst (run_calls x cs s)) /\ s' = snd (run_calls x cs s)) ->
  attr !! r = Some l0 -> root n = r ->
  reach s -> class_of s x = Some cls -> tree_class (c_behs cls) = true -> Reference ∉ c_behs cls ->
  Forall (usable cls) (map fst (entries_at s x)) ->
  (forall t, Forall (Forall (fun c => Forall (usable cls) (call_keys c) /\ Forall (known s) (call_values c))) (jobs t)) ->
  threads_reach (fun t p l => p = locked_calls code n (jobs t) /\ l = know (jobs t) []) act root attr next s w ->
  (forall t K m, g_thr (w_cfg w) !! t = Some (K, m) -> K = []) ->
  exists order, (forall t, of_thread t order = if decide (is_Some (g_thr (w_cfg w) !! t)) then jobs t else []) /\
    (forall t, is_Some (g_thr (w_cfg w) !! t) ->
       w_loc w !! t = Some (know [] (concat (of_thread t (fst (in_turn (class_policy cls (allows s x)) order (entries_at s x))))))) /\
    entries_at (w_data w) x = snd (in_turn (class_policy cls (allows s x)) order (entries_at s x)).
Proof. intros L. exact threads_calls. Qed.
(** In particular if every call is a step. *)
Theorem C61_node_calls_whole : forall x n jobs s cls r root attr next l0 w,
  attr !! r = Some l0 -> root n = r ->
  reach s -> class_of s x = Some cls -> tree_class (c_behs cls) = true -> Reference ∉ c_behs cls ->
  Forall (usable cls) (map fst (entries_at s x)) ->
  (forall t, Forall (Forall (fun c => Forall (usable cls) (call_keys c) /\ Forall (known s) (call_values c))) (jobs t)) ->
  threads_reach (fun t p l => p = locked_calls one_step_each n (jobs t) /\ l = (concat (jobs t), [])) (call_work x) root attr next s w ->
  (forall t K m, g_thr (w_cfg w) !! t = Some (K, m) -> K = []) ->
  exists order, (forall t, of_thread t order = if decide (is_Some (g_thr (w_cfg w) !! t)) then jobs t else []) /\
    (forall t, is_Some (g_thr (w_cfg w) !! t) ->
       w_loc w !! t = Some ([], concat (of_thread t (fst (in_turn (class_policy cls (allows s x)) order (entries_at s x)))))) /\
    entries_at (w_data w) x = snd (in_turn (class_policy cls (allows s x)) order (entries_at s x)).
Proof.
  intros x n jobs s cls r root attr next l0 w.
  apply (threads_calls (call_work x) one_step_each (fun rest got => (concat rest, got)) x n jobs s cls r root attr next l0 w).
  - apply call_work_inner.
  - apply one_step_inner.
  - intros t cs rest got s1 m l' s'. exact (one_step_alone x t cs (concat rest) got s1 m l' s').
Qed.
(** Threads that read a value and write its successor inside of a block: none is lost. *)
Theorem C61_counting : forall x n k v s cls r root attr next l0 w,
  attr !! r = Some l0 -> root n = r ->
  reach s -> class_of s x = Some cls -> tree_class (c_behs cls) = true -> Reference ∉ c_behs cls ->
  Forall (usable cls) (map fst (entries_at s x)) -> usable cls k ->
  p_get (class_policy cls (allows s x)) k = None -> (forall u, p_set (class_policy cls (allows s x)) k (VInt u) = None) ->
  value_at k (entries_at s x) = Some (VInt v) ->
  threads_reach (fun _ p l => p = count_code n /\ l = Unread) (count_work x k) root attr next s w ->
  (forall t K m, g_thr (w_cfg w) !! t = Some (K, m) -> K = []) ->
  value_at k (entries_at (w_data w) x) = Some (VInt (v + Z.of_nat (size (g_thr (w_cfg w))))).
Proof.
  intros x n k v s cls r root attr next l0 w Ha Hn R Hc Ht Hr Hu Hk Hg Hs Hv.
  exact (count_finished x n k v s cls R Hc Ht Hr Hu Hk Hg Hs Hv r root attr next l0 w Ha Hn).
Qed.

(** * Concrete cases *)
(** node 0 holds 5 as "n"; the tree has root 0, its lock is lock 3 *)
Definition C61_s := after [ONew BN KNone None; OSetAllow 0 true; OSet 0 (KStr "n") (VInt 5)].
Definition C61_root : nat -> nat := fun _ => 0.
Definition C61_start (attr : gmap nat nat) : world tally st :=
  spawn 11 (count_code 0) Unread (spawn 10 (count_code 0) Unread (World (Cfg C61_root attr ∅ 7 ∅) ∅ C61_s)).
Fixpoint C61_run {L D} (act : work L D) (ts : list nat) (w : world L D) : option (world L D) :=
  match ts with [] => Some w | t :: r => match wstep act t w with Some w' => C61_run act r w' | None => None end end.
Lemma C61_run_reach {L D} start (act : work L D) root attr next d ts : forall w w',
  threads_reach start act root attr next d w -> C61_run act ts w = Some w' -> threads_reach start act root attr next d w'.
Proof.
  induction ts as [|t ts IH]; simpl; intros w w' H E; [by injection E as <-|].
  destruct (wstep act t w) as [w1|] eqn:Ew; [|done]. eapply IH; [|exact E]. by eapply tr_step.
Qed.
Lemma C61_start_reach attr : threads_reach (fun _ p l => p = count_code 0 /\ l = Unread) (count_work 0 (KStr "n")) C61_root attr 7 C61_s (C61_start attr).
Proof. apply tr_spawn; [apply tr_spawn; [constructor|done|done]|done|done]. Qed.
(** a run where the threads take turns as far as the lock lets them *)
Definition C61_sched : list nat := [10; 11; 10; 11; 10; 10; 10; 10; 10; 10; 10; 10; 11; 11; 11; 11; 11; 11; 11; 11].
Definition C61_end (attr : gmap nat nat) (ts : list nat) : world tally st := default (C61_start attr) (C61_run (count_work 0 (KStr "n")) ts (C61_start attr)).
Lemma C61_end_reach attr ts : threads_reach (fun _ p l => p = count_code 0 /\ l = Unread) (count_work 0 (KStr "n")) C61_root attr 7 C61_s (C61_end attr ts).
Proof.
  unfold C61_end. destruct (C61_run _ ts (C61_start attr)) as [w|] eqn:E; [|apply C61_start_reach]. eapply C61_run_reach; [apply C61_start_reach|exact E].
Qed.
Lemma C61_done attr ts : map_to_list (g_thr (w_cfg (C61_end attr ts))) = [(11, ([], Normal)); (10, ([], Normal))] ->
  forall t K m, g_thr (w_cfg (C61_end attr ts)) !! t = Some (K, m) -> K = [].
Proof.
  intros E t K m H. apply elem_of_map_to_list in H. rewrite E in H. apply elem_of_cons in H as [H|H]; [by injection H|].
  apply elem_of_cons in H as [H|H]; [by injection H|]. by apply elem_of_nil in H.
Qed.
(** half way thread 10 is inside having read 5, and thread 11 has to wait; at the end both have counted *)
Example C61_example :
  disciplined 0 C61_root (fun (_ : nat) p l => p = count_code 0 /\ l = Unread) (count_work 0 (KStr "n")) /\
  reach C61_s /\ class_of C61_s 0 = Some BaseNode /\ value_at (KStr "n") (entries_at C61_s 0) = Some (VInt 5) /\
  (let w := C61_end {[0 := 3]} (take 6 C61_sched) in
   inside_block (w_cfg w) 10 (fun n => C61_root n = 0) /\ w_loc w !! 10 = Some (Seen 5) /\ wstep (count_work 0 (KStr "n")) 11 w = None) /\
  (forall t K m, g_thr (w_cfg (C61_end {[0 := 3]} C61_sched)) !! t = Some (K, m) -> K = []) /\
  entries_at (w_data (C61_end {[0 := 3]} C61_sched)) 0 = [(KStr "n", VInt 7)].
Proof.
  split; [|split; [|split; [|split; [|split; [|split]]]]].
  - split; [|intros t l d; unfold count_work; destruct l; simpl; repeat case_match; constructor].
    intros t p l [-> _]. constructor; [|constructor]. split; [reflexivity|]. repeat constructor.
  - apply after_reach.
  - vm_compute. reflexivity.
  - vm_compute. reflexivity.
  - split; [|split; [vm_compute; reflexivity|vm_compute; reflexivity]].
    eexists _, _, 3, 0. split; [vm_compute; reflexivity|]. split; [|reflexivity]. right. right. left.
  - apply C61_done. vm_compute. reflexivity.
  - vm_compute. reflexivity.
Qed.
(** On a tree that was never locked before, the same programs can lose an update: both threads
    make a lock of their own for the root. *)
Theorem C61_first_use_refuted : exists w,
  threads_reach (fun _ p l => p = count_code 0 /\ l = Unread) (count_work 0 (KStr "n")) C61_root ∅ 7 C61_s w /\
  (forall t K m, g_thr (w_cfg w) !! t = Some (K, m) -> K = []) /\ size (g_thr (w_cfg w)) = 2 /\
  value_at (KStr "n") (entries_at C61_s 0) = Some (VInt 5) /\ value_at (KStr "n") (entries_at (w_data w) 0) = Some (VInt 6).
Proof.
  exists (C61_end ∅ ([10; 11; 10; 11] ++ repeat 10 5 ++ repeat 11 10 ++ repeat 10 5)). split; [apply C61_end_reach|].
  split; [apply C61_done; vm_compute; reflexivity|]. split; [vm_compute; reflexivity|]. split; vm_compute; reflexivity.
Qed.
(** Calls: two threads working on the same keys; the answers they got are those of one order. *)
Definition C61_jobs (t : nat) : list (list call) :=
  match t with
  | 10 => [[CIn (KStr "a"); CSet (KStr "a") (VInt 1); CKeys]; [CGet (KStr "a")]]
  | 11 => [[CSet (KStr "a") (VInt 2); CLen]; [CDel (KStr "a"); CDel (KStr "a")]]
  | _ => []
  end.
Definition C61_begin : world (list call * list answer) st :=
  spawn 11 (locked_calls one_step_each 0 (C61_jobs 11)) (concat (C61_jobs 11), []) (spawn 10 (locked_calls one_step_each 0 (C61_jobs 10)) (concat (C61_jobs 10), [])
    (World (Cfg C61_root {[0 := 3]} ∅ 7 ∅) ∅ C61_s)).
(** steps that are not possible (a thread waiting for the lock, or done) are skipped *)
Fixpoint C61_tries {L D} (act : work L D) (ts : list nat) (w : world L D) : world L D :=
  match ts with [] => w | t :: r => C61_tries act r (default w (wstep act t w)) end.
Lemma C61_tries_reach {L D} start (act : work L D) root attr next d ts : forall w,
  threads_reach start act root attr next d w -> threads_reach start act root attr next d (C61_tries act ts w).
Proof.
  induction ts as [|t ts IH]; simpl; intros w H; [done|]. apply IH. destruct (wstep act t w) as [w1|] eqn:Ew; [|done]. by eapply tr_step.
Qed.
Definition C61_end2 := C61_tries (call_work 0) (concat (repeat [11; 10] 40)) C61_begin.
Lemma C61_jobs_usable t : Forall (Forall (fun c => Forall (usable BaseNode) (call_keys c) /\ Forall (known C61_s) (call_values c))) (C61_jobs t).
Proof.
  assert (U : forall k, usable BaseNode k).
  { intros k H. exfalso. pose proof (bool_decide_eq_true_2 _ H) as E. vm_compute in E. discriminate E. }
  assert (G : forall c, Forall (known C61_s) (call_values c) -> Forall (usable BaseNode) (call_keys c) /\ Forall (known C61_s) (call_values c)).
  { intros c H. split; [|exact H]. apply List.Forall_forall. intros k _. apply U. }
  assert (N : Forall (known C61_s) []) by constructor.
  assert (V : forall z, Forall (known C61_s) [VInt z]) by (intros z; constructor; [exact I|constructor]).
  do 10 (destruct t as [|t]; [constructor|]). destruct t as [|t]; [|destruct t as [|t]; [|constructor]];
    (repeat (apply List.Forall_cons; [repeat (apply List.Forall_cons; [apply G; first [exact N|apply V]|]); apply List.Forall_nil|])); apply List.Forall_nil.
Qed.
Example C61_calls_example :
  threads_reach (fun t p l => p = locked_calls one_step_each 0 (C61_jobs t) /\ l = (concat (C61_jobs t), [])) (call_work 0) C61_root {[0 := 3]} 7 C61_s C61_end2 /\
  map_to_list (g_thr (w_cfg C61_end2)) = [(11, ([], Normal)); (10, ([], Normal))] /\
  map_to_list (w_loc C61_end2) = [(11, ([], [ANone; ALen 2; ANone; AExc (KeyError (KStr "a"))]));
    (10, ([], [ABool true; ANone; AKeys [KStr "n"; KStr "a"]; AExc (KeyError (KStr "a"))]))] /\
  in_turn (class_policy BaseNode true) [(11, [CSet (KStr "a") (VInt 2); CLen]); (10, [CIn (KStr "a"); CSet (KStr "a") (VInt 1); CKeys]);
      (11, [CDel (KStr "a"); CDel (KStr "a")]); (10, [CGet (KStr "a")])] (entries_at C61_s 0) =
    ([(11, [ANone; ALen 2]); (10, [ABool true; ANone; AKeys [KStr "n"; KStr "a"]]); (11, [ANone; AExc (KeyError (KStr "a"))]); (10, [AExc (KeyError (KStr "a"))])],
     entries_at (w_data C61_end2) 0).
Proof.
  split; [|split; [vm_compute; reflexivity|split; [vm_compute; reflexivity|vm_compute; reflexivity]]].
  apply C61_tries_reach. unfold C61_begin. apply tr_spawn; [apply tr_spawn; [constructor|reflexivity|split; reflexivity]|reflexivity|split; reflexivity].
Qed.
Print Assumptions C61_blocks_run_in_turn.
Print Assumptions C61_inside_alone.
Print Assumptions C61_invariant.
Print Assumptions C61_node_calls.
Print Assumptions C61_node_calls_whole.
Print Assumptions C61_counting.
Print Assumptions C61_first_use_refuted.
