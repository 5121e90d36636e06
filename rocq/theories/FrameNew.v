(** Creating a node never touches what existed before, whatever the class. *)
From Verif Require Import Py Odict OdictFacts Aliaser Heap Model MonadFacts.

Definition created_since (n : nat) (e : event) : Prop := exists x, e = EvCreated x /\ n <= x.

(** Nothing older than [n] changes. *)
Record keeps (n : nat) (s s' : st) : Prop := Keeps {
  kp_nodes : forall x, x < n -> nodes s' !! x = nodes s !! x;
  kp_dicts : forall x, x < n -> dicts s' !! x = dicts s !! x;
  kp_idxs : forall x, x < n -> idxs s' !! x = idxs s !! x;
  kp_next : next_id s <= next_id s';
  kp_log : exists l, log s' = log s ++ l /\ Forall (created_since n) l;
  kp_fb : fbcount s' = fbcount s;
  kp_classes : classes s' = classes s
}.
(** Nodes younger than [n] use indexes younger than [n]. *)
Definition above (n : nat) (s : st) : Prop :=
  n <= next_id s /\ forall x o i, n <= x -> nodes s !! x = Some o -> o_index o = Some i -> n <= i.

Lemma keeps_refl n s : keeps n s s.
Proof. constructor; try done. exists []. by rewrite app_nil_r. Qed.
Lemma keeps_trans n s1 s2 s3 : keeps n s1 s2 -> keeps n s2 s3 -> keeps n s1 s3.
Proof.
  intros [A1 A2 A3 A4 (l1 & A5 & A6) A7 A8] [B1 B2 B3 B4 (l2 & B5 & B6) B7 B8]. constructor; try congruence; try lia.
  - intros x Hx. rewrite B1, A1; done.
  - intros x Hx. rewrite B2, A2; done.
  - intros x Hx. rewrite B3, A3; done.
  - exists (l1 ++ l2). rewrite B5, A5, app_assoc. split; [done|]. by apply Forall_app.
Qed.

Definition fr {A} (n : nat) (m : M A) (Q : A -> Prop) : Prop :=
  forall s, above n s -> above n (m s).2 /\ keeps n s (m s).2 /\ forall a, (m s).1 = Ret a -> Q a.

Lemma fr_bind {A B} n (m : M A) (f : A -> M B) P Q : fr n m P -> (forall a, P a -> fr n (f a) Q) -> fr n (bind m f) Q.
Proof.
  intros H K s Ha. destruct (H s Ha) as (H1 & H2 & H3). destruct (m s) as [[a|e] s1] eqn:E; simpl in *.
  - rewrite (bind_Ret _ _ _ _ _ E). destruct (K a (H3 a eq_refl) s1 H1) as (K1 & K2 & K3).
    split; [done|]. split; [by eapply keeps_trans|done].
  - rewrite (bind_Exc _ _ _ _ _ E). simpl. done.
Qed.
Lemma fr_mono {A} n (m : M A) (P Q : A -> Prop) : fr n m P -> (forall a, P a -> Q a) -> fr n m Q.
Proof. intros H K s Ha. destruct (H s Ha) as (H1 & H2 & H3). eauto. Qed.
Lemma fr_ret {A} n (a : A) (Q : A -> Prop) : Q a -> fr n (ret a) Q.
Proof. intros Hq s Ha. simpl. split; [done|]. split; [apply keeps_refl|]. by intros ? [= <-]. Qed.
Lemma fr_raise {A} n e (Q : A -> Prop) : fr n (raise e) Q.
Proof. intros s Ha. simpl. split; [done|]. split; [apply keeps_refl|done]. Qed.
Lemma fr_same {A} n (m : M A) (Q : A -> Prop) : (forall s, (m s).2 = s) -> (forall s a, (m s).1 = Ret a -> above n s -> Q a) -> fr n m Q.
Proof. intros H K s Ha. rewrite H. split; [done|]. split; [apply keeps_refl|]. eauto. Qed.

Lemma fr_load n x : n <= x -> fr n (load x) (fun o => forall i, o_index o = Some i -> n <= i).
Proof.
  intros Hx. apply fr_same; intros s; unfold load; destruct (nodes s !! x) eqn:E; try done.
  intros a [= <-] (H1 & H2). eauto.
Qed.
Lemma fr_load' n x : fr n (load x) (fun _ => True).
Proof. apply fr_same; [|done]. intros s. unfold load. by destruct (nodes s !! x). Qed.
Lemma fr_modify n x f : n <= x -> (forall o i, o_index (f o) = Some i -> o_index o = Some i \/ n <= i) -> fr n (modify x f) (fun _ => True).
Proof.
  intros Hx Hf s (H1 & H2). unfold modify, load, bind. destruct (nodes s !! x) as [o|] eqn:E; simpl.
  2: { split; [done|]. split; [apply keeps_refl|done]. }
  split; [|split; [|done]].
  - split; [done|]. simpl. intros y o' i Hy [[<- <-]|[Hne Ho]]%lookup_insert_Some Hi; [|by eapply H2].
    destruct (Hf _ _ Hi) as [Hi'|?]; [|done]. by eapply H2.
  - constructor; try done; simpl.
    + intros y Hy. rewrite lookup_insert_ne; [done|lia].
    + exists []. by rewrite app_nil_r.
Qed.
Lemma fr_alloc_idx n m : fr n (alloc_idx m) (fun i => n <= i).
Proof.
  intros s (H1 & H2). unfold alloc_idx. simpl. split; [|split].
  - split; simpl; [lia|done].
  - constructor; try done; simpl; [|lia|exists []; by rewrite app_nil_r].
    intros y Hy. rewrite lookup_insert_ne; [done|lia].
  - by intros a [= <-].
Qed.
Lemma fr_alloc_dict n m : fr n (alloc_dict m) (fun i => n <= i).
Proof.
  intros s (H1 & H2). unfold alloc_dict. simpl. split; [|split].
  - split; simpl; [lia|done].
  - constructor; try done; simpl; [|lia|exists []; by rewrite app_nil_r].
    intros y Hy. rewrite lookup_insert_ne; [done|lia].
  - by intros a [= <-].
Qed.
Lemma fr_alloc_node n o : o_index o = None -> fr n (alloc_node o) (fun i => n <= i).
Proof.
  intros Ho s (H1 & H2). unfold alloc_node. simpl. split; [|split].
  - split; simpl; [lia|]. intros x o' i Hx [[<- <-]|[Hne Ho']]%lookup_insert_Some Hi; [congruence|by eapply H2].
  - constructor; try done; simpl; [|lia|exists []; by rewrite app_nil_r].
    intros y Hy. rewrite lookup_insert_ne; [done|lia].
  - by intros a [= <-].
Qed.
Lemma fr_uuid4 n : fr n uuid4 (fun _ => True).
Proof. intros s Ha. unfold uuid4. simpl. split; [done|]. split; [|done]. constructor; try done. exists []. by rewrite app_nil_r. Qed.
Lemma fr_saw_uuid n u : fr n (saw_uuid u) (fun _ => True).
Proof. intros s Ha. unfold saw_uuid. destruct u; simpl; (split; [done|]; split; [|done]); [|apply keeps_refl]. constructor; try done. exists []. by rewrite app_nil_r. Qed.
Lemma fr_notify n x : n <= x -> fr n (notify (EvCreated x)) (fun _ => True).
Proof. intros Hx s Ha. unfold notify. simpl. split; [done|]. split; [|done]. constructor; try done. exists [EvCreated x]. split; [done|]. constructor; [|done]. by exists x. Qed.
Lemma fr_write_dict n l d : n <= l -> fr n (write_dict l d) (fun _ => True).
Proof.
  intros Hx s Ha. unfold write_dict. simpl. split; [done|]. split; [|done]. constructor; try done; simpl; [|exists []; by rewrite app_nil_r].
  intros y Hy. rewrite lookup_insert_ne; [done|lia].
Qed.
Lemma fr_write_idx n l d : n <= l -> fr n (write_idx l d) (fun _ => True).
Proof.
  intros Hx s Ha. unfold write_idx. simpl. split; [done|]. split; [|done]. constructor; try done; simpl; [|exists []; by rewrite app_nil_r].
  intros y Hy. rewrite lookup_insert_ne; [done|lia].
Qed.
Lemma fr_read_idx n l : fr n (read_idx l) (fun _ => True).
Proof. apply fr_same; [|done]. intros s. unfold read_idx. by destruct (idxs s !! l). Qed.
Lemma fr_read_dict n l : fr n (read_dict l) (fun _ => True).
Proof. apply fr_same; [|done]. intros s. unfold read_dict. by destruct (dicts s !! l). Qed.
Lemma fr_get_class n l : fr n (get_class l) (fun _ => True).
Proof. apply fr_same; [|done]. intros s. unfold get_class. by destruct (classes s !! l). Qed.
Lemma fr_dict_set n l k v : n <= l -> fr n (dict_set l k v) (fun _ => True).
Proof.
  intros Hl. unfold dict_set. destruct (hashable k); [|apply fr_raise]. eapply fr_bind; [apply fr_read_dict|]. intros d _. by apply fr_write_dict.
Qed.

Lemma fr_set_uuid n x u : n <= x -> fr n (set_uuid x u) (fun _ => True).
Proof.
  intros Hx. unfold set_uuid. apply (fr_bind _ _ _ (fun i => n <= i)).
  { unfold index_of. eapply fr_bind; [by apply fr_load|]. intros o Ho. destruct (o_index o) as [j|] eqn:Ej; [|apply fr_raise]. apply fr_ret. by apply Ho. }
  intros i Hi. eapply fr_bind; [apply fr_read_idx|]. intros m _.
  destruct (match _ with Some _ => _ | None => _ end); [apply fr_raise|].
  eapply fr_bind; [apply fr_load'|]. intros o _.
  eapply fr_bind; [by apply fr_write_idx|]. intros [] _.
  eapply fr_bind; [by apply fr_saw_uuid|]. intros [] _.
  apply fr_modify; [done|]. intros o' i'. by left.
Qed.
Lemma fr_iterM {A} n (f : A -> M unit) l : (forall a, fr n (f a) (fun _ => True)) -> fr n (iterM f l) (fun _ => True).
Proof. intros H. induction l as [|a l IH]; simpl; [by apply fr_ret|]. eapply fr_bind; [apply H|]. by intros [] _. Qed.

Lemma fr_init_stack n mk all name parent x : n <= x -> (forall cn, fr n (mk cn) (fun y => n <= y)) ->
  forall bs, fr n (init_stack mk all bs name parent x) (fun _ => True).
Proof.
  intros Hx Hmk bs. induction bs as [|b bs IH]; cbn [init_stack].
  - unfold init_endpoint. destruct (hasc DefaultInit all).
    + eapply fr_bind; [apply fr_modify; [done|by left]|]. intros [] _. apply fr_modify; [done|by left].
    + destruct name, parent; try apply fr_raise. by apply fr_ret.
  - destruct b; cbn [init_stage]; try exact IH.
    + eapply fr_bind; [exact IH|]. intros [] _. eapply fr_bind; [apply fr_alloc_dict|]. intros l Hl. cbn beta in Hl.
      eapply fr_bind; [apply fr_modify; [done|by left]|]. intros [] _.
      eapply fr_bind; [apply fr_load'|]. intros o _. apply fr_iterM. intros [k cn].
      eapply fr_bind; [apply Hmk|]. intros c Hc. cbn beta in Hc.
      eapply fr_bind; [apply fr_modify; [done|by left]|]. intros [] _.
      eapply fr_bind; [apply fr_modify; [done|by left]|]. intros [] _. by apply fr_dict_set.
    + eapply fr_bind; [exact IH|]. intros [] _. eapply fr_bind; [apply fr_uuid4|]. intros u _.
      unfold assign_uuid. eapply fr_bind; [apply fr_load'|]. intros o _. destruct (has Reference o); [by apply fr_set_uuid|].
      eapply fr_bind; [apply fr_saw_uuid|]. intros [] _. apply fr_modify; [done|by left].
    + eapply fr_bind; [apply fr_alloc_idx|]. intros i Hi. cbn beta in Hi.
      eapply fr_bind; [apply fr_modify; [done|]|].
      { intros o j. simpl. intros [= <-]. by right. }
      intros [] _. eapply fr_bind; [apply fr_uuid4|]. intros u _.
      eapply fr_bind; [by apply fr_set_uuid|]. intros [] _. exact IH.
    + eapply fr_bind; [exact IH|]. intros [] _. by apply fr_notify.
Qed.

Lemma fr_instantiate n fuel : forall cn name parent, fr n (instantiate fuel cn name parent) (fun x => n <= x).
Proof.
  induction fuel as [|f IH]; intros cn name parent; cbn [instantiate]; [apply fr_raise|].
  eapply fr_bind; [apply fr_get_class|]. intros c _.
  eapply fr_bind; [by apply fr_alloc_node|]. intros x Hx. cbn beta in Hx.
  eapply fr_bind; [apply fr_init_stack; [done|]|].
  - intros cn'. apply IH.
  - intros [] _. by apply fr_ret.
Qed.

(** Creating a node of any class, whether it succeeds or raises. *)
Theorem new_node_keeps s cn name parent r s' :
  (forall x o, nodes s !! x = Some o -> x < next_id s) ->
  new_node cn name parent s = (r, s') ->
  keeps (next_id s) s s' /\ forall x, r = Ret x -> next_id s <= x.
Proof.
  intros Hb E. unfold new_node in E.
  destruct (fr_instantiate (next_id s) (S (size (classes s))) cn name parent s) as (_ & K & P).
  { split; [done|]. intros x o i Hx Ho. apply Hb in Ho. lia. }
  rewrite E in K, P. done.
Qed.
