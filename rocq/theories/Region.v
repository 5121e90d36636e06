(** Whatever a call on nodes of a closed region does, it does inside of it. *)
From Verif Require Import Py Odict OdictFacts Aliaser Heap Model MonadFacts WF Reach SpecRegion.

Definition closed (A : nat -> Prop) (s : st) : Prop :=
  (forall i j, A i -> points s i j -> A j) /\ forall i, next_id s <= i -> A i.
Definition outside (A : nat -> Prop) (s s' : st) : Prop := forall i, ~ A i -> untouched s s' i.

Section region.
  Context (A : nat -> Prop).

  Definition within {B} (m : M B) (Q : B -> Prop) : Prop :=
    forall s, closed A s -> closed A (snd (m s)) /\ outside A s (snd (m s)) /\ forall b, fst (m s) = Ret b -> Q b.

  Definition oin (o : obj) : Prop :=
    (forall j, o_parent o = Some j -> A j) /\ (forall j, o_storage o = Some j -> A j) /\
    (forall j, o_cache o = Some j -> A j) /\ (forall j, o_children o = Some j -> A j) /\
    (forall j, o_nodespaces o = Some j -> A j) /\ (forall j, o_index o = Some j -> A j).
  Definition din (d : list (key * val)) : Prop := forall k v, (k, v) ∈ d -> in_val A v.
  Definition iin (m : gmap (option N) nat) : Prop := forall u j, m !! u = Some j -> A j.

  Lemma out_refl s : outside A s s.
  Proof. by intros i _. Qed.
  Lemma out_trans s1 s2 s3 : outside A s1 s2 -> outside A s2 s3 -> outside A s1 s3.
  Proof.
    intros H1 H2 i Hi. destruct (H1 i Hi) as (a & b & c), (H2 i Hi) as (a' & b' & c').
    split; [congruence|split; congruence].
  Qed.

  (** * The monad *)
  Lemma w_ret {B} (b : B) (Q : B -> Prop) : Q b -> within (ret b) Q.
  Proof. intros H s C. split; [done|]. split; [apply out_refl|]. by intros ? [= <-]. Qed.
  Lemma w_raise {B} e (Q : B -> Prop) : within (raise e) Q.
  Proof. intros s C. split; [done|]. split; [apply out_refl|]. by intros ? [=]. Qed.
  Lemma w_bind {B C} (m : M B) (f : B -> M C) P Q :
    within m P -> (forall b, P b -> within (f b) Q) -> within (bind m f) Q.
  Proof.
    intros H1 H2 s Hs. unfold bind. destruct (H1 s Hs) as (C1 & O1 & P1).
    destruct (m s) as [[b|e] s1]; simpl in *.
    - destruct (H2 b (P1 b eq_refl) s1 C1) as (C2 & O2 & P2). split; [done|]. split; [by eapply out_trans|done].
    - split; [done|]. split; [done|]. by intros ? [=].
  Qed.
  Lemma w_weaken {B} (m : M B) (P Q : B -> Prop) : within m P -> (forall b, P b -> Q b) -> within m Q.
  Proof. intros H1 H2 s Hs. destruct (H1 s Hs) as (C1 & O1 & P1). split; [done|]. split; [done|]. auto. Qed.
  Lemma w_try {B} (m : M B) p h Q : within m Q -> (forall e, within (h e) Q) -> within (try_catch m p h) Q.
  Proof.
    intros H1 H2 s Hs. unfold try_catch. destruct (H1 s Hs) as (C1 & O1 & P1).
    destruct (m s) as [[b|e] s1]; simpl in *; [done|].
    destruct (p e); simpl; [|split; [done|split; [done|by intros ? [=]]]].
    destruct (H2 e s1 C1) as (C2 & O2 & P2). split; [done|]. split; [by eapply out_trans|done].
  Qed.
  Lemma w_finally {B} (m : M B) fin Q : within m Q -> within fin (fun _ => True) -> within (try_finally m fin) Q.
  Proof.
    intros H1 H2 s Hs. unfold try_finally. destruct (H1 s Hs) as (C1 & O1 & P1).
    destruct (m s) as [r s1]; simpl in *. destruct (H2 s1 C1) as (C2 & O2 & _).
    destruct (fin s1) as [[u|e] s2]; simpl in *; (split; [done|]; split; [by eapply out_trans|]); [done|by intros ? [=]].
  Qed.
  Lemma w_iterM {B} (f : B -> M unit) l : (forall b, b ∈ l -> within (f b) (fun _ => True)) -> within (iterM f l) (fun _ => True).
  Proof.
    induction l as [|b l IH]; intros H; simpl; [by apply w_ret|].
    eapply w_bind; [apply H; left|]. intros _ _. apply IH. intros b' Hb. apply H. by right.
  Qed.
  Lemma w_mapM {B C} (f : B -> M C) l (Q : C -> Prop) :
    (forall b, b ∈ l -> within (f b) Q) -> within (mapM_ f l) (Forall Q).
  Proof.
    induction l as [|b l IH]; intros H; simpl; [by apply w_ret|].
    eapply w_bind; [apply H; left|]. intros c Hc. eapply w_bind; [apply IH; intros b' Hb; apply H; by right|].
    intros cs Hcs. apply w_ret. by constructor.
  Qed.
  Lemma w_of_res {B} (r : res B) (Q : B -> Prop) : (forall b, r = Ret b -> Q b) -> within (of_res r) Q.
  Proof. intros H s Hs. split; [done|]. split; [apply out_refl|]. exact H. Qed.
  Lemma w_fun {B} (f : st -> M B) Q : (forall s, within (f s) Q) -> within (fun s => f s s) Q.
  Proof. intros H s Hs. by apply H. Qed.
  Lemma w_with_fuel {B} (f : nat -> M B) Q : (forall n, within (f n) Q) -> within (with_fuel f) Q.
  Proof. intros H. apply (w_fun (fun s => f (fuel_of s))). intros s. apply H. Qed.

  (** * The heap *)
  Lemma oin_closed s i o : closed A s -> A i -> nodes s !! i = Some o -> oin o.
  Proof.
    intros [H _] Hi Ho.
    repeat split; intros j Hj; apply (H i j Hi);
      [exact (to_parent _ _ _ _ Ho Hj)|exact (to_storage _ _ _ _ Ho Hj)|exact (to_cache _ _ _ _ Ho Hj)
      |exact (to_children _ _ _ _ Ho Hj)|exact (to_nodespaces _ _ _ _ Ho Hj)|exact (to_index _ _ _ _ Ho Hj)].
  Qed.
  Lemma din_closed s i d : closed A s -> A i -> dicts s !! i = Some d -> din d.
  Proof. intros [H _] Hi Hd k v Hk x Hx. exact (H i x Hi (to_value _ _ _ _ _ _ Hd Hk Hx)). Qed.
  Lemma iin_closed s i m : closed A s -> A i -> idxs s !! i = Some m -> iin m.
  Proof. intros [H _] Hi Hm u j Hu. exact (H i j Hi (to_indexed _ _ _ _ _ Hm Hu)). Qed.
  Lemma closed_intro s :
    (forall i o, A i -> nodes s !! i = Some o -> oin o) -> (forall i d, A i -> dicts s !! i = Some d -> din d) ->
    (forall i m, A i -> idxs s !! i = Some m -> iin m) -> (forall i, next_id s <= i -> A i) -> closed A s.
  Proof.
    intros H1 H2 H3 H4. split; [|exact H4]. intros i j Hi Hp.
    destruct Hp as [i o j Ho Hj|i o j Ho Hj|i o j Ho Hj|i o j Ho Hj|i o j Ho Hj|i o j Ho Hj|i d k v j Hd Hk Hj|i m u j Hm Hj];
      try (destruct (H1 i o Hi Ho) as (? & ? & ? & ? & ? & ?); by eauto).
    - exact (H2 i d Hi Hd k v Hk j Hj).
    - exact (H3 i m Hi Hm u j Hj).
  Qed.

  Lemma w_load x : A x -> within (load x) oin.
  Proof.
    intros Hx s C. unfold load. destruct (nodes s !! x) as [o|] eqn:Ho; simpl;
      (split; [done|]; split; [apply out_refl|]); [intros ? [= <-]; by eapply oin_closed|by intros ? [=]].
  Qed.
  Lemma w_modify x f : A x -> (forall o, oin o -> oin (f o)) -> within (modify x f) (fun _ => True).
  Proof.
    intros Hx Hf s C. unfold modify. destruct (nodes s !! x) as [o|] eqn:Ho; simpl; [|by split; [|split; [apply out_refl|]]].
    split; [|split; [|done]].
    - apply closed_intro; simpl.
      + intros i o' Hi. destruct (decide (i = x)) as [->|Hn].
        * rewrite lookup_insert. intros [= <-]. apply Hf. by eapply oin_closed.
        * rewrite lookup_insert_ne by done. by apply oin_closed.
      + intros i d. by apply din_closed.
      + intros i d. by apply iin_closed.
      + apply C.
    - intros i Hi. split; [|done]. simpl. rewrite lookup_insert_ne; [done|]. by intros ->.
  Qed.
  Lemma w_read_dict l : A l -> within (read_dict l) din.
  Proof.
    intros Hx s C. unfold read_dict. destruct (dicts s !! l) as [o|] eqn:Ho; simpl;
      (split; [done|]; split; [apply out_refl|]); [intros ? [= <-]; by eapply din_closed|by intros ? [=]].
  Qed.
  Lemma w_read_idx l : A l -> within (read_idx l) iin.
  Proof.
    intros Hx s C. unfold read_idx. destruct (idxs s !! l) as [o|] eqn:Ho; simpl;
      (split; [done|]; split; [apply out_refl|]); [intros ? [= <-]; by eapply iin_closed|by intros ? [=]].
  Qed.
  Lemma w_write_dict l d : A l -> din d -> within (write_dict l d) (fun _ => True).
  Proof.
    intros Hx Hd s C. simpl. split; [|split; [|done]].
    - apply closed_intro; simpl.
      + intros i o'. by apply oin_closed.
      + intros i d' Hi. destruct (decide (i = l)) as [->|Hn].
        * rewrite lookup_insert. by intros [= <-].
        * rewrite lookup_insert_ne by done. by apply din_closed.
      + intros i m. by apply iin_closed.
      + apply C.
    - intros i Hi. split; [done|]. split; [|done]. simpl. rewrite lookup_insert_ne; [done|]. by intros ->.
  Qed.
  Lemma w_write_idx l d : A l -> iin d -> within (write_idx l d) (fun _ => True).
  Proof.
    intros Hx Hd s C. simpl. split; [|split; [|done]].
    - apply closed_intro; simpl.
      + intros i o'. by apply oin_closed.
      + intros i m. by apply din_closed.
      + intros i d' Hi. destruct (decide (i = l)) as [->|Hn].
        * rewrite lookup_insert. by intros [= <-].
        * rewrite lookup_insert_ne by done. by apply iin_closed.
      + apply C.
    - intros i Hi. split; [done|]. split; [done|]. simpl. rewrite lookup_insert_ne; [done|]. by intros ->.
  Qed.
  Lemma w_alloc_node o : oin o -> within (alloc_node o) A.
  Proof.
    intros Ho s C. assert (Hn : A (next_id s)) by (apply C; lia). simpl. split; [|split; [|by intros ? [= <-]]].
    - apply closed_intro; simpl.
      + intros i o' Hi. destruct (decide (i = next_id s)) as [->|He].
        * rewrite lookup_insert. by intros [= <-].
        * rewrite lookup_insert_ne by done. by apply oin_closed.
      + intros i d. by apply din_closed.
      + intros i d. by apply iin_closed.
      + intros i Hi. apply C. lia.
    - intros i Hi. split; [|done]. simpl. rewrite lookup_insert_ne; [done|]. by intros <-.
  Qed.
  Lemma w_alloc_dict d : din d -> within (alloc_dict d) A.
  Proof.
    intros Ho s C. assert (Hn : A (next_id s)) by (apply C; lia). simpl. split; [|split; [|by intros ? [= <-]]].
    - apply closed_intro; simpl.
      + intros i d'. by apply oin_closed.
      + intros i o' Hi. destruct (decide (i = next_id s)) as [->|He].
        * rewrite lookup_insert. by intros [= <-].
        * rewrite lookup_insert_ne by done. by apply din_closed.
      + intros i d'. by apply iin_closed.
      + intros i Hi. apply C. lia.
    - intros i Hi. split; [done|]. split; [|done]. simpl. rewrite lookup_insert_ne; [done|]. by intros <-.
  Qed.
  Lemma w_alloc_idx d : iin d -> within (alloc_idx d) A.
  Proof.
    intros Ho s C. assert (Hn : A (next_id s)) by (apply C; lia). simpl. split; [|split; [|by intros ? [= <-]]].
    - apply closed_intro; simpl.
      + intros i d'. by apply oin_closed.
      + intros i d'. by apply din_closed.
      + intros i o' Hi. destruct (decide (i = next_id s)) as [->|He].
        * rewrite lookup_insert. by intros [= <-].
        * rewrite lookup_insert_ne by done. by apply iin_closed.
      + intros i Hi. apply C. lia.
    - intros i Hi. split; [done|]. split; [done|]. simpl. rewrite lookup_insert_ne; [done|]. by intros <-.
  Qed.
  (** steps which leave the heap alone *)
  Lemma w_same {B} (m : M B) (Q : B -> Prop) :
    (forall s, nodes (snd (m s)) = nodes s /\ dicts (snd (m s)) = dicts s /\ idxs (snd (m s)) = idxs s /\
               next_id (snd (m s)) = next_id s) ->
    (forall s b, fst (m s) = Ret b -> Q b) -> within m Q.
  Proof.
    intros H HQ s C. destruct (H s) as (h1 & h2 & h3 & h4). split; [|split; [|apply HQ]].
    - apply closed_intro.
      + intros i o Hi. rewrite h1. by apply oin_closed.
      + intros i o Hi. rewrite h2. by apply din_closed.
      + intros i o Hi. rewrite h3. by apply iin_closed.
      + rewrite h4. apply C.
    - intros i _. unfold untouched. by rewrite h1, h2, h3.
  Qed.
  Lemma w_uuid4 : within uuid4 (fun _ => True).
  Proof. by apply w_same. Qed.
  Lemma w_saw u : within (saw_uuid u) (fun _ => True).
  Proof. apply w_same; [|done]. intros s. unfold saw_uuid. by destruct u. Qed.
  Lemma w_notify e : within (notify e) (fun _ => True).
  Proof. by apply w_same. Qed.
  Lemma w_get_class cn : within (get_class cn) (fun _ => True).
  Proof. apply w_same; [|done]. intros s. unfold get_class. by destruct (classes s !! cn). Qed.
  Lemma w_fb_enter : within fb_enter (fun _ => True).
  Proof. by apply w_same. Qed.
  Lemma w_fb_exit : within fb_exit (fun _ => True).
  Proof. by apply w_same. Qed.
End region.
