(** Proofs about treerepr. *)
From Coq Require Import Ascii Sorted.
From Verif Require Import Py Odict OdictFacts Aliaser Heap Model MonadFacts WF WFOps Views StrFacts SpecMapping
  MappingProofs StorageProofs Observe TreeOps SetEff DelEff DetachEff ObserveFacts SpecTree MappingProps Utils SpecUtils UtilsProofs.
From stdpp Require Import list.

(** * The order of texts *)
Lemma str_leb_refl a : str_leb a a = true.
Proof. induction a as [|x a IH]; simpl; [done|]. rewrite Nat.ltb_irrefl. done. Qed.
Lemma nat_ascii_inj x y : nat_of_ascii x = nat_of_ascii y -> x = y.
Proof. intros H. by rewrite <- (ascii_nat_embedding x), H, ascii_nat_embedding. Qed.
Lemma str_leb_total a : forall b, str_leb a b = false -> str_leb b a = true.
Proof.
  induction a as [|x a IH]; intros [|y b]; simpl; try done.
  destruct (Nat.ltb_spec (nat_of_ascii x) (nat_of_ascii y)), (Nat.ltb_spec (nat_of_ascii y) (nat_of_ascii x)); try done; try lia. apply IH.
Qed.
Lemma str_leb_trans a : forall b c, str_leb a b = true -> str_leb b c = true -> str_leb a c = true.
Proof.
  induction a as [|x a IH]; intros [|y b] [|z c]; simpl; try done.
  destruct (Nat.ltb_spec (nat_of_ascii x) (nat_of_ascii y)), (Nat.ltb_spec (nat_of_ascii y) (nat_of_ascii x)),
    (Nat.ltb_spec (nat_of_ascii y) (nat_of_ascii z)), (Nat.ltb_spec (nat_of_ascii z) (nat_of_ascii y)),
    (Nat.ltb_spec (nat_of_ascii x) (nat_of_ascii z)), (Nat.ltb_spec (nat_of_ascii z) (nat_of_ascii x)); try done; try lia; apply IH.
Qed.
Lemma str_leb_antisym a : forall b, str_leb a b = true -> str_leb b a = true -> a = b.
Proof.
  induction a as [|x a IH]; intros [|y b]; simpl; try done.
  destruct (Nat.ltb_spec (nat_of_ascii x) (nat_of_ascii y)), (Nat.ltb_spec (nat_of_ascii y) (nat_of_ascii x)); try done; try lia.
  intros H1 H2. f_equal; [apply nat_ascii_inj; lia|]. auto.
Qed.
(** [a] comes before [b] in the dictionary order of code points *)
Lemma str_leb_spec a : forall b, str_leb a b = true <-> text_le a b.
Proof.
  unfold text_le. induction a as [|x a IH]; intros [|y b]; simpl.
  - split; [|done]. intros _. left. by exists "".
  - split; [|done]. intros _. left. by exists (String y b).
  - split; [done|]. intros [(r & H)|(p & u & v & a' & b' & H1 & H2 & _)]; [done|]. by destruct p.
  - destruct (Nat.ltb_spec (nat_of_ascii x) (nat_of_ascii y)) as [Hl|Hl].
    { split; [|done]. intros _. right. exists "", x, y, a, b. done. }
    destruct (Nat.ltb_spec (nat_of_ascii y) (nat_of_ascii x)) as [Hg|Hg].
    { split; [done|]. intros [(r & [= -> _])|(p & u & v & a' & b' & H1 & H2 & H3)]; [lia|].
      destruct p as [|q p]; injection H1 as -> ->; injection H2 as -> ->; lia. }
    assert (x = y) as -> by (apply nat_ascii_inj; lia). rewrite IH. split.
    + intros [(r & ->)|(p & u & v & a' & b' & -> & -> & H)]; [left; by exists r|]. right. by exists (String y p), u, v, a', b'.
    + intros [(r & [= ->])|(p & u & v & a' & b' & H1 & H2 & H3)]; [left; by exists r|].
      destruct p as [|q p]; [injection H1 as -> ->; injection H2 as -> ->; lia|].
      injection H1 as -> ->. injection H2 as ->. right. by exists p, u, v, a', b'.
Qed.

(** * Sorting *)
Section sort.
Context {A : Type}.
Implicit Types (l : list (string * A)).
Definition le2 (e e' : string * A) : Prop := str_leb (fst e) (fst e') = true.
Lemma insert_perm e l : Permutation (insert_sorted e l) (e :: l).
Proof.
  induction l as [|x l IH]; simpl; [done|]. destruct (str_leb _ _); [done|]. rewrite IH. apply Permutation_swap.
Qed.
Lemma sort_perm l : Permutation (sort_by_text l) l.
Proof. induction l as [|e l IH]; simpl; [done|]. by rewrite insert_perm, IH. Qed.
Lemma insert_sorted_sorted e l : StronglySorted le2 l -> StronglySorted le2 (insert_sorted e l).
Proof.
  induction 1 as [|x l Hs IH Hx]; simpl; [repeat constructor|]. destruct (str_leb (fst e) (fst x)) eqn:E.
  - constructor; [by constructor|]. constructor; [done|]. eapply Forall_impl; [exact Hx|]. intros y Hy. by eapply str_leb_trans.
  - constructor; [done|]. rewrite insert_perm. constructor; [|done]. by apply str_leb_total.
Qed.
Lemma sort_sorted l : StronglySorted le2 (sort_by_text l).
Proof. induction l as [|e l IH]; simpl; [constructor|]. by apply insert_sorted_sorted. Qed.
(** entries with the same text stay in their order *)
Lemma insert_filter t e l : filter (fun x => fst x = t) (insert_sorted e l) = filter (fun x => fst x = t) (e :: l).
Proof.
  induction l as [|x l IH]; [done|]. simpl insert_sorted. destruct (str_leb (fst e) (fst x)) eqn:E; [done|].
  rewrite filter_cons, IH, !filter_cons. destruct (decide (fst e = t)) as [He|], (decide (fst x = t)) as [Hx|]; try done.
  rewrite He, Hx, str_leb_refl in E. done.
Qed.
Lemma sort_stable t l : filter (fun x => fst x = t) (sort_by_text l) = filter (fun x => fst x = t) l.
Proof.
  induction l as [|e l IH]; [done|]. simpl sort_by_text. rewrite insert_filter, !filter_cons. change (foldr insert_sorted [] l) with (sort_by_text l). by rewrite IH.
Qed.
Lemma sorted_unique l1 : forall l2, StronglySorted le2 l1 -> StronglySorted le2 l2 -> NoDup (map fst l1) -> Permutation l1 l2 -> l1 = l2.
Proof.
  induction l1 as [|x l1 IH]; intros l2 S1 S2 Hn Hp; [by apply Permutation_nil in Hp|].
  destruct l2 as [|y l2]; [symmetry in Hp; by apply Permutation_nil in Hp|].
  inversion S1 as [|? ? S1' F1]; subst. inversion S2 as [|? ? S2' F2]; subst.
  assert (x = y) as ->.
  { assert (Hx : x ∈ y :: l2) by (rewrite <- Hp; left). assert (Hy : y ∈ x :: l1) by (rewrite Hp; left).
    apply elem_of_cons in Hx as [->|Hx]; [done|]. apply elem_of_cons in Hy as [->|Hy]; [done|].
    rewrite Forall_forall in F1. rewrite Forall_forall in F2. specialize (F1 _ Hy). specialize (F2 _ Hx).
    pose proof (str_leb_antisym _ _ F1 F2) as E. simpl in Hn. apply NoDup_cons in Hn as [Hn _]. exfalso. apply Hn.
    rewrite E. apply elem_of_list_fmap. by exists y. }
  f_equal. apply IH; try done. { simpl in Hn. by apply NoDup_cons in Hn as [_ ?]. } by eapply Permutation_cons_inv.
Qed.
Lemma sort_canonical l1 l2 : NoDup (map fst l1) -> Permutation l1 l2 -> sort_by_text l1 = sort_by_text l2.
Proof.
  intros Hn Hp. apply sorted_unique; try apply sort_sorted.
  - rewrite (sort_perm l1). done.
  - by rewrite !sort_perm.
Qed.
End sort.
Section sort_rel.
Context {A B : Type} (R : string * A -> string * B -> Prop) (HR : forall a b, R a b -> fst a = fst b).
Lemma insert_Forall2 e e' l l' : R e e' -> Forall2 R l l' -> Forall2 R (insert_sorted e l) (insert_sorted e' l').
Proof.
  intros He. induction 1 as [|a b l l' Hab H IH]; simpl; [by repeat constructor|].
  rewrite (HR _ _ He), (HR _ _ Hab). destruct (str_leb _ _); [constructor; [done|]; by constructor|]. by constructor.
Qed.
Lemma sort_Forall2 l l' : Forall2 R l l' -> Forall2 R (sort_by_text l) (sort_by_text l').
Proof. induction 1 as [|a b l l' Hab H IH]; simpl; [done|]. by apply insert_Forall2. Qed.
Lemma arranged_Forall2 o l l' : Forall2 R l l' -> Forall2 R (arranged o l) (arranged o l').
Proof. destruct o; [done|]. apply sort_Forall2. Qed.
End sort_rel.

(** * Texts *)
Lemma sconcat_cons a l : String.concat "" (a :: l) = a +:+ String.concat "" l.
Proof. destruct l; simpl; [by rewrite append_nil_r|done]. Qed.
Lemma sconcat_app l l' : String.concat "" (l ++ l') = String.concat "" l +:+ String.concat "" l'.
Proof. induction l as [|a l IH]; [done|]. change ((a :: l) ++ l') with (a :: (l ++ l')). by rewrite !sconcat_cons, IH, append_assoc. Qed.
Lemma text_app ind pre l l' : text_of ind pre (l ++ l') = text_of ind pre l +:+ text_of ind pre l'.
Proof. unfold text_of. by rewrite map_app, sconcat_app. Qed.
Lemma text_concat ind pre ls : text_of ind pre (concat ls) = String.concat "" (map (text_of ind pre) ls).
Proof. induction ls as [|l ls IH]; [done|]. simpl concat. simpl map. by rewrite text_app, IH, sconcat_cons. Qed.

(** * Induction on printed trees *)
Section ttree_ind.
Context (P : ttree -> Prop).
Let Q (e : string * (ttree + string)) : Prop := match snd e with inl t => P t | inr _ => True end.
Context (H : forall h b sub, Forall Q sub -> P (TTree h b sub)).
Fixpoint ttree_ind' (t : ttree) : P t :=
  match t with
  | TTree h b sub => H h b sub
      ((fix go (l : list (string * (ttree + string))) : Forall Q l :=
          match l with
          | [] => List.Forall_nil Q
          | e :: r =>
              List.Forall_cons Q e r
                (match e return Q e with (k, inl t) => ttree_ind' t | (k, inr _) => I end) (go r)
          end) sub)
  end.
End ttree_ind.

Lemma lines_length t : forall d, length (lines d t) = size_of t.
Proof.
  induction t as [h b sub IH] using ttree_ind'. intros d. simpl. f_equal.
  set (g := fun e : string * (ttree + string) => (e.1, match e.2 with inl c => lines (S d) c | inr r => [(S d, e.1 +:+ (": " +:+ r))] end)).
  assert (Hp : Permutation (concat (map snd (arranged b (map g sub)))) (concat (map snd (map g sub)))).
  { destruct b; simpl; [done|]. by rewrite sort_perm. }
  rewrite Hp. clear Hp. induction sub as [|[k e] sub IHs]; simpl; [done|]. rewrite app_length.
  apply Forall_cons in IH as [IH1 IH2]. rewrite (IHs IH2). f_equal. destruct e; simpl in *; [by rewrite IH1|done].
Qed.

Lemma same_tree_lines : forall t t', same_tree t t' -> forall d, lines d t = lines d t'.
Proof.
  induction t as [h b sub IH] using ttree_ind'. intros t' Ht d.
  set (g := fun e : string * (ttree + string) => (e.1, match e.2 with inl c => lines (S d) c | inr r => [(S d, e.1 +:+ (": " +:+ r))] end)).
  assert (Hg : forall m m', Forall2 same_entry m m' ->
    Forall (fun e => match snd e with inl t => forall t', same_tree t t' -> forall d, lines d t = lines d t' | inr _ => True end) m ->
    map g m = map g m').
  { induction 1 as [|e e' m m' He Hm IHm]; simpl; [done|]. intros [F1 F2]%Forall_cons. f_equal; [|by apply IHm].
    unfold g. inversion He; subst; simpl in *; [|done]. f_equal. by apply F1. }
  inversion Ht as [h' s1 s2 HF|h' s1 mid s2 Hn Hp HF]; subst.
  - cbn [lines]. fold g. rewrite (Hg _ _ HF IH). done.
  - cbn [lines]. fold g. f_equal. f_equal. f_equal. unfold arranged.
    rewrite Hp in IH. rewrite <- (Hg _ _ HF IH). apply sort_canonical; [|by rewrite Hp].
    rewrite map_map. simpl. exact Hn.
Qed.

(** * treerepr prints the tree *)
Section print.
Context (kstr : key -> string) (vrepr : val -> string).
Lemma all_some_Forall2 {A B} (f : A -> option B) l r : all_some (map f l) = Some r -> Forall2 (fun a b => f a = Some b) l r.
Proof.
  revert r. induction l as [|a l IH]; simpl; intros r; [intros [= <-]; constructor|].
  destruct (f a) as [b|] eqn:E; [|done]. destruct (all_some (map f l)) as [r'|]; [|done]. intros [= <-]. constructor; auto.
Qed.
Lemma mapM_Forall2 {A B C} (I : st -> Prop) (m : A -> M C) (g : B -> C) l l' :
  Forall2 (fun a b => forall s, I s -> exists s', m a s = (Ret (g b), s') /\ I s') l l' ->
  forall s, I s -> exists s', mapM_ m l s = (Ret (map g l'), s') /\ I s'.
Proof.
  induction 1 as [|a b l l' Hab H IH]; intros s Hs; simpl; [by exists s|].
  destruct (Hab s Hs) as (s1 & E1 & I1). rewrite (bind_Ret _ _ _ _ _ E1).
  destruct (IH s1 I1) as (s2 & E2 & I2). rewrite (bind_Ret _ _ _ _ _ E2). by exists s2.
Qed.
Lemma Forall2_map_lr {A B C D} (R : C -> D -> Prop) (f : A -> C) (g : B -> D) l l' :
  Forall2 (fun a b => R (f a) (g b)) l l' -> Forall2 R (map f l) (map g l').
Proof. induction 1; simpl; by constructor. Qed.

Lemma treerepr_prints s0 ind pre : all_tree_classes s0 -> spaces_apart s0 -> forall n x d t s,
  tree_at kstr vrepr n s0 x = Some t -> eqv s0 s -> wf s ->
  exists s', treerepr kstr vrepr n x (ind + 2 * d) pre s = (Ret (text_of ind pre (lines d t)), s') /\ eqv s0 s' /\ wf s'.
Proof.
  intros Ha Hsp. induction n as [|n IH]; intros x d t s Ht Q W; [done|]. simpl in Ht.
  destruct (nodes s0 !! x) as [o|] eqn:Ho; [|done].
  destruct (all_some _) as [sub|] eqn:Hs; [|done]. injection Ht as <-. apply all_some_Forall2 in Hs.
  pose proof (nodes_views _ _ _ Ho) as Hw. set (w := view_of s0 x o) in *.
  assert (Htc : tree_class (c_behs (w_cls w)) = true). { apply (Ha x). rewrite ob_class. unfold fld. by rewrite Hw. }
  assert (Hw1 : views s !! x = Some w) by (by eapply eqv_view).
  destruct (view_obj _ _ _ Hw1) as (o1 & Ho1 & Ew1).
  assert (Hent : entries_at s x = entries_at s0 x) by (by rewrite (ent_obs _ _ _ Hw), (ent_obs _ _ _ Hw1)).
  assert (Hcls : o_cls o1 = o_cls o) by (apply (f_equal w_cls) in Ew1; simpl in Ew1; done).
  assert (Hnm : o_name o1 = o_name o) by (apply (f_equal w_name) in Ew1; simpl in Ew1; done).
  cbn [treerepr]. rewrite (bind_load _ _ _ _ Ho1).
  destruct (items_eff s x w W Hw1 Htc) as (s1 & E1 & Q1 & W1).
  { intros k v Hin. rewrite Hent in Hin. by eapply apart_nskey. }
  rewrite (bind_Ret _ _ _ _ _ E1), Hent.
  set (b := bool_decide (OdictStorage ∈ c_behs (o_cls o))).
  replace (has OdictStorage o1) with b by (unfold has; by rewrite Hcls).
  set (g := fun e : string * (ttree + string) => (e.1, match e.2 with inl c => lines (S d) c | inr r => [(S d, e.1 +:+ (": " +:+ r))] end)).
  set (m := fun kv : string * val => match kv.2 with VNode c => treerepr kstr vrepr n c (ind + 2 * d + 2) pre
            | v => ret (times (ind + 2 * d + 2) pre +:+ (kv.1 +:+ (": " +:+ (vrepr v +:+ newline)))) end).
  set (R := fun (a : string * val) (e : string * list (nat * string)) => a.1 = e.1 /\
       forall s, (eqv s0 s /\ wf s) -> exists s', m a s = (Ret (text_of ind pre e.2), s') /\ eqv s0 s' /\ wf s').
  assert (HF : Forall2 R (map (fun kv => (kstr kv.1, kv.2)) (entries_at s0 x)) (map g sub)).
  { apply Forall2_map_lr. eapply Forall2_impl; [exact Hs|]. intros [k v] e He. simpl in He. split.
    - destruct v; try (injection He as <-; done). destruct (tree_at _ _ n s0 o0); [|done]. by injection He as <-.
    - simpl. intros s2 [Q2 W2]. unfold m. cbn [snd fst].
      assert (Hleaf : forall v', e = (kstr k, inr (vrepr v')) ->
        exists s', ret (times (ind + 2 * d + 2) pre +:+ (kstr k +:+ (": " +:+ (vrepr v' +:+ newline)))) s2 = (Ret (text_of ind pre (g e).2), s') /\ eqv s0 s' /\ wf s').
      { intros v' ->. exists s2. split; [|done]. unfold g, text_of. simpl. unfold ret. do 2 f_equal.
        replace (ind + (d + (d + 0)) + 2) with (ind + S (d + S (d + 0))) by lia. by rewrite !append_assoc. }
      destruct v; try (injection He as <-; by apply Hleaf).
      destruct (tree_at _ _ n s0 o0) as [tc|] eqn:Hc; [|done]. injection He as <-. simpl.
      destruct (IH o0 (S d) tc s2 Hc Q2 W2) as (s3 & E3 & Q3 & W3).
      replace (ind + (d + (d + 0)) + 2) with (ind + 2 * S d) by lia. by exists s3. }
  apply (arranged_Forall2 R) with (o := b) in HF; [|by intros ?? [??]].
  change (if b then ?l else sort_by_text ?l) with (arranged b l).
  destruct (mapM_Forall2 (fun s => eqv s0 s /\ wf s) m (fun e => text_of ind pre e.2) _ _ (Forall2_impl _ _ _ _ HF (fun a e H => proj2 H)) s1)
    as (s2 & E2 & Q2 & W2).
  { split; [by eapply eqv_trans|done]. }
  rewrite (bind_Ret _ _ _ _ _ E2). exists s2. split; [|done]. unfold ret. do 2 f_equal.
  unfold noderepr. rewrite Hcls, Hnm. cbn [lines]. fold g. unfold text_of. cbn [map]. rewrite sconcat_cons.
  fold (text_of ind pre (concat (map snd (arranged b (map g sub))))). rewrite text_concat, map_map. cbn [fst snd].
  by rewrite !append_assoc.
Qed.
End print.

(** * The fuel suffices *)
Section fuel.
Context (kstr : key -> string) (vrepr : val -> string) (s : st).
Notation ta := (tree_at kstr vrepr).
Definition sub_at (m : nat) (kv : key * val) : option (string * (ttree + string)) :=
  let '(k, v) := kv in
  match v with VNode c => (fun t => (kstr k, inl t)) <$> ta m s c | _ => Some (kstr k, inr (vrepr v)) end.
Lemma tree_at_S m x o : nodes s !! x = Some o -> ta (S m) s x =
  match all_some (map (sub_at m) (entries_at s x)) with
  | Some sub => Some (TTree ("<class '" +:+ c_name (o_cls o) +:+ "'>: " +:+ name_text kstr (o_name o))
                            (bool_decide (OdictStorage ∈ c_behs (o_cls o))) sub)
  | None => None
  end.
Proof. intros Ho. simpl. by rewrite Ho. Qed.
Lemma Forall2_all_some {A B} (f : A -> option B) l r : Forall2 (fun a b => f a = Some b) l r -> all_some (map f l) = Some r.
Proof. induction 1 as [|a b l r Hab H IH]; simpl; [done|]. by rewrite Hab, IH. Qed.
Fixpoint height (t : ttree) : nat :=
  match t with TTree _ _ sub => S (foldr (fun e n => max (match snd e with inl c => height c | inr _ => 0 end) n) 0 sub) end.
Lemma height_sub h b sub k c : (k, inl c) ∈ sub -> height c < height (TTree h b sub).
Proof.
  intros Hin. simpl. induction sub as [|e sub IH]; [by apply elem_of_nil in Hin|]. simpl.
  apply elem_of_cons in Hin as [<-|Hin]; simpl; [lia|]. specialize (IH Hin). lia.
Qed.
Lemma height_max h b sub : height (TTree h b sub) = 1 \/ exists k c, (k, inl c) ∈ sub /\ height (TTree h b sub) = S (height c).
Proof.
  simpl. induction sub as [|[k e] sub IH]; simpl; [by left|].
  destruct IH as [IH|(k' & c & Hin & IH)].
  - injection IH as ->. destruct e as [c|]; [|by left]. right. exists k, c. split; [left|]. by rewrite Nat.max_0_r.
  - injection IH as IH. right. destruct e as [c'|].
    + destruct (Nat.max_spec (height c') (foldr (fun e n => max (match snd e with inl c => height c | inr _ => 0 end) n) 0 sub)) as [[_ ->]|[_ ->]].
      * exists k', c. split; [by right|]. by rewrite IH.
      * exists k, c'. split; [left|done].
    + exists k', c. split; [by right|]. by rewrite IH.
Qed.
Lemma tree_at_height n : forall x t m, ta n s x = Some t -> height t <= m -> ta m s x = Some t.
Proof.
  induction n as [|n IH]; intros x t m; [done|]. destruct (nodes s !! x) as [o|] eqn:Ho; [|simpl; by rewrite Ho].
  rewrite (tree_at_S _ _ _ Ho). destruct (all_some _) as [sub|] eqn:Hs; [|done]. intros [= <-] Hm.
  destruct m as [|m]; [simpl in Hm; lia|]. rewrite (tree_at_S _ _ _ Ho). apply all_some_Forall2 in Hs.
  rewrite (Forall2_all_some _ _ sub); [done|].
  assert (Hsub : forall k c, (k, inl c) ∈ sub -> height c <= m).
  { intros k c Hin. eapply height_sub in Hin. revert Hm. etransitivity; [|done]. apply le_S_n. etransitivity; [exact Hin|exact Hm]. }
  clear Hm Ho. induction Hs as [|[k v] e l r He H IHr]; constructor.
  - destruct v; try exact He. simpl in *. destruct (ta n s o0) as [tc|] eqn:Hc; [|done]. injection He as <-.
    rewrite (IH o0 tc m Hc); [done|]. apply (Hsub (kstr k)). left.
  - apply IHr. intros k' c Hin. apply (Hsub k'). by right.
Qed.
Lemma tree_at_chain n : forall x t, ta n s x = Some t ->
  exists L, NoDup L /\ length L = height t /\ Forall (fun y => is_Some (nodes s !! y) /\ exists ty m, ta m s y = Some ty /\ height ty <= height t) L.
Proof.
  induction n as [|n IH]; intros x t; [done|]. destruct (nodes s !! x) as [o|] eqn:Ho; [|simpl; by rewrite Ho].
  intros Ht. pose proof Ht as Ht0. rewrite (tree_at_S _ _ _ Ho) in Ht. destruct (all_some _) as [sub|] eqn:Hs; [|done].
  remember (_ +:+ _) as h. remember (bool_decide _) as b. injection Ht as <-.
  assert (Hx : is_Some (nodes s !! x) /\ exists ty m, ta m s x = Some ty /\ height ty <= height (TTree h b sub)).
  { split; [done|]. by eexists _, (S n). }
  destruct (height_max h b sub) as [E|(k & c & Hin & E)].
  - exists [x]. split; [apply NoDup_singleton|]. split; [by rewrite E|]. constructor; [done|constructor].
  - apply all_some_Forall2 in Hs.
    assert (Hc : exists y, ta n s y = Some c).
    { clear -Hs Hin. induction Hs as [|[k' v] e l r He H IHr]; [by apply elem_of_nil in Hin|].
      apply elem_of_cons in Hin as [<-|Hin]; [|by apply IHr]. simpl in He. destruct v; try done. exists o.
      destruct (ta n s o); [|done]. by injection He as _ ->. }
    destruct Hc as [y Hc]. destruct (IH _ _ Hc) as (L & ND & Hl & HL). exists (x :: L). split; [|split].
    + apply NoDup_cons. split; [|done]. intros HxL. rewrite Forall_forall in HL. destruct (HL _ HxL) as (_ & ty & m & Hm & Hh).
      assert (ty = TTree h b sub) as ->; [|lia].
      pose proof (tree_at_height _ _ _ (max m (S n)) Ht0) as H1. pose proof (tree_at_height _ _ _ (height ty + height (TTree h b sub)) Hm) as H2.
      pose proof (tree_at_height _ _ _ (height ty + height (TTree h b sub)) Ht0) as H3. rewrite H2 in H3 by lia. assert (Some ty = Some (TTree h b sub)) as [= ->] by (apply H3; lia). done.
    + simpl length. by rewrite Hl, E.
    + constructor; [done|]. eapply Forall_impl; [exact HL|]. intros z (Hz & tz & m & Hm & Hh). split; [done|]. exists tz, m. split; [done|lia].
Qed.
Lemma tree_at_fuel n x t : ta n s x = Some t -> ta (fuel_of s) s x = Some t.
Proof.
  intros Ht. apply (tree_at_height n); [done|]. destruct (tree_at_chain _ _ _ Ht) as (L & ND & <- & HL).
  unfold fuel_of. rewrite <- (size_dom (D := gset nat)). apply le_S.
  rewrite <- (size_list_to_set (C := gset nat) L ND). apply subseteq_size. intros y. rewrite elem_of_list_to_set, elem_of_dom.
  intros Hy. rewrite Forall_forall in HL. apply (HL _ Hy).
Qed.
Lemma tree_keys n x h b sub : wf s -> (forall t, kstr (KStr t) = t) -> (forall k v, (k, v) ∈ entries_at s x -> exists t, k = KStr t) ->
  ta n s x = Some (TTree h b sub) -> map fst sub = map (fun e => kstr (fst e)) (entries_at s x) /\ NoDup (map fst sub).
Proof.
  intros W Hk Hs Ht. destruct n as [|n]; [done|]. destruct (nodes s !! x) as [o|] eqn:Ho; [|simpl in Ht; by rewrite Ho in Ht].
  rewrite (tree_at_S _ _ _ Ho) in Ht. destruct (all_some _) as [sub'|] eqn:Hs'; [|done]. injection Ht as _ _ <-.
  apply all_some_Forall2 in Hs'.
  assert (E : map fst sub' = map (fun e => kstr (fst e)) (entries_at s x)).
  { clear -Hs'. induction Hs' as [|[k v] e l r He H IHr]; simpl; [done|]. rewrite IHr. f_equal.
    simpl in He. destruct v; try (injection He as <-; done). destruct (ta n s o); [|done]. by injection He as <-. }
  split; [done|]. rewrite E. pose proof (entries_nodup s x W) as Hn. revert Hn Hs. generalize (entries_at s x). clear -Hk.
  induction l as [|[k v] l IH]; simpl; [constructor|]. intros [H1 H2]%NoDup_cons Hs. constructor; [|apply IH; [done|]; intros; eapply Hs; by right].
  intros Hin. apply elem_of_list_fmap in Hin as ([k' v'] & Hkk & Hin). simpl in Hkk.
  destruct (Hs k v) as [t ->]; [left|]. destruct (Hs k' v') as [t' ->]; [by right|]. rewrite !Hk in Hkk. subst t'.
  apply H1. unfold dkeys. apply elem_of_list_fmap. by exists (KStr t, v').
Qed.
End fuel.

Lemma treerepr_text kstr vrepr s x ind pre n t : wf s -> all_tree_classes s -> spaces_apart s -> tree_at kstr vrepr n s x = Some t ->
  exists s', same_world s s' /\
    with_fuel (fun f => treerepr kstr vrepr f x ind pre) s = (Ret (text_of ind pre (lines 0 t)), s').
Proof.
  intros W Ha Hs Ht. apply tree_at_fuel in Ht.
  destruct (treerepr_prints kstr vrepr s ind pre Ha Hs (fuel_of s) x 0 t s Ht (eqv_refl s) W) as (s' & E & Q & _).
  exists s'. split; [by apply same_world_eqv|]. unfold with_fuel. rewrite <- E. simpl. by rewrite Nat.add_0_r.
Qed.
Lemma treerepr_canonical kstr vrepr s x t s' x' t' n n' ind pre :
  wf s -> all_tree_classes s -> spaces_apart s -> tree_at kstr vrepr n s x = Some t ->
  wf s' -> all_tree_classes s' -> spaces_apart s' -> tree_at kstr vrepr n' s' x' = Some t' ->
  same_tree t t' ->
  fst (with_fuel (fun f => treerepr kstr vrepr f x ind pre) s) =
  fst (with_fuel (fun f => treerepr kstr vrepr f x' ind pre) s').
Proof.
  intros W Ha Hs Ht W' Ha' Hs' Ht' Hst.
  destruct (treerepr_text kstr vrepr s x ind pre n t W Ha Hs Ht) as (s1 & _ & ->).
  destruct (treerepr_text kstr vrepr s' x' ind pre n' t' W' Ha' Hs' Ht') as (s2 & _ & ->).
  simpl. by rewrite (same_tree_lines _ _ Hst).
Qed.
Lemma sort_spec {A} (l : list (string * A)) :
  Permutation (sort_by_text l) l /\
  StronglySorted (fun a b => text_le (fst a) (fst b)) (sort_by_text l) /\
  forall t, filter (fun e => fst e = t) (sort_by_text l) = filter (fun e => fst e = t) l.
Proof.
  split; [apply sort_perm|]. split; [|intros; apply sort_stable].
  pose proof (sort_sorted l) as H. induction H as [|a l' Hs IH Ha]; [constructor|]. constructor; [done|].
  eapply Forall_impl; [exact Ha|]. intros b Hb. by apply str_leb_spec.
Qed.
(** a check for concrete states *)
Definition apartb (s : st) : bool :=
  forallb (fun xo : nat * obj => forallb (fun e => negb (nskey (c_behs (o_cls (snd xo))) (fst e))) (entries_at s (fst xo))) (map_to_list (nodes s)).
Lemma apartb_spec s : apartb s = true -> spaces_apart s.
Proof.
  intros H x cls k v Hc Hin. unfold apartb in H. rewrite forallb_forall in H.
  unfold class_of in Hc. destruct (nodes s !! x) as [o|] eqn:Ho; [|done]. injection Hc as <-.
  specialize (H (x, o)). simpl in H. rewrite <- elem_of_list_In, elem_of_map_to_list in H. specialize (H Ho).
  rewrite forallb_forall in H. rewrite elem_of_list_In in Hin. specialize (H _ Hin). simpl in H.
  apply negb_true_iff, nskey_dunder_false in H. exact H.
Qed.
