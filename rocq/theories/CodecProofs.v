(** Properties of StrCodec. *)
From Verif Require Import Py Codec.

Lemma Forall2_elem_of_r {A B} (P : A -> B -> Prop) l r y : Forall2 P l r -> y ∈ r -> exists x, x ∈ l /\ P x y.
Proof.
  induction 1 as [|a b l r H F IH]; [by intros ?%elem_of_nil|]. intros [->|Hy]%elem_of_cons; [exists a; split; [left|done]|].
  destruct (IH Hy) as (x & ? & ?). exists x. split; [by right|done].
Qed.

Ltac ffa := repeat match goal with H : Forall _ _ |- _ => rewrite Forall_forall in H end; try apply Forall_forall.

Section proofs.
Context (text bytes : Type) `{EqDecision text, EqDecision bytes}.
Context (enc : text -> option bytes) (dec : bytes -> option text).
Notation data := (data text bytes).
Notation decode := (decode text bytes dec).
Notation encode := (encode text bytes enc dec).
Notation hashes := (hashes text bytes).
Notation key_eqb := (key_eqb text bytes).
Notation item_set := (item_set text bytes).
Notation dict_from := (dict_from text bytes).
Notation map_with := (map_with text bytes).
Notation items_with := (items_with text bytes).
Arguments DText {text bytes}. Arguments DBytes {text bytes}. Arguments DOther {text bytes}.
Arguments DList {text bytes}. Arguments DTuple {text bytes}. Arguments DDict {text bytes}. Arguments DNode {text bytes}.

Section ind.
  Context (P : data -> Prop).
  Context (H1 : forall t, P (DText t)) (H2 : forall b, P (DBytes b)) (H3 : forall n h, P (DOther n h)).
  Context (H4 : forall l, Forall P l -> P (DList l)) (H5 : forall l, Forall P l -> P (DTuple l)).
  Context (H6 : forall l, Forall (fun e => P (fst e) /\ P (snd e)) l -> P (DDict l)).
  Context (H7 : forall n l, Forall (fun e => P (fst e) /\ P (snd e)) l -> P (DNode n l)).
  Fixpoint data_ind' (x : data) : P x :=
    let go := fix go l : Forall P l := match l with [] => Forall_nil_2 _ | a :: r => Forall_cons_2 _ _ _ (data_ind' a) (go r) end in
    let go2 := fix go l : Forall (fun e => P (fst e) /\ P (snd e)) l :=
      match l with [] => Forall_nil_2 _ | a :: r => Forall_cons_2 _ _ _ (conj (data_ind' (fst a)) (data_ind' (snd a))) (go r) end in
    match x with
    | DText t => H1 t | DBytes b => H2 b | DOther n h => H3 n h
    | DList l => H4 l (go l) | DTuple l => H5 l (go l) | DDict l => H6 l (go2 l) | DNode n l => H7 n l (go2 l)
    end.
End ind.

(** structures usable as dict keys after a conversion: no nodes *)
Fixpoint keyish (x : data) : bool :=
  match x with
  | DText _ | DBytes _ => true
  | DOther _ h => h
  | DTuple l => forallb keyish l
  | _ => false
  end.
Lemma keyish_hashes x : keyish x = true -> hashes x = true.
Proof.
  induction x as [| | | |l IH| |] using data_ind'; simpl; try done.
  rewrite !forallb_forall. intros H a Ha. rewrite Forall_forall in IH. apply IH; [by apply elem_of_list_In|auto].
Qed.
Lemma key_eqb_eq x : forall y, keyish x = true -> keyish y = true -> key_eqb x y = true <-> x = y.
Proof.
  induction x as [t|b|n h| |l IH| |] using data_ind'; intros y; destruct y as [t'|b'|n' h'|l'|l'|l'|m' l'];
    simpl; intros K1 K2; try done; try (rewrite bool_decide_eq_true; split; [by intros ->|by intros [= ->]]).
  - subst. rewrite bool_decide_eq_true. split; [by intros ->|by intros [= ->]].
  - revert l' K2. induction l as [|a l IHl]; intros [|b r] K2; simpl; try done.
    simpl in *. apply andb_prop in K1 as [K1 K1'], K2 as [K2 K2']. apply Forall_cons in IH as [Ha IH].
    rewrite andb_true_iff, (Ha b K1 K2), (IHl IH K1' r K2'). split; [by intros [-> [= ->]]|by intros [= -> ->]].
Qed.

(** * The loops *)
Lemma map_with_Ok f l r : map_with f l = Ok r <-> Forall2 (fun x y => f x = Ok y) l r.
Proof.
  revert r. induction l as [|x l IH]; intros r; simpl.
  - split; [intros [= <-]; constructor|intros H; by inversion H].
  - unfold cbind. split.
    + destruct (f x) eqn:E; [|done]. destruct (map_with f l) eqn:E2; [|done]. intros [= <-]. constructor; [done|by apply IH].
    + intros H. inversion H as [|? y ? ys Hx Hl]; subst. rewrite Hx. apply IH in Hl. fold (map_with f l). by rewrite Hl.
Qed.
Lemma items_with_Ok f l r : items_with f l = Ok r <-> Forall2 (fun x y => f (fst x) = Ok (fst y) /\ f (snd x) = Ok (snd y)) l r.
Proof.
  revert r. induction l as [|[k v] l IH]; intros r; simpl.
  - split; [intros [= <-]; constructor|intros H; by inversion H].
  - unfold cbind. fold (items_with f l). split.
    + destruct (f k) eqn:E; [|done]. destruct (f v) eqn:E1; [|done]. destruct (items_with f l) eqn:E2; [|done].
      intros [= <-]. constructor; [done|by apply IH].
    + intros H. inversion H as [|? [k' v'] ? ys [Hk Hv] Hl]; subst. simpl in *. rewrite Hk, Hv. apply IH in Hl. by rewrite Hl.
Qed.

Lemma item_set_in k v l e : e ∈ item_set k v l -> e ∈ l \/ snd e = v /\ (fst e = k \/ fst e ∈ map fst l).
Proof.
  induction l as [|[k' v'] l IH]; simpl; [intros ->%elem_of_list_singleton; right; naive_solver|].
  destruct (key_eqb k' k).
  - intros [->|H]%elem_of_cons; [right|left; by right]. split; [done|]. right. left.
  - intros [->|H]%elem_of_cons; [left; left|]. destruct (IH H) as [?|[? [?|?]]]; [left; by right|right; auto..].
    split; [done|]. right. by right.
Qed.
Lemma item_set_keys_in k v l a : a ∈ map fst (item_set k v l) -> a = k \/ a ∈ map fst l.
Proof.
  induction l as [|[k' v'] l IH]; simpl; [intros ->%elem_of_list_singleton; auto|].
  destruct (key_eqb k' k); simpl; [auto|]. intros [->|H]%elem_of_cons; [right; left|]. destruct (IH H); [auto|right; by right].
Qed.
(** every entry of a built dict has its key and its value from the pairs or the accumulator *)
Lemma dict_from_sub l : forall acc d, dict_from l acc = Ok d ->
  (forall a, a ∈ map fst d -> a ∈ map fst l \/ a ∈ map fst acc) /\ (forall a, a ∈ map snd d -> a ∈ map snd l \/ a ∈ map snd acc).
Proof.
  induction l as [|[k v] l IH]; simpl; intros acc d E; [injection E as <-; set_solver|].
  destruct (hashes k); [|done]. apply IH in E as [E1 E2]. split.
  - intros a Ha. destruct (E1 a Ha) as [?|[->|?]%item_set_keys_in]; set_solver.
  - intros a Ha. destruct (E2 a Ha) as [?|Hin]; [set_solver|].
    apply elem_of_list_fmap in Hin as (e & -> & He). apply item_set_in in He as [He|[He _]].
    + right. apply elem_of_list_fmap. eauto.
    + left. rewrite He. left.
Qed.
Lemma dict_from_hashes l : forall acc d, dict_from l acc = Ok d -> Forall (fun a => hashes a = true) (map fst l).
Proof.
  induction l as [|[k v] l IH]; simpl; intros acc d E; [constructor|].
  destruct (hashes k) eqn:Hk; [|done]. constructor; eauto.
Qed.
Lemma dict_from_keys l acc d : dict_from l acc = Ok d -> Forall (fun a => hashes a = true) (map fst acc) ->
  Forall (fun a => hashes a = true) (map fst d).
Proof.
  intros E Ha. pose proof (dict_from_hashes _ _ _ E) as Hl. apply dict_from_sub in E as [E _].
  ffa. intros a Hd. destruct (E a Hd); auto.
Qed.

Lemma item_set_notin k v l : Forall (fun a => keyish a = true) (map fst l) -> keyish k = true -> k ∉ map fst l -> item_set k v l = l ++ [(k, v)].
Proof.
  induction l as [|[k' v'] l IH]; simpl; [done|]. intros [K1 K2]%Forall_cons Kk Hn.
  destruct (key_eqb k' k) eqn:E; [apply key_eqb_eq in E; [set_solver|done..]|]. rewrite IH; [done|done|done|set_solver].
Qed.
Lemma dict_from_id l : forall acc, Forall (fun a => keyish a = true) (map fst (acc ++ l)) -> NoDup (map fst (acc ++ l)) ->
  dict_from l acc = Ok (acc ++ l).
Proof.
  induction l as [|[k v] l IH]; simpl; intros acc K ND; [by rewrite app_nil_r|].
  rewrite map_app in K, ND. simpl in *. apply Forall_app in K as [K1 [Kk K2]%Forall_cons].
  rewrite keyish_hashes by done. rewrite item_set_notin; [|done|done|].
  2: { apply NoDup_app in ND as (_ & H & _). intros Hin. apply (H _ Hin). left. }
  rewrite IH; rewrite <- app_assoc; simpl; [done|rewrite map_app; simpl; rewrite Forall_app; split; [done|by constructor]|by rewrite map_app].
Qed.
Lemma item_set_nodup k v l : Forall (fun a => keyish a = true) (map fst l) -> keyish k = true -> NoDup (map fst l) ->
  NoDup (map fst (item_set k v l)) /\ Forall (fun a => keyish a = true) (map fst (item_set k v l)).
Proof.
  intros K Kk. induction l as [|[k' v'] l IH]; simpl in *; intros ND.
  { split; [apply NoDup_singleton|by constructor]. }
  apply NoDup_cons in ND as [N1 N2]. apply Forall_cons in K as [K1 K2].
  destruct (key_eqb k' k) eqn:E; simpl.
  { split; constructor; done. }
  destruct (IH K2 N2) as [I1 I2]. split; constructor; try done.
  intros [->|H]%item_set_keys_in; [|done]. assert (key_eqb k k = true) by (by apply key_eqb_eq). congruence.
Qed.
Lemma dict_from_nodup l : forall acc d, dict_from l acc = Ok d -> Forall (fun a => keyish a = true) (map fst l) ->
  Forall (fun a => keyish a = true) (map fst acc) -> NoDup (map fst acc) -> NoDup (map fst d) /\ Forall (fun a => keyish a = true) (map fst d).
Proof.
  induction l as [|[k v] l IH]; simpl; intros acc d E Kl Ka ND; [by injection E as <-|].
  apply Forall_cons in Kl as [Kk Kl]. destruct (hashes k); [|done].
  destruct (item_set_nodup k v acc Ka Kk ND) as [N1 N2]. by apply (IH _ _ E).
Qed.

(** * Conversions leave no nodes in keys *)
Lemma decode_keyish soft x : forall z, decode soft x = Ok z -> hashes z = true -> keyish z = true.
Proof.
  induction x as [t|b|n h|l IH|l IH|l IH|n l IH] using data_ind'; simpl; intros z.
  - by intros [= <-].
  - destruct (dec b); [by intros [= <-]|]. destruct soft; [by intros [= <-]|done].
  - by intros [= <-].
  - unfold cbind. destruct (map_with _ l); [by intros [= <-]|done].
  - unfold cbind. destruct (map_with _ l) as [r|] eqn:E; [intros [= <-]|done]. simpl.
    apply map_with_Ok in E. rewrite !forallb_forall. intros Hh a Ha. apply elem_of_list_In in Ha as Ha'.
    destruct (Forall2_elem_of_r _ _ _ _ E Ha') as (x & Hx & Ex). rewrite Forall_forall in IH. eauto.
  - unfold cbind. destruct (items_with _ l); [|done]. destruct (dict_from _ _); [by intros [= <-]|done].
  - unfold cbind. destruct (items_with _ l); [|done]. destruct (dict_from _ _); [by intros [= <-]|done].
Qed.

(** * Encoded structures *)
Context (inverts : forall t b, enc t = Some b -> dec b = Some t).
Context (soft : bool).

Inductive encoded : data -> Prop :=
| e_bytes b : (forall t, dec b = Some t -> enc t = Some b) -> (dec b = None -> soft = true) -> encoded (DBytes b)
| e_other n h : encoded (DOther n h)
| e_list l : Forall encoded l -> encoded (DList l)
| e_tuple l : Forall encoded l -> encoded (DTuple l)
| e_dict l : Forall (fun e => encoded (fst e) /\ encoded (snd e)) l -> Forall (fun a => keyish a = true) (map fst l) ->
    NoDup (map fst l) -> encoded (DDict l).

Lemma encoded_keyish x : encoded x -> hashes x = true -> keyish x = true.
Proof.
  induction x as [t|b|n h|l IH|l IH|l IH|n l IH] using data_ind'; intros E; inversion E; subst; simpl; try done.
  rewrite !forallb_forall. intros Hh a Ha. ffa. apply elem_of_list_In in Ha as Ha'. auto.
Qed.
Lemma enc_text_encoded t y : enc_text text bytes enc t = Ok y -> encoded y.
Proof using inverts.
  unfold enc_text. destruct (enc t) as [b|] eqn:E; [|done]. intros [= <-]. constructor.
  - intros t' Ht. rewrite (inverts _ _ E) in Ht. congruence.
  - rewrite (inverts _ _ E). done.
Qed.
Lemma dict_encoded (l : list (data * data)) d : Forall (fun e => encoded (fst e) /\ encoded (snd e)) l -> dict_from l [] = Ok d -> encoded (DDict d).
Proof.
  intros Hl E. assert (Forall (fun a => keyish a = true) (map fst l)) as Kl.
  { pose proof (dict_from_hashes _ _ _ E) as Hh. rewrite Forall_forall in Hh. rewrite Forall_forall in Hl. apply Forall_forall. intros a Ha.
    pose proof (Hh a Ha). apply elem_of_list_fmap in Ha as (e & -> & He). destruct (Hl e He). by apply encoded_keyish. }
  destruct (dict_from_nodup l [] d E Kl) as [N K]; [constructor|constructor|].
  constructor; [|done|done]. apply dict_from_sub in E as [E1 E2]. rewrite Forall_forall in Hl. apply Forall_forall. intros e He. split.
  - destruct (E1 (fst e)) as [H|H]; [apply elem_of_list_fmap; eauto| |by apply elem_of_nil in H].
    apply elem_of_list_fmap in H as (e' & -> & He'). by apply Hl.
  - destruct (E2 (snd e)) as [H|H]; [apply elem_of_list_fmap; eauto| |by apply elem_of_nil in H].
    apply elem_of_list_fmap in H as (e' & -> & He'). by apply Hl.
Qed.
Lemma items_encoded (l r : list (data * data)) :
  Forall (fun e => (forall y, encode soft (fst e) = Ok y -> encoded y) /\ (forall y, encode soft (snd e) = Ok y -> encoded y)) l ->
  Forall2 (fun x y => encode soft (fst x) = Ok (fst y) /\ encode soft (snd x) = Ok (snd y)) l r ->
  Forall (fun e => encoded (fst e) /\ encoded (snd e)) r.
Proof.
  intros IH E. apply Forall_forall. intros y Hy. destruct (Forall2_elem_of_r _ _ _ _ E Hy) as (x & Hx & E1 & E2).
  rewrite Forall_forall in IH. destruct (IH x Hx). auto.
Qed.
Lemma encode_encoded x : forall y, encode soft x = Ok y -> encoded y.
Proof using inverts.
  induction x as [t|b|n h|l IH|l IH|l IH|n l IH] using data_ind'; simpl; intros y.
  - apply enc_text_encoded.
  - destruct (dec b) eqn:E; [apply enc_text_encoded|]. destruct soft eqn:Es; [|done]. intros [= <-]. constructor; [congruence|done].
  - intros [= <-]. constructor.
  - unfold cbind. destruct (map_with _ l) as [r|] eqn:E; [intros [= <-]|done]. constructor. apply map_with_Ok in E.
    apply Forall_forall. intros a Ha. destruct (Forall2_elem_of_r _ _ _ _ E Ha) as (x & Hx & Ex). rewrite Forall_forall in IH. eauto.
  - unfold cbind. destruct (map_with _ l) as [r|] eqn:E; [intros [= <-]|done]. constructor. apply map_with_Ok in E.
    apply Forall_forall. intros a Ha. destruct (Forall2_elem_of_r _ _ _ _ E Ha) as (x & Hx & Ex). rewrite Forall_forall in IH. eauto.
  - unfold cbind. destruct (items_with _ l) as [r|] eqn:E; [|done]. destruct (dict_from r []) as [d|] eqn:Ed; [|done].
    intros [= <-]. apply items_with_Ok in E. eapply dict_encoded; [|done]. by eapply items_encoded.
  - unfold cbind. destruct (items_with _ l) as [r|] eqn:E; [|done]. destruct (dict_from r []) as [d|] eqn:Ed; [|done].
    intros [= <-]. apply items_with_Ok in E. eapply dict_encoded; [|done]. by eapply items_encoded.
Qed.
Lemma encode_id y : encoded y -> encode soft y = Ok y.
Proof.
  induction y as [t|b|n h|l IH|l IH|l IH|n l IH] using data_ind'; intros E; inversion E as [b' E1 E2| |l' E1|l' E1|l' E1 E2 E3]; subst; simpl; try done.
  - destruct (dec b) as [t|] eqn:Eb; [unfold enc_text; by rewrite (E1 _ eq_refl)|by rewrite E2].
  - assert (map_with (encode soft) l = Ok l) as ->; [|done]. apply map_with_Ok. apply Forall_Forall2_diag.
    ffa. auto.
  - assert (map_with (encode soft) l = Ok l) as ->; [|done]. apply map_with_Ok. apply Forall_Forall2_diag.
    ffa. auto.
  - assert (items_with (encode soft) l = Ok l) as ->.
    { apply items_with_Ok. apply Forall_Forall2_diag. ffa. intros e He. destruct (IH e He), (E1 e He). auto. }
    simpl. by rewrite (dict_from_id l []).
Qed.
Lemma encode_idempotent x y : encode soft x = Ok y -> encode soft y = Ok y.
Proof using inverts. intros E. by apply encode_id, (encode_encoded x). Qed.

(** * Decoding encoded structures *)
Lemma decode_total y : encoded y -> exists z, decode soft y = Ok z /\ (keyish y = true -> keyish z = true).
Proof using inverts.
  induction y as [t|b|n h|l IH|l IH|l IH|n l IH] using data_ind'; intros E; inversion E as [b' E1 E2| |l' E1|l' E1|l' E1 E2 E3]; subst; simpl.
  - destruct (dec b) eqn:Eb; [eauto|]. rewrite E2 by done. eauto.
  - eauto.
  - assert (exists r, Forall2 (fun x y => decode soft x = Ok y) l r) as [r Hr].
    { clear E. induction l as [|x l IHl]; [eexists; constructor|]. apply Forall_cons in IH as [I1 I2], E1 as [F1 F2].
      destruct (I1 F1) as (z & Hz & _), (IHl I2 F2) as (r & Hr). eexists. by constructor. }
    apply map_with_Ok in Hr. rewrite Hr. simpl. eexists. split; [reflexivity|]. done.
  - assert (exists r, Forall2 (fun x y => decode soft x = Ok y) l r /\ (forallb keyish l = true -> forallb keyish r = true)) as (r & Hr & Hk).
    { clear E. induction l as [|x l IHl]; [eexists; split; [constructor|done]|]. apply Forall_cons in IH as [I1 I2], E1 as [F1 F2].
      destruct (I1 F1) as (z & Hz & Kz), (IHl I2 F2) as (r & Hr & Kr). exists (z :: r). split; [by constructor|]. simpl.
      rewrite !andb_true_iff. naive_solver. }
    apply map_with_Ok in Hr. rewrite Hr. simpl. eexists. split; [reflexivity|]. done.
  - assert (exists r, Forall2 (fun x y => decode soft (fst x) = Ok (fst y) /\ decode soft (snd x) = Ok (snd y)) l r /\
      Forall (fun a => keyish a = true) (map fst r)) as (r & Hr & Hk).
    { clear E E3. induction l as [|[k v] l IHl]; [eexists; split; [constructor|constructor]|]. simpl in *.
      apply Forall_cons in IH as [[Ik Iv] I2], E1 as [[Fk Fv] F2], E2 as [K1 K2]. simpl in *.
      destruct (Ik Fk) as (k' & Hk & Kk), (Iv Fv) as (v' & Hv & _), (IHl I2 F2 K2) as (r & Hr & Kr).
      exists ((k', v') :: r). split; [by constructor|]. simpl. constructor; auto. }
    apply items_with_Ok in Hr. rewrite Hr. simpl.
    assert (exists d, dict_from r [] = Ok d) as [d ->]; [|simpl; eexists; split; [reflexivity|done]].
    clear -Hk. generalize ([] : list (data * data)). induction r as [|[k v] r IH]; simpl; intros acc; [eauto|].
    simpl in Hk. apply Forall_cons in Hk as [K1 K2]. rewrite keyish_hashes by done. by apply IH.
Qed.
Lemma decode_inj y1 : forall y2 z, encoded y1 -> encoded y2 -> keyish y1 = true -> keyish y2 = true ->
  decode soft y1 = Ok z -> decode soft y2 = Ok z -> y1 = y2.
Proof using inverts.
  induction y1 as [t|b|n h|l IH|l IH|l IH|n l IH] using data_ind'; intros y2 z E1 E2 K1 K2;
    inversion E1 as [b1 A1 A2|n1 h1|l1 A1|l1 A1|l1 A1 A2 A3]; subst; try done;
    inversion E2 as [b2 B1 B2|n2 h2|l2 B1|l2 B1|l2 B1 B2 B3]; subst; try done; simpl.
  - destruct (dec b) as [t|] eqn:D1, (dec b2) as [t2|] eqn:D2; intros H1 H2.
    + assert (t = t2) by congruence. subst t2. specialize (A1 t eq_refl). specialize (B1 t eq_refl). congruence.
    + destruct soft; congruence.
    + destruct soft; congruence.
    + destruct soft; congruence.
  - destruct (dec b); [congruence|]. destruct soft; congruence.
  - unfold cbind. intros H1. destruct (map_with _ l2); [|done]. destruct (dec b); [congruence|]. destruct soft; congruence.
  - destruct (dec b2); [congruence|]. destruct soft; congruence.
  - congruence.
  - unfold cbind. intros H1. destruct (map_with _ l2); [|done]. congruence.
  - unfold cbind. intros H1 H2. destruct (map_with _ l); [|done]. destruct (dec b2); [congruence|]. destruct soft; congruence.
  - unfold cbind. intros H1 H2. destruct (map_with _ l); [|done]. congruence.
  - unfold cbind. destruct (map_with _ l) as [r1|] eqn:D1; [intros [= <-]|done].
    destruct (map_with _ l2) as [r2|] eqn:D2; [intros [= ->]|done]. apply map_with_Ok in D1, D2. f_equal.
    clear E1 E2. simpl in K1, K2. revert l2 r1 D1 D2 A1 B1 K1 K2.
    induction l as [|a l IHl]; intros l2 r D1 D2 A1 B1 K1 K2; inversion D1; subst; inversion D2; subst; [done|].
    apply Forall_cons in IH as [I1 I2], A1 as [A1 A2], B1 as [B1 B2]. simpl in K1, K2. apply andb_prop in K1 as [K1 K1'], K2 as [K2 K2'].
    f_equal; eauto.
Qed.

Definition dec_pair (x y : data * data) : Prop := decode soft (fst x) = Ok (fst y) /\ decode soft (snd x) = Ok (snd y).
Lemma keyish_dec x y : encoded x -> keyish x = true -> decode soft x = Ok y -> keyish y = true.
Proof using inverts. intros E K D. destruct (decode_total x E) as (z & Dz & Kz). rewrite D in Dz. injection Dz as <-. auto. Qed.
Lemma key_eqb_dec x1 x2 y1 y2 : encoded x1 -> encoded x2 -> keyish x1 = true -> keyish x2 = true ->
  decode soft x1 = Ok y1 -> decode soft x2 = Ok y2 -> key_eqb x1 x2 = key_eqb y1 y2.
Proof using inverts.
  intros E1 E2 K1 K2 D1 D2. pose proof (keyish_dec _ _ E1 K1 D1). pose proof (keyish_dec _ _ E2 K2 D2).
  apply eq_true_iff_eq. rewrite !key_eqb_eq by done. split; [congruence|]. intros ->. by eapply decode_inj.
Qed.
Lemma item_set_dec k v k' v' acc acc' : encoded k -> keyish k = true -> decode soft k = Ok k' -> decode soft v = Ok v' ->
  Forall (fun a => encoded a) (map fst acc) -> Forall (fun a => keyish a = true) (map fst acc) ->
  Forall2 dec_pair acc acc' -> Forall2 dec_pair (item_set k v acc) (item_set k' v' acc').
Proof using inverts.
  intros Ek Kk Dk Dv Ea Ka F. induction F as [|[a b] [a' b'] acc acc' [H1 H2] F IH]; simpl in *; [by repeat constructor|].
  apply Forall_cons in Ea as [Ea1 Ea2], Ka as [Ka1 Ka2]. rewrite (key_eqb_dec a k a' k') by done.
  destruct (key_eqb a' k'); constructor; try done; by apply IH.
Qed.
Lemma dict_from_dec l l' : Forall2 dec_pair l l' -> forall acc acc' d,
  Forall (fun a => encoded a) (map fst l) -> Forall (fun a => keyish a = true) (map fst l) ->
  Forall (fun a => encoded a) (map fst acc) -> Forall (fun a => keyish a = true) (map fst acc) -> NoDup (map fst acc) ->
  Forall2 dec_pair acc acc' -> dict_from l acc = Ok d -> exists d', dict_from l' acc' = Ok d' /\ Forall2 dec_pair d d'.
Proof using inverts.
  induction 1 as [|[k v] [k' v'] l l' [H1 H2] F IH]; simpl; intros acc acc' d El Kl Ea Ka ND Fa; [intros [= <-]; eauto|].
  apply Forall_cons in El as [Ek El], Kl as [Kk Kl]. rewrite keyish_hashes by done.
  rewrite (keyish_hashes k') by (by eapply keyish_dec). simpl in *.
  destruct (item_set_nodup k v acc Ka Kk ND) as [N1 N2]. apply IH; try done.
  - apply Forall_forall. intros a [->|Ha]%item_set_keys_in; [done|]. rewrite Forall_forall in Ea. auto.
  - by apply item_set_dec.
Qed.

Lemma dict_decode_encode l r d :
  Forall2 (fun x y => encode soft (fst x) = Ok (fst y) /\ encode soft (snd x) = Ok (snd y)) l r ->
  Forall (fun e => (forall y, encode soft (fst e) = Ok y -> exists z, decode soft (fst e) = Ok z /\ decode soft y = Ok z) /\
                   (forall y, encode soft (snd e) = Ok y -> exists z, decode soft (snd e) = Ok z /\ decode soft y = Ok z)) l ->
  dict_from r [] = Ok d -> exists z, (exists l', items_with (decode soft) l = Ok l' /\ dict_from l' [] = Ok z) /\ decode soft (DDict d) = Ok (DDict z).
Proof using inverts.
  intros E IH Ed.
  assert (exists l', Forall2 dec_pair l l' /\ Forall2 dec_pair r l') as (l' & F1 & F2).
  { clear Ed. induction E as [|x y l r [E1 E2] E IHE]; [exists []; split; constructor|].
    apply Forall_cons in IH as [[I1 I2] IH]. destruct (IHE IH) as (l' & F1 & F2).
    destruct (I1 _ E1) as (k & K1 & K2), (I2 _ E2) as (v & V1 & V2). exists ((k, v) :: l'). split; constructor; done. }
  assert (Forall (fun e => encoded (fst e) /\ encoded (snd e)) r) as Er.
  { apply Forall_forall. intros y Hy. destruct (Forall2_elem_of_r _ _ _ _ E Hy) as (x & Hx & E1 & E2). split; by eapply encode_encoded. }
  assert (Forall (fun a => encoded a) (map fst r)) as Er1.
  { apply Forall_forall. intros a (e & -> & He)%elem_of_list_fmap. rewrite Forall_forall in Er. by apply Er. }
  assert (Forall (fun a => keyish a = true) (map fst r)) as Kr.
  { pose proof (dict_from_hashes _ _ _ Ed) as Hh. ffa. intros a Ha. apply encoded_keyish; auto. }
  destruct (dict_from_dec r l' F2 [] [] d) as (z & Ez & Fz); try constructor; try done.
  exists z. split. { exists l'. split; [by apply items_with_Ok|done]. }
  simpl. assert (items_with (decode soft) d = Ok z) as -> by (by apply items_with_Ok). simpl.
  pose proof (dict_encoded r d Er Ed) as Ec. inversion Ec as [| | | |? C1 C2 C3]; subst.
  assert (Forall (fun a => keyish a = true) (map fst z) /\ NoDup (map fst z)) as [Kz Nz].
  { clear -Fz C1 C2 C3 inverts. induction Fz as [|[k v] [k' v'] d z [H1 H2] F IH]; [split; constructor|]. simpl in *.
    apply Forall_cons in C1 as [[C1 _] C1'], C2 as [C2 C2']. apply NoDup_cons in C3 as [C3 C3']. simpl in *.
    destruct IH as [IH1 IH2]; try done. split; constructor; try done; [by eapply keyish_dec|].
    intros (e & -> & He)%elem_of_list_fmap. destruct (Forall2_elem_of_r _ _ _ _ F He) as (e0 & He0 & D & _). apply C3.
    apply elem_of_list_fmap. exists e0. split; [|done]. rewrite Forall_forall in C1'. rewrite Forall_forall in C2'.
    eapply decode_inj; try done; [by apply C1'|]. apply C2'. apply elem_of_list_fmap. eauto. }
  by rewrite (dict_from_id z []).
Qed.
Lemma decode_encode x : forall y, encode soft x = Ok y -> exists z, decode soft x = Ok z /\ decode soft y = Ok z.
Proof using inverts.
  induction x as [t|b|n h|l IH|l IH|l IH|n l IH] using data_ind'; simpl; intros y.
  - unfold enc_text. destruct (enc t) as [b|] eqn:E; [|done]. intros [= <-]. simpl. rewrite (inverts _ _ E). eauto.
  - destruct (dec b) as [t|] eqn:Eb.
    + unfold enc_text. destruct (enc t) as [b'|] eqn:E; [|done]. intros [= <-]. simpl. rewrite (inverts _ _ E). eauto.
    + destruct soft; [|done]. intros [= <-]. simpl. rewrite Eb. eauto.
  - intros [= <-]. simpl. eauto.
  - unfold cbind at 1. destruct (map_with _ l) as [r|] eqn:E; [intros [= <-]|done]. apply map_with_Ok in E.
    assert (exists zs, Forall2 (fun x y => decode soft x = Ok y) l zs /\ Forall2 (fun x y => decode soft x = Ok y) r zs) as (zs & Z1 & Z2).
    { induction E as [|a b l r E1 E IHE]; [exists []; split; constructor|]. apply Forall_cons in IH as [I1 I2].
      destruct (I1 _ E1) as (z & ? & ?), (IHE I2) as (zs & ? & ?). exists (z :: zs). split; by constructor. }
    apply map_with_Ok in Z1, Z2. simpl. rewrite Z1, Z2. simpl. eauto.
  - unfold cbind at 1. destruct (map_with _ l) as [r|] eqn:E; [intros [= <-]|done]. apply map_with_Ok in E.
    assert (exists zs, Forall2 (fun x y => decode soft x = Ok y) l zs /\ Forall2 (fun x y => decode soft x = Ok y) r zs) as (zs & Z1 & Z2).
    { induction E as [|a b l r E1 E IHE]; [exists []; split; constructor|]. apply Forall_cons in IH as [I1 I2].
      destruct (I1 _ E1) as (z & ? & ?), (IHE I2) as (zs & ? & ?). exists (z :: zs). split; by constructor. }
    apply map_with_Ok in Z1, Z2. simpl. rewrite Z1, Z2. simpl. eauto.
  - unfold cbind at 1. destruct (items_with _ l) as [r|] eqn:E; [|done]. unfold cbind at 1. destruct (dict_from r []) as [d|] eqn:Ed; [|done].
    intros [= <-]. apply items_with_Ok in E. destruct (dict_decode_encode l r d E IH Ed) as (z & (l' & L1 & L2) & Dz).
    exists (DDict z). rewrite L1. simpl. rewrite L2. simpl. done.
  - unfold cbind at 1. destruct (items_with _ l) as [r|] eqn:E; [|done]. unfold cbind at 1. destruct (dict_from r []) as [d|] eqn:Ed; [|done].
    intros [= <-]. apply items_with_Ok in E. destruct (dict_decode_encode l r d E IH Ed) as (z & (l' & L1 & L2) & Dz).
    exists (DDict z). rewrite L1. simpl. rewrite L2. simpl. done.
Qed.

(** * The leaves *)
Fixpoint leaves (x : data) : list data :=
  match x with
  | DText _ | DBytes _ | DOther _ _ => [x]
  | DList l | DTuple l => concat (map leaves l)
  | DDict l | DNode _ l => concat (map (fun e => leaves (fst e) ++ leaves (snd e)) l)
  end.
(** [x] becomes [y] by decoding, resp. encoding *)
Definition leaf_decoded (x y : data) : Prop :=
  match x with
  | DBytes b => match dec b with Some t => y = DText t | None => soft = true /\ y = x end
  | _ => y = x
  end.
Definition leaf_encoded (x y : data) : Prop :=
  match x with
  | DBytes b => match dec b with Some t => exists b', enc t = Some b' /\ y = DBytes b' | None => soft = true /\ y = x end
  | DText t => exists b, enc t = Some b /\ y = DBytes b
  | _ => y = x
  end.

Lemma elem_concat {A B} (f : A -> list B) l y : y ∈ concat (map f l) <-> exists x, x ∈ l /\ y ∈ f x.
Proof.
  induction l as [|a l IH]; simpl; [set_solver|]. rewrite elem_of_app, IH. split.
  - intros [?|(x & ? & ?)]; [exists a|exists x]; set_solver.
  - intros (x & [->|?]%elem_of_cons & ?); [by left|right; eauto].
Qed.
Lemma dict_leaves (l d : list (data * data)) y : dict_from l [] = Ok d -> y ∈ leaves (DDict d) -> y ∈ leaves (DDict l).
Proof.
  intros E. apply dict_from_sub in E as [E1 E2]. simpl. rewrite !elem_concat. intros (e & He & [Hy|Hy]%elem_of_app).
  - destruct (E1 (fst e)) as [H|H]; [apply elem_of_list_fmap; eauto| |by apply elem_of_nil in H].
    apply elem_of_list_fmap in H as (e' & Ee & He'). exists e'. split; [done|]. apply elem_of_app. left. congruence.
  - destruct (E2 (snd e)) as [H|H]; [apply elem_of_list_fmap; eauto| |by apply elem_of_nil in H].
    apply elem_of_list_fmap in H as (e' & Ee & He'). exists e'. split; [done|]. apply elem_of_app. right. congruence.
Qed.
Section conv.
  Context (f : data -> cres data) (R : data -> data -> Prop).
  Notation ok x := (forall z, f x = Ok z -> forall y, y ∈ leaves z -> exists x0, x0 ∈ leaves x /\ R x0 y).
  Lemma conv_list l r : Forall (fun x => ok x) l -> map_with f l = Ok r ->
    forall y, y ∈ concat (map leaves r) -> exists x0, x0 ∈ concat (map leaves l) /\ R x0 y.
  Proof.
    intros IH E y Hy. apply map_with_Ok in E. apply elem_concat in Hy as (z & Hz & Hy).
    destruct (Forall2_elem_of_r _ _ _ _ E Hz) as (x & Hx & Ex). rewrite Forall_forall in IH.
    destruct (IH x Hx z Ex y Hy) as (x0 & H1 & H2). exists x0. split; [|done]. apply elem_concat. eauto.
  Qed.
  Lemma conv_dict l r d : Forall (fun e => ok (fst e) /\ ok (snd e)) l -> items_with f l = Ok r -> dict_from r [] = Ok d ->
    forall y, y ∈ leaves (DDict d) -> exists x0, x0 ∈ leaves (DDict l) /\ R x0 y.
  Proof.
    intros IH E Ed y Hy. apply (dict_leaves r d) in Hy; [|done]. apply items_with_Ok in E. simpl in *.
    apply elem_concat in Hy as (z & Hz & Hy). destruct (Forall2_elem_of_r _ _ _ _ E Hz) as (x & Hx & E1 & E2).
    rewrite Forall_forall in IH. destruct (IH x Hx) as [I1 I2]. apply elem_of_app in Hy as [Hy|Hy].
    - destruct (I1 _ E1 y Hy) as (x0 & ? & ?). exists x0. split; [|done]. apply elem_concat. exists x. set_solver.
    - destruct (I2 _ E2 y Hy) as (x0 & ? & ?). exists x0. split; [|done]. apply elem_concat. exists x. set_solver.
  Qed.
End conv.
Lemma decode_leaves x : forall z, decode soft x = Ok z -> forall y, y ∈ leaves z -> exists x0, x0 ∈ leaves x /\ leaf_decoded x0 y.
Proof.
  induction x as [t|b|n h|l IH|l IH|l IH|n l IH] using data_ind'; simpl; intros z.
  - intros [= <-] y ->%elem_of_list_singleton. exists (DText t). split; [set_solver|done].
  - intros E y Hy. exists (DBytes b). split; [set_solver|]. simpl. destruct (dec b).
    + injection E as <-. by apply elem_of_list_singleton in Hy.
    + destruct soft; [|done]. injection E as <-. by apply elem_of_list_singleton in Hy.
  - intros [= <-] y ->%elem_of_list_singleton. exists (DOther n h). split; [set_solver|done].
  - unfold cbind. destruct (map_with _ l) as [r|] eqn:E; [intros [= <-]|done]. by eapply conv_list.
  - unfold cbind. destruct (map_with _ l) as [r|] eqn:E; [intros [= <-]|done]. by eapply conv_list.
  - unfold cbind. destruct (items_with _ l) as [r|] eqn:E; [|done]. destruct (dict_from r []) as [d|] eqn:Ed; [|done].
    intros [= <-]. by eapply (conv_dict (decode soft)).
  - unfold cbind. destruct (items_with _ l) as [r|] eqn:E; [|done]. destruct (dict_from r []) as [d|] eqn:Ed; [|done].
    intros [= <-]. by eapply (conv_dict (decode soft)).
Qed.
Lemma enc_text_leaf t z : enc_text text bytes enc t = Ok z -> exists b, enc t = Some b /\ z = DBytes b.
Proof. unfold enc_text. destruct (enc t) as [b|]; [|done]. intros [= <-]. eauto. Qed.
Lemma encode_leaves x : forall z, encode soft x = Ok z -> forall y, y ∈ leaves z -> exists x0, x0 ∈ leaves x /\ leaf_encoded x0 y.
Proof.
  induction x as [t|b|n h|l IH|l IH|l IH|n l IH] using data_ind'; simpl; intros z.
  - intros (b & E & ->)%enc_text_leaf y ->%elem_of_list_singleton. exists (DText t). split; [set_solver|simpl; eauto].
  - intros E y Hy. exists (DBytes b). split; [set_solver|]. simpl. destruct (dec b).
    + apply enc_text_leaf in E as (b' & E & ->). apply elem_of_list_singleton in Hy. eauto.
    + destruct soft; [|done]. injection E as <-. by apply elem_of_list_singleton in Hy.
  - intros [= <-] y ->%elem_of_list_singleton. exists (DOther n h). split; [set_solver|done].
  - unfold cbind. destruct (map_with _ l) as [r|] eqn:E; [intros [= <-]|done]. by eapply conv_list.
  - unfold cbind. destruct (map_with _ l) as [r|] eqn:E; [intros [= <-]|done]. by eapply conv_list.
  - unfold cbind. destruct (items_with _ l) as [r|] eqn:E; [|done]. destruct (dict_from r []) as [d|] eqn:Ed; [|done].
    intros [= <-]. by eapply (conv_dict (encode soft)).
  - unfold cbind. destruct (items_with _ l) as [r|] eqn:E; [|done]. destruct (dict_from r []) as [d|] eqn:Ed; [|done].
    intros [= <-]. by eapply (conv_dict (encode soft)).
Qed.

(** * When decoding fails *)
(** no dict key, at any depth, contains a node *)
Inductive plain_keys : data -> Prop :=
| pk_text t : plain_keys (DText t)
| pk_bytes b : plain_keys (DBytes b)
| pk_other n h : plain_keys (DOther n h)
| pk_list l : Forall plain_keys l -> plain_keys (DList l)
| pk_tuple l : Forall plain_keys l -> plain_keys (DTuple l)
| pk_dict l : Forall (fun e => keyish (fst e) = true /\ plain_keys (fst e) /\ plain_keys (snd e)) l -> plain_keys (DDict l)
| pk_node n l : Forall (fun e => keyish (fst e) = true /\ plain_keys (fst e) /\ plain_keys (snd e)) l -> plain_keys (DNode n l).

(** all bytes are readable, or unreadable ones are tolerated *)
Definition readable (x : data) : Prop := soft = true \/ forall b, DBytes b ∈ leaves x -> is_Some (dec b).

Lemma dict_from_total l : forall acc, Forall (fun e : data * data => keyish (fst e) = true) l -> exists d, dict_from l acc = Ok d.
Proof.
  induction l as [|[k v] l IH]; simpl; intros acc H; [eauto|]. apply Forall_cons in H as [K H]. simpl in K.
  rewrite keyish_hashes by done. by apply IH.
Qed.
Lemma readable_in (l : list data) x : readable (DList l) -> x ∈ l -> readable x.
Proof. intros [H|H] Hx; [by left|right]. intros b Hb. apply H. simpl. apply elem_concat. eauto. Qed.
Lemma readable_item (l : list (data * data)) e : readable (DDict l) -> e ∈ l -> readable (fst e) /\ readable (snd e).
Proof.
  intros [H|H] He; [split; by left|]. split; right; intros b Hb; apply H; simpl; apply elem_concat; exists e; set_solver.
Qed.
Lemma decode_succeeds : forall x, plain_keys x -> readable x -> exists z, decode soft x = Ok z /\ (keyish x = true -> keyish z = true).
Proof.
  assert (forall l, Forall (fun x => plain_keys x -> readable x -> exists z, decode soft x = Ok z /\ (keyish x = true -> keyish z = true)) l ->
    Forall plain_keys l -> (forall x, x ∈ l -> readable x) -> exists r, map_with (decode soft) l = Ok r /\ (forallb keyish l = true -> forallb keyish r = true)) as HL.
  { induction l as [|x l IHl]; intros IH P R; [exists []; done|]. apply Forall_cons in IH as [I1 I2], P as [P1 P2].
    destruct (I1 P1 (R x (elem_of_list_here _ _))) as (z & Ez & Kz).
    destruct (IHl I2 P2) as (r & Er & Kr). { intros y Hy. apply R. by right. }
    exists (z :: r). simpl. fold (map_with (decode soft) l). rewrite Ez. simpl. rewrite Er. simpl. split; [done|].
    rewrite !andb_true_iff. naive_solver. }
  assert (forall l, Forall (fun e => (plain_keys (fst e) -> readable (fst e) -> exists z, decode soft (fst e) = Ok z /\ (keyish (fst e) = true -> keyish z = true)) /\
      (plain_keys (snd e) -> readable (snd e) -> exists z, decode soft (snd e) = Ok z /\ (keyish (snd e) = true -> keyish z = true))) l ->
    Forall (fun e => keyish (fst e) = true /\ plain_keys (fst e) /\ plain_keys (snd e)) l -> (forall e, e ∈ l -> readable (fst e) /\ readable (snd e)) ->
    exists r, items_with (decode soft) l = Ok r /\ Forall (fun e : data * data => keyish (fst e) = true) r) as HD.
  { induction l as [|[k v] l IHl]; intros IH P R; [exists []; split; [done|constructor]|]. apply Forall_cons in IH as [[I1 I1'] I2], P as [(P0 & P1 & P1') P2].
    destruct (R _ (elem_of_list_here _ _)) as [Rk Rv]. simpl in *.
    destruct (I1 P1 Rk) as (k' & Ek & Kk), (I1' P1' Rv) as (v' & Ev & _).
    destruct (IHl I2 P2) as (r & Er & Kr). { intros y Hy. apply R. by right. }
    exists ((k', v') :: r). fold (items_with (decode soft) l). rewrite Ek. simpl. rewrite Ev. simpl. rewrite Er. simpl.
    split; [done|]. constructor; [simpl; auto|done]. }
  intros x.   induction x as [t|b|n h|l IH|l IH|l IH|n l IH] using data_ind'; intros P R; simpl; try (eexists; split; [reflexivity|done]);
    inversion P as [| | |l' P1|l' P1|l' P1|n' l' P1]; subst.
  - destruct (dec b) eqn:E; [eauto|]. destruct R as [->|R]; [eauto|]. destruct (R b); [set_solver|congruence].
  - destruct (HL l IH P1) as (r & -> & _). { intros x Hx. by eapply readable_in. } simpl. eexists. split; [reflexivity|done].
  - destruct (HL l IH P1) as (r & -> & K). { intros x Hx. by eapply readable_in. } simpl. eexists. split; [reflexivity|done].
  - destruct (HD l IH P1) as (r & -> & K). { intros x Hx. by eapply readable_item. } simpl.
    destruct (dict_from_total r [] K) as (d & ->). simpl. eexists. split; [reflexivity|done].
  - destruct (HD l IH P1) as (r & -> & K). { intros x Hx. eapply readable_item; [|done]. exact R. } simpl.
    destruct (dict_from_total r [] K) as (d & ->). simpl. eexists. split; [reflexivity|done].
Qed.
Lemma decode_needs_readable : forall x z, decode soft x = Ok z -> readable x.
Proof.
  unfold readable. destruct soft eqn:Es; [by left|]. intros x z E. right. revert x z E.
  assert (forall f l r, map_with f l = Ok r -> forall x, x ∈ l -> exists z, f x = Ok z) as HM.
  { intros f l r E%map_with_Ok x Hx. induction E as [|a b l r H E IH]; [by apply elem_of_nil in Hx|].
    apply elem_of_cons in Hx as [->|Hx]; eauto. }
  assert (forall f l r, items_with f l = Ok r -> forall x, x ∈ l -> (exists z, f (fst x) = Ok z) /\ exists z, f (snd x) = Ok z) as HI.
  { intros f l r E%items_with_Ok x Hx. induction E as [|a b l r [H1 H2] E IH]; [by apply elem_of_nil in Hx|].
    apply elem_of_cons in Hx as [->|Hx]; eauto. }
  assert (forall l r, Forall (fun e => (forall z, decode false (fst e) = Ok z -> forall b, DBytes b ∈ leaves (fst e) -> is_Some (dec b)) /\
       (forall z, decode false (snd e) = Ok z -> forall b, DBytes b ∈ leaves (snd e) -> is_Some (dec b))) l ->
     items_with (decode false) l = Ok r -> forall b, DBytes b ∈ leaves (DDict l) -> is_Some (dec b)) as HD.
  { intros l r IH E b Hb. simpl in Hb. apply elem_concat in Hb as (e & He & Hb). rewrite Forall_forall in IH. destruct (IH e He) as [I1 I2].
    destruct (HI _ _ _ E e He) as [(z1 & E1) (z2 & E2)]. apply elem_of_app in Hb as [Hb|Hb]; eauto. }
  intros x.   induction x as [t|b|n h|l IH|l IH|l IH|n l IH] using data_ind'; simpl; intros z E b0 Hb;
    try (apply elem_of_list_singleton in Hb; done).
  - apply elem_of_list_singleton in Hb as [= ->]. destruct (dec b); [eauto|done].
  - unfold cbind in E. destruct (map_with _ l) as [r|] eqn:El; [|done]. apply elem_concat in Hb as (x & Hx & Hb).
    rewrite Forall_forall in IH. destruct (HM _ _ _ El x Hx) as (z' & Ez). eauto.
  - unfold cbind in E. destruct (map_with _ l) as [r|] eqn:El; [|done]. apply elem_concat in Hb as (x & Hx & Hb).
    rewrite Forall_forall in IH. destruct (HM _ _ _ El x Hx) as (z' & Ez). eauto.
  - unfold cbind in E. destruct (items_with _ l) as [r|] eqn:El; [|done]. by eapply HD.
  - unfold cbind in E. destruct (items_with _ l) as [r|] eqn:El; [|done]. by eapply HD.
Qed.
(** the exception is UnicodeDecodeError when the keys are fine *)
Lemma map_with_Err f l e : map_with f l = Err e -> exists x, x ∈ l /\ f x = Err e.
Proof.
  induction l as [|x l IH]; simpl; [done|]. unfold cbind. fold (map_with f l). destruct (f x) eqn:E.
  - destruct (map_with f l); [done|]. intros [= ->]. destruct (IH eq_refl) as (y & ? & ?). exists y. split; [by right|done].
  - intros [= ->]. exists x. split; [left|done].
Qed.
Lemma items_with_Err f l e : items_with f l = Err e -> exists x, x ∈ l /\ (f (fst x) = Err e \/ f (snd x) = Err e).
Proof.
  induction l as [|[k v] l IH]; simpl; [done|]. unfold cbind. fold (items_with f l). destruct (f k) eqn:E.
  - destruct (f v) eqn:E2.
    + destruct (items_with f l); [done|]. intros [= ->]. destruct (IH eq_refl) as (y & ? & ?). exists y. split; [by right|done].
    + intros [= ->]. exists (k, v). split; [left|by right].
  - intros [= ->]. exists (k, v). split; [left|by left].
Qed.
Lemma dict_from_Err l : forall acc e, dict_from l acc = Err e -> e = Unhashable /\ exists x, x ∈ l /\ hashes (fst x) = false.
Proof.
  induction l as [|[k v] l IH]; simpl; intros acc e; [done|]. destruct (hashes k) eqn:Ek.
  - intros E. destruct (IH _ _ E) as (? & x & ? & ?). split; [done|]. exists x. split; [by right|done].
  - intros [= <-]. split; [done|]. exists (k, v). split; [left|done].
Qed.
Lemma decode_fails : forall x e, plain_keys x -> decode soft x = Err e -> e = BadBytes /\ soft = false /\ exists b, DBytes b ∈ leaves x /\ dec b = None.
Proof.
  assert (forall l e, Forall (fun e => (forall e0, plain_keys (fst e) -> decode soft (fst e) = Err e0 -> e0 = BadBytes /\ soft = false /\ exists b, DBytes b ∈ leaves (fst e) /\ dec b = None) /\
    (forall e0, plain_keys (snd e) -> decode soft (snd e) = Err e0 -> e0 = BadBytes /\ soft = false /\ exists b, DBytes b ∈ leaves (snd e) /\ dec b = None)) l ->
    Forall (fun e => keyish (fst e) = true /\ plain_keys (fst e) /\ plain_keys (snd e)) l ->
    cbind (items_with (decode soft) l) (fun l' => cbind (dict_from l' []) (fun d => Ok (DDict d))) = Err e ->
    e = BadBytes /\ soft = false /\ exists b, DBytes b ∈ leaves (DDict l) /\ dec b = None) as HD.
  { intros l e IH P. unfold cbind. destruct (items_with _ l) as [r|e'] eqn:El.
    - destruct (dict_from r []) as [d|e'] eqn:Ed; [done|]. intros [= ->]. exfalso.
      apply dict_from_Err in Ed as (_ & y & Hy & Hh). apply items_with_Ok in El.
      destruct (Forall2_elem_of_r _ _ _ _ El Hy) as (x & Hx & E1 & _). rewrite Forall_forall in P. destruct (P x Hx) as (K & Pk & _).
      destruct (decode_succeeds (fst x) Pk) as (z & Ez & Kz); [by eapply decode_needs_readable|].
      rewrite E1 in Ez. injection Ez as <-. rewrite keyish_hashes in Hh by auto. done.
    - intros [= ->]. apply items_with_Err in El as (x & Hx & E). rewrite Forall_forall in IH. rewrite Forall_forall in P.
      destruct (IH x Hx) as [I1 I2], (P x Hx) as (_ & P1 & P2).
      destruct E as [E|E]; [destruct (I1 _ P1 E) as (-> & -> & b & Hb & Db)|destruct (I2 _ P2 E) as (-> & -> & b & Hb & Db)];
        (split; [done|]; split; [done|]; exists b; split; [|done]; simpl; apply elem_concat; exists x; set_solver). }
  intros x.   induction x as [t|b|n h|l IH|l IH|l IH|n l IH] using data_ind'; intros e P; try done;
    inversion P as [| | |l' P1|l' P1|l' P1|n' l' P1]; subst.
  - simpl. destruct (dec b) eqn:Eb; [done|]. destruct soft; [done|]. intros [= <-]. split; [done|]. split; [done|]. exists b. split; [set_solver|done].
  - simpl. unfold cbind. destruct (map_with _ l) as [r|e'] eqn:El; [done|]. intros [= ->]. apply map_with_Err in El as (x & Hx & E).
    rewrite Forall_forall in IH. rewrite Forall_forall in P1. destruct (IH x Hx e (P1 x Hx) E) as (-> & -> & b & Hb & Db).
    split; [done|]. split; [done|]. exists b. split; [|done]. apply elem_concat. eauto.
  - simpl. unfold cbind. destruct (map_with _ l) as [r|e'] eqn:El; [done|]. intros [= ->]. apply map_with_Err in El as (x & Hx & E).
    rewrite Forall_forall in IH. rewrite Forall_forall in P1. destruct (IH x Hx e (P1 x Hx) E) as (-> & -> & b & Hb & Db).
    split; [done|]. split; [done|]. exists b. split; [|done]. apply elem_concat. eauto.
  - by apply HD.
  - by apply HD.
Qed.
End proofs.
