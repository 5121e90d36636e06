(** Facts about Python's str helpers. *)
From Verif Require Import Py.
Local Arguments String.append !_ _ /.

Lemma length_append a b : String.length (a ++ b) = String.length a + String.length b.
Proof. induction a; simpl; [done|]. by rewrite IHa. Qed.
Lemma append_assoc (a b c : string) : ((a ++ b) ++ c = a ++ (b ++ c))%string.
Proof. induction a; simpl; [done|]. by rewrite IHa. Qed.
Lemma append_nil_r (a : string) : (a ++ "" = a)%string.
Proof. induction a; simpl; [done|]. by rewrite IHa. Qed.
Lemma append_inj_l (p a b : string) : (p ++ a = p ++ b)%string -> a = b.
Proof. induction p; simpl; [done|]. intros [= H]. auto. Qed.
Lemma append_inj_r (p a b : string) : (a ++ p = b ++ p)%string -> a = b.
Proof.
  revert b. induction a as [|c a IH]; intros [|d b]; simpl; try done.
  - intros H. apply (f_equal String.length) in H. simpl in H. rewrite length_append in H. lia.
  - intros H. apply (f_equal String.length) in H. simpl in H. rewrite length_append in H. lia.
  - intros [= -> H]. f_equal. auto.
Qed.

Lemma startswith_spec p s : startswith p s = true <-> exists a, s = (p ++ a)%string.
Proof.
  unfold startswith. split.
  - revert s. induction p as [|c p IH]; intros s H; simpl in *; [by exists s|].
    destruct s as [|d s]; [discriminate H|]. revert H. cbn. destruct (Ascii.ascii_dec c d) as [->|]; [intros H|discriminate].
    destruct (IH s H) as [a ->]. by exists a.
  - intros [a ->]. induction p as [|c p IH]; cbn; [by destruct a|]. destruct (Ascii.ascii_dec c c); [exact IH|done].
Qed.
Lemma substring_all s : String.substring 0 (String.length s) s = s.
Proof. induction s; simpl; [done|]. by rewrite IHs. Qed.
Lemma substring_drop p a n : String.substring (String.length p) n (p ++ a) = String.substring 0 n a.
Proof. induction p; simpl; [done|]. done. Qed.
Lemma substring_take p a : String.substring 0 (String.length p) (p ++ a) = p.
Proof. induction p; simpl; [by destruct a|]. by rewrite IHp. Qed.
Lemma str_drop_app p a : str_drop (String.length p) (p ++ a) = a.
Proof.
  unfold str_drop. rewrite substring_drop, length_append.
  replace (_ + _ - _) with (String.length a) by lia. apply substring_all.
Qed.
Lemma str_take_app p a : str_take (String.length p) (p ++ a) = p.
Proof. apply substring_take. Qed.
Lemma split_at n s : n <= String.length s ->
  exists a b, s = (a ++ b)%string /\ String.length a = n.
Proof.
  revert s. induction n as [|n IH]; intros s H; [by exists "", s|].
  destruct s as [|c s]; simpl in H; [lia|]. destruct (IH s) as (a & b & -> & E); [lia|].
  exists (String c a), b. simpl. by rewrite E.
Qed.
Lemma endswith_spec p s : endswith p s = true <-> exists a, s = (a ++ p)%string.
Proof.
  unfold endswith. split.
  - destruct (Nat.leb_spec (String.length p) (String.length s)) as [H|H]; [|done].
    intros E. apply String.eqb_eq in E.
    destruct (split_at (String.length s - String.length p) s) as (a & b & Es & El); [lia|].
    assert (String.length b = String.length p) as Eb. { rewrite Es in El, H. rewrite length_append in El, H. lia. }
    rewrite <- El, <- Eb in E. rewrite Es in E. rewrite substring_drop, substring_all in E. subst b. by exists a.
  - intros [a ->]. rewrite length_append. destruct (Nat.leb_spec (String.length p) (String.length a + String.length p)); [|lia].
    replace (_ + _ - _) with (String.length a) by lia. rewrite substring_drop, substring_all. apply String.eqb_refl.
Qed.
