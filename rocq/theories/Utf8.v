(** The default character encoding of StrCodec, utf-8 (utils.py line 131): text as a
    list of code points, bytes as a list of numbers.  The decoder accepts exactly the
    well-formed sequences (no overlong forms, no surrogates), like Python's. *)
From Verif Require Import Py.
Local Open Scope N_scope.

Definition enc_point (c : N) : option (list N) :=
  if c <? 0x80 then Some [c]
  else if c <? 0x800 then Some [0xC0 + c / 64; 0x80 + c mod 64]
  else if (0xD800 <=? c) && (c <? 0xE000) then None
  else if c <? 0x10000 then Some [0xE0 + c / 4096; 0x80 + (c / 64) mod 64; 0x80 + c mod 64]
  else if c <? 0x110000 then Some [0xF0 + c / 262144; 0x80 + (c / 4096) mod 64; 0x80 + (c / 64) mod 64; 0x80 + c mod 64]
  else None.
Fixpoint utf8_encode (t : list N) : option (list N) :=
  match t with
  | [] => Some []
  | c :: r => match enc_point c, utf8_encode r with Some a, Some b => Some (a ++ b)%list | _, _ => None end
  end.

Definition cont (b : N) : bool := (0x80 <=? b) && (b <? 0xC0).
Fixpoint utf8_decode (l : list N) : option (list N) :=
  match l with
  | [] => Some []
  | b :: r =>
      if b <? 0x80 then match utf8_decode r with Some t => Some (b :: t) | None => None end
      else if b <? 0xC2 then None
      else if b <? 0xE0 then
        match r with
        | b1 :: r1 =>
            if cont b1 then match utf8_decode r1 with Some t => Some ((b - 0xC0) * 64 + (b1 - 0x80) :: t) | None => None end
            else None
        | _ => None
        end
      else if b <? 0xF0 then
        match r with
        | b1 :: b2 :: r1 =>
            let c := (b - 0xE0) * 4096 + (b1 - 0x80) * 64 + (b2 - 0x80) in
            if cont b1 && cont b2 && (0x800 <=? c) && negb ((0xD800 <=? c) && (c <? 0xE000)) then
              match utf8_decode r1 with Some t => Some (c :: t) | None => None end
            else None
        | _ => None
        end
      else if b <? 0xF5 then
        match r with
        | b1 :: b2 :: b3 :: r1 =>
            let c := (b - 0xF0) * 262144 + (b1 - 0x80) * 4096 + (b2 - 0x80) * 64 + (b3 - 0x80) in
            if cont b1 && cont b2 && cont b3 && (0x10000 <=? c) && (c <? 0x110000) then
              match utf8_decode r1 with Some t => Some (c :: t) | None => None end
            else None
        | _ => None
        end
      else None
  end.

Ltac nums := repeat match goal with
  | H : (_ <? _) = true |- _ => apply N.ltb_lt in H
  | H : (_ <? _) = false |- _ => apply N.ltb_ge in H
  | H : (_ <=? _) = true |- _ => apply N.leb_le in H
  | H : (_ <=? _) = false |- _ => apply N.leb_gt in H
  end.
Ltac solve_num := nums; lazymatch goal with
  | |- (_ <? _) = true => apply N.ltb_lt
  | |- (_ <? _) = false => apply N.ltb_ge
  | |- (_ <=? _) = true => apply N.leb_le
  | |- (_ <=? _) = false => apply N.leb_gt
  | _ => idtac end; zify; Z.to_euclidean_division_equations; lia.

Lemma utf8_point c a r : enc_point c = Some a -> utf8_decode (a ++ r) = match utf8_decode r with Some t => Some (c :: t) | None => None end.
Proof.
  unfold enc_point.
  destruct (c <? 0x80) eqn:E1; [intros [= <-]; cbn [app utf8_decode]; by rewrite E1|].
  destruct (c <? 0x800) eqn:E2.
  { intros [= <-]. cbn [app utf8_decode].
    assert (0xC0 + c / 64 <? 0x80 = false) as -> by solve_num.
    assert (0xC0 + c / 64 <? 0xC2 = false) as -> by solve_num.
    assert (0xC0 + c / 64 <? 0xE0 = true) as -> by solve_num.
    assert (cont (0x80 + c mod 64) = true) as -> by (unfold cont; apply andb_true_intro; split; solve_num).
    assert ((0xC0 + c / 64 - 0xC0) * 64 + (0x80 + c mod 64 - 0x80) = c) as -> by solve_num. done. }
  destruct ((0xD800 <=? c) && (c <? 0xE000)) eqn:E3; [done|].
  destruct (c <? 0x10000) eqn:E4.
  { intros [= <-]. cbn [app utf8_decode].
    assert (0xE0 + c / 4096 <? 0x80 = false) as -> by solve_num.
    assert (0xE0 + c / 4096 <? 0xC2 = false) as -> by solve_num.
    assert (0xE0 + c / 4096 <? 0xE0 = false) as -> by solve_num.
    assert (0xE0 + c / 4096 <? 0xF0 = true) as -> by solve_num.
    assert ((0xE0 + c / 4096 - 0xE0) * 4096 + (0x80 + (c / 64) mod 64 - 0x80) * 64 + (0x80 + c mod 64 - 0x80) = c) as -> by solve_num.
    assert (cont (0x80 + c mod 64) = true) as -> by (unfold cont; apply andb_true_intro; split; solve_num).
    assert (cont (0x80 + (c / 64) mod 64) = true) as -> by (unfold cont; apply andb_true_intro; split; solve_num).
    assert (0x800 <=? c = true) as -> by solve_num. cbv zeta. rewrite E3. done. }
  destruct (c <? 0x110000) eqn:E5; [|done].
  intros [= <-]. cbn [app utf8_decode].
  assert (0xF0 + c / 262144 <? 0x80 = false) as -> by solve_num.
  assert (0xF0 + c / 262144 <? 0xC2 = false) as -> by solve_num.
  assert (0xF0 + c / 262144 <? 0xE0 = false) as -> by solve_num.
  assert (0xF0 + c / 262144 <? 0xF0 = false) as -> by solve_num.
  assert (0xF0 + c / 262144 <? 0xF5 = true) as -> by solve_num.
  assert ((0xF0 + c / 262144 - 0xF0) * 262144 + (0x80 + (c / 4096) mod 64 - 0x80) * 4096 + (0x80 + (c / 64) mod 64 - 0x80) * 64 + (0x80 + c mod 64 - 0x80) = c) as -> by solve_num.
  assert (cont (0x80 + c mod 64) = true) as -> by (unfold cont; apply andb_true_intro; split; solve_num).
  assert (cont (0x80 + (c / 64) mod 64) = true) as -> by (unfold cont; apply andb_true_intro; split; solve_num).
  assert (cont (0x80 + (c / 4096) mod 64) = true) as -> by (unfold cont; apply andb_true_intro; split; solve_num).
  assert (0x10000 <=? c = true) as -> by solve_num. cbv zeta. rewrite E5. done.
Qed.
Lemma utf8_inverts t : forall b, utf8_encode t = Some b -> utf8_decode b = Some t.
Proof.
  induction t as [|c t IH]; simpl; intros b; [by intros [= <-]|].
  destruct (enc_point c) as [a|] eqn:E; [|done]. destruct (utf8_encode t) as [r|] eqn:Er; [|done]. intros [= <-].
  rewrite (utf8_point _ _ _ E), (IH r eq_refl). done.
Qed.
(** exactly the code points except surrogates can be encoded *)
Lemma utf8_encodes c : is_Some (enc_point c) <-> c < 0x110000 /\ ~ (0xD800 <= c < 0xE000).
Proof.
  unfold enc_point. destruct (c <? 0x80) eqn:E1; [nums; split; [intros _; lia|eauto]|].
  destruct (c <? 0x800) eqn:E2; [nums; split; [intros _; lia|eauto]|].
  destruct (0xD800 <=? c) eqn:E3; simpl; [destruct (c <? 0xE000) eqn:E6; simpl|];
    (destruct (c <? 0x10000) eqn:E4; [|destruct (c <? 0x110000) eqn:E5]); nums; split; eauto; try (intros [? [=]]); try lia; intros; lia.
Qed.
