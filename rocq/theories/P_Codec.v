(** C33: StrCodec. *)
From Verif Require Import Py Codec CodecProofs Utf8.

Section codec.
(** any types of text and bytes with a character encoding that decodes what it encoded *)
Context (text bytes : Type) `{EqDecision text, EqDecision bytes}.
Context (enc : text -> option bytes) (dec : bytes -> option text).
Context (enc_dec : forall t b, enc t = Some b -> dec b = Some t).
Notation encode := (encode text bytes enc dec).
Notation decode := (decode text bytes dec).
Notation leaves := (leaves text bytes).

(** Encoding before decoding makes no difference, keys that collide included. *)
Theorem C33_decode_after_encode : forall soft x y, encode soft x = Ok y ->
  exists z, decode soft x = Ok z /\ decode soft y = Ok z.
Proof. exact (decode_encode text bytes enc dec enc_dec). Qed.
Theorem C33_encode_idempotent : forall soft x y, encode soft x = Ok y -> encode soft y = Ok y.
Proof. exact (encode_idempotent text bytes enc dec enc_dec). Qed.
(** Every leaf of the result is a leaf of the argument, converted: bytes become text, or
    stay if they are not valid and the codec is soft; text and other objects stay. *)
Theorem C33_decoded_leaves : forall soft x z, decode soft x = Ok z ->
  forall y, y ∈ leaves z -> exists x0, x0 ∈ leaves x /\ leaf_decoded text bytes dec soft x0 y.
Proof. exact (decode_leaves text bytes enc dec enc_dec). Qed.
Theorem C33_encoded_leaves : forall soft x z, encode soft x = Ok z ->
  forall y, y ∈ leaves z -> exists x0, x0 ∈ leaves x /\ leaf_encoded text bytes enc dec soft x0 y.
Proof. exact (encode_leaves text bytes enc dec enc_dec). Qed.
(** Decoding fails exactly in strict mode with invalid bytes somewhere, provided no dict key
    contains a node. *)
Theorem C33_decode_succeeds : forall soft x, plain_keys text bytes x -> readable text bytes dec soft x ->
  exists z, decode soft x = Ok z.
Proof.
  exact (fun soft x P R => match decode_succeeds text bytes enc dec enc_dec soft x P R with ex_intro _ z (conj E _) => ex_intro _ z E end).
Qed.
Theorem C33_decode_fails : forall soft x e, plain_keys text bytes x -> decode soft x = Err e ->
  e = BadBytes /\ soft = false /\ exists b, DBytes _ _ b ∈ leaves x /\ dec b = None.
Proof. exact (decode_fails text bytes enc dec enc_dec). Qed.
Theorem C33_decode_needs_readable : forall soft x z, decode soft x = Ok z -> readable text bytes dec soft x.
Proof. exact (decode_needs_readable text bytes enc dec enc_dec). Qed.
End codec.

(** The default encoding meets the hypothesis. *)
Theorem C33_utf8_inverts : forall t b, utf8_encode t = Some b -> utf8_decode b = Some t.
Proof. exact utf8_inverts. Qed.

(** {'é': [b'\xff', node(k='x')], b'\xc3\xa9': (1,)}: the two keys collide after encoding *)
Definition C33_x : data (list N) (list N) :=
  DDict _ _ [(DText _ _ [233]%N, DList _ _ [DBytes _ _ [255]%N; DNode _ _ 7 [(DText _ _ [107]%N, DText _ _ [120]%N)]]);
         (DText _ _ [65]%N, DOther _ _ 3 true);
         (DBytes _ _ [195; 169]%N, DTuple _ _ [DOther _ _ 1 true])].
Definition C33_y : data (list N) (list N) :=
  DDict _ _ [(DBytes _ _ [195; 169]%N, DTuple _ _ [DOther _ _ 1 true]); (DBytes _ _ [65]%N, DOther _ _ 3 true)].
Example C33_example :
  encode _ _ utf8_encode utf8_decode true C33_x = Ok C33_y /\
  decode _ _ utf8_decode true C33_x
  = Ok (DDict _ _ [(DText _ _ [233]%N, DTuple _ _ [DOther _ _ 1 true]); (DText _ _ [65]%N, DOther _ _ 3 true)]) /\
  decode _ _ utf8_decode true C33_x = decode _ _ utf8_decode true C33_y /\
  decode _ _ utf8_decode false C33_x = Err BadBytes /\
  utf8_encode [0x20AC; 0x1F600]%N = Some [0xE2; 0x82; 0xAC; 0xF0; 0x9F; 0x98; 0x80]%N /\
  utf8_decode [0xC0; 0x80]%N = None.
Proof. vm_compute. done. Qed.
Example C33_plain_keys : plain_keys _ _ C33_x.
Proof. repeat constructor. Qed.
(** a node as dict key is turned into a dict, which is no key *)
Example C33_node_key : decode _ _ utf8_decode true (DDict _ _ [(DNode _ _ 1 [], DText _ _ [])]) = Err Unhashable.
Proof. done. Qed.

Print Assumptions C33_decode_after_encode.
Print Assumptions C33_encode_idempotent.
Print Assumptions C33_decoded_leaves.
Print Assumptions C33_encoded_leaves.
Print Assumptions C33_decode_succeeds.
Print Assumptions C33_decode_fails.
Print Assumptions C33_decode_needs_readable.
Print Assumptions C33_utf8_inverts.
