(** Properties C01 and C02: variable-length integers. *)
From Verif Require Import Base BaseFacts Varint_Model Varint_Spec Varint_Proofs.

(** C01: encoding any 64-bit number and decoding it, whatever follows it in the
    buffer and whatever (large enough) size is claimed, gives the number and the
    number of bytes written; this is cs_varint_llen, between 1 and 10. *)
Theorem varint_round_trip : forall n rest size,
  0 <= n < 2 ^ 64 ->
  let bytes := fst (varint_encode n 10) in
  zlen bytes <= size ->
  varint_decode (bytes ++ rest) size = OK (Some (n, zlen bytes)) /\
  snd (varint_encode n 10) = zlen bytes /\ varint_llen n = zlen bytes /\
  1 <= zlen bytes <= 10 /\ Forall is_byte bytes /\ groups_val bytes = n.
Proof. exact varint_round_trip_lemma. Qed.
Print Assumptions varint_round_trip.

Example varint_round_trip_case :
  fst (varint_encode 300 10) = [172; 2] /\
  varint_decode ([172; 2] ++ [99]) 2 = OK (Some (300, 2)).
Proof. split; reflexivity. Qed.

(** C01: encoding into a buffer of any size stores a prefix of the encoding, never
    more than the buffer holds, and returns the full length. *)
Theorem varint_encode_bounded : forall n size,
  0 <= n < 2 ^ 64 -> 0 <= size ->
  snd (varint_encode n size) = varint_llen n /\
  (exists rest, fst (varint_encode n 10) = fst (varint_encode n size) ++ rest) /\
  zlen (fst (varint_encode n size)) = Z.min size (varint_llen n).
Proof. exact varint_encode_bounded_lemma. Qed.
Print Assumptions varint_encode_bounded.

(** C02: on a readable buffer of the claimed size decoding is never undefined; it
    succeeds with the bytes up to and including the first terminator (or the
    first ten bytes), or fails when all of fewer than ten bytes continue. *)
Theorem varint_decode_bounded : forall buf size,
  Forall is_byte buf -> 0 <= size <= zlen buf ->
  (exists n used, varint_decode buf size = OK (Some (n, zlen used)) /\
     (exists rest, buf = used ++ rest) /\ zlen used <= Z.min size 10 /\
     n = groups_val used mod 2 ^ 64 /\
     exists a t, used = a ++ [t] /\ Forall cont a /\
                 (0 <= t < 128 \/ (cont t /\ zlen used = 10)))
  \/ (varint_decode buf size = OK None /\ size < 10 /\ Forall cont (sub buf 0 size)).
Proof. exact decode_char. Qed.
Print Assumptions varint_decode_bounded.

Example varint_decode_bounded_case :
  Forall is_byte [200; 200; 5; 7] /\ 0 <= 2 <= zlen [200; 200; 5; 7] /\
  varint_decode [200; 200; 5; 7] 2 = OK None /\
  varint_decode [200; 200; 5; 7] 4 = OK (Some (72 + 128 * 72 + 128 * 128 * 5, 3)).
Proof. repeat split; try (vm_compute; congruence). repeat constructor; unfold is_byte; lia. Qed.

(** C02: a stream of encoded numbers splits in only one way. *)
Theorem varint_prefix_unique : forall n m rest1 rest2,
  0 <= n < 2 ^ 64 -> 0 <= m < 2 ^ 64 ->
  fst (varint_encode n 10) ++ rest1 = fst (varint_encode m 10) ++ rest2 ->
  n = m /\ rest1 = rest2.
Proof. exact varint_prefix_unique_lemma. Qed.
Print Assumptions varint_prefix_unique.

Example varint_prefix_unique_case :
  fst (varint_encode 5 10) ++ [200; 1] = fst (varint_encode 5 10) ++ [200; 1] /\ 0 <= 5 < 2 ^ 64.
Proof. split; [reflexivity|lia]. Qed.

(** C02: the unchecked decoder used on string headers and instruction operands
    never reads outside an encoded number. *)
Theorem varint_decode_unsafe_ok : forall n rest,
  0 <= n < 2 ^ 64 ->
  varint_decode_unsafe (fst (varint_encode n 10) ++ rest) = OK (n, varint_llen n).
Proof. exact varint_decode_unsafe_lemma. Qed.
Print Assumptions varint_decode_unsafe_ok.
