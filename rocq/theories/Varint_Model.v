(** Model of src/common/cs_varint.c (variable-length integers). *)
From Verif Require Import Base.

(** cs_varint.c:20-28 cs_varint_llen. The do-while loop shifts right by 7 until
    zero; [Z.log2] + 1 iterations always suffice (the [O] case is unreachable,
    see Varint_Proofs.llen_eq). *)
Fixpoint llen_loop (fuel : nat) (num : Z) : Z :=
  match fuel with
  | O => 0
  | S f => let num' := Z.shiftr num 7 in
           if num' =? 0 then 1 else 1 + llen_loop f num'
  end.
Definition varint_fuel (num : Z) : nat := S (Z.to_nat (Z.log2 num)).
Definition varint_llen (num : Z) : Z := llen_loop (varint_fuel num) num.

(** cs_varint.c:30-42 cs_varint_encode, the sequence of bytes the loop produces.
    [O] is unreachable (Varint_Proofs.enc_eq). *)
Fixpoint enc_loop (fuel : nat) (num : Z) : list Z :=
  match fuel with
  | O => []
  | S f =>
    let byte := Z.land num 127 in
    let num' := Z.shiftr num 7 in
    if negb (num' =? 0) then Z.lor byte 128 :: enc_loop f num' else [byte]
  end.
Definition varint_bytes (num : Z) : list Z := enc_loop (varint_fuel num) num.

(** cs_varint.c:30-42: only the first [buf_size] bytes are stored; the full
    length is returned. Result: (bytes stored, return value). *)
Definition varint_encode (num buf_size : Z) : list Z * Z :=
  (firstn (Z.to_nat buf_size) (varint_bytes num), zlen (varint_bytes num)).

(** cs_varint.c:44-68 cs_varint_decode. [buf] is the readable memory at the
    pointer, [buf_size] the claimed size; reading past [buf] is [UB].
    [None] is "return false". The loop runs at most 10 times (shift reaches 70),
    so fuel 10 is exact. 8*sizeof(uint64_t)/7+1 = 10. *)
Fixpoint dec_loop (fuel : nat) (buf : list Z) (buf_size i shift n : Z)
  : R (option (Z * Z)) :=
  match fuel with
  | O => NoFuel
  | S f =>
    if (i =? buf_size) || (i =? 10) then OK None
    else match nthz buf i with
         | None => UB
         | Some b =>
           let n' := Z.lor n (u64 (Z.shiftl (Z.land b 127) shift)) in
           let i' := i + 1 in
           let shift' := shift + 7 in
           if (shift' <? 64) && negb (Z.land b 128 =? 0)
           then dec_loop f buf buf_size i' shift' n'
           else OK (Some (n', i'))
         end
  end.
Definition varint_decode (buf : list Z) (buf_size : Z) : R (option (Z * Z)) :=
  dec_loop 10 buf buf_size 0 0 0.

(** cs_varint.c:70-76 cs_varint_decode_unsafe: the size is ~0, a failed decode
    (impossible, see Varint_Proofs.decode_unsafe_ok) would leave the results
    uninitialised. *)
Definition varint_decode_unsafe (buf : list Z) : R (Z * Z) :=
  r <- varint_decode buf (2 ^ 64 - 1) ;;
  match r with Some p => OK p | None => UB end.
