(** Specification of variable-length integers, independent of the code: a number
    is the little-endian sequence of its 7-bit groups; every byte but the last
    has its top bit set. *)
From Verif Require Import Base.

Fixpoint groups_val (l : list Z) : Z :=
  match l with [] => 0 | b :: r => b mod 128 + 128 * groups_val r end.

(** A continuation byte. *)
Definition cont (b : Z) : Prop := 128 <= b < 256.
