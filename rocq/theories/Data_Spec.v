(** Specification of raw memory access: what a run of bytes denotes. *)
From Verif Require Import Base Data_Model.

(** The bytes [bs] lie at address [p]. *)
Definition bytes_at (m : rawmem) (p : Z) (bs : list Z) : Prop :=
  forall i, (i < length bs)%nat -> m (p + Z.of_nat i) = Some (nth i bs 0).
Definition same_outside (m m' : rawmem) (p n : Z) : Prop := forall a, a < p \/ p + n <= a -> m' a = m a.

(** Unsigned number written by bytes in address order: most significant last (little
    endian) or first (big endian). *)
Fixpoint unsigned_le (bs : list Z) : Z := match bs with [] => 0 | b :: r => b + 256 * unsigned_le r end.
Definition unsigned_val (be : bool) (bs : list Z) : Z := unsigned_le (if be then rev bs else bs).
(** Two's complement reading of a [k]-byte number. *)
Definition signed_val (k : Z) (u : Z) : Z := if u <? 2 ^ (8 * k - 1) then u else u - 2 ^ (8 * k).
