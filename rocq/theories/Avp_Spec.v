(** A block that holds a text as a C string. *)
From Verif Require Import Base Avp_Model.

Definition holds (b t : list Z) : Prop := exists r, b = t ++ 0 :: r.
Definition heap_ok (h : heap) : Prop := forall n, 0 <= n -> zlen (junk h n) = n.
(** The whole text, in the caller's block if it fits with its NUL, and otherwise in a new one *)
Definition whole (t : list Z) (size : Z) (r : Z * buffer * Z) : Prop :=
  match r with
  | (len, Callers b, live) => zlen t < size /\ len = zlen t /\ holds b t /\ live = 0
  | (len, New b, live) => size <= zlen t /\ len = zlen t /\ holds b t /\ live = 1
  | (_, Null, _) => False
  end.
