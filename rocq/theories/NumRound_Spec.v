(** Specification of correct rounding. Finite doubles are integer multiples of 2^-1074; numbers
    are given as ratios in that unit. *)
From Verif Require Import Base Value_Model Value_Spec Str_Spec Expr_Spec.

(** The double with pattern [p] is [v] times 2^-1074. *)
Definition dvalue (p v : Z) : Prop :=
  match d_dec p with
  | S754_zero _ => v = 0
  | S754_finite s m e => v = (if s then - (Z.pos m * 2 ^ (e + 1074)) else Z.pos m * 2 ^ (e + 1074))
  | _ => False
  end.
(** The least number that no finite double is chosen for: the largest double and half of its
    distance to the next power of two. *)
Definition too_large : Z := (2 ^ 54 - 1) * 2 ^ (970 + 1074).
(** [p] is the double nearest to [A / B] times 2^-1074; of two nearest ones, the one with an even
    significand (which is the last bit of the pattern). The sign is that of the number. *)
Definition nearest_double (A B p : Z) : Prop :=
  is_u64 p /\ (0 < A -> p < 2 ^ 63) /\ (A < 0 -> 2 ^ 63 <= p) /\
  if too_large * B <=? Z.abs A then d_dec p = S754_infinity (A <? 0)
  else exists v, dvalue p v /\
    forall q w, is_u64 q -> dvalue q w ->
      Z.abs (v * B - A) <= Z.abs (w * B - A) /\
      (Z.abs (v * B - A) = Z.abs (w * B - A) -> w <> v -> Z.even p = true).

(** [text_denotes txt num den]: the text of a number literal, digits with an optional fraction and
    exponent or 0x and hexadecimal digits, denotes [num / den]. *)
Inductive text_denotes : list Z -> Z -> Z -> Prop :=
| den_dec ip fo fr eo e : digits_ok ip -> (fo = [] /\ fr = [] \/ fo = 46 :: fr /\ digits fr) -> exponent eo e ->
    text_denotes (ip ++ fo ++ eo) (digits_val (ip ++ fr) * 10 ^ Z.max 0 (e - zlen fr)) (10 ^ Z.max 0 (zlen fr - e))
| den_hex hs : hs <> [] -> Forall (fun c => hex_val c <> None) hs -> text_denotes (48 :: 120 :: hs) (hexs_val hs) 1.
