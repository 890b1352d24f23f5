(** Specification of values, independent of the model's tag arithmetic: an abstract
    kind for each 64-bit pattern, given by its top 16 bits. *)
From Verif Require Import Base.

Inductive kind := KNumber | KBoolean | KNull | KUndefined | KString | KObject | KArray
                | KForeign | KFunction | KFfi | KNone.

(** The kind of a pattern as a user would read it off mjs_core.h's table: patterns
    0xfff1..0xffff in the top 16 bits are tags; NaN, undefined and null are single
    patterns; tag 10 (string chunk) and every other NaN pattern mean nothing. *)
Definition kind_of (v : Z) : kind :=
  let hi := v / 2 ^ 48 in let lo := v mod 2 ^ 48 in
  if hi <? 65520 then
    (* positive, or negative and finite *)
    if (hi <? 32752) || (32768 <=? hi) then KNumber
    else if v =? 32752 * 2 ^ 48 then KNumber (* +inf *) else KNone
  else
  match hi - 65520 with
  | 0 => if lo =? 0 then KNumber (* -inf *) else KNone
  | 1 => KObject
  | 2 => KForeign
  | 3 => if lo =? 0 then KUndefined else KNone
  | 4 => KBoolean
  | 5 => if lo =? 0 then KNumber else KNone
  | 6 | 7 | 8 | 9 | 11 => KString
  | 10 => KNone
  | 12 => KArray
  | 13 => KFunction
  | 14 => KFfi
  | _ => if lo =? 0 then KNull else KNone
  end.

(** NaN in the IEEE sense: all-ones exponent with a non-zero fraction. *)
Definition ieee_nan (b : Z) : Prop :=
  exists s m, (s = 0 \/ s = 1) /\ 0 < m < 2 ^ 52 /\ b = s * 2 ^ 63 + 2047 * 2 ^ 52 + m.
