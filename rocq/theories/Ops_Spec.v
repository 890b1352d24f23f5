(** Specification of the operators, independent of the model: IEEE reading of integer
    valued doubles, the tables of permitted operand kinds, truthiness and equality. *)
From Verif Require Import Base Value_Spec Str_Model Str_Spec TokNum_Model.

(** Pattern [v] is a double whose exact value is the integer [n], |n| < 2^53: a zero of
    either sign, or a normal number (-1)^s * (2^52 + F) * 2^(E - 1075). *)
Definition int_value (v n : Z) : Prop :=
  (n = 0 /\ (v = 0 \/ v = 2 ^ 63)) \/
  exists s F E, (s = 0 \/ s = 1) /\ 0 <= F < 2 ^ 52 /\ 1 <= E <= 1075 /\
    v = s * 2 ^ 63 + E * 2 ^ 52 + F /\
    n * 2 ^ (1075 - E) = (1 - 2 * s) * (2 ^ 52 + F).

(** The eleven binary operators of do_op. *)
Definition bin_ops : list Z :=
  [TOK_MINUS; TOK_PLUS; TOK_MUL; TOK_DIV; TOK_REM; TOK_XOR; TOK_AND; TOK_OR; TOK_LSHIFT;
   TOK_RSHIFT; TOK_URSHIFT].
(** Kind of the result of a permitted operand pair, [None] for a prohibited one. *)
Definition op_kind (ka kb : kind) (op : Z) : option kind :=
  match ka, kb with
  | KNumber, KNumber => Some KNumber
  | KNumber, KForeign | KForeign, KNumber =>
    if (op =? TOK_PLUS) || (op =? TOK_MINUS) then Some KForeign else None
  | KForeign, KForeign => if op =? TOK_MINUS then Some KNumber else None
  | KString, KString => if op =? TOK_PLUS then Some KString else None
  | _, _ => None
  end.

(** Integer meaning of the operators; [None] outside the scope of the claim (inexact
    division, shift counts the hardware does not define). *)
Definition int_op (op x y : Z) : option Z :=
  if op =? TOK_PLUS then Some (x + y)
  else if op =? TOK_MINUS then Some (x - y)
  else if op =? TOK_MUL then Some (x * y)
  else if op =? TOK_DIV then
    (if negb (y =? 0) && (x mod y =? 0) then Some (x / y) else None)
  else if op =? TOK_REM then
    (if negb (y =? 0) && (- 2 ^ 31 <=? y) && (y <? 2 ^ 31) then Some (Z.rem x y) else None)
  else if op =? TOK_AND then Some (Z.land x y)
  else if op =? TOK_OR then Some (Z.lor x y)
  else if op =? TOK_XOR then Some (Z.lxor x y)
  else if op =? TOK_LSHIFT then (if (0 <=? y) && (y <=? 63) then Some (x * 2 ^ y) else None)
  else if op =? TOK_RSHIFT then (if (0 <=? y) && (y <=? 63) then Some (x / 2 ^ y) else None)
  else if op =? TOK_URSHIFT then
    (if (0 <=? x) && (x <? 2 ^ 32) && (0 <=? y) && (y <=? 31) then Some (x / 2 ^ y) else None)
  else None.

(** Truthiness of the values that are not strings. *)
Definition truthy_non_string (v : Z) : bool :=
  match kind_of v with
  | KBoolean => v mod 2 =? 1
  | KNumber => negb ((v =? 0) || (v =? 2 ^ 63) || (v =? 65525 * 2 ^ 48))
  | KObject | KArray | KForeign | KFunction => true
  | _ => false
  end.
