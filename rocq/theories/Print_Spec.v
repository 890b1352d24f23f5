(** Specification of printing: the text of a value. *)
From Verif Require Import Base Value_Model Value_Spec Str_Model Str_Spec SUtil_Spec NumText_Spec TokNum_Model Txt_Model.

(** A byte in the text of a string: itself, or backslash, x and two digits. *)
Inductive byte_shows : Z -> list Z -> Prop :=
| BS_plain c : 32 <= c <= 126 -> byte_shows c [c]
| BS_hex c a b : 0 <= c < 256 -> ~ 32 <= c <= 126 -> is_digit_in 16 a -> is_digit_in 16 b -> num_value 16 0 [a; b] = c -> byte_shows c [92; 120; a; b].
Inductive bytes_show : list Z -> list Z -> Prop :=
| BS_nil : bytes_show [] []
| BS_cons c d t r : byte_shows c t -> bytes_show d r -> bytes_show (c :: d) (t ++ r).

(** The text of the value [v]. *)
Inductive shows (st : strs) (ext : extmem) (v : Z) : list Z -> Prop :=
| SH_num t : kind_of v = KNumber -> num_shows v t -> shows st ext v t
| SH_bool b : v = mk_boolean b -> shows st ext v (if b then bs "true" else bs "false")
| SH_str d t : holds st ext v d -> bytes_ok d -> bytes_show d t -> shows st ext v t
| SH_arr : kind_of v = KArray -> shows st ext v (bs "<array>")
| SH_obj : kind_of v = KObject -> shows st ext v (bs "<object>")
| SH_ptr p t : 0 <= p < 2 ^ 48 -> v = fst (mk_foreign p) -> numeral 16 p t -> shows st ext v (bs "<foreign_ptr@" ++ t ++ bs ">")
| SH_fun n t : 0 <= n < 2 ^ 31 -> v = mk_function n -> numeral 10 n t -> shows st ext v (bs "<function@" ++ t ++ bs ">")
| SH_null : v = V_NULL -> shows st ext v (bs "null")
| SH_undef : v = V_UNDEFINED -> shows st ext v (bs "undefined")
| SH_sig t : kind_of v = KFfi -> numeral 10 (2 ^ 64 - v) t -> shows st ext v (bs "<???-" ++ t ++ bs ">").

(** What a buffer of size [n] in [mem] holds after printing [t] into it: as much of the text as
    fits before the terminator. *)
Definition printed (mem : list Z) (n : Z) (t : list Z) : list Z :=
  let k := Z.min (zlen t) (n - 1) in firstn (Z.to_nat k) t ++ 0 :: skipn (Z.to_nat (k + 1)) mem.
