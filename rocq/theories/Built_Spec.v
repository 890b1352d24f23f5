(** Specification of the conversion of C structures to objects: what lies in memory, and what
    it means that a value of the engine shows it. *)
From Verif Require Import Base Value_Model Value_Spec Str_Model Str_Spec Obj_Model Obj_Spec Ops_Spec Data_Model Data_Spec Built_Model.

(** Contents of a field. *)
Inductive fval :=
| FInt (n : Z)                             (* an integer *)
| FDbl (b : Z)                             (* a double, with its bits *)
| FFlt (b : Z)                             (* a float, with its bits *)
| FBool (b : bool)
| FText (d : list Z)
| FPtr (p : Z)
| FNull | FUndef
| FObj (l : list (list Z * fval)).         (* a structure: its members in order *)

(** The [k]-byte little-endian word at [p]. *)
Definition word_at (m : rawmem) (k : nat) (p n : Z) : Prop :=
  exists bs, length bs = k /\ Forall (fun b => 0 <= b < 256) bs /\ bytes_at m p bs /\ unsigned_le bs = n.
(** The NUL-terminated text at [p]; [n] bytes at [p], all zero for a null pointer. *)
Definition text_at (m : rawmem) (p : Z) (d : list Z) : Prop :=
  p <> 0 /\ Forall (fun b => 0 < b < 256) d /\ bytes_at m p (d ++ [0]).
Definition data_at (m : rawmem) (p n : Z) (d : list Z) : Prop :=
  p <> 0 /\ Forall (fun b => 0 <= b < 256) d /\ zlen d = n /\ bytes_at m p d.

Section Memory.
Context (m : rawmem) (tab : Z -> list cmember).
(** [field_is ty arg p v]: a field of type number [ty] with argument [arg], at address [p],
    contains [v]. (Custom fields are not covered.) *)
Inductive field_is : Z -> Z -> Z -> fval -> Prop :=
| fi_struct arg p l : struct_is p arg l -> field_is 1 arg p (FObj l)
| fi_no_table p : field_is 1 0 p FUndef
| fi_ptr arg p q l : word_at m 8 p q -> struct_is q arg l -> field_is 2 arg p (FObj l)
| fi_null arg p : word_at m 8 p 0 -> field_is 2 arg p FNull
| fi_int arg p n : word_at m 4 p n -> field_is 3 arg p (FInt (signed_val 4 n))
| fi_false arg p : word_at m 1 p 0 -> field_is 4 arg p (FBool false)
| fi_true arg p : word_at m 1 p 1 -> field_is 4 arg p (FBool true)
| fi_double arg p n : word_at m 8 p n -> field_is 5 arg p (FDbl n)
| fi_float arg p n : word_at m 4 p n -> field_is 6 arg p (FFlt n)
| fi_text arg p q d : word_at m 8 p q -> text_at m q d -> field_is 7 arg p (FText d)
| fi_pointer arg p q : word_at m 8 p q -> q < 2 ^ 48 -> field_is 8 arg p (FPtr q)
| fi_mg_ptr arg p s q n d : word_at m 8 p s -> s <> 0 -> word_at m 8 s q -> word_at m 8 (s + 8) n -> data_at m q n d ->
    field_is 9 arg p (FText d)
| fi_mg_null arg p : word_at m 8 p 0 -> field_is 9 arg p FNull
| fi_mg arg p q n d : word_at m 8 p q -> word_at m 8 (p + 8) n -> data_at m q n d -> field_is 10 arg p (FText d)
| fi_data arg p d : data_at m p arg d -> field_is 11 arg p (FText d)
| fi_int8 arg p n : word_at m 1 p n -> field_is 12 arg p (FInt (signed_val 1 n))
| fi_int16 arg p n : word_at m 2 p n -> field_is 13 arg p (FInt (signed_val 2 n))
| fi_uint8 arg p n : word_at m 1 p n -> field_is 14 arg p (FInt n)
| fi_uint16 arg p n : word_at m 2 p n -> field_is 15 arg p (FInt n)
| fi_other ty arg p : ty <= 0 \/ 16 < ty -> field_is ty arg p FUndef
(** [struct_is base d l]: the structure at [base], described by the table at [d] *)
with struct_is : Z -> Z -> list (list Z * fval) -> Prop :=
| si base d l : base <> 0 -> d <> 0 -> NoDup (map cm_name (tab d)) -> Forall (fun c => name_ok (cm_name c)) (tab d) ->
    members_are base (tab d) l -> struct_is base d l
with members_are : Z -> list cmember -> list (list Z * fval) -> Prop :=
| ma_nil base : members_are base [] []
| ma_cons base c cs v l : field_is (cm_type c) (cm_arg c) (base + cm_off c) v -> members_are base cs l ->
    members_are base (c :: cs) ((cm_name c, v) :: l).
End Memory.

(** The number (-1)^s k 2^x as a double. *)
Definition double_is (v : Z) (s : bool) (k x : Z) : Prop :=
  if k =? 0 then d_dec v = S754_zero s
  else exists k' x', d_dec v = S754_finite s k' x' /\ x' <= x /\ Z.pos k' = k * 2 ^ (x - x').
(** The double [v] is the float with the bits [b] (sign, 8 bits of exponent, 23 of fraction). *)
Definition float_is (v b : Z) : Prop :=
  let s := 2 ^ 31 <=? b in let e := b / 2 ^ 23 mod 256 in let f := b mod 2 ^ 23 in
  if e =? 255 then (if f =? 0 then d_dec v = S754_infinity s else v = TAG_NAN)
  else if e =? 0 then double_is v s f (-149)
  else double_is v s (2 ^ 23 + f) (e - 150).

(** The value [v] shows [f]; the objects it consists of are in the store [M]. *)
Section Show.
Context (st : strs) (ext : extmem) (M : store).
Inductive shows : Z -> fval -> Prop :=
| sh_int v n : int_value v n -> is_number v = true -> shows v (FInt n)
| sh_dbl b : d_isnan b = false -> shows b (FDbl b)
| sh_nan b : d_isnan b = true -> shows TAG_NAN (FDbl b)
| sh_flt v b : is_number v = true -> float_is v b -> shows v (FFlt b)
| sh_bool v (b : bool) : v = (if b then 65524 * 2 ^ 48 + 1 else 65524 * 2 ^ 48) -> shows v (FBool b)
| sh_text v d : holds st ext v d -> shows v (FText d)
| sh_ptr v p : kind_of v = KForeign -> get_ptr v = p -> shows v (FPtr p)
| sh_null : shows V_NULL FNull
| sh_undef : shows V_UNDEFINED FUndef
| sh_obj v o mp l : v = 65521 * 2 ^ 48 + o -> 0 < o < 2 ^ 48 -> M o = Some mp -> shows_all mp l -> shows v (FObj l)
with shows_all : omap -> list (list Z * fval) -> Prop :=
| sa_nil : shows_all [] []
| sa_cons n v f mp l : shows v f -> shows_all mp l -> shows_all ((n, v) :: mp) ((n, f) :: l).
End Show.

(** Bytes of memory needed. *)
Fixpoint fcost (f : fval) : Z :=
  match f with
  | FText d => zlen d + 32
  | FObj l => fold_right (fun x n => 64 + zlen (fst x) + fcost (snd x) + n) 64 l
  | _ => 0
  end.
(** The objects of [M'] that are not in [M]; everything in [M] is in [M'] as it is. *)
Definition beyond (M M' : store) : store := fun o => match M o with None => M' o | Some _ => None end.
Definition extends (M M' : store) : Prop := forall o mp, M o = Some mp -> M' o = Some mp.
