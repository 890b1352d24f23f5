(** Model of NaN-boxed values: src/mjs_core.h (tags), src/mjs_primitive.c, the type
    predicates of mjs_string.c / mjs_object.c / mjs_array.c / mjs_ffi.c and
    mjs_get_type. A value is its 64-bit pattern, a [Z] in [0, 2^64). Doubles are
    the same 64-bit patterns, decoded to [spec_float] when arithmetic is needed. *)
From Coq Require Export Floats.SpecFloat.
From Verif Require Import Base.

(** mjs_core.h:54-55 MAKE_TAG *)
Definition make_tag (s t : Z) : Z := Z.lor (Z.lor (Z.shiftl s 63) (Z.shiftl 32752 48)) (Z.shiftl t 48).

(** mjs_core.h:57-71; the literals are MAKE_TAG(1, t) (see [tags_make] in
    Value_Proofs). *)
Definition TAG_OBJECT := 65521 * 2 ^ 48.
Definition TAG_FOREIGN := 65522 * 2 ^ 48.
Definition TAG_UNDEFINED := 65523 * 2 ^ 48.
Definition TAG_BOOLEAN := 65524 * 2 ^ 48.
Definition TAG_NAN := 65525 * 2 ^ 48.
Definition TAG_STRING_I := 65526 * 2 ^ 48.
Definition TAG_STRING_5 := 65527 * 2 ^ 48.
Definition TAG_STRING_O := 65528 * 2 ^ 48.
Definition TAG_STRING_F := 65529 * 2 ^ 48.
Definition TAG_STRING_C := 65530 * 2 ^ 48.
Definition TAG_STRING_D := 65531 * 2 ^ 48.
Definition TAG_ARRAY := 65532 * 2 ^ 48.
Definition TAG_FUNCTION := 65533 * 2 ^ 48.
Definition TAG_FUNCTION_FFI := 65534 * 2 ^ 48.
Definition TAG_NULL := 65535 * 2 ^ 48.
Definition TAG_MASK := 65535 * 2 ^ 48.

(** mjs_internal.h / mjs_primitive_public.h: MJS_NULL, MJS_UNDEFINED *)
Definition V_NULL := TAG_NULL.
Definition V_UNDEFINED := TAG_UNDEFINED.

(** IEEE 754 binary64 fields of a pattern. *)
Definition d_sign (b : Z) : bool := 2 ^ 63 <=? b.
Definition d_exp (b : Z) : Z := (b / 2 ^ 52) mod 2 ^ 11.
Definition d_man (b : Z) : Z := b mod 2 ^ 52.
(** isnan(3) *)
Definition d_isnan (b : Z) : bool := (d_exp b =? 2047) && negb (d_man b =? 0).

(** Decoding to the standard library's specification floats. *)
Definition d_dec (b : Z) : spec_float :=
  let s := d_sign b in
  if d_exp b =? 2047 then (if d_man b =? 0 then S754_infinity s else S754_nan)
  else if d_exp b =? 0 then
    match d_man b with Zpos m => S754_finite s m (-1074) | _ => S754_zero s end
  else match d_man b + 2 ^ 52 with
       | Zpos m => S754_finite s m (d_exp b - 1075)
       | _ => S754_nan
       end.
(** Encoding. NaNs encode as the JS NaN, since every double reaching a value goes
    through mjs_mk_number. *)
Definition sbit (s : bool) : Z := if s then 2 ^ 63 else 0.
Definition d_enc (f : spec_float) : Z :=
  match f with
  | S754_zero s => sbit s
  | S754_infinity s => sbit s + 2047 * 2 ^ 52
  | S754_nan => TAG_NAN
  | S754_finite s m e =>
    if Z.pos m <? 2 ^ 52 then sbit s + Z.pos m
    else sbit s + (e + 1075) * 2 ^ 52 + (Z.pos m - 2 ^ 52)
  end.

(** (double) n for a C integer: round to nearest even. *)
Definition d_of_Z (n : Z) : Z :=
  d_enc (binary_normalize 53 1024 n 0 false).

(** Truncation toward zero of a finite double (None for infinities and NaN). *)
Definition d_trunc (b : Z) : option Z :=
  match d_dec b with
  | S754_zero _ => Some 0
  | S754_finite s m e =>
    let a := if 0 <=? e then Z.pos m * 2 ^ e else Z.pos m / 2 ^ (- e) in
    Some (if s then - a else a)
  | _ => None
  end.

(** C conversions from double: undefined when the truncated value does not fit. *)
Definition d_to_range (lo hi : Z) (b : Z) : R Z :=
  match d_trunc b with
  | Some n => if (lo <=? n) && (n <=? hi) then OK n else UB
  | None => UB
  end.

(** mjs_primitive.c:10-24 mjs_is_null, mjs_is_undefined *)
Definition is_null (v : Z) : bool := v =? V_NULL.
Definition is_undefined (v : Z) : bool := v =? V_UNDEFINED.

(** mjs_primitive.c:26-41 mjs_mk_number *)
Definition mk_number (d : Z) : Z := if d_isnan d then TAG_NAN else d.
(** mjs_primitive.c:43-56 mjs_get_double: the pattern itself *)
Definition get_double (v : Z) : Z := v.
(** mjs_primitive.c:58-65 mjs_get_int: (int)(unsigned int) double *)
Definition get_int (v : Z) : R Z :=
  n <- d_to_range 0 (2 ^ 32 - 1) (get_double v) ;; OK (s32 n).
(** mjs_primitive.c:67-70 mjs_get_int32 *)
Definition get_int32 (v : Z) : R Z := d_to_range (- 2 ^ 31) (2 ^ 31 - 1) (get_double v).
(** mjs_primitive.c:72-74 mjs_is_number *)
Definition is_number (v : Z) : bool := (v =? TAG_NAN) || negb (d_isnan (get_double v)).

(** mjs_primitive.c:76-92 booleans *)
Definition mk_boolean (b : bool) : Z := Z.lor (if b then 1 else 0) TAG_BOOLEAN.
Definition is_boolean (v : Z) : bool := Z.land v TAG_MASK =? TAG_BOOLEAN.
Definition get_bool (v : Z) : bool := if is_boolean v then negb (Z.land v 1 =? 0) else false.

(** mjs_primitive.c:94-95 MJS_IS_POINTER_LEGIT; ~0 is the int -1, sign extended *)
Definition ptr_legit (n : Z) : bool :=
  (Z.land n TAG_MASK =? 0) || (Z.land n TAG_MASK =? TAG_MASK).
(** n & ~MJS_TAG_MASK *)
Definition untag (n : Z) : Z := Z.land n (2 ^ 48 - 1).
(** mjs_primitive.c:97-104 mjs_pointer_to_value: value, and whether a TypeError was
    set. *)
Definition pointer_to_value (p : Z) : Z * bool := (untag p, negb (ptr_legit p)).
(** mjs_primitive.c:106-111 mjs_legit_pointer_to_value *)
Definition legit_pointer_to_value (p : Z) : R Z := if ptr_legit p then OK (untag p) else Abort.
(** mjs_primitive.c:113-115 get_ptr *)
Definition get_ptr_raw (v : Z) : Z := Z.land v (2 ^ 48 - 1).
(** mjs_primitive.c:140-142 mjs_is_foreign *)
Definition is_foreign (v : Z) : bool := Z.land v TAG_MASK =? TAG_FOREIGN.
(** mjs_primitive.c:117-123 mjs_get_ptr *)
Definition get_ptr (v : Z) : Z := if negb (is_foreign v) then 0 else get_ptr_raw v.
(** mjs_primitive.c:125-138 mjs_mk_foreign, mjs_mk_foreign_func *)
Definition mk_foreign (p : Z) : Z * bool :=
  let '(v, e) := pointer_to_value p in (Z.lor v TAG_FOREIGN, e).
(** mjs_primitive.c:144-151 functions; mjs_core.c:198-200 mjs_get_func_addr *)
Definition mk_function (off : Z) : Z := Z.lor off TAG_FUNCTION.
Definition is_function (v : Z) : bool := Z.land v TAG_MASK =? TAG_FUNCTION.
Definition get_func_addr (v : Z) : Z := untag v.

(** mjs_string.c:38-43 mjs_is_string *)
Definition is_string (v : Z) : bool :=
  let t := Z.land v TAG_MASK in
  (t =? TAG_STRING_I) || (t =? TAG_STRING_F) || (t =? TAG_STRING_O) || (t =? TAG_STRING_5) ||
  (t =? TAG_STRING_D).
(** mjs_object.c:45-48 mjs_is_object; mjs_array.c:39-41 mjs_is_array;
    mjs_ffi.c:614-616 mjs_is_ffi_sig *)
Definition is_object (v : Z) : bool :=
  (Z.land v TAG_MASK =? TAG_OBJECT) || (Z.land v TAG_MASK =? TAG_ARRAY).
Definition is_array (v : Z) : bool := Z.land v TAG_MASK =? TAG_ARRAY.
Definition is_ffi_sig (v : Z) : bool := Z.land v TAG_MASK =? TAG_FUNCTION_FFI.

(** mjs_object.c:16-22 mjs_object_to_value; mjs_array.c:31-37 retagging;
    mjs_ffi.c:605-612 mjs_ffi_sig_to_value *)
Definition object_to_value (p : Z) : R Z :=
  if p =? 0 then OK V_NULL else v <- legit_pointer_to_value p ;; OK (Z.lor v TAG_OBJECT).
Definition array_of_object (v : Z) : Z := Z.lor (untag v) TAG_ARRAY.
Definition ffi_sig_to_value (p : Z) : R Z :=
  if p =? 0 then OK V_NULL else v <- legit_pointer_to_value p ;; OK (Z.lor v TAG_FUNCTION_FFI).
(** mjs_object.c:24-33 get_object_struct *)
Definition get_object_struct (v : Z) : R Z :=
  if is_null v then OK 0 else if is_object v then OK (get_ptr_raw v) else Abort.

(** mjs_core.h:19-36 enum mjs_type; mjs_core.c:202-233 mjs_get_type *)
Inductive mtype := TyUndefined | TyNull | TyBoolean | TyNumber | TyString | TyForeign
                 | TyObject | TyArray | TyFunction.
Definition get_type (v : Z) : R mtype :=
  if is_number v then OK TyNumber
  else let tag := Z.shiftr (Z.land v TAG_MASK) 48 in
  if tag =? 65522 then OK TyForeign
  else if tag =? 65523 then OK TyUndefined
  else if tag =? 65521 then OK TyObject
  else if tag =? 65532 then OK TyArray
  else if tag =? 65533 then OK TyFunction
  else if (tag =? 65526) || (tag =? 65528) || (tag =? 65529) || (tag =? 65531) || (tag =? 65527)
  then OK TyString
  else if tag =? 65524 then OK TyBoolean
  else if tag =? 65535 then OK TyNull
  else Abort.

(** mjs_primitive.c:153-160 isNaN builtin *)
Definition op_isnan (v : Z) : Z := mk_boolean (v =? TAG_NAN).

(** mjs_util.c:343-354 mjs_normalize_idx; size + idx must fit an int *)
Definition normalize_idx (idx size : Z) : R Z :=
  if idx <? 0 then
    if (size + idx <? - 2 ^ 31) || (2 ^ 31 <=? size + idx) then UB
    else let i := if size + idx <? 0 then 0 else size + idx in
         OK (if i >? size then size else i)
  else OK (if idx >? size then size else idx).
