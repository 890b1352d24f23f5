(** Model of parts of src/mjs_builtin.c (chr, s2o), of mjs_mkstr (mjs_string.c), of
    mjs_op_isnan (mjs_primitive.c) and of mjs_struct_to_obj (mjs_object.c). *)
From Verif Require Import Base Value_Model Varint_Model Str_Model Conv_Model Obj_Model Data_Model.

(** strlen and the bytes before the NUL, from address [p]; fuelled *)
Fixpoint rd_str (fuel : nat) (m : rawmem) (p : Z) : R (list Z) :=
  match fuel with
  | O => NoFuel
  | S f => b <- rd m p ;; if b =? 0 then OK [] else r <- rd_str f m (p + 1) ;; OK (b :: r)
  end.
(** mjs_string.c:45-131 mjs_mk_string(p, len, 1) of [len] bytes of memory at [p]; the length
    ~0 stands for strlen(p), a null pointer gives zero bytes *)
Definition mk_string_at (fuel : nat) (m : rawmem) (st : strs) (p len : Z) : R (strs * Z) :=
  if len =? 2 ^ 64 - 1 then (if p =? 0 then UB else d <- rd_str fuel m p ;; mk_string st d)
  else if p =? 0 then mk_string_src st None len
  else d <- rd_n (Z.to_nat len) m p ;; mk_string st d.

(** mjs_string.c:45-131 mjs_mk_string(p, ~0, 0): the test for length zero comes before strlen, so
    an empty text is stored as a foreign string too *)
Definition mk_foreign_text (fuel : nat) (m : rawmem) (st : strs) (p : Z) : R (strs * Z) :=
  d <- rd_str fuel m p ;;
  OK ({| so := so st; so_size := so_size st; sf := sf st ++ varint_bytes (zlen d) ++ le_bytes 8 p;
         s_need_gc := s_need_gc st |},
      Z.lor (untag (zlen (sf st))) TAG_STRING_F).

(** mjs_builtin.c:108-116 mjs_chr: the new strings and the result. mjs_get_int is called before
    the type of the argument is looked at. *)
Definition chr (st : strs) (arg0 : Z) : R (strs * Z) :=
  n <- get_int arg0 ;;
  if is_number arg0 && (0 <=? n) && (n <=? 255) then mk_string st [n] else OK (st, V_NULL).

(** mjs_primitive.c:153-160 mjs_op_isnan *)
Definition op_isnan (arg0 : Z) : Z := mk_boolean (arg0 =? TAG_NAN).

(** mjs_string.c:402-466 mjs_mkstr on the list of arguments: strings, result, error code *)
Definition mkstr (fuel : nat) (m : rawmem) (st : strs) (args : list Z) : R (strs * Z * Z) :=
  let go ptr_v offset_v len_v copy_v :=
    if negb (is_foreign ptr_v) then OK (st, V_UNDEFINED, E_TYPE)
    else if negb (offset_v =? V_UNDEFINED) && negb (is_number offset_v) then OK (st, V_UNDEFINED, E_TYPE)
    else if negb (is_number len_v) then OK (st, V_UNDEFINED, E_TYPE)
    else
      copy <- is_truthy st copy_v ;;
      offset <- (if negb (offset_v =? V_UNDEFINED) then get_int offset_v else OK 0) ;;
      len <- get_int len_v ;;
      let p := get_ptr ptr_v + offset in
      let n := u64 len in
      '(st, v) <- (if copy : bool then mk_string_at fuel m st p n
                   else if n =? 2 ^ 64 - 1 then mk_foreign_text fuel m st p
                   else mk_string_foreign st p n) ;;
      OK (st, v, E_OK)
  in
  match args with
  | [a; b] => go a V_UNDEFINED b V_UNDEFINED
  | [a; b; c] => go a b c V_UNDEFINED
  | [a; b; c; d] => go a b c d
  | _ => OK (st, V_UNDEFINED, E_TYPE)
  end.

(** Conversion of a float (32-bit pattern) to double *)
Definition f_dec (b : Z) : spec_float :=
  let s := 2 ^ 31 <=? b in
  let e := (b / 2 ^ 23) mod 2 ^ 8 in
  let m := b mod 2 ^ 23 in
  if e =? 255 then (if m =? 0 then S754_infinity s else S754_nan)
  else if e =? 0 then match m with Zpos m => S754_finite s m (-149) | _ => S754_zero s end
  else match m + 2 ^ 23 with Zpos m => S754_finite s m (e - 150) | _ => S754_nan end.
Definition d_of_float (b : Z) : Z :=
  d_enc (match f_dec b with S754_finite s m e => binary_round 53 1024 s m e | f => f end).

(** mjs_object_public.h:26-57 struct mjs_c_struct_member; the types are the values of the
    enumeration. [cm_arg] is the address of a table or a length. *)
Record cmember := { cm_name : list Z; cm_off : Z; cm_type : Z; cm_arg : Z }.
Definition FT_STRUCT := 1.
Definition FT_STRUCT_PTR := 2.
Definition FT_INT := 3.
Definition FT_BOOL := 4.
Definition FT_DOUBLE := 5.
Definition FT_FLOAT := 6.
Definition FT_CHAR_PTR := 7.
Definition FT_VOID_PTR := 8.
Definition FT_MG_STR_PTR := 9.
Definition FT_MG_STR := 10.
Definition FT_DATA := 11.
Definition FT_INT8 := 12.
Definition FT_INT16 := 13.
Definition FT_UINT8 := 14.
Definition FT_UINT16 := 15.
Definition FT_CUSTOM := 16.

(** *(T * )p for an integer or pointer type of [n] bytes *)
Definition rd_le (n : nat) (m : rawmem) (p : Z) : R Z := bs <- rd_n n m p ;; OK (le_val bs).
Definition signed (bits n : Z) : Z := if n <? 2 ^ (bits - 1) then n else n - 2 ^ bits.

Section Struct.
(** The memory, the tables at their addresses, and the C functions of custom fields. *)
Context (m : rawmem) (ext : extmem) (tab : Z -> list cmember) (custom : Z -> heap -> Z -> R (heap * Z)).

(** What a field gives: the heap, the value, whether an error was reported. *)
Definition str_field (fuel : nat) (h : heap) (p len : Z) : R (heap * Z * bool) :=
  '(st, v) <- mk_string_at fuel m (h_st h) p len ;; OK (with_st h st, v, false).
Definition num_field (h : heap) (n : Z) : R (heap * Z * bool) := OK (h, mk_number (d_of_Z n), false).

(** mjs_object.c:299-391: one member at address [p]. [sub] is mjs_struct_to_obj. *)
Definition field (sub : heap -> Z -> Z -> R (heap * Z * bool)) (fuel : nat) (h : heap) (ty arg p : Z)
  : R (heap * Z * bool) :=
  if ty =? FT_STRUCT then sub h p arg
  else if ty =? FT_STRUCT_PTR then
    q <- rd_le 8 m p ;; if negb (q =? 0) then sub h q arg else OK (h, V_NULL, false)
  else if ty =? FT_INT then n <- rd_le 4 m p ;; num_field h (signed 32 n)
  else if ty =? FT_BOOL then
    b <- rd m p ;; if b <=? 1 then OK (h, mk_boolean (b =? 1), false) else UB
  else if ty =? FT_DOUBLE then d <- rd_le 8 m p ;; OK (h, mk_number d, false)
  else if ty =? FT_FLOAT then b <- rd_le 4 m p ;; OK (h, mk_number (d_of_float b), false)
  else if ty =? FT_CHAR_PTR then q <- rd_le 8 m p ;; str_field fuel h q (2 ^ 64 - 1)
  else if ty =? FT_VOID_PTR then
    q <- rd_le 8 m p ;; let '(v, e) := mk_foreign q in OK (h, v, e)
  else if ty =? FT_MG_STR_PTR then
    s <- rd_le 8 m p ;;
    if negb (s =? 0) then q <- rd_le 8 m s ;; n <- rd_le 8 m (s + 8) ;; str_field fuel h q n
    else OK (h, V_NULL, false)
  else if ty =? FT_MG_STR then q <- rd_le 8 m p ;; n <- rd_le 8 m (p + 8) ;; str_field fuel h q n
  else if ty =? FT_DATA then str_field fuel h p (u64 arg)
  else if ty =? FT_INT8 then n <- rd_le 1 m p ;; num_field h (signed 8 n)
  else if ty =? FT_INT16 then n <- rd_le 2 m p ;; num_field h (signed 16 n)
  else if ty =? FT_UINT8 then n <- rd_le 1 m p ;; num_field h n
  else if ty =? FT_UINT16 then n <- rd_le 2 m p ;; num_field h n
  else if ty =? FT_CUSTOM then '(h, v) <- custom arg h p ;; OK (h, v, false)
  else OK (h, V_UNDEFINED, false).

(** mjs_object.c:296-393: the members from the last to the first; [l] is the rest of the
    reversed table *)
Fixpoint fields (sub : heap -> Z -> Z -> R (heap * Z * bool)) (fuel : nat) (h : heap) (obj base : Z) (l : list cmember)
  : R (heap * bool) :=
  match l with
  | [] => OK (h, false)
  | c :: l =>
    '(h, v, e1) <- field sub fuel h (cm_type c) (cm_arg c) (base + cm_off c) ;;
    '(h, e2) <- set_prop h ext obj None (cm_name c) v ;;
    '(h, e3) <- fields sub fuel h obj base l ;;
    OK (h, e1 || negb (e2 =? E_OK) || e3)
  end.
(** mjs_object.c:283-397 mjs_struct_to_obj(base, defs): heap, object, whether an error was
    reported. The fuel bounds the nesting and the length of strings. *)
Fixpoint struct_to_obj (fuel : nat) (h : heap) (base defs : Z) : R (heap * Z * bool) :=
  match fuel with
  | O => NoFuel
  | S f =>
    if (base =? 0) || (defs =? 0) then OK (h, V_UNDEFINED, false)
    else
      '(h, obj) <- mk_object h ;;
      '(h, e) <- fields (struct_to_obj f) f h obj base (rev (tab defs)) ;;
      OK (h, obj, e)
  end.
(** mjs_builtin.c:124-129 mjs_s2o *)
Definition s2o (fuel : nat) (h : heap) (arg0 arg1 : Z) : R (heap * Z * bool) :=
  struct_to_obj fuel h (get_ptr arg0) (get_ptr arg1).
End Struct.
