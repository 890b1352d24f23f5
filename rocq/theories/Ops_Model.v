(** Model of the operators of the virtual machine: src/mjs_exec.c do_arith_op, do_op,
    check_equal and the number-only operators of exec_expr. Doubles are 64-bit patterns;
    IEEE arithmetic is the standard library's specification floats (53 bits, emax 1024),
    rounding to nearest even. *)
From Verif Require Import Base Value_Model Str_Model TokNum_Model.

Definition d_add (a b : Z) : Z := d_enc (SFadd 53 1024 (d_dec a) (d_dec b)).
Definition d_sub (a b : Z) : Z := d_enc (SFsub 53 1024 (d_dec a) (d_dec b)).
Definition d_mul (a b : Z) : Z := d_enc (SFmul 53 1024 (d_dec a) (d_dec b)).
Definition d_div (a b : Z) : Z := d_enc (SFdiv 53 1024 (d_dec a) (d_dec b)).
(** C's unary minus flips the sign bit, also of a NaN *)
Definition d_neg (a : Z) : Z := if d_sign a then a - 2 ^ 63 else a + 2 ^ 63.
Definition d_lt (a b : Z) : bool := SFltb (d_dec a) (d_dec b).
Definition d_le (a b : Z) : bool := SFleb (d_dec a) (d_dec b).
Definition d_is_zero (a : Z) : bool := match d_dec a with S754_zero _ => true | _ => false end.

(** wrap to int64_t *)
Definition s64 (n : Z) : Z := let m := n mod 2 ^ 64 in if m <? 2 ^ 63 then m else m - 2 ^ 64.
(** (int64_t) d, (uint32_t) d *)
Definition to_i64 (d : Z) : R Z := d_to_range (- 2 ^ 63) (2 ^ 63 - 1) d.
Definition to_u32 (d : Z) : R Z := d_to_range 0 (2 ^ 32 - 1) d.

(** mjs_exec.c:99-153 do_arith_op: [None] when *resnan is set. A conversion to an integer
    type that cannot hold the value is undefined, as are shift counts outside the width of
    the promoted left operand. Shifting a signed value left wraps, as the compilers used
    for mJS define it. *)
Definition do_arith_op (da db op : Z) : R (option Z) :=
  if d_isnan da || d_isnan db then OK None
  else if op =? TOK_MINUS then OK (Some (d_sub da db))
  else if op =? TOK_PLUS then OK (Some (d_add da db))
  else if op =? TOK_MUL then OK (Some (d_mul da db))
  else if op =? TOK_DIV then
    (if negb (d_is_zero db) then OK (Some (d_div da db)) else OK None)
  else if op =? TOK_REM then
    y <- d_to_range (- 2 ^ 31) (2 ^ 31 - 1) db ;;
    if negb (y =? 0) then
      let neg := d_lt da 0 in
      x <- to_i64 (if neg then d_neg da else da) ;;
      let r := d_of_Z (Z.rem x (Z.abs y)) in
      OK (Some (if neg then d_neg r else r))
    else OK None
  else if op =? TOK_AND then x <- to_i64 da ;; y <- to_i64 db ;; OK (Some (d_of_Z (Z.land x y)))
  else if op =? TOK_OR then x <- to_i64 da ;; y <- to_i64 db ;; OK (Some (d_of_Z (Z.lor x y)))
  else if op =? TOK_XOR then x <- to_i64 da ;; y <- to_i64 db ;; OK (Some (d_of_Z (Z.lxor x y)))
  else if op =? TOK_LSHIFT then
    x <- to_i64 da ;; y <- to_i64 db ;;
    if (0 <=? y) && (y <=? 63) then OK (Some (d_of_Z (s64 (Z.shiftl x y)))) else UB
  else if op =? TOK_RSHIFT then
    x <- to_i64 da ;; y <- to_i64 db ;;
    if (0 <=? y) && (y <=? 63) then OK (Some (d_of_Z (Z.shiftr x y))) else UB
  else if op =? TOK_URSHIFT then
    x <- to_u32 da ;; y <- to_u32 db ;;
    if y <=? 31 then OK (Some (d_of_Z (Z.shiftr x y))) else UB
  else OK None.

(** mjs_exec.c:160-204 do_op: the strings after it, the result and the error code reported
    through mjs_prepend_errorf (0 for none; several reports are all TYPE_ERROR). Reported
    messages are not modelled here. *)
Definition do_op (st : strs) (ext : extmem) (a b op : Z) : R (strs * Z * Z) :=
  if (is_foreign a || is_number a) && (is_foreign b || is_number b) then
    let err1 :=
      if is_foreign a && is_foreign b then negb (op =? TOK_MINUS)
      else if is_foreign a || is_foreign b then negb (op =? TOK_MINUS) && negb (op =? TOK_PLUS)
      else false in
    let is_result_ptr := xorb (is_foreign a) (is_foreign b) in
    let da := if is_number a then get_double a else d_of_Z (get_ptr a) in
    let db := if is_number b then get_double b else d_of_Z (get_ptr b) in
    r <- do_arith_op da db op ;;
    match r with
    | None => OK (st, TAG_NAN, if err1 then E_TYPE else E_OK)
    | Some d =>
      if is_result_ptr then
        p <- d_to_range 0 (2 ^ 64 - 1) d ;;
        let '(v, e) := mk_foreign p in
        OK (st, v, if err1 || e then E_TYPE else E_OK)
      else OK (st, mk_number d, if err1 then E_TYPE else E_OK)
    end
  else if is_string a && is_string b && (op =? TOK_PLUS) then
    '(st', v) <- s_concat st ext a b ;; OK (st', v, E_OK)
  else OK (st, V_UNDEFINED, E_TYPE).

(** mjs_exec.c:219-241 check_equal *)
Definition check_equal (st : strs) (ext : extmem) (a b : Z) : R bool :=
  if (a =? TAG_NAN) && (b =? TAG_NAN) then OK false
  else if a =? b then OK true
  else if is_number a && is_number b then OK false
  else if is_string a && is_string b then c <- s_cmp st ext a b ;; OK (c =? 0)
  else if is_foreign a && (b =? V_NULL) then OK (get_ptr a =? 0)
  else if (a =? V_NULL) && is_foreign b then OK (get_ptr b =? 0)
  else OK false.

(** mjs_exec.c:264-276 exec_expr TOK_UNARY_MINUS, TOK_TILDA on the popped value *)
Definition un_minus (v : Z) : Z := mk_number (d_neg (get_double v)).
Definition un_tilda (v : Z) : R Z := x <- to_i64 (get_double v) ;; OK (mk_number (d_of_Z (Z.lnot x))).
(** mjs_exec.c:298-321 TOK_LT, TOK_GT, TOK_LE, TOK_GE on the doubles of the two values *)
Definition rel_op (a b op : Z) : bool :=
  if op =? TOK_LT then d_lt a b else if op =? TOK_GT then d_lt b a
  else if op =? TOK_LE then d_le a b else d_le b a.
