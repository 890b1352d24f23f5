(** Model of src/mjs_conversion.c and of the number printing of src/mjs_util.c. *)
From Verif Require Import Base Value_Model Str_Model SUtil_Model.

(** Decimal text of a natural number, most significant digit first: the behaviour of the C
    library's printf for 64-bit integers. *)
Definition dec_text (n : Z) : R (list Z) := ds <- itoa_digits 64 n 10 ;; OK (rev ds).
Definition signed_text (n : Z) : R (list Z) :=
  t <- dec_text (Z.abs n) ;; OK (if n <? 0 then 45 :: t else t).

(** printf %f of the finite double (-1)^s * m * 2^e: the exact value rounded to six
    decimals, ties to even. *)
Definition round_half_even (num den : Z) : Z :=
  let q := num / den in
  let r := num mod den in
  if 2 * r <? den then q
  else if 2 * r >? den then q + 1
  else if Z.even q then q else q + 1.
Definition pad6 (t : list Z) : list Z := repeat 48 (6 - length t) ++ t.
Definition fixed6_text (s : bool) (m : Z) (e : Z) : R (list Z) :=
  let k := if 0 <=? e then m * 2 ^ e * 1000000 else round_half_even (m * 1000000) (2 ^ (- e)) in
  i <- dec_text (k / 1000000) ;;
  f <- dec_text (k mod 1000000) ;;
  OK ((if s then [45] else []) ++ i ++ 46 :: pad6 f).

(** mjs_util.c:47-55 mjs_jprintf on a number: %ld of the int64 value when modf says the
    fraction is zero (converting a double outside int64, or an infinity, is undefined),
    %f otherwise. The only NaN that is a number has its sign bit set, printed -nan. *)
Definition num_text (v : Z) : R (list Z) :=
  match d_dec v with
  | S754_zero _ => OK [48]
  | S754_infinity _ => UB
  | S754_nan => OK [45; 110; 97; 110]
  | S754_finite s m e =>
    let whole := (0 <=? e) || (Z.pos m mod 2 ^ (- e) =? 0) in
    if whole then
      n <- d_to_range (- 2 ^ 63) (2 ^ 63 - 1) v ;; signed_text n
    else fixed6_text s (Z.pos m) e
  end.

Definition ascii_true := [116; 114; 117; 101].
Definition ascii_false := [102; 97; 108; 115; 101].
Definition ascii_undefined := [117; 110; 100; 101; 102; 105; 110; 101; 100].
Definition ascii_null := [110; 117; 108; 108].
Definition ascii_todo := [84; 79; 68; 79; 95; 102; 111; 114; 101; 105; 103; 110].

(** mjs_conversion.c:12-62 mjs_to_string: the text, or [None] for a TypeError. Numbers are
    printed into a 50 byte buffer. Simplification: allocation succeeds. *)
Definition to_string (st : strs) (ext : extmem) (v : Z) : R (option (list Z)) :=
  if is_string v then d <- str_bytes st ext v ;; OK (Some d)
  else if is_number v then t <- num_text v ;; OK (Some (firstn 49 t))
  else if is_boolean v then OK (Some (if get_bool v then ascii_true else ascii_false))
  else if is_undefined v then OK (Some ascii_undefined)
  else if is_null v then OK (Some ascii_null)
  else if is_object v then OK None
  else if is_foreign v then OK (Some ascii_todo)
  else OK None.

(** d != 0.0 for a double pattern *)
Definition d_nonzero (b : Z) : bool := match d_dec b with S754_zero _ => false | _ => true end.
(** mjs_conversion.c:64-81 mjs_to_boolean_v, mjs_is_truthy *)
Definition is_truthy (st : strs) (v : Z) : R bool :=
  s <- (if is_string v then
          '(l, n) <- get_string st v ;;
          OK (match l with PNull => false | _ => n >? 0 end)
        else OK false) ;;
  OK (((is_boolean v && get_bool v) || (is_number v && d_nonzero v) || s ||
       is_function v || is_foreign v || is_object v) && negb (v =? TAG_NAN)).
