(** Model of src/common/cs_time.c. *)
From Verif Require Import Base.

(** The fields of struct tm that are used: each an int. *)
Record tm := { tm_sec : Z; tm_min : Z; tm_hour : Z; tm_mday : Z; tm_mon : Z; tm_year : Z }.
(** The result of an operation on ints: out of range is undefined. *)
Definition int (n : Z) : R Z := if (- 2 ^ 31 <=? n) && (n <? 2 ^ 31) then OK n else UB.
Definition iadd (a b : Z) : R Z := int (a + b).
Definition isub (a b : Z) : R Z := int (a - b).
Definition imul (a b : Z) : R Z := int (a * b).
(** cs_time.c:64-65 *)
Definition month_day : list Z := [0; 31; 59; 90; 120; 151; 181; 212; 243; 273; 304; 334].
(** cs_time.c:62-95 cs_timegm. Division and remainder round to zero. All operands are ints, so the sums and
    products are computed as ints too; only the result is stored in an int64_t. The double returned is
    given as the integer it represents: an int is represented exactly. *)
Definition cs_timegm (t : tm) : R Z :=
  let month := Z.rem (tm_mon t) 12 in
  year <- iadd (tm_year t) (Z.quot (tm_mon t) 12) ;;
  '(month, year) <- (if month <? 0 then y <- isub year 1 ;; OK (month + 12, y) else OK (month, year)) ;;
  yl <- (if 1 <? month then iadd year 1 else OK year) ;;
  md <- (match nthz month_day month with Some d => OK d | None => UB end) ;;
  d <- iadd md (tm_mday t) ;;
  d <- isub d 1 ;;
  y70 <- isub year 70 ;;
  yd <- imul 365 y70 ;;
  d <- iadd d yd ;;
  a <- isub yl 69 ;;
  d <- iadd d (Z.quot a 4) ;;
  b <- isub yl 1 ;;
  d <- isub d (Z.quot b 100) ;;
  c <- iadd yl 299 ;;
  d <- iadd d (Z.quot c 400) ;;
  h <- imul 24 d ;;
  h <- iadd (tm_hour t) h ;;
  m <- imul 60 h ;;
  m <- iadd (tm_min t) m ;;
  s <- imul 60 m ;;
  s <- iadd (tm_sec t) s ;;
  OK (if s <? 0 then -1 else s).
