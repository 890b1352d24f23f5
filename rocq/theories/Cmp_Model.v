(** Model of the comparisons of common/mg_str.c and common/str_util.c, and of mg_strstrip. *)
From Verif Require Import Base SUtil_Model Glob_Model.

(** strlen: the text must hold a NUL *)
Fixpoint c_strlen (s : list Z) : R Z :=
  match s with [] => UB | c :: r => if c =? 0 then OK 0 else n <- c_strlen r ;; OK (1 + n) end.
(** strncmp of the C library on unsigned bytes; only the sign of its result is specified, here it is -1, 0 or 1. *)
Fixpoint c_strncmp (len : nat) (s1 s2 : list Z) : R Z :=
  match len with
  | O => OK 0
  | S len' =>
    match s1, s2 with
    | c :: r1, d :: r2 => if c <? d then OK (-1) else if d <? c then OK 1 else if c =? 0 then OK 0 else c_strncmp len' r1 r2
    | _, _ => UB
    end
  end.
(** str_util.c:357-366 mg_ncasecmp *)
Fixpoint mg_ncasecmp (len : nat) (s1 s2 : list Z) : R Z :=
  match len with
  | O => OK 0
  | S len' =>
    match s1, s2 with
    | c :: r1, d :: r2 =>
      let diff := lowercase c - lowercase d in
      if (diff =? 0) && negb (c =? 0) then mg_ncasecmp len' r1 r2 else OK diff
    | _, _ => UB
    end
  end.
(** The difference of two size_t returned as an int *)
Definition int_of (z : Z) : Z := (z + 2 ^ 31) mod 2 ^ 32 - 2 ^ 31.
(** mg_str.c:41-59 mg_vcmp and mg_vcasecmp *)
Definition vcmp_with (cmp : nat -> list Z -> list Z -> R Z) (s1 s2 : list Z) : R Z :=
  n2 <- c_strlen s2 ;;
  let n1 := zlen s1 in
  r <- cmp (Z.to_nat (if n1 <? n2 then n1 else n2)) s1 s2 ;;
  OK (if r =? 0 then int_of (n1 - n2) else r).
Definition mg_vcmp := vcmp_with c_strncmp.
Definition mg_vcasecmp := vcmp_with mg_ncasecmp.
(** mg_str.c:111-122 mg_strncmp *)
Definition mg_strncmp (a b : list Z) (n : nat) : Z := mg_strcmp (firstn n a) (firstn n b).
(** tolower and isspace take an unsigned char or EOF; mg_str.c gives them a char, which is signed. *)
Definition tolower (c : Z) : R Z := let v := schar c in if 0 <=? v then OK (lowercase v) else if v =? -1 then OK v else UB.
Definition isspace (c : Z) : R bool := let v := schar c in if -1 <=? v then OK ((v =? 32) || ((9 <=? v) && (v <=? 13))) else UB.
(** mg_str.c:124-137 mg_strcasecmp *)
Fixpoint mg_strcasecmp (a b : list Z) : R Z :=
  match a, b with
  | c :: a', d :: b' =>
    c1 <- tolower c ;; c2 <- tolower d ;;
    if c1 <? c2 then OK (-1) else if c1 >? c2 then OK 1 else mg_strcasecmp a' b'
  | _ :: _, [] => OK 1
  | [], _ :: _ => OK (-1)
  | [], [] => OK 0
  end.
(** mg_str.c:161-171 mg_strstrip *)
Fixpoint strip_front (s : list Z) : R (list Z) :=
  match s with [] => OK [] | c :: r => b <- isspace c ;; if b : bool then strip_front r else OK s end.
Definition mg_strstrip (s : list Z) : R (list Z) :=
  s1 <- strip_front s ;; s2 <- strip_front (rev s1) ;; OK (rev s2).
