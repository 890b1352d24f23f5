(** The C library's number parsing, as used by the tokenizer, the parser and the virtual
    machine (mjs_tok.c:73-83, mjs_parser.c:304-316, mjs_exec.c:744). Texts are the bytes
    before a terminating NUL. Assumed of the library: C99 strtod in the "C" locale, correctly
    rounded; strtoul of a 64-bit unsigned long. *)
From Verif Require Import Base Value_Model Str_Model.

Definition hex_digit (c : Z) : option Z :=
  if is_digit c then Some (c - 48)
  else if (97 <=? c) && (c <=? 102) then Some (c - 87)
  else if (65 <=? c) && (c <=? 70) then Some (c - 55) else None.
Fixpoint hex_run (txt : list Z) (acc : Z) (k : nat) : Z * nat :=
  match txt with
  | [] => (acc, k)
  | c :: r => match hex_digit c with Some d => hex_run r (acc * 16 + d) (S k) | None => (acc, k) end
  end.
Definition is_hex (c : Z) : bool := match hex_digit c with Some _ => true | None => false end.

(** strtoul(txt, &end, 16): value and number of bytes consumed, 0 without a digit. Spaces,
    a sign and a 0x prefix are accepted. *)
Definition ul16_digits (neg : bool) (txt : list Z) (k0 : nat) : Z * nat :=
  let go r k :=
    let '(n, d) := hex_run r 0 0%nat in
    match d with O => (0, 0%nat) | _ => (ul_value neg n, (k + d)%nat) end in
  match txt with
  | z :: x :: c :: r =>
    if (z =? 48) && ((x =? 120) || (x =? 88)) && is_hex c then go (c :: r) (S (S k0)) else go txt k0
  | _ => go txt k0
  end.
Fixpoint strtoul16_at (txt : list Z) (k0 : nat) : Z * nat :=
  match txt with
  | [] => (0, 0%nat)
  | c :: r => if is_space c then strtoul16_at r (S k0)
              else if c =? 45 then ul16_digits true r (S k0)
              else if c =? 43 then ul16_digits false r (S k0)
              else ul16_digits false txt k0
  end.
Definition strtoul16 (txt : list Z) : Z * nat := strtoul16_at txt 0%nat.

(** The double nearest to num/den (ties to even), num >= 0, den > 0. *)
Definition round_ratio (num den : Z) : Z :=
  if num =? 0 then 0
  else
    let k := Z.max 0 (64 + Z.log2 den - Z.log2 num) in
    let q := num * 2 ^ k / den in
    let r := (num * 2 ^ k) mod den in
    d_enc (binary_round_aux 53 1024 false q (- k)
             (if r =? 0 then loc_Exact else loc_Inexact (Z.compare (2 * r) den))).

(** A run of decimal digits: value and length. *)
Fixpoint dec_run (txt : list Z) (acc : Z) (k : nat) : Z * nat :=
  match txt with
  | [] => (acc, k)
  | c :: r => if is_digit c then dec_run r (acc * 10 + (c - 48)) (S k) else (acc, k)
  end.
(** An exponent part introduced by [e] or [E] ([p] or [P]): value and length, or 0, 0. *)
Definition exp_part (lo up : Z) (txt : list Z) : Z * nat :=
  match txt with
  | c :: r =>
    if (c =? lo) || (c =? up) then
      let '(neg, r', k) := match r with
                           | s :: r' => if s =? 45 then (true, r', 2%nat)
                                        else if s =? 43 then (false, r', 2%nat) else (false, r, 1%nat)
                           | [] => (false, r, 1%nat)
                           end in
      let '(n, d) := dec_run r' 0 0%nat in
      match d with O => (0, 0%nat) | _ => (if neg then - n else n, (k + d)%nat) end
    else (0, 0%nat)
  | [] => (0, 0%nat)
  end.
Definition scale10 (m e : Z) : Z :=
  if 0 <=? e then round_ratio (m * 10 ^ e) 1 else round_ratio m (10 ^ (- e)).
Definition scale2 (m e : Z) : Z :=
  if 0 <=? e then round_ratio (m * 2 ^ e) 1 else round_ratio m (2 ^ (- e)).

(** strtod(txt, &end) on a text that starts with a digit: double pattern and bytes
    consumed. Decimal: digits, an optional fraction, an optional exponent. *)
Definition strtod_dec (txt : list Z) : Z * nat :=
  let '(m, k) := dec_run txt 0 0%nat in
  let '(m1, k1, fd) := match skipn k txt with
                       | c :: r => if c =? 46 then
                                     let '(m1, d) := dec_run r m 0%nat in (m1, (k + 1 + d)%nat, d)
                                   else (m, k, 0%nat)
                       | [] => (m, k, 0%nat)
                       end in
  let '(e, k2) := exp_part 101 69 (skipn k1 txt) in
  (scale10 m1 (e - Z.of_nat fd), (k1 + k2)%nat).
(** Hexadecimal floats 0x..., with at least one digit. *)
Definition strtod_hex (txt : list Z) : Z * nat :=
  let r0 := skipn 2 txt in
  let '(m, k) := hex_run r0 0 0%nat in
  let '(m1, k1, fd) := match skipn k r0 with
                       | c :: r => if c =? 46 then
                                     let '(m1, d) := hex_run r m 0%nat in (m1, (k + 1 + d)%nat, d)
                                   else (m, k, 0%nat)
                       | [] => (m, k, 0%nat)
                       end in
  let '(e, k2) := exp_part 112 80 (skipn k1 r0) in
  (scale2 m1 (e - 4 * Z.of_nat fd), (2 + k1 + k2)%nat).
Definition strtod (txt : list Z) : Z * nat :=
  match txt with
  | z :: x :: c :: r =>
    if (z =? 48) && ((x =? 120) || (x =? 88)) &&
       (is_hex c || ((c =? 46) && match r with c2 :: _ => is_hex c2 | [] => false end))
    then strtod_hex txt else strtod_dec txt
  | _ => strtod_dec txt
  end.
