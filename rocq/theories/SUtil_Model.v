(** Model of src/common/str_util.c: the built-in snprintf, hex conversion, strnstr and
    comma lists; of the base64 codec of src/frozen/frozen.c; and of parts of
    src/common/mg_str.c. *)
From Verif Require Import Base.

(** str_util.c:39-43 C_SNPRINTF_APPEND_CHAR at [buf + off], index [i]: a store when
    i < (int) buf_size. [buf] is the whole destination object; storing outside is UB. *)
Definition put (buf : list Z) (off i size ch : Z) : R (list Z) :=
  if i <? s32 size then
    if (0 <=? off + i) && (off + i <? zlen buf) then OK (blit buf (off + i) [ch]) else UB
  else OK buf.

(** The same for a run of characters; returns the buffer and the index after it. *)
Fixpoint puts (buf : list Z) (off i size : Z) (cs : list Z) : R (list Z * Z) :=
  match cs with
  | [] => OK (buf, i)
  | c :: r => b <- put buf off i size c ;; puts b off (i + 1) size r
  end.

(** str_util.c:52-92 c_itoa: digits of [num] in reverse order (the do-while loop). *)
Definition digit_char (rem : Z) : Z := if rem <? 10 then 48 + rem else 97 + (rem - 10).
Fixpoint itoa_digits (fuel : nat) (num base : Z) : R (list Z) :=
  match fuel with
  | O => NoFuel
  | S f =>
    let d := digit_char (num mod base) in
    let q := num / base in
    if q >? 0 then r <- itoa_digits f q base ;; OK (d :: r) else OK [d]
  end.
(** The complete contents of [tmp] (40 bytes) before the output loop, in order of
    writing; negating INT64_MIN overflows. *)
Definition itoa_tmp (num base : Z) (flags : bool) (field_width : Z) : R (list Z) :=
  if num =? - 2 ^ 63 then UB
  else
    ds <- itoa_digits 64 (Z.abs num) base ;;
    let k := zlen ds in
    let pad := if flags then Z.max 0 (Z.min field_width 39 - k) else 0 in
    let t := ds ++ repeat 48 (Z.to_nat pad) ++ (if num <? 0 then [45] else []) in
    if zlen t >? 40 then UB else OK t.
(** Output loop: from [buf + off] with [size]; returns the count. *)
Definition c_itoa (buf : list Z) (off size num base : Z) (flags : bool) (width : Z)
  : R (list Z * Z) :=
  t <- itoa_tmp num base flags width ;; puts buf off 0 size (rev t).

(** Variadic arguments: an int (32 bits), a long / size_t / int64_t / pointer (64 bits), or
    a char pointer with the bytes readable behind it. *)
Inductive varg := VInt (z : Z) | VLong (z : Z) | VStr (s : option (list Z)).

Definition s64 (z : Z) : Z := let w := z mod 2 ^ 64 in if w <? 2 ^ 63 then w else w - 2 ^ 64.

(** Reading digits of a width or precision (lines 119-122, 133-136). Simplification: no
    int overflow check. *)
Fixpoint fmt_num (fmt : list Z) (acc : Z) : Z * list Z :=
  match fmt with
  | c :: r => if (48 <=? c) && (c <=? 57) then fmt_num r (acc * 10 + (c - 48)) else (acc, fmt)
  | [] => (acc, [])
  end.
Definition next_int (args : list varg) : R (Z * list varg) :=
  match args with VInt z :: r => OK (z, r) | _ => UB end.

(** str_util.c:31-36 c_strnlen of readable text [s]. *)
Fixpoint c_strnlen (s : list Z) (n : nat) {struct n} : R Z :=
  match n with
  | O => OK 0
  | S n' => match s with
            | [] => UB
            | c :: r => if c =? 0 then OK 0 else k <- c_strnlen r n' ;; OK (1 + k)
            end
  end.
(** The characters copied by lines 172-177: up to a NUL, or [precision] if positive. *)
Fixpoint str_chars (s : list Z) (limit : option nat) : R (list Z) :=
  match limit with
  | Some O => OK []
  | _ => match s with
         | [] => UB
         | c :: r => if c =? 0 then OK []
                     else t <- str_chars r (match limit with Some (S k) => Some k | _ => None end) ;;
                          OK (c :: t)
         end
  end.

Record conv := { cv_flags : bool; cv_width : Z; cv_prec : Z; cv_len : Z; cv_ch : Z }.

(** str_util.c:108-158: one conversion specification after the percent sign. Length
    modifiers are kept as their character, hh as H and ll as q; 0 for none. *)
Definition is_lenmod (c : Z) : bool :=
  (c =? 104) || (c =? 108) || (c =? 76) || (c =? 73) || (c =? 113) || (c =? 106) ||
  (c =? 122) || (c =? 116).
Definition parse_conv (fmt : list Z) (args : list varg) : R (conv * list Z * list varg) :=
  let flags := match fmt with c :: _ => c =? 48 | [] => false end in
  let '(w, f1) := fmt_num fmt 0 in
  '(w, f2, a2) <- (match f1 with
                   | c :: r => if c =? 42 then '(z, a) <- next_int args ;; OK (z, r, a)
                               else OK (w, f1, args)
                   | [] => OK (w, f1, args)
                   end) ;;
  '(p, f3, a3) <- (match f2 with
                   | c :: r =>
                     if c =? 46 then
                       match r with
                       | c2 :: r2 => if c2 =? 42 then '(z, a) <- next_int a2 ;; OK (z, r2, a)
                                     else let '(p, r') := fmt_num r 0 in OK (p, r', a2)
                       | [] => OK (0, r, a2)
                       end
                     else OK (0, f2, a2)
                   | [] => OK (0, f2, a2)
                   end) ;;
  let '(lm, f4) :=
    match f3 with
    | c :: r =>
      if is_lenmod c then
        let '(lm, r) := match r with h :: r' => if h =? 104 then (72, r') else (c, r) | [] => (c, r) end in
        match r with h :: r' => if h =? 108 then (113, r') else (lm, r) | [] => (lm, r) end
      else (0, f3)
    | [] => (0, f3)
    end in
  match f4 with
  | [] => UB (* reads past the end of the format *)
  | c :: f5 => OK ({| cv_flags := flags; cv_width := w; cv_prec := p; cv_len := lm; cv_ch := c |}, f5, a3)
  end.

(** str_util.c:160-214: output of one conversion. *)
Definition do_conv (buf : list Z) (i size : Z) (c : conv) (args : list varg)
  : R (list Z * Z * list varg) :=
  let ch := cv_ch c in
  let num z base rest :=
    '(b, n) <- c_itoa buf i (u64 (size - i)) z base (cv_flags c) (cv_width c) ;;
    OK (b, i + n, rest) in
  let xu := (ch =? 120) || (ch =? 117) in
  let base := if ch =? 120 then 16 else 10 in
  if ch =? 115 (* s *) then
    match args with
    | VStr s :: rest =>
      n <- (if cv_prec c >=? 0 then
              match s with
              | Some t => c_strnlen t (Z.to_nat (cv_prec c))
              | None => if cv_prec c =? 0 then OK 0 else UB
              end
            else OK 0) ;;
      '(b, i1) <- puts buf 0 i size (repeat 32 (Z.to_nat (cv_width c - n))) ;;
      match s with
      | None => OK (b, i1, rest)
      | Some t =>
        cs <- str_chars t (if cv_prec c <=? 0 then None else Some (Z.to_nat (cv_prec c))) ;;
        '(b2, i2) <- puts b 0 i1 size cs ;;
        OK (b2, i2, rest)
      end
    | _ => UB
    end
  else if ch =? 99 (* c *) then
    '(z, rest) <- next_int args ;;
    b <- put buf 0 i size (z mod 256) ;; OK (b, i + 1, rest)
  else if (ch =? 100) && (cv_len c =? 0) then
    '(z, rest) <- next_int args ;; num (s32 z) 10 rest
  else if (ch =? 100) && ((cv_len c =? 108) || (cv_len c =? 122) || (cv_len c =? 113)) then
    match args with VLong z :: rest => num (s64 z) 10 rest | _ => UB end
  else if xu && (cv_len c =? 0) then
    '(z, rest) <- next_int args ;; num (u32 z) base rest
  else if xu && ((cv_len c =? 108) || (cv_len c =? 122)) then
    match args with VLong z :: rest => num (s64 z) base rest | _ => UB end
  else if ch =? 112 (* p *) then
    match args with
    | VLong z :: rest =>
      '(b, i2) <- puts buf 0 i size [48; 120] ;;
      '(b2, n) <- c_itoa b i2 (u64 (size - i2)) (s64 z) 16 (cv_flags c) 0 ;;
      OK (b2, i2 + n, rest)
    | _ => UB
    end
  else Abort.

(** str_util.c:94-228 c_vsnprintf: the text [fmt] is without its NUL; fuel bounds the
    number of directives. *)
Fixpoint vsn_loop (fuel : nat) (buf : list Z) (i size : Z) (fmt : list Z) (args : list varg)
  : R (list Z * Z) :=
  match fmt with
  | [] => OK (buf, i)
  | ch :: r =>
    match fuel with
    | O => NoFuel
    | S f =>
      if negb (ch =? 37) then b <- put buf 0 i size ch ;; vsn_loop f b (i + 1) size r args
      else
        '(c, r', a1) <- parse_conv r args ;;
        '(b, i', a2) <- do_conv buf i size c a1 ;;
        vsn_loop f b i' size r' a2
    end
  end.
Definition c_vsnprintf (buf : list Z) (size : Z) (fmt : list Z) (args : list varg)
  : R (list Z * Z) :=
  '(b, i) <- vsn_loop (length fmt) buf 0 size fmt args ;;
  if size >? 0 then
    let k := if i <? s32 size then i else s32 size - 1 in
    if (0 <=? k) && (k <? zlen b) then OK (blit b k [0], i) else UB
  else OK (b, i).

(** mjs_array.c:20-29 v_sprintf_s with format %lu into a 20 byte buffer: the text the
    caller then uses (n bytes of buf). [junk] is the uninitialised buffer. *)
Definition fmt_lu := [37; 108; 117].
Definition index_name (junk : list Z) (index : Z) : R (list Z) :=
  '(b, n) <- c_vsnprintf junk 20 fmt_lu [VLong index] ;;
  let n' := if n >? 20 then 20 else n in
  OK (sub b 0 n').

(** str_util.c:303-313 cs_to_hex: text written at [to] (with its NUL). *)
Definition hex_digit_of (n : Z) : Z := nth (Z.to_nat n) [48;49;50;51;52;53;54;55;56;57;97;98;99;100;101;102] 0.
Fixpoint to_hex (p : list Z) : list Z :=
  match p with
  | [] => [0]
  | b :: r => hex_digit_of (Z.shiftr b 4) :: hex_digit_of (Z.land b 15) :: to_hex r
  end.
(** str_util.c:315-332 fourbit and cs_from_hex: reads p[i] and p[i+1] for every even i below
    len; [p] is the readable text. *)
Definition fourbit (ch : Z) : Z :=
  if (48 <=? ch) && (ch <=? 57) then ch - 48
  else if (97 <=? ch) && (ch <=? 102) then ch - 97 + 10
  else if (65 <=? ch) && (ch <=? 70) then ch - 65 + 10 else 0.
Fixpoint from_hex (fuel : nat) (p : list Z) (len : Z) : R (list Z) :=
  if len <=? 0 then OK [0]
  else match fuel with
  | O => NoFuel
  | S f => match p with
           | a :: b :: r => t <- from_hex f r (len - 2) ;; OK ((Z.shiftl (fourbit a) 4 + fourbit b) :: t)
           | _ => UB
           end
  end.

(** frozen.c:486-496 b64idx *)
Definition b64idx (c : Z) : Z :=
  if c <? 26 then c + 65 else if c <? 52 then c - 26 + 97 else if c <? 62 then c - 52 + 48
  else if c =? 62 then 43 else 47.
(** frozen.c:498-512 b64rev *)
Definition b64rev (c : Z) : Z :=
  if (65 <=? c) && (c <=? 90) then c - 65
  else if (97 <=? c) && (c <=? 122) then c + 26 - 97
  else if (48 <=? c) && (c <=? 57) then c + 52 - 48
  else if c =? 43 then 62 else if c =? 47 then 63 else 64.
(** frozen.c:514-528 b64enc *)
Definition b64grp (a b c : Z) : list Z :=
  [b64idx (Z.shiftr a 2); b64idx (Z.lor (Z.shiftl (Z.land a 3) 4) (Z.shiftr b 4));
   b64idx (Z.lor (Z.shiftl (Z.land b 15) 2) (Z.shiftr c 6)); b64idx (Z.land c 63)].
Fixpoint b64enc (p : list Z) : list Z :=
  match p with
  | [] => []
  | [a] => match b64grp a 0 0 with [w; x; _; _] => [w; x; 61; 61] | l => l end
  | [a; b] => match b64grp a b 0 with [w; x; y; _] => [w; x; y; 61] | l => l end
  | a :: b :: c :: r => b64grp a b c ++ b64enc r
  end.
(** frozen.c:530-546 b64dec: bytes stored (char truncation is mod 256). *)
Fixpoint b64dec (src : list Z) : list Z :=
  match src with
  | s0 :: s1 :: s2 :: s3 :: r =>
    let a := b64rev s0 in let b := b64rev s1 in let c := b64rev s2 in let d := b64rev s3 in
    (Z.lor (Z.shiftl a 2) (Z.shiftr b 4)) mod 256 ::
    (if negb (s2 =? 61) then
       (Z.lor (Z.shiftl b 4) (Z.shiftr c 2)) mod 256 ::
       (if negb (s3 =? 61) then [(Z.lor (Z.shiftl c 6) d) mod 256] else [])
     else []) ++ b64dec r
  | _ => []
  end.

(** str_util.c:273-291 c_strnstr; [s] is readable text, find is without its NUL.
    strncmp stops at a NUL. Result: index of the match. *)
Fixpoint strncmp_eq (s find : list Z) {struct find} : R bool :=
  match find with
  | [] => OK true
  | c :: f' => match s with
               | [] => UB
               | x :: s' => if x =? c then strncmp_eq s' f' else OK false
               end
  end.
Fixpoint c_strnstr (fuel : nat) (s : list Z) (i slen : Z) (find : list Z) : R (option Z) :=
  match fuel with
  | O => OK None
  | S f =>
    if i + zlen find >? slen then OK None
    else
      e <- strncmp_eq (skipn (Z.to_nat i) s) find ;;
      if e : bool then OK (Some i) else c_strnstr f s (i + 1) slen find
  end.
Definition strnstr (s : list Z) (slen : Z) (find : list Z) : R (option Z) :=
  c_strnstr (Z.to_nat slen) s 0 slen find.

(** mg_str.c:87-94 mg_strchr *)
Fixpoint mg_strchr (s : list Z) (c : Z) : option Z :=
  match s with
  | [] => None
  | x :: r => if x =? c then Some 0 else match mg_strchr r c with Some k => Some (1 + k) | None => None end
  end.
(** mg_str.c:96-109 mg_strcmp (signed char comparison). *)
Definition schar (b : Z) : Z := if b <? 128 then b else b - 256.
Fixpoint mg_strcmp (a b : list Z) : Z :=
  match a, b with
  | x :: a', y :: b' =>
    if schar x <? schar y then -1 else if schar x >? schar y then 1 else mg_strcmp a' b'
  | _ :: _, [] => 1
  | [], _ :: _ => -1
  | [], [] => 0
  end.

(** str_util.c:442-477 mg_next_comma_list_entry_n: [None] at the end of the list, otherwise
    the rest of the list, the entry's key, and its value after '=' if any. *)
Definition comma_next (l : list Z) : option (list Z * list Z * option (list Z)) :=
  match l with
  | [] => None
  | _ =>
    let '(v, rest) := match mg_strchr l 44 with
                      | Some k => (sub l 0 k, skipn (Z.to_nat k + 1) l)
                      | None => (l, [])
                      end in
    match mg_strchr v 61 with
    | Some k => Some (rest, sub v 0 k, Some (skipn (Z.to_nat k + 1) v))
    | None => Some (rest, v, None)
    end
  end.
