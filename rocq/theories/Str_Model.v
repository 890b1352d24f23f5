(** Model of src/mjs_string.c (strings and their builtins) and of mg_strstr. *)
From Verif Require Import Base Varint_Model Mbuf_Model Value_Model.

(** The engine's string buffers. [so]: contents of mjs->owned_strings; [so_size]: its
    capacity; [sf]: contents of mjs->foreign_strings; [s_need_gc]: mjs->need_gc.
    Simplification: allocations succeed (mbuf behaviour itself is Mbuf_Model). *)
Record strs := { so : list Z; so_size : Z; sf : list Z; s_need_gc : bool }.

(** mjs_core.c:86-94: owned_strings starts with one NUL byte; appending it to an
    empty buffer allocates (int)(1 * 1.5) = 1 byte. *)
Definition strs_init : strs := {| so := [0]; so_size := 1; sf := []; s_need_gc := false |}.

(** Memory outside the engine, as seen through foreign pointers. *)
Definition extmem := Z -> Z.

(** A [const char *] returned by mjs_get_string: NULL, inside the value itself, inside
    owned_strings, or a foreign address. *)
Inductive loc := PNull | PVal (o : Z) | POwn (o : Z) | PExt (a : Z).

(** Reading [n] bytes at a location. Reads outside the object are [UB]. *)
Definition ext_read (ext : extmem) (a n : Z) : list Z :=
  map (fun i => ext (a + Z.of_nat i)) (seq 0 (Z.to_nat n)).
Definition loc_read (st : strs) (ext : extmem) (v : Z) (l : loc) (n : Z) : R (list Z) :=
  match l with
  | PNull => if n =? 0 then OK [] else UB
  | PVal o => if (0 <=? n) && (o + n <=? 8) then OK (sub (le_bytes 8 v) o n) else UB
  | POwn o => if (0 <=? n) && (o + n <=? zlen (so st)) then OK (sub (so st) o n) else UB
  | PExt a => if 0 <=? n then OK (ext_read ext a n) else UB
  end.

(** mjs_gc.c:381-383 gc_string_mjs_val_to_offset *)
Definition val_to_offset (v : Z) : Z := untag (get_ptr_raw v).
(** mjs_gc.c:385-387 gc_string_val_from_offset *)
Definition val_from_offset (s : Z) : Z := Z.lor s TAG_STRING_O.

(** char -> size_t conversion of an inline length byte (char is signed). *)
Definition char_to_size (b : Z) : Z := if b <? 128 then b else b - 256 + 2 ^ 64.

(** mjs_string.c:134-207 mjs_get_string: location and size. *)
Definition get_string (st : strs) (v : Z) : R (loc * Z) :=
  let tag := Z.land v TAG_MASK in
  if negb (is_string v) then OK (PNull, 0)
  else if tag =? TAG_STRING_I then
    match le_bytes 8 v with b :: _ => OK (PVal 1, char_to_size b) | [] => UB end
  else if tag =? TAG_STRING_5 then OK (PVal 0, 5)
  else if tag =? TAG_STRING_O then
    let off := val_to_offset v in
    if off <? zlen (so st) then
      r <- varint_decode (skipn (Z.to_nat off) (so st)) (zlen (so st) - off) ;;
      match r with
      | Some (n, llen) => OK (POwn (off + llen), n)
      | None => OK (PNull, 0)
      end
    else OK (PNull, 0)
  else if tag =? TAG_STRING_F then
    let off := val_to_offset v in
    if off <? zlen (sf st) then
      r <- varint_decode (skipn (Z.to_nat off) (sf st)) (zlen (sf st) - off) ;;
      match r with
      | Some (n, llen) =>
        if off + llen + 8 <=? zlen (sf st)
        then OK (PExt (le_val (sub (sf st) (off + llen) 8)), n) else UB
      | None => OK (PNull, 0)
      end
    else OK (PNull, 0)
  else Abort.

(** Contents of a string value. *)
Definition str_bytes (st : strs) (ext : extmem) (v : Z) : R (list Z) :=
  '(l, n) <- get_string st v ;; loc_read st ext v l n.

(** mjs_gc.c:124-127 gc_strings_is_gc_needed. Simplification: the comparison
    len/size > 0.9 is done exactly rather than in double arithmetic. *)
Definition strings_gc_needed (st : strs) : bool := 10 * zlen (so st) >? 9 * so_size st.

(** Capacity after mbuf_insert of [n] bytes (mbuf.c:68-109, allocation succeeds). *)
Definition cap_after_insert (len size n : Z) : Z :=
  if len + n <=? size then size else grow_size (len + n).

(** mjs_string.c:561-597 embed_string with EMBSTR_ZERO_TERM at the end of
    owned_strings. [None] is a NULL source: the bytes keep whatever the memory held,
    represented by zeros. Simplification: the source is given by its bytes; the C code
    re-derives the pointer when the source lies in the buffer being moved. *)
Definition embed_bytes (src : option (list Z)) (len : Z) : list Z :=
  varint_bytes len ++ match src with Some d => d | None => repeat 0 (Z.to_nat len) end ++ [0].

(** mjs_string.c:45-131 mjs_mk_string with copy != 0 (or len == 0). *)
Definition mk_string_src (st : strs) (src : option (list Z)) (len : Z) : R (strs * Z) :=
  let data := match src with Some d => d | None => repeat 0 (Z.to_nat len) end in
  if negb (zlen data =? len) then UB (* caller error: source shorter than len *)
  else if len <=? 4 then
    (* s[-1] = len; memcpy(s, p, len) into a zeroed payload *)
    OK (st, Z.lor (untag (le_val (len :: data))) TAG_STRING_I)
  else if len =? 5 then OK (st, Z.lor (untag (le_val data)) TAG_STRING_5)
  else
    let need := s_need_gc st || strings_gc_needed st in
    let size1 := if zlen (so st) + len >? so_size st then zlen (so st) + len + 100 else so_size st in
    let e := embed_bytes src len in
    let off := zlen (so st) in
    OK ({| so := so st ++ e; so_size := cap_after_insert off size1 (zlen e);
           sf := sf st; s_need_gc := need |},
        Z.lor (untag off) TAG_STRING_O).
Definition mk_string (st : strs) (data : list Z) : R (strs * Z) :=
  mk_string_src st (Some data) (zlen data).

(** strlen(3) of a readable region, and mjs_mk_string(p, ~0, 1). *)
Fixpoint until_nul (l : list Z) : list Z :=
  match l with [] => [] | b :: r => if b =? 0 then [] else b :: until_nul r end.
Definition mk_cstring (st : strs) (txt : list Z) : R (strs * Z) := mk_string st (until_nul txt).

(** mjs_string.c:110-131 mjs_mk_string with copy == 0 and len > 0, 64-bit pointers:
    length and pointer are appended to foreign_strings. *)
Definition mk_string_foreign (st : strs) (p len : Z) : R (strs * Z) :=
  if len =? 0 then mk_string st []
  else
    let off := zlen (sf st) in
    OK ({| so := so st; so_size := so_size st; sf := sf st ++ varint_bytes len ++ le_bytes 8 p;
           s_need_gc := s_need_gc st |},
        Z.lor (untag off) TAG_STRING_F).

(** mjs_string.c:209-217 mjs_get_cstring: [None] is NULL, [Some] the contents. *)
Definition get_cstring (st : strs) (ext : extmem) (v : Z) : R (option (list Z)) :=
  '(l, n) <- get_string st v ;;
  match l with
  | PNull => OK None
  | _ => d <- loc_read st ext v l (n + 1) ;;
         OK (if (nth (Z.to_nat n) d 1 =? 0) && (zlen (until_nul d) =? n)
             then Some (sub d 0 n) else None)
  end.

(** strncmp(3) and memcmp(3) on byte lists of the same length, result by sign. *)
Definition sgn_cmp (x y : Z) : Z := if x <? y then -1 else if x >? y then 1 else 0.
Fixpoint strncmp (a b : list Z) : Z :=
  match a, b with
  | x :: a', y :: b' => if x =? y then (if x =? 0 then 0 else strncmp a' b') else sgn_cmp x y
  | _, _ => 0
  end.
Fixpoint memcmp (a b : list Z) : Z :=
  match a, b with
  | x :: a', y :: b' => if x =? y then memcmp a' b' else sgn_cmp x y
  | _, _ => 0
  end.

(** mjs_string.c:219-228 mjs_strcmp: the size_t difference is returned as an int. *)
Definition mjs_strcmp (st : strs) (ext : extmem) (a : Z) (b : list Z) : R Z :=
  '(l, n) <- get_string st a ;;
  if negb (n =? zlen b) then OK (s32 (u64 (n - zlen b)))
  else d <- loc_read st ext a l n ;; OK (strncmp d b).

(** strtoul(3) in base 10 as used by mjs_string.c:230-235 cstr_to_ulong: [txt] is the
    readable text; the result is the value and the number of bytes consumed (0 when
    there is no digit), or [None] when it runs off [txt]. Overflow gives ULONG_MAX. *)
Definition is_digit (c : Z) : bool := (48 <=? c) && (c <=? 57).
Definition is_space (c : Z) : bool := (c =? 32) || ((9 <=? c) && (c <=? 13)).
Fixpoint ul_digits (txt : list Z) (acc : Z) (k : Z) : option (Z * Z) :=
  match txt with
  | [] => None
  | c :: r => if is_digit c then ul_digits r (acc * 10 + (c - 48)) (k + 1) else Some (acc, k)
  end.
Definition ul_value (neg : bool) (n : Z) : Z :=
  if n <? 2 ^ 64 then (if neg then u64 (- n) else n) else 2 ^ 64 - 1.
Definition ul_signed (txt : list Z) (k0 : Z) : option (Z * Z) :=
  let go neg r k :=
    match ul_digits r 0 0 with
    | None => None
    | Some (n, d) => if d =? 0 then Some (0, 0) else Some (ul_value neg n, k + d)
    end in
  match txt with
  | [] => None
  | c :: r => if c =? 45 then go true r (k0 + 1)
              else if c =? 43 then go false r (k0 + 1) else go false txt k0
  end.
Fixpoint strtoul (txt : list Z) (k0 : Z) : option (Z * Z) :=
  match txt with
  | [] => None
  | c :: r => if is_space c then strtoul r (k0 + 1) else ul_signed txt k0
  end.
(** mjs_string.c:230-235 cstr_to_ulong on the text at [s] ([txt] holds the [len] bytes
    and what follows them; running off the end means e > s + len). *)
Definition cstr_to_ulong (txt : list Z) (len : Z) : option Z :=
  match strtoul txt 0 with
  | Some (v, e) => if (e =? len) && negb (len =? 0) then Some v else None
  | None => None
  end.
(** mjs_string.c:237-245 str_to_ulong; the text is the string and the byte after it. *)
Definition str_to_ulong (st : strs) (ext : extmem) (v : Z) : R (option Z) :=
  '(l, n) <- get_string st v ;;
  d <- loc_read st ext v l (n + 1) ;;
  OK (cstr_to_ulong d n).

(** mjs_string.c:247-264 s_cmp *)
Definition s_cmp (st : strs) (ext : extmem) (a b : Z) : R Z :=
  '(la, na) <- get_string st a ;;
  '(lb, nb) <- get_string st b ;;
  if na =? nb then
    da <- loc_read st ext a la na ;;
    db <- loc_read st ext b lb nb ;;
    OK (memcmp da db)
  else if na >? nb then OK 1 else OK (-1).

(** Writing bytes at a location: into the value's own payload, or into owned_strings. *)
Definition loc_write (st : strs) (v : Z) (l : loc) (d : list Z) : R (strs * Z) :=
  match l with
  | PVal o => if o + zlen d <=? 8 then OK (st, le_val (blit (le_bytes 8 v) o d)) else UB
  | POwn o => if o + zlen d <=? zlen (so st)
              then OK ({| so := blit (so st) o d; so_size := so_size st; sf := sf st;
                          s_need_gc := s_need_gc st |}, v)
              else UB
  | PNull => if zlen d =? 0 then OK (st, v) else UB
  | PExt _ => UB
  end.
Definition loc_add (l : loc) (k : Z) : loc :=
  match l with PNull => PNull | PVal o => PVal (o + k) | POwn o => POwn (o + k) | PExt a => PExt (a + k) end.

(** mjs_string.c:266-288 s_concat *)
Definition s_concat (st : strs) (ext : extmem) (a b : Z) : R (strs * Z) :=
  '(_, na) <- get_string st a ;;
  '(_, nb) <- get_string st b ;;
  '(st1, res) <- mk_string_src st None (na + nb) ;;
  '(la, na1) <- get_string st1 a ;;
  '(lb, nb1) <- get_string st1 b ;;
  '(lr, _) <- get_string st1 res ;;
  da <- loc_read st1 ext a la na1 ;;
  '(st2, res2) <- loc_write st1 res lr da ;;
  db <- loc_read st2 ext b lb nb1 ;;
  loc_write st2 res2 (loc_add lr na1) db.

(** common/mg_str.c:149-159 mg_strstr: index of the first occurrence. The loop index
    runs from 0 to hlen - nlen; [fuel] counts the remaining positions. *)
Fixpoint strstr_loop (fuel : nat) (h n : list Z) (i : Z) : option Z :=
  if memcmp (sub h i (zlen n)) n =? 0 then Some i
  else match fuel with O => None | S f => strstr_loop f h n (i + 1) end.
Definition mg_strstr (h n : list Z) : option Z :=
  if zlen n >? zlen h then None
  else strstr_loop (Z.to_nat (zlen h - zlen n)) h n 0.

(** Result of a builtin: new state, returned value, error code raised (if any).
    mjs_core_public.h:68-80 error codes. *)
Definition E_OK := 0. Definition E_SYNTAX := 1. Definition E_REFERENCE := 2.
Definition E_TYPE := 3. Definition E_OOM := 4. Definition E_INTERNAL := 5.
Definition E_NOT_IMPL := 6. Definition E_FILE := 7. Definition E_BAD_ARGS := 8.

Definition mtype_eqb (a b : mtype) : bool :=
  match a, b with
  | TyUndefined, TyUndefined | TyNull, TyNull | TyBoolean, TyBoolean | TyNumber, TyNumber
  | TyString, TyString | TyForeign, TyForeign | TyObject, TyObject | TyArray, TyArray
  | TyFunction, TyFunction => true
  | _, _ => false
  end.
(** mjs_util.c:309-341 mjs_check_arg: argument [n] of [args] ([None] = use this).
    [OK None]: a TypeError was raised. *)
Definition check_arg (this : Z) (args : list Z) (n : option nat) (ty : mtype) : R (option Z) :=
  match n with
  | None => t <- get_type this ;; OK (if mtype_eqb t ty then Some this else None)
  | Some k => match nth_error args k with
              | None => OK None
              | Some a => t <- get_type a ;; OK (if mtype_eqb t ty then Some a else None)
              end
  end.

(** mjs_string.c:290-332 mjs_string_slice. The size_t size is passed as an int. *)
Definition string_slice (st : strs) (ext : extmem) (this : Z) (args : list Z)
  : R (strs * Z * Z) :=
  let zero := mk_number (d_of_Z 0) in
  a0 <- check_arg this args None TyString ;;
  match a0 with None => OK (st, zero, E_TYPE) | Some _ =>
  '(l, size) <- get_string st this ;;
  a1 <- check_arg this args (Some 0%nat) TyNumber ;;
  match a1 with None => OK (st, zero, E_TYPE) | Some bv =>
  bi <- get_int bv ;; b <- normalize_idx bi (s32 size) ;;
  e <- (if 2 <=? zlen args then
          a2 <- check_arg this args (Some 1%nat) TyNumber ;;
          match a2 with
          | None => OK None
          | Some ev => ei <- get_int ev ;; e <- normalize_idx ei (s32 size) ;; OK (Some e)
          end
        else OK (Some (s32 size))) ;;
  match e with None => OK (st, zero, E_TYPE) | Some e =>
  let e := if e <? b then b else e in
  d <- loc_read st ext this (loc_add l b) (e - b) ;;
  '(st', r) <- mk_string st d ;;
  OK (st', r, E_OK)
  end end end.

(** mjs_string.c:334-374 mjs_string_index_of *)
Definition string_index_of (st : strs) (ext : extmem) (this : Z) (args : list Z)
  : R (strs * Z * Z) :=
  let m1 := mk_number (d_of_Z (-1)) in
  a0 <- check_arg this args None TyString ;;
  match a0 with None => OK (st, m1, E_TYPE) | Some _ =>
  '(l, n) <- get_string st this ;;
  a1 <- check_arg this args (Some 0%nat) TyString ;;
  match a1 with None => OK (st, m1, E_TYPE) | Some sv =>
  '(l2, n2) <- get_string st sv ;;
  i <- (if 1 <? zlen args then
          a2 <- check_arg this args (Some 1%nat) TyNumber ;;
          match a2 with
          | None => OK None
          | Some iv => i <- get_int iv ;;
                       let i := if i <? 0 then 0 else i in
                       OK (Some (if i >? n then s32 n else i))
          end
        else OK (Some 0)) ;;
  match i with None => OK (st, m1, E_TYPE) | Some i =>
  h <- loc_read st ext this (loc_add l i) (n - i) ;;
  nd <- loc_read st ext sv l2 n2 ;;
  match mg_strstr h nd with
  | Some k => OK (st, mk_number (d_of_Z (s32 (i + k))), E_OK)
  | None => OK (st, m1, E_OK)
  end
  end end end.

(** mjs_string.c:376-400 mjs_string_char_code_at *)
Definition string_char_code_at (st : strs) (ext : extmem) (this : Z) (args : list Z)
  : R (strs * Z * Z) :=
  a0 <- check_arg this args None TyString ;;
  match a0 with None => OK (st, V_UNDEFINED, E_TYPE) | Some _ =>
  '(l, size) <- get_string st this ;;
  a1 <- check_arg this args (Some 0%nat) TyNumber ;;
  match a1 with None => OK (st, V_UNDEFINED, E_TYPE) | Some iv =>
  i0 <- get_int iv ;; i <- normalize_idx i0 (s32 size) ;;
  if (0 <=? i) && (i <? s32 size) then
    d <- loc_read st ext this (loc_add l i) 1 ;;
    match d with
    | b :: _ => OK (st, mk_number (d_of_Z b), E_OK)
    | [] => UB
    end
  else OK (st, V_UNDEFINED, E_OK)
  end end.

(** isxdigit(3) and mjs_string.c:472-477 hex (the invalid case returns -0 = 0). *)
Definition is_xdigit (c : Z) : bool :=
  is_digit c || ((97 <=? c) && (c <=? 102)) || ((65 <=? c) && (c <=? 70)).
Definition hex (c : Z) : Z :=
  if is_digit c then c - 48
  else if (97 <=? c) && (c <=? 102) then c - 97 + 10
  else if (65 <=? c) && (c <=? 70) then c - 65 + 10
  else 0.

(** Are the next [k] bytes all hex digits? Short-circuits like the && chain; reading
    past the text is UB. *)
Fixpoint all_xdigit (k : nat) (s : list Z) : R bool :=
  match k with
  | O => OK true
  | S k' => match s with
            | [] => UB
            | c :: r => if is_xdigit c then all_xdigit k' r else OK false
            end
  end.
Definition hex_val (l : list Z) : Z := fold_left (fun acc c => acc * 16 + hex c) l 0.

(** mjs_string.c:479-517 nextesc at text [s] (after the backslash): result code and
    bytes consumed. Codes -0, -1, -2 are the three errors of lines 466-470. *)
Definition nextesc (s : list Z) : R (Z * nat) :=
  match s with
  | [] => UB
  | c :: r =>
    if c =? 0 then OK (-2, 1%nat)
    else if c =? 99 (* c *) then OK (Z.land c 31, 2%nat)
    else if c =? 98 then OK (8, 1%nat)
    else if c =? 116 then OK (9, 1%nat)
    else if c =? 110 then OK (10, 1%nat)
    else if c =? 118 then OK (11, 1%nat)
    else if c =? 102 then OK (12, 1%nat)
    else if c =? 114 then OK (13, 1%nat)
    else if c =? 92 then OK (92, 1%nat)
    else if c =? 117 (* u *) then
      x <- all_xdigit 4 r ;;
      if x : bool then OK (hex_val (firstn 4 r), 5%nat) else OK (0, 1%nat)
    else if c =? 120 (* x *) then
      x <- all_xdigit 2 r ;;
      if x : bool then OK (hex_val (firstn 2 r), 3%nat) else OK (0, 1%nat)
    else OK (-1, 1%nat)
  end.

(** mjs_string.c:519-559 unescape; a Rune is an unsigned short, written as one byte
    (mjs_string.c:15-24). [s] is the text from the current position on, [rem] is
    end - s. *)
Definition rune_byte (r : Z) : Z := (r mod 65536) mod 256.
Fixpoint unescape (fuel : nat) (s : list Z) (rem : Z) : R (list Z) :=
  if rem <=? 0 then OK []
  else match fuel with
  | O => NoFuel
  | S f =>
    match s with
    | [] => UB
    | r :: s1 =>
      if (r =? 92) && (0 <? rem - 1) then
        match s1 with
        | [] => UB
        | c :: s2 =>
          if c =? 34 then o <- unescape f s2 (rem - 2) ;; OK (34 :: o)
          else if c =? 39 then o <- unescape f s2 (rem - 2) ;; OK (39 :: o)
          else if c =? 10 then o <- unescape f s2 (rem - 2) ;; OK (10 :: o)
          else
            '(i, k) <- nextesc s1 ;;
            if i =? -1 then
              o <- unescape f s2 (rem - 2) ;; OK (92 :: c :: o)
            else
              o <- unescape f (skipn k s1) (rem - 1 - Z.of_nat k) ;; OK (rune_byte i :: o)
        end
      else o <- unescape f s1 (rem - 1) ;; OK (r :: o)
    end
  end.
Definition unescape_str (txt : list Z) (len : Z) : R (list Z) := unescape (Z.to_nat len) txt len.

(** First pass of unescape (to == NULL): only counts the bytes it would write. *)
Fixpoint unescape_count (fuel : nat) (s : list Z) (rem n : Z) : R Z :=
  if rem <=? 0 then OK n
  else match fuel with
  | O => NoFuel
  | S f =>
    match s with
    | [] => UB
    | r :: s1 =>
      if (r =? 92) && (0 <? rem - 1) then
        match s1 with
        | [] => UB
        | c :: s2 =>
          if (c =? 34) || (c =? 39) || (c =? 10) then unescape_count f s2 (rem - 2) (n + 1)
          else
            '(i, k) <- nextesc s1 ;;
            if i =? -1 then unescape_count f s2 (rem - 2) (n + 2)
            else unescape_count f (skipn k s1) (rem - 1 - Z.of_nat k) (n + 1)
        end
      else unescape_count f s1 (rem - 1) (n + 1)
    end
  end.

(** mjs_string.c:561-597 embed_string with EMBSTR_UNESCAPE | EMBSTR_ZERO_TERM at the end
    of buffer [buf]: room is made for varint + counted length + NUL, then the second
    pass writes; writing past the reserved room is UB. *)
Definition embed_unescaped (buf : list Z) (txt : list Z) (len : Z) : R (list Z) :=
  n <- unescape_count (Z.to_nat len) txt len 0 ;;
  d <- unescape_str txt len ;;
  if zlen d >? n then UB
  else OK (buf ++ varint_bytes n ++ blit (repeat 0 (Z.to_nat n)) 0 d ++ [0]).

(** strcmp(3) == 0 of text [t] against the C literal [lit] (its bytes without the NUL);
    running off the known text is UB. *)
Fixpoint cstr_eq (t lit : list Z) : R bool :=
  match t, lit with
  | [], _ => UB
  | c :: _, [] => OK (c =? 0)
  | c :: t', x :: l' => if c =? x then cstr_eq t' l' else OK false
  end.
Definition ascii_length := [108; 101; 110; 103; 116; 104].
Definition ascii_at := [97; 116].
Definition ascii_charCodeAt := [99; 104; 97; 114; 67; 111; 100; 101; 65; 116].
Definition ascii_indexOf := [105; 110; 100; 101; 120; 79; 102].
Definition ascii_slice := [115; 108; 105; 99; 101].

(** Builtin functions reachable as string properties. *)
Inductive str_fn := SF_char_code_at | SF_index_of | SF_slice.
Inductive getprop_res := GP_val (v : Z) | GP_fn (f : str_fn) | GP_no.

(** mjs_exec.c:436-471 getprop_builtin_string: [txt] is the name's text with what
    follows it, [nlen] its length. The unsigned long index is stored in an int. *)
Definition getprop_string (st : strs) (ext : extmem) (val : Z) (txt : list Z) (nlen : Z)
  : R (strs * getprop_res) :=
  let num := cstr_to_ulong txt nlen in
  e1 <- cstr_eq txt ascii_length ;;
  if e1 : bool then
    '(_, n) <- get_string st val ;; OK (st, GP_val (mk_number (d_of_Z n)))
  else
  e2 <- cstr_eq txt ascii_at ;;
  e2' <- (if e2 : bool then OK true else cstr_eq txt ascii_charCodeAt) ;;
  if e2' : bool then OK (st, GP_fn SF_char_code_at)
  else
  e3 <- cstr_eq txt ascii_indexOf ;;
  if e3 : bool then OK (st, GP_fn SF_index_of)
  else
  e4 <- cstr_eq txt ascii_slice ;;
  if e4 : bool then OK (st, GP_fn SF_slice)
  else
  match num with
  | Some u =>
    let idx := s32 u in
    '(l, n) <- get_string st val ;;
    if (0 <=? idx) && (idx <? s32 n) then
      d <- loc_read st ext val (loc_add l idx) 1 ;;
      '(st', v) <- mk_string st d ;;
      OK (st', GP_val v)
    else OK (st, GP_val V_UNDEFINED)
  | None => OK (st, GP_no)
  end.
