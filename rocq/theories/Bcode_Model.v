(** Model of src/mjs_bcode.c: the code generator's buffer, the line map, and the committed
    parts; and of the look-ups in mjs_util.c:356-414. Simplification: the growable buffers are
    byte lists (mbuf.c itself is modelled in Mbuf_Model) and allocation does not fail; indexes
    stay below 2^31. *)
From Verif Require Import Base Varint_Model.

(** mjs_bcode.h:17-58 enum mjs_opcode *)
Definition OP_NOP : Z := 0.
Definition OP_DROP : Z := 1.
Definition OP_DUP : Z := 2.
Definition OP_SWAP : Z := 3.
Definition OP_JMP : Z := 4.
Definition OP_JMP_TRUE : Z := 5.
Definition OP_JMP_NEUTRAL_TRUE : Z := 6.
Definition OP_JMP_FALSE : Z := 7.
Definition OP_JMP_NEUTRAL_FALSE : Z := 8.
Definition OP_FIND_SCOPE : Z := 9.
Definition OP_PUSH_SCOPE : Z := 10.
Definition OP_PUSH_STR : Z := 11.
Definition OP_PUSH_TRUE : Z := 12.
Definition OP_PUSH_FALSE : Z := 13.
Definition OP_PUSH_INT : Z := 14.
Definition OP_PUSH_DBL : Z := 15.
Definition OP_PUSH_NULL : Z := 16.
Definition OP_PUSH_UNDEF : Z := 17.
Definition OP_PUSH_OBJ : Z := 18.
Definition OP_PUSH_ARRAY : Z := 19.
Definition OP_PUSH_FUNC : Z := 20.
Definition OP_PUSH_THIS : Z := 21.
Definition OP_GET : Z := 22.
Definition OP_CREATE : Z := 23.
Definition OP_EXPR : Z := 24.
Definition OP_APPEND : Z := 25.
Definition OP_SET_ARG : Z := 26.
Definition OP_NEW_SCOPE : Z := 27.
Definition OP_DEL_SCOPE : Z := 28.
Definition OP_CALL : Z := 29.
Definition OP_RETURN : Z := 30.
Definition OP_LOOP : Z := 31.
Definition OP_BREAK : Z := 32.
Definition OP_CONTINUE : Z := 33.
Definition OP_SETRETVAL : Z := 34.
Definition OP_EXIT : Z := 35.
Definition OP_BCODE_HEADER : Z := 36.
Definition OP_ARGS : Z := 37.
Definition OP_FOR_IN_NEXT : Z := 38.
Definition OP_MAX : Z := 39.

(** The code-generating part of struct pstate (mjs_tok.h:18-34): mjs->bcode_gen, cur_idx,
    start_bcode_idx, offset_lineno_map and last_emitted_line_no. *)
Record gen := { g_code : list Z; g_cur : Z; g_start : Z; g_map : list Z; g_last : Z }.

(** cs_varint_encode of n into exactly cs_varint_llen(n) bytes *)
Definition varint (n : Z) : list Z := varint_bytes (u64 n).

(** mjs_bcode.c:13-36 add_lineno_map_item *)
Definition add_lineno (g : gen) (line : Z) : gen :=
  if g_last g <? line then
    {| g_code := g_code g; g_cur := g_cur g; g_start := g_start g;
       g_map := g_map g ++ varint (g_cur g - g_start g) ++ varint line; g_last := line |}
  else g.
(** mbuf_insert (mbuf.c:68-109) on the generated code, at cur_idx; the assert off <= len *)
Definition put (g : gen) (d : list Z) : R gen :=
  if (0 <=? g_cur g) && (g_cur g <=? zlen (g_code g)) then
    OK {| g_code := firstn (Z.to_nat (g_cur g)) (g_code g) ++ d ++ skipn (Z.to_nat (g_cur g)) (g_code g);
          g_cur := g_cur g + zlen d; g_start := g_start g; g_map := g_map g; g_last := g_last g |}
  else Abort.
(** mjs_bcode.c:38-42 emit_byte; 44-51 emit_int; 53-61 emit_str *)
Definition emit_byte (g : gen) (line b : Z) : R gen := put (add_lineno g line) [b mod 256].
Definition emit_int (g : gen) (line n : Z) : R gen := put (add_lineno g line) (varint n).
Definition emit_str (g : gen) (line : Z) (s : list Z) : R gen := put (add_lineno g line) (varint (zlen s) ++ s).

(** mjs_bcode.c:63-89 mjs_bcode_insert_offset, MJS_INIT_OFFSET_SIZE = 1; also returns the
    number of bytes by which the code moved *)
Definition insert_offset (g : gen) (off v : Z) : R (gen * Z) :=
  if (0 <=? off) && (off <? zlen (g_code g)) then
    let d := varint v in
    let diff := zlen d - 1 in
    OK ({| g_code := firstn (Z.to_nat off) (g_code g) ++ d ++ skipn (S (Z.to_nat off)) (g_code g);
           g_cur := if off <=? g_cur g then g_cur g + diff else g_cur g;
           g_start := g_start g; g_map := g_map g; g_last := g_last g |}, diff)
  else Abort.

(** mjs_core.h:89-110 struct mjs_bcode_part (exec_res is kept by the executor model) *)
Record part := { bp_start : Z; bp_data : list Z }.
(** mjs->bcode_parts and mjs->bcode_len *)
Record code := { c_parts : list part; c_len : Z }.
Definition no_code : code := {| c_parts := []; c_len := 0 |}.
(** mjs_bcode.c:130-148 mjs_bcode_commit of the generated bytes *)
Definition commit (c : code) (d : list Z) : code :=
  {| c_parts := c_parts c ++ [{| bp_start := c_len c; bp_data := d |}]; c_len := c_len c + zlen d |}.
(** mjs_bcode.c:103-124 mjs_bcode_part_get_by_offset *)
Fixpoint find_part (ps : list part) (off : Z) : R part :=
  match ps with
  | [] => Abort
  | bp :: ps => if off <? bp_start bp + zlen (bp_data bp) then OK bp else find_part ps off
  end.
Definition part_by_offset (c : code) (off : Z) : R (option part) :=
  (* the argument is a size_t *)
  if c_len c <=? u64 off then OK None
  else bp <- find_part (c_parts c) (u64 off) ;; OK (Some bp).

(** memcpy of a uint32_t header item at byte [off] *)
Definition read_u32 (d : list Z) (off : Z) : R Z :=
  if (0 <=? off) && (off + 4 <=? zlen d) then OK (le_val (sub d off 4)) else UB.

(** mjs_util.c:356-370: the file name is the NUL-terminated text after the header *)
Fixpoint c_str (p : list Z) : R (list Z) :=
  match p with
  | [] => UB
  | c :: p => if c =? 0 then OK [] else s <- c_str p ;; OK (c :: s)
  end.
Definition bcode_filename (bp : part) : R (list Z) :=
  if 13 <=? zlen (bp_data bp) then c_str (skipn 13 (bp_data bp)) else UB.
Definition filename_by_offset (c : code) (off : Z) : R (option (list Z)) :=
  r <- part_by_offset c off ;;
  match r with Some bp => s <- bcode_filename bp ;; OK (Some s) | None => OK None end.

(** mjs_util.c:372-414 mjs_get_lineno_by_offset: the loop over the map. [n] is pe - p. *)
Fixpoint map_loop (fuel : nat) (p : list Z) (n : Z) (off prev : Z) : R Z :=
  if n <=? 0 then OK 1
  else match fuel with
       | O => NoFuel
       | S fuel =>
         '(cur, l1) <- varint_decode_unsafe p ;;
         let p1 := skipn (Z.to_nat l1) p in
         '(line, l2) <- varint_decode_unsafe p1 ;;
         let p2 := skipn (Z.to_nat l2) p1 in
         if u64 off <=? cur then OK prev
         else map_loop fuel p2 (n - l1 - l2) off (s32 line)
       end.
Definition lineno_by_offset (c : code) (off : Z) : R Z :=
  r <- part_by_offset c off ;;
  match r with
  | None => OK 1
  | Some bp =>
    map_off <- read_u32 (bp_data bp) 9 ;;
    bcode_off <- read_u32 (bp_data bp) 5 ;;
    let off' := s32 (off - (u32 (1 + bcode_off) + bp_start bp)) in
    if zlen (bp_data bp) <? 1 + map_off then UB else
    let p := skipn (Z.to_nat (1 + map_off)) (bp_data bp) in
    '(map_len, l) <- varint_decode_unsafe p ;;
    map_loop (Z.to_nat map_len) (skipn (Z.to_nat l) p) map_len off' 1
  end.
