(** Model of mjs_own and mjs_disown (src/mjs_core.c:283-301): the buffer of pointers to
    variables that the collector scans as roots. *)
From Verif Require Import Base Mbuf_Model.

(** mjs_core.c:283-285 mjs_own: appends the 8 bytes of the pointer [v]. The result of
    mbuf_append, which C discards, is kept so that specifications can speak about refused
    allocations. *)
Definition mjs_own (b : mbuf) (v : Z) (al1 al2 : allocator) : R (mbuf * Z) :=
  mbuf_append b (le_bytes 8 v) al1 al2.

(** *vp: an 8-byte read through the absolute address [vp], defined inside the block only. *)
Definition word_at (b : mbuf) (vp : Z) : R Z :=
  let o := vp - mb_addr b in
  if negb (mb_addr b =? 0) && (0 <=? o) && (o + 8 <=? mb_size b)
  then OK (le_val (sub (mb_mem b) o 8)) else UB.

(** mjs_core.c:291-298 the scan, from the last pointer downwards, while the address [vp] is
    not below the buffer. Addresses wrap at 2^64. Returns the address found. *)
Fixpoint disown_loop (fuel : nat) (b : mbuf) (vp v : Z) : R (option Z) :=
  if vp <? mb_addr b then OK None
  else match fuel with
  | O => NoFuel
  | S f =>
    w <- word_at b vp ;;
    if w =? v then OK (Some vp) else disown_loop f b (u64 (vp - 8)) v
  end.

(** mjs_core.c:287-301 mjs_disown. The loop visits each pointer of the buffer at most once,
    hence the fuel. *)
Definition mjs_disown (b : mbuf) (v : Z) : R (mbuf * Z) :=
  r <- disown_loop (S (Z.to_nat (mb_len b))) b (u64 (mb_addr b + mb_len b - 8)) v ;;
  match r with
  | None => OK (b, 0)
  | Some vp =>
    w <- word_at b (u64 (mb_addr b + mb_len b - 8)) ;;
    m <- mem_put (mb_mem b) (vp - mb_addr b) (le_bytes 8 w) ;;
    OK ({| mb_mem := m; mb_len := mb_len b - 8; mb_addr := mb_addr b |}, 1)
  end.

(** A history of calls with the allocator's answers, and the results: for mjs_own the bytes
    appended (8 or 0), for mjs_disown its return value. *)
Inductive own_op := Own (v : Z) (al1 al2 : allocator) | Disown (v : Z).
Definition own_step (b : mbuf) (o : own_op) : R (mbuf * Z) :=
  match o with Own v al1 al2 => mjs_own b v al1 al2 | Disown v => mjs_disown b v end.
Fixpoint own_run (b : mbuf) (ops : list own_op) : R (mbuf * list Z) :=
  match ops with
  | [] => OK (b, [])
  | o :: r =>
    '(b1, x) <- own_step b o ;;
    '(b2, xs) <- own_run b1 r ;;
    OK (b2, x :: xs)
  end.

(** mjs_gc.c:476-486 gc_mark_mbuf_pp: the variables a collection treats as roots. *)
Definition roots_of (b : mbuf) : list Z :=
  map (fun i => le_val (sub (mb_bytes b) (8 * Z.of_nat i) 8)) (seq 0 (Z.to_nat (mb_len b / 8))).
