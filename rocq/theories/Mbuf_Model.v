(** Model of src/common/mbuf.c (growable byte buffers). *)
From Verif Require Import Base.

(** mbuf.h:48-52 struct mbuf. [mb_mem] is the allocated memory, so size is its
    length; [mb_addr] is the pointer value (0 for NULL). *)
Record mbuf := { mb_mem : list Z; mb_len : Z; mb_addr : Z }.
Definition mb_size (a : mbuf) : Z := zlen (mb_mem a).

(** realloc(3) as an oracle: given the requested size it fails or returns an
    address and the (arbitrary) contents of the bytes past the preserved ones. *)
Definition allocator := Z -> option (Z * list Z).

(** Memory after a successful realloc to [n] bytes. *)
Definition regrow (old : list Z) (n : Z) (fill : list Z) : list Z :=
  firstn (Z.to_nat n) (old ++ fill ++ repeat 0 (Z.to_nat n)).

(** memmove / memcpy inside one allocated block: out of range is UB. *)
Definition mem_move (mem : list Z) (dst src n : Z) : R (list Z) :=
  if (0 <=? dst) && (0 <=? src) && (0 <=? n) && (dst + n <=? zlen mem) && (src + n <=? zlen mem)
  then OK (blit mem dst (sub mem src n)) else UB.
Definition mem_put (mem : list Z) (dst : Z) (data : list Z) : R (list Z) :=
  if (0 <=? dst) && (dst + zlen data <=? zlen mem) then OK (blit mem dst data) else UB.

(** mbuf.c:47-60 mbuf_resize *)
Definition mbuf_resize (a : mbuf) (new_size : Z) (al : allocator) : mbuf :=
  if (mb_size a <? new_size) || ((new_size <? mb_size a) && (mb_len a <=? new_size)) then
    match al new_size with
    | Some (p, fill) =>
      {| mb_mem := regrow (mb_mem a) new_size fill; mb_len := mb_len a; mb_addr := p |}
    | None =>
      if negb (new_size =? 0) then a
      else {| mb_mem := []; mb_len := mb_len a; mb_addr := 0 |}
    end
  else a.

(** mbuf.c:33-37 mbuf_init *)
Definition mbuf_init (initial_size : Z) (al : allocator) : mbuf :=
  mbuf_resize {| mb_mem := []; mb_len := 0; mb_addr := 0 |} initial_size al.

(** mbuf.c:40-45 mbuf_free *)
Definition mbuf_free (a : mbuf) (al : allocator) : mbuf :=
  if mb_addr a =? 0 then a else mbuf_init 0 al.

(** mbuf.c:63-65 mbuf_trim *)
Definition mbuf_trim (a : mbuf) (al : allocator) : mbuf := mbuf_resize a (mb_len a) al.

(** mbuf.c:87 with MBUF_SIZE_MULTIPLIER 1.5 and MBUF_SIZE_MAX_HEADROOM BUFSIZ (8192
    on glibc). Simplification: the product is exact, as it is in double arithmetic
    for sizes below 2^52. *)
Definition headroom : Z := 8192.
Definition grow_size (min_size : Z) : Z :=
  let n := min_size * 3 / 2 in
  if n - min_size >? headroom then min_size + headroom else n.

(** mbuf.c:68-109 mbuf_insert. [data] is the caller's bytes; when the C caller
    passes a NULL source the inserted bytes are whatever was there, which callers
    of the model represent by an arbitrary [data]. [al1]/[al2] answer the first
    and the fallback realloc. The asserts of lines 71-73 are [Abort]. *)
Definition mbuf_insert (a : mbuf) (off : Z) (data : list Z) (al1 al2 : allocator)
  : R (mbuf * Z) :=
  let len := zlen data in
  if (mb_len a >? mb_size a) || (off >? mb_len a) then Abort
  else if 2 ^ 64 - 1 - mb_addr a <? len then OK (a, 0)
  else if mb_len a + len <=? mb_size a then
    m1 <- mem_move (mb_mem a) (off + len) off (mb_len a - off) ;;
    m2 <- mem_put m1 off data ;;
    OK ({| mb_mem := m2; mb_len := mb_len a + len; mb_addr := mb_addr a |}, len)
  else
    let min_size := mb_len a + len in
    let new_size := grow_size min_size in
    let r := match al1 new_size with
             | Some p => Some (new_size, p)
             | None => if new_size =? min_size then None
                       else match al2 min_size with
                            | Some p => Some (min_size, p)
                            | None => None
                            end
             end in
    match r with
    | None => OK (a, 0)
    | Some (n, (p, fill)) =>
      let m0 := regrow (mb_mem a) n fill in
      m1 <- (if off =? mb_len a then OK m0
             else mem_move m0 (off + len) off (mb_len a - off)) ;;
      m2 <- mem_put m1 off data ;;
      OK ({| mb_mem := m2; mb_len := mb_len a + len; mb_addr := p |}, len)
    end.

(** mbuf.c:112-114 mbuf_append *)
Definition mbuf_append (a : mbuf) (data : list Z) (al1 al2 : allocator) : R (mbuf * Z) :=
  mbuf_insert a (mb_len a) data al1 al2.

(** mbuf.c:117-130 mbuf_append_and_free: an empty buffer adopts the caller's block
    (whose address is [p]). *)
Definition mbuf_append_and_free (a : mbuf) (p : Z) (data : list Z) (al1 al2 : allocator)
  : R (mbuf * Z) :=
  if mb_len a =? 0 then OK ({| mb_mem := data; mb_len := zlen data; mb_addr := p |}, zlen data)
  else mbuf_insert a (mb_len a) data al1 al2.

(** mbuf.c:133-138 mbuf_remove *)
Definition mbuf_remove (a : mbuf) (n : Z) : R mbuf :=
  if (0 <? n) && (n <=? mb_len a) then
    m <- mem_move (mb_mem a) 0 n (mb_len a - n) ;;
    OK {| mb_mem := m; mb_len := mb_len a - n; mb_addr := mb_addr a |}
  else OK a.

(** mbuf.c:141-143 mbuf_clear *)
Definition mbuf_clear (a : mbuf) : mbuf :=
  {| mb_mem := mb_mem a; mb_len := 0; mb_addr := mb_addr a |}.

(** mbuf.c:146-149 mbuf_move: (new from, new to). *)
Definition mbuf_move (from : mbuf) : mbuf * mbuf :=
  ({| mb_mem := []; mb_len := 0; mb_addr := 0 |}, from).

(** What a user sees: the bytes between offset 0 and len (mbuf.h:50). *)
Definition mb_bytes (a : mbuf) : list Z := firstn (Z.to_nat (mb_len a)) (mb_mem a).

(** One API call with its allocator answers. *)
Inductive mbuf_op :=
| MInsert (off : Z) (data : list Z)
| MAppend (data : list Z)
| MAppendFree (p : Z) (data : list Z)
| MRemove (n : Z)
| MClear
| MResize (n : Z)
| MTrim
| MFree.

Definition mbuf_step (a : mbuf) (o : mbuf_op) (al1 al2 : allocator) : R (mbuf * Z) :=
  match o with
  | MInsert off d => mbuf_insert a off d al1 al2
  | MAppend d => mbuf_append a d al1 al2
  | MAppendFree p d => mbuf_append_and_free a p d al1 al2
  | MRemove n => r <- mbuf_remove a n ;; OK (r, 0)
  | MClear => OK (mbuf_clear a, 0)
  | MResize n => OK (mbuf_resize a n al1, 0)
  | MTrim => OK (mbuf_trim a al1, 0)
  | MFree => OK (mbuf_free a al1, 0)
  end.

(** A history of calls; collects the return values. *)
Fixpoint mbuf_run (a : mbuf) (ops : list (mbuf_op * allocator * allocator))
  : R (mbuf * list Z) :=
  match ops with
  | [] => OK (a, [])
  | (o, al1, al2) :: r =>
    '(a1, v) <- mbuf_step a o al1 al2 ;;
    '(a2, vs) <- mbuf_run a1 r ;;
    OK (a2, v :: vs)
  end.
