(** Model of cs_read_file (src/common/cs_file.c:30-52) over the answers of the C library. *)
From Verif Require Import Base.

(** What the calls answer for one path. [e_tell] is the answer of ftell (-1 on failure), [e_bytes] what the file holds when
    it is read, which may differ in length; [e_rewind] tells whether the second fseek succeeds, which the code ignores. *)
Record env := { e_open : bool; e_seek : bool; e_tell : Z; e_malloc : Z -> bool; e_rewind : bool; e_bytes : list Z }.
Inductive event := Opened | Closed | Malloced (n : Z) | Freed.
(** fread of at most [n] bytes into a block of [cap] bytes; from the end of the file if it was not rewound *)
Definition c_fread (e : env) (cap n : Z) : R (list Z) :=
  let got := if e_rewind e then firstn (Z.to_nat (Z.min n (zlen (e_bytes e)))) (e_bytes e) else [] in
  if zlen got <=? cap then OK got else UB.
(** cs_file.c:31-52: the block and *size, and what was called. size_t has 64 bits. *)
Definition cs_read_file (e : env) : R (option (list Z * Z) * list event) :=
  if negb (e_open e) then OK (None, [])
  else if negb (e_seek e) then OK (None, [Opened; Closed])
  else
    let size := e_tell e mod 2 ^ 64 in
    let cap := (size + 1) mod 2 ^ 64 in
    if negb (e_malloc e cap) then OK (None, [Opened; Closed])
    else
      got <- c_fread e cap size ;;
      if negb (zlen got =? size) then OK (None, [Opened; Malloced cap; Freed])
      else if size <? cap then OK (Some (got ++ [0], size), [Opened; Malloced cap; Closed]) else UB.
