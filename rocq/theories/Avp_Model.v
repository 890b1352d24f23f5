(** Model of mg_avprintf (src/common/str_util.c:384-430) over three kinds of vsnprintf. *)
From Verif Require Import Base.

(** The format and its arguments are the text they make. A conforming vsnprintf answers the length of the text; old ones (the
    code's comment names eCos and Windows) answer -1 if it does not fit; a conforming one too answers -1 for arguments it
    cannot encode. *)
Inductive vsn := Conforming | Old | Failing.
(** A block with bytes written at its beginning *)
Definition store (block w : list Z) : R (list Z) := if zlen w <=? zlen block then OK (w ++ skipn (length w) block) else UB.
Definition vsnprintf (k : vsn) (t : list Z) (size : Z) (block : list Z) : R (Z * list Z) :=
  match k with
  | Conforming => b <- store block (if size =? 0 then [] else firstn (Z.to_nat (size - 1)) t ++ [0]) ;; OK (zlen t, b)
  | Old => if zlen t <? size then b <- store block (t ++ [0]) ;; OK (zlen t, b)
           else b <- store block (firstn (Z.to_nat size) t) ;; OK (if zlen t =? size then zlen t else -1, b)
  | Failing => OK (-1, block)
  end.
(** What malloc answers, and what a new block holds *)
Record heap := { malloc : Z -> bool; junk : Z -> list Z }.
(** The answer: the length, *buf (the caller's block or a new one, or NULL), the number of blocks allocated and not freed *)
Inductive buffer := Callers (b : list Z) | New (b : list Z) | Null.
Definition put0 (b : list Z) (i : Z) : R (list Z) :=
  if (0 <=? i) && (i <? zlen b) then OK (firstn (Z.to_nat i) b ++ 0 :: skipn (Z.to_nat i + 1) b) else UB.
(** str_util.c:396-416: [have] tells whether *buf holds a block to free; [live] blocks are allocated. *)
Fixpoint grow (f : nat) (h : heap) (k : vsn) (t : list Z) (size : Z) (have : bool) (live : Z) : R (Z * buffer * Z) :=
  match f with
  | O => NoFuel
  | S f' =>
    let live := if have then live - 1 else live in
    let size := ((if size =? 0 then 5 else size) * 2) mod 2 ^ 64 in
    if negb (malloc h size) then UB (* line 416 then writes through the null pointer *)
    else
      '(len, b) <- vsnprintf k t ((size - 1) mod 2 ^ 64) (junk h size) ;;
      if len <? 0 then grow f' h k t size true (live + 1)
      else b <- put0 b len ;; OK (len, New b, live + 1)
  end.
(** str_util.c:384-430; [size] is below 2^31, so that the conversion to int does not matter. *)
Definition mg_avprintf (f : nat) (h : heap) (k : vsn) (t : list Z) (buf : list Z) (size : Z) : R (Z * buffer * Z) :=
  '(len, b) <- vsnprintf k t size buf ;;
  if len <? 0 then grow f h k t size false 0
  else if size <=? len then
    if negb (malloc h (len + 1)) then OK (-1, Null, 0)
    else '(len, b) <- vsnprintf k t (len + 1) (junk h (len + 1)) ;; OK (len, New b, 1)
  else OK (len, Callers b, 0).
