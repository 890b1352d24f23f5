(** Model of json_fread (src/frozen/frozen.c:1122-1142) over the answers of the C library, as in [File_Model]. *)
From Verif Require Import Base File_Model.

(** The block, and what was called. A long has 64 bits; size + 1 overflows for the largest one. As in the code, the second fseek is
    not checked. *)
Definition json_fread (e : env) : R (option (list Z) * list event) :=
  if negb (e_open e) then OK (None, [])
  else if negb (e_seek e) then OK (None, [Opened; Closed])
  else
    let size := e_tell e in
    if negb (0 <? size) then OK (None, [Opened; Closed])
    else if 2 ^ 63 - 1 <=? size then UB
    else if negb (e_malloc e (size + 1)) then OK (None, [Opened; Closed])
    else
      got <- c_fread e (size + 1) size ;;
      if negb (zlen got =? size) then OK (None, [Opened; Malloced (size + 1); Freed; Closed])
      else OK (Some (got ++ [0]), [Opened; Malloced (size + 1); Closed]).
