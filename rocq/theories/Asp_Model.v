(** Model of json_sprinter (src/frozen/frozen.c:1439-1449), the printer of json_asprintf (frozen.c:1452-1469).
    Simplifications: json_vprintf is the pieces it gives to the printer, in order; sizes do not reach 2^64. *)
From Verif Require Import Base ErrMem_Model.

(** frozen.c:1439-1449: [ok] is whether realloc succeeds. All bytes of the new block are given: those before the old NUL are kept by
    realloc, the others written. *)
Definition json_sprinter (ok : bool) (buf : option (list Z)) (str : list Z) : R (option (list Z) * Z) :=
  old <- match buf with None => OK [] | Some b => read_cstr b end ;;
  OK (if ok then Some (old ++ str ++ [0]) else buf, zlen str).
(** The pieces; what realloc answers may change from call to call. The second result is what json_vprintf returns. *)
Fixpoint print_all (oks : nat -> bool) (buf : option (list Z)) (pieces : list (list Z)) : R (option (list Z) * Z) :=
  match pieces with
  | [] => OK (buf, 0)
  | p :: ps =>
    '(buf, n) <- json_sprinter (oks O) buf p ;;
    '(buf, m) <- print_all (fun k => oks (S k)) buf ps ;;
    OK (buf, n + m)
  end.
(** frozen.c:1452-1459 *)
Definition json_asprintf (oks : nat -> bool) (pieces : list (list Z)) : R (option (list Z)) :=
  '(buf, _) <- print_all oks None pieces ;; OK buf.
