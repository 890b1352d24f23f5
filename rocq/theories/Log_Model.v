(** Model of cs_log_print_prefix (src/common/cs_dbg.c:57-111). *)
From Verif Require Import Base SUtil_Model.

Definition CS_LOG_PREFIX_LEN : Z := 24.
Definition store (l : list Z) (i v : Z) : R (list Z) :=
  if (0 <=? i) && (i <? zlen l) then OK (firstn (Z.to_nat i) l ++ v :: skipn (Z.to_nat i + 1) l) else UB.
(** cs_dbg.c:65-72: from the end back to a slash or backslash ([r]: the bytes before the pointer, last first). *)
Fixpoint name_back (r : list Z) : list Z :=
  match r with [] => [] | c :: r' => if (c =? 47) || (c =? 92) then [] else name_back r' ++ [c] end.
(** cs_dbg.c:81-84: the digits, last first; an int has at most ten. *)
Fixpoint put_digits (f : nat) (l : list Z) (q ln : Z) : R (list Z * Z) :=
  match f with
  | O => NoFuel
  | S f' =>
    l <- store l (q - 1) ((48 + Z.rem ln 10) mod 256) ;;
    let ln := Z.quot ln 10 in
    if 0 <? ln then put_digits f' l (q - 1) ln else OK (l, q - 1)
  end.
(** cs_dbg.c:74-85: the prefix and its length without the blanks at the end. [junk] is what the array holds
    before. fl is a size_t, and the largest ll is 5, so that sizeof(prefix) - ll - 2 is positive. *)
Definition prefix_of (junk file : list Z) (ln : Z) : R (list Z * Z) :=
  let name := name_back (rev file) in
  let ll := if ln <? 10000 then if ln <? 1000 then if ln <? 100 then if ln <? 10 then 1 else 2 else 3 else 4 else 5 in
  let fl := if CS_LOG_PREFIX_LEN - ll - 2 <? zlen name then CS_LOG_PREFIX_LEN - ll - 2 else zlen name in
  let pl := fl + 1 + ll in
  let l := firstn (Z.to_nat fl) name ++ skipn (Z.to_nat fl) junk in
  let l := firstn (Z.to_nat pl) l ++ repeat 32 (Z.to_nat (CS_LOG_PREFIX_LEN - pl)) in
  '(l, q) <- put_digits 11 l pl ln ;;
  l <- store l (q - 1) 58 ;;
  OK (l, pl).
(** mg_str.c:173-178 mg_str_starts_with *)
Definition mg_str_starts_with (s p : list Z) : bool :=
  if zlen s <? zlen p then false else mg_strcmp (firstn (length p) s) p =? 0.
(** cs_dbg.c:87-97: the level for this place, from a list of entries of the form name=digit. [f] bounds the entries. *)
Fixpoint place_level (f : nat) (fl ps : list Z) (dflt : Z) : Z :=
  match f with
  | O => dflt
  | S f' =>
    match comma_next fl with
    | None => dflt
    | Some (rest, k, v) =>
      match v with
      | Some (d :: _) => if mg_str_starts_with ps k then schar d - 48 else place_level f' rest ps dflt
      | _ => place_level f' rest ps dflt
      end
    end
  end.
(** cs_dbg.c:57-111: the prefix written, or None if it returns 0. Not modelled: the stream it is written
    to and CS_LOG_ENABLE_TS_DIFF. *)
Definition cs_log_print_prefix (junk : list Z) (level0 : Z) (file_level : option (list Z)) (level : Z) (file : list Z) (ln : Z) : R (option (list Z)) :=
  match file_level with
  | None => if level0 <? level then OK None else '(l, _) <- prefix_of junk file ln ;; OK (Some l)
  | Some fl =>
    '(l, pl) <- prefix_of junk file ln ;;
    OK (if place_level (S (length fl)) fl (firstn (Z.to_nat pl) l) level0 <? level then None else Some l)
  end.
