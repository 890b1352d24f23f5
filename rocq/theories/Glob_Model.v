(** Model of mg_match_prefix_n (src/common/str_util.c:479-522). *)
From Verif Require Import Base SUtil_Model.

(** str_util.c:353-355 str_util_lowercase: tolower of the C locale. *)
Definition lowercase (c : Z) : Z := if (65 <=? c) && (c <=? 90) then c + 32 else c.
(** str_util.c:483-484: the first bar, or else the first comma *)
Definition or_at (p : list Z) : option Z := match mg_strchr p 124 with Some k => Some k | None => mg_strchr p 44 end.
(** str_util.c:503: bytes before the next slash *)
Fixpoint segment (s : list Z) : Z := match s with [] => 0 | c :: r => if c =? 47 then 0 else 1 + segment r end.
(** str_util.c:507-512: the rest of the pattern on ever longer rests of the text *)
Fixpoint tries (rec : list Z -> list Z -> R Z) (p s : list Z) (len : nat) (j : Z) : R Z :=
  res <- rec p (skipn len s) ;;
  if res =? 0 then match len with O => OK 0 | S len' => tries rec p s len' j end
  else OK (j + res + Z.of_nat len).
(** str_util.c:493-521: [p] and [s] are what is left of the pattern and of the text, [j] bytes are matched. *)
Fixpoint glob_loop (rec : list Z -> list Z -> R Z) (p s : list Z) (j : Z) : R Z :=
  match p with
  | [] => OK j
  | c :: p' =>
    match s with
    | [] => if c =? 36 then OK j else OK 0
    | d :: s' =>
      if c =? 63 then glob_loop rec p' s' (j + 1)
      else if c =? 42 then
        let '(p2, len) := match p' with
                          | e :: p'' => if e =? 42 then (p'', zlen s) else (p', segment s)
                          | [] => (p', segment s)
                          end in
        match p2 with
        | [] => OK (j + len)
        | e :: r => if (e =? 36) && (match r with [] => true | _ => false end) then OK (j + len)
                    else tries rec p2 s (Z.to_nat len) j
        end
      else if lowercase c =? lowercase d then glob_loop rec p' s' (j + 1)
      else OK 0
    end
  end.
(** str_util.c:479-522. Each call is on a shorter pattern, [f] bounds its length. *)
Fixpoint mg_match_prefix_n (f : nat) (p s : list Z) : R Z :=
  match f with
  | O => NoFuel
  | S f' =>
    match or_at p with
    | Some k =>
      res <- mg_match_prefix_n f' (sub p 0 k) s ;;
      if 0 <? res then OK res else mg_match_prefix_n f' (skipn (Z.to_nat k + 1) p) s
    | None => glob_loop (mg_match_prefix_n f') p s 0
    end
  end.
