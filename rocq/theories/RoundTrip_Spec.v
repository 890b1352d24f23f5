(** Specification of trees that survive being written and read again. *)
From Verif Require Import Base Value_Model SUtil_Spec Json_Spec.

(** A finite double, not minus zero, that is an integer below 2^63 in magnitude or a multiple of 1/1000000. *)
Definition six_decimals (d : Z) : Prop :=
  d = 0 \/ exists s m e, is_u64 d /\ d_dec d = S754_finite s m e /\
    (0 <= e /\ Z.pos m * 2 ^ e < 2 ^ 63 \/ e < 0 /\ Z.pos m * 1000000 mod 2 ^ (- e) = 0).

(** Trees that survive: such numbers; strings in UTF-8 without vertical tabs; objects whose names are distinct
    and need no escapes. The sizes are those of C ints. *)
Fixpoint echo (t : jt) : Prop :=
  match t with
  | TNull | TBool _ => True
  | TNum d => six_decimals d
  | TStr s => utf8 s /\ ~ In 11 s /\ zlen (quoted s) < 2 ^ 31
  | TArr l => zlen l < 2 ^ 31 /\ fold_right (fun x P => echo x /\ P) True l
  | TObj l => NoDup (map fst l) /\
      fold_right (fun kx P => (plain (fst kx) /\ zlen (fst kx) + 3 < 2 ^ 31 /\ echo (snd kx)) /\ P) True l
  end.
(** The members of every object in the opposite order. *)
Fixpoint mirror (t : jt) : jt :=
  match t with
  | TArr l => TArr (map mirror l)
  | TObj l => TObj (rev (map (fun kx => (fst kx, mirror (snd kx))) l))
  | _ => t
  end.
