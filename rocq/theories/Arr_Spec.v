(** Specification of arrays: property maps seen as lists. *)
From Verif Require Import Base Value_Model Str_Model Str_Spec SUtil_Spec Obj_Model Obj_Spec.

(** What strtoul accepts as a whole text: blanks, a sign, digits; a minus sign negates modulo
    2^64 and too large values become 2^64-1. *)
Definition blank (c : Z) : Prop := c = 32 \/ 9 <= c <= 13.
Definition index_text (n : list Z) (i : Z) : Prop :=
  exists sp sg ds, n = sp ++ sg ++ ds /\ Forall blank sp /\ digits_ok ds /\
    (sg = [] \/ sg = [43] \/ sg = [45]) /\
    i = (if digits_val ds <? 2 ^ 64
         then (if bytes_eqb sg [45] then (- digits_val ds) mod 2 ^ 64 else digits_val ds)
         else 2 ^ 64 - 1).

(** The map [m] is the array [f] (index to element), with the other properties given by [g];
    index names are written canonically. *)
Definition arr (m : omap) (f : Z -> option Z) (g : list Z -> option Z) : Prop :=
  (forall i t, 0 <= i < 2 ^ 63 -> numeral 10 i t -> lookup m t = f i) /\
  (forall n v j, In (n, v) m -> index_text n j -> j < 4294967295 -> numeral 10 j n) /\
  (forall n, (forall i, 0 <= i < 2 ^ 63 -> ~ numeral 10 i n) -> lookup m n = g n).
(** A list as an index function. *)
Definition lf (l : list Z) : Z -> option Z := fun i => if 0 <=? i then nth_error l (Z.to_nat i) else None.
(** Elements present below the limit of array lengths only. *)
Definition bounded (f : Z -> option Z) : Prop := forall i, f i <> None -> 0 <= i < 4294967295.
Definition fupd (f : Z -> option Z) (i : Z) (x : option Z) : Z -> option Z :=
  fun k => if k =? i then x else f k.

(** list splice with JavaScript's clamping of start and count *)
Definition sp_start (start len : Z) : Z := Z.max 0 (Z.min len (if start <? 0 then len + start else start)).
Definition sp_del (del start len : Z) : Z := Z.max 0 (Z.min del (len - sp_start start len)).
Definition sp_result (l : list Z) (start del : Z) (items : list Z) : list Z :=
  let s := sp_start start (zlen l) in
  firstn (Z.to_nat s) l ++ items ++ skipn (Z.to_nat (s + sp_del del start (zlen l))) l.
Definition sp_removed (l : list Z) (start del : Z) : list Z :=
  let s := sp_start start (zlen l) in
  firstn (Z.to_nat (sp_del del start (zlen l))) (skipn (Z.to_nat s) l).
