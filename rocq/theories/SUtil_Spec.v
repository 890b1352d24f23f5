(** Specification of formatted printing and of the codecs: a grammar of format
    directives with the text each denotes, independent of the C loops. *)
From Verif Require Import Base.
From Verif Require Import SUtil_Model.

(** Positional numerals. *)
Definition digit_of (c : Z) : Z := if c <? 58 then c - 48 else c - 87.
Definition is_digit_in (base c : Z) : Prop :=
  ((48 <= c <= 57) \/ (97 <= c <= 102)) /\ 0 <= digit_of c < base.
Fixpoint num_value (base : Z) (acc : Z) (t : list Z) : Z :=
  match t with [] => acc | c :: r => num_value base (acc * base + digit_of c) r end.
(** [t] is the shortest numeral of [n] in [base]. *)
Definition numeral (base n : Z) (t : list Z) : Prop :=
  t <> [] /\ Forall (is_digit_in base) t /\ num_value base 0 t = n /\
  (hd 0 t = 48 -> t = [48]).
(** Zero-padded to width [w] (at most 39), the sign outside the padding. *)
Definition int_text (base n : Z) (zero : bool) (w : Z) (t : list Z) : Prop :=
  exists d, numeral base (Z.abs n) d /\
    t = (if n <? 0 then [45] else []) ++
        repeat 48 (if zero then Z.to_nat (Z.min w 39 - zlen d) else O) ++ d.

(** Conversions. *)
Inductive kind :=
| KStr (s : option (list Z))    (* char pointer with the readable bytes *)
| KChar (z : Z)
| KD (z : Z) | KU (z : Z) | KX (z : Z)              (* int / unsigned *)
| KLd (z : Z) | KLu (z : Z) | KLx (z : Z)           (* long *)
| KZd (z : Z) | KZu (z : Z) | KZx (z : Z)           (* size_t *)
| KLLd (z : Z)                                      (* int64_t *)
| KPtr (z : Z).
Inductive prec := PNone | PDigits (ds : list Z) | PStar (z : Z).
Record direc := { d_width : list Z; d_star : option Z; d_prec : prec; d_kind : kind }.
Inductive item := Lit (c : Z) | Dir (d : direc).

Definition dec_digits (ds : list Z) : Prop := Forall (fun c => 48 <= c <= 57) ds.
Fixpoint dec_value (acc : Z) (ds : list Z) : Z :=
  match ds with [] => acc | c :: r => dec_value (acc * 10 + (c - 48)) r end.
Definition width_of (d : direc) : Z :=
  match d_star d with Some z => z | None => dec_value 0 (d_width d) end.
Definition zero_of (d : direc) : bool := match d_width d with c :: _ => c =? 48 | [] => false end.
Definition prec_of (d : direc) : Z :=
  match d_prec d with PNone => 0 | PDigits ds => dec_value 0 ds | PStar z => z end.

(** The C string at [s]: everything before its first NUL. *)
Definition c_text (s t : list Z) : Prop := Forall (fun c => c <> 0) t /\ exists r, s = t ++ 0 :: r.
(** What may be read of a char pointer printed with precision [p]: at most [p] characters
    when [p] is positive. *)
Definition str_text (s : list Z) (p : Z) (t : list Z) : Prop :=
  if p <=? 0 then c_text s t
  else Forall (fun c => c <> 0) t /\
       ((zlen t = p /\ exists r, s = t ++ r) \/ (zlen t < p /\ exists r, s = t ++ 0 :: r)).

Definition int64 (z : Z) : Prop := - 2 ^ 63 < z < 2 ^ 63.
Definition prints (d : direc) (t : list Z) : Prop :=
  let w := width_of d in let z := zero_of d in let p := prec_of d in
  match d_kind d with
  | KStr None => p <= 0 /\ t = repeat 32 (Z.to_nat w)
  | KStr (Some s) =>
    exists u, str_text s p u /\
      t = repeat 32 (Z.to_nat (w - (if p >=? 0 then Z.min p (zlen u) else 0))) ++ u
  | KChar n => t = [n mod 256]
  | KD n => - 2 ^ 31 <= n < 2 ^ 31 /\ int_text 10 n z w t
  | KU n => 0 <= n < 2 ^ 32 /\ int_text 10 n z w t
  | KX n => 0 <= n < 2 ^ 32 /\ int_text 16 n z w t
  | KLd n | KZd n | KLLd n => int64 n /\ int_text 10 n z w t
  | KLu n | KZu n => 0 <= n < 2 ^ 63 /\ int_text 10 n z w t
  | KLx n | KZx n => 0 <= n < 2 ^ 63 /\ int_text 16 n z w t
  | KPtr n => 0 <= n < 2 ^ 63 /\ exists u, int_text 16 n z 0 u /\ t = 48 :: 120 :: u
  end.
(** Format text and arguments of a conversion. *)
Definition kind_src (k : kind) : list Z :=
  match k with
  | KStr _ => [115] | KChar _ => [99]
  | KD _ => [100] | KU _ => [117] | KX _ => [120]
  | KLd _ => [108; 100] | KLu _ => [108; 117] | KLx _ => [108; 120]
  | KZd _ => [122; 100] | KZu _ => [122; 117] | KZx _ => [122; 120]
  | KLLd _ => [108; 108; 100] | KPtr _ => [112]
  end.
Definition kind_arg (k : kind) : varg :=
  match k with
  | KStr s => VStr s
  | KChar z | KD z | KU z | KX z => VInt z
  | KLd z | KLu z | KLx z | KZd z | KZu z | KZx z | KLLd z | KPtr z => VLong z
  end.
Definition item_src (i : item) : list Z :=
  match i with
  | Lit c => [c]
  | Dir d => 37 :: d_width d ++ (match d_star d with Some _ => [42] | None => [] end) ++
             (match d_prec d with PNone => [] | PDigits ds => 46 :: ds | PStar _ => [46; 42] end) ++
             kind_src (d_kind d)
  end.
Definition item_args (i : item) : list varg :=
  match i with
  | Lit _ => []
  | Dir d => (match d_star d with Some z => [VInt z] | None => [] end) ++
             (match d_prec d with PStar z => [VInt z] | _ => [] end) ++ [kind_arg (d_kind d)]
  end.
Definition item_ok (i : item) : Prop :=
  match i with
  | Lit c => c <> 37
  | Dir d => dec_digits (d_width d) /\ (match d_prec d with PDigits ds => dec_digits ds | _ => True end)
  end.
Definition item_prints (i : item) (t : list Z) : Prop :=
  match i with Lit c => t = [c] | Dir d => prints d t end.

Fixpoint fmt_src (l : list item) : list Z :=
  match l with [] => [] | i :: r => item_src i ++ fmt_src r end.
Fixpoint fmt_args (l : list item) : list varg :=
  match l with [] => [] | i :: r => item_args i ++ fmt_args r end.
(** [fmt_prints l t]: the items denote the text [t]. *)
Fixpoint fmt_prints (l : list item) (t : list Z) : Prop :=
  match l with
  | [] => t = []
  | i :: r => exists a b, item_prints i a /\ fmt_prints r b /\ t = a ++ b
  end.

(** The destination afterwards: as much text as fits, then a NUL, the rest untouched. *)
Definition shown (buf : list Z) (size : Z) (t : list Z) : list Z :=
  if size =? 0 then buf
  else let k := Z.min (zlen t) (size - 1) in
       blit buf 0 (sub t 0 k ++ [0]).

(** The standard meaning of a base64 alphabet and of hexadecimal text. *)
Definition hex_alphabet (c : Z) : Prop := 48 <= c <= 57 \/ 97 <= c <= 102.
Definition b64_alphabet (c : Z) : Prop :=
  65 <= c <= 90 \/ 97 <= c <= 122 \/ 48 <= c <= 57 \/ c = 43 \/ c = 47 \/ c = 61.
