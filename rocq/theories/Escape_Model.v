(** Model of json_escape (src/frozen/frozen.c:438-464), which json_printf uses for %Q.
    Simplifications: isprint is that of the C locale; the printer stores all it is given, so that the result is the text printed
    (its length is what json_escape returns while it fits an int). *)
From Verif Require Import Base Json_Model.

Definition hex_digits := [48; 49; 50; 51; 52; 53; 54; 55; 56; 57; 97; 98; 99; 100; 101; 102].
Definition specials := [98; 116; 110; 118; 102; 114].
(** frozen.c:445-457: the text for a byte below 128 (or a printable one) *)
Definition escape_byte (c : Z) : list Z :=
  if (c =? 34) || (c =? 92) then [92; c]
  else if (8 <=? c) && (c <=? 13) then [92; nth (Z.to_nat (c - 8)) specials 0]
  else if (32 <=? c) && (c <=? 126) then [c]
  else [92; 117; 48; 48; nth (Z.to_nat (Z.shiftr c 4 mod 15)) hex_digits 0; nth (Z.to_nat (c mod 15)) hex_digits 0].
(** [n] bytes from [mem] on *)
Fixpoint copy (n : nat) (mem : list Z) : R (list Z) :=
  match n, mem with
  | O, _ => OK []
  | S n, c :: mem => t <- copy n mem ;; OK (c :: t)
  | S _, [] => UB
  end.
(** frozen.c:443-461: [j] bytes of a longer character are still to be copied (frozen.c:459-460 do it in one call of the printer);
    [rest] is what lies after the string in memory. *)
Fixpoint escape (j : nat) (s rest : list Z) : R (list Z) :=
  match s with
  | [] => copy j rest
  | c :: s =>
    match j with
    | S j => t <- escape j s rest ;; OK (c :: t)
    | O => if utf8_len c =? 1 then t <- escape O s rest ;; OK (escape_byte c ++ t)
           else t <- escape (Z.to_nat (utf8_len c - 1)) s rest ;; OK (c :: t)
    end
  end.
Definition json_escape (s rest : list Z) : R (list Z) := escape O s rest.
