(** The Gregorian calendar. *)
From Verif Require Import Base.

Definition leap (y : Z) : bool := (y mod 4 =? 0) && (negb (y mod 100 =? 0) || (y mod 400 =? 0)).
(** Months count from 0. *)
Definition month_length (y m : Z) : Z :=
  if m =? 1 then (if leap y then 29 else 28) else if existsb (Z.eqb m) [3; 5; 8; 10] then 30 else 31.
(** Days in the first [n] years from 1970 on, and in the first [n] months of a year. *)
Fixpoint days_years (n : nat) : Z :=
  match n with O => 0 | S k => days_years k + (if leap (1970 + Z.of_nat k) then 366 else 365) end.
Fixpoint days_months (y : Z) (n : nat) : Z :=
  match n with O => 0 | S k => days_months y k + month_length y (Z.of_nat k) end.
(** Seconds from the beginning of 1970 (UTC, no leap seconds) to the given time. *)
Definition seconds (y m d hh mm ss : Z) : Z :=
  86400 * (days_years (Z.to_nat (y - 1970)) + days_months y (Z.to_nat m) + (d - 1)) + 3600 * hh + 60 * mm + ss.
(** A time of the calendar; one from 1970 on. *)
Definition fields (y m d hh mm ss : Z) : Prop :=
  0 <= m < 12 /\ 1 <= d <= month_length y m /\ 0 <= hh < 24 /\ 0 <= mm < 60 /\ 0 <= ss < 60.
Definition calendar (y m d hh mm ss : Z) : Prop := 1970 <= y /\ fields y m d hh mm ss.
