(** C99: cs_timegm. *)
From Verif Require Import Base BaseFacts Time_Model Time_Spec Time_Proofs.
From Coq Require Import ZifyBool.
Ltac Zify.zify_post_hook ::= idtac.

(** C99. For every time of the calendar from 1970 on cs_timegm gives the number of seconds since the beginning of
    1970 as long as that number fits an int, that is up to 2038-01-19 03:14:07; after that its sum overflows. The
    month may lie outside the year. *)
Theorem timegm_calendar t y m : calendar y m (tm_mday t) (tm_hour t) (tm_min t) (tm_sec t) ->
  tm_year t + tm_mon t / 12 = y - 1900 -> tm_mon t mod 12 = m ->
  let s := seconds y m (tm_mday t) (tm_hour t) (tm_min t) (tm_sec t) in
  cs_timegm t = if s <? 2 ^ 31 then OK s else UB.
Proof. exact (timegm_seconds t y m). Qed.
Print Assumptions timegm_calendar.
(** Times before 1970 (but not before 1902) are refused. *)
Theorem timegm_refuses_past t y m : 1902 <= y < 1970 -> fields y m (tm_mday t) (tm_hour t) (tm_min t) (tm_sec t) ->
  tm_year t = y - 1900 -> tm_mon t = m -> cs_timegm t = OK (-1).
Proof. exact (timegm_before t y m). Qed.
Print Assumptions timegm_refuses_past.

(** Later times give greater numbers. *)
Definition later (y m d hh mm ss y' m' d' hh' mm' ss' : Z) : Prop :=
  y < y' \/ (y = y' /\ (m < m' \/ (m = m' /\ (d < d' \/ (d = d' /\ (hh < hh' \/ (hh = hh' /\ (mm < mm' \/ (mm = mm' /\ ss < ss'))))))))).
Lemma years_grow a : forall b, (a <= b)%nat -> days_years a <= days_years b.
Proof. intros b H. induction H as [|b H IH]; [lia|]. cbn [days_years]. destruct (leap (1970 + Z.of_nat b)); lia. Qed.
Lemma month_pos y m : 1 <= month_length y m.
Proof. unfold month_length. destruct (m =? 1), (leap y), (existsb (Z.eqb m) [3; 5; 8; 10]); lia. Qed.
Lemma months_grow y a : forall b, (a <= b)%nat -> days_months y a <= days_months y b.
Proof. intros b H. induction H as [|b H IH]; [lia|]. cbn [days_months]. pose proof (month_pos y (Z.of_nat b)). lia. Qed.
Lemma year_length y : days_months y 12 = if leap y then 366 else 365.
Proof. cbn [days_months]. unfold month_length. destruct (leap y); reflexivity. Qed.
Lemma seconds_later y m d hh mm ss y' m' d' hh' mm' ss' : calendar y m d hh mm ss -> calendar y' m' d' hh' mm' ss' ->
  later y m d hh mm ss y' m' d' hh' mm' ss' -> seconds y m d hh mm ss < seconds y' m' d' hh' mm' ss'.
Proof.
  intros (Hy & Hm & Hd & Hh & Hi & Hs) (Hy' & Hm' & Hd' & Hh' & Hi' & Hs') L. unfold seconds.
  assert (N : days_months y (Z.to_nat m) + month_length y m = days_months y (S (Z.to_nat m))) by (cbn [days_months]; rewrite Z2Nat.id by lia; reflexivity).
  destruct L as [L|(<- & L)].
  - assert (E : days_months y (Z.to_nat m) + d <= if leap y then 366 else 365).
    { rewrite <- year_length. pose proof (months_grow y (S (Z.to_nat m)) 12 ltac:(lia)). lia. }
    assert (G : days_years (Z.to_nat (y - 1970)) + (if leap y then 366 else 365) <= days_years (Z.to_nat (y' - 1970))).
    { pose proof (years_grow (S (Z.to_nat (y - 1970))) (Z.to_nat (y' - 1970)) ltac:(lia)) as G. cbn [days_years] in G. rewrite Z2Nat.id in G by lia.
      replace (1970 + (y - 1970)) with y in G by lia. exact G. }
    pose proof (months_grow y' 0 (Z.to_nat m') ltac:(lia)) as P. cbn [days_months] in P. lia.
  - destruct L as [L|(<- & L)].
    + pose proof (months_grow y (S (Z.to_nat m)) (Z.to_nat m') ltac:(lia)). lia.
    + lia.
Qed.
Theorem timegm_order t t' y m y' m' n n' :
  calendar y m (tm_mday t) (tm_hour t) (tm_min t) (tm_sec t) -> tm_year t + tm_mon t / 12 = y - 1900 -> tm_mon t mod 12 = m ->
  calendar y' m' (tm_mday t') (tm_hour t') (tm_min t') (tm_sec t') -> tm_year t' + tm_mon t' / 12 = y' - 1900 -> tm_mon t' mod 12 = m' ->
  later y m (tm_mday t) (tm_hour t) (tm_min t) (tm_sec t) y' m' (tm_mday t') (tm_hour t') (tm_min t') (tm_sec t') ->
  cs_timegm t = OK n -> cs_timegm t' = OK n' -> n < n'.
Proof.
  intros C E1 E2 C' E1' E2' L H H'. pose proof (seconds_later _ _ _ _ _ _ _ _ _ _ _ _ C C' L) as G.
  rewrite (timegm_calendar t y m C E1 E2) in H. rewrite (timegm_calendar t' y' m' C' E1' E2') in H'. cbv zeta in H, H'.
  destruct (_ <? 2 ^ 31) in H; [|discriminate H]. destruct (_ <? 2 ^ 31) in H'; [|discriminate H']. congruence.
Qed.
Print Assumptions timegm_order.

(** 2000-02-29 12:30:45, given as month 25 of 1998; then the last second of 1969 and the last one that fits. *)
Definition tx_t : tm := {| tm_sec := 45; tm_min := 30; tm_hour := 12; tm_mday := 29; tm_mon := 25; tm_year := 98 |}.
Example tx_calendar : calendar 2000 1 29 12 30 45 /\ tm_year tx_t + tm_mon tx_t / 12 = 2000 - 1900 /\ tm_mon tx_t mod 12 = 1.
Proof. repeat split; vm_compute; congruence. Qed.
Example tx_holds : cs_timegm tx_t = OK 951827445.
Proof. destruct tx_calendar as (C & E1 & E2). rewrite (timegm_calendar tx_t 2000 1 C E1 E2). vm_compute. reflexivity. Qed.
Definition tx_p : tm := {| tm_sec := 59; tm_min := 59; tm_hour := 23; tm_mday := 31; tm_mon := 11; tm_year := 69 |}.
Example tx_past : cs_timegm tx_p = OK (-1).
Proof. apply (timegm_refuses_past tx_p 1969 11); [lia| |reflexivity|reflexivity]. repeat split; vm_compute; congruence. Qed.
Definition tx_last : tm := {| tm_sec := 7; tm_min := 14; tm_hour := 3; tm_mday := 19; tm_mon := 0; tm_year := 138 |}.
Example tx_end : cs_timegm tx_last = OK (2 ^ 31 - 1).
Proof. rewrite (timegm_calendar tx_last 2038 0); [vm_compute; reflexivity| |reflexivity|reflexivity]. repeat split; vm_compute; congruence. Qed.
Example tx_order : 951827445 < 2 ^ 31 - 1.
Proof.
  destruct tx_calendar as (C & E1 & E2). apply (timegm_order tx_t tx_last 2000 1 2038 0); [exact C|exact E1|exact E2| |reflexivity|reflexivity|left; lia|exact tx_holds|exact tx_end].
  repeat split; vm_compute; congruence.
Qed.
(** Every time of the calendar from 1970 on is converted: false, the next second overflows. *)
Theorem timegm_total_refuted : exists t y m, calendar y m (tm_mday t) (tm_hour t) (tm_min t) (tm_sec t) /\
  tm_year t + tm_mon t / 12 = y - 1900 /\ tm_mon t mod 12 = m /\ cs_timegm t = UB.
Proof.
  exists {| tm_sec := 8; tm_min := 14; tm_hour := 3; tm_mday := 19; tm_mon := 0; tm_year := 138 |}, 2038, 0.
  split; [repeat split; vm_compute; congruence|]. split; [reflexivity|]. split; reflexivity.
Qed.
Print Assumptions timegm_total_refuted.
