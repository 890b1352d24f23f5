(** cs_timegm and the calendar. *)
From Verif Require Import Base BaseFacts Time_Model Time_Spec.
From Coq Require Import ZifyBool.
Ltac Zify.zify_post_hook ::= idtac.

(** Leap days from 1970 on, by the year after 1900 *)
Definition leaps (u : Z) : Z := (u - 69) / 4 - (u - 1) / 100 + (u + 299) / 400.
Lemma leaps_step u : leaps (u + 1) = leaps u + (if leap (1900 + u) then 1 else 0).
Proof.
  unfold leaps, leap.
  assert (A : (u + 1 - 69) / 4 = (u - 69) / 4 + (if (1900 + u) mod 4 =? 0 then 1 else 0)).
  { destruct ((1900 + u) mod 4 =? 0) eqn:E; Z.div_mod_to_equations; lia. }
  assert (B : (u + 1 - 1) / 100 = (u - 1) / 100 + (if (1900 + u) mod 100 =? 0 then 1 else 0)).
  { destruct ((1900 + u) mod 100 =? 0) eqn:E; Z.div_mod_to_equations; lia. }
  assert (C : (u + 1 + 299) / 400 = (u + 299) / 400 + (if (1900 + u) mod 400 =? 0 then 1 else 0)).
  { destruct ((1900 + u) mod 400 =? 0) eqn:E; Z.div_mod_to_equations; lia. }
  rewrite A, B, C.
  assert (D1 : (1900 + u) mod 100 = 0 -> (1900 + u) mod 4 = 0) by (intros; Z.div_mod_to_equations; lia).
  assert (D2 : (1900 + u) mod 400 = 0 -> (1900 + u) mod 100 = 0) by (intros; Z.div_mod_to_equations; lia).
  destruct ((1900 + u) mod 4 =? 0) eqn:E4, ((1900 + u) mod 100 =? 0) eqn:E100, ((1900 + u) mod 400 =? 0) eqn:E400; cbn [andb orb negb]; lia.
Qed.
Lemma days_years_closed n : days_years n = 365 * Z.of_nat n + leaps (70 + Z.of_nat n).
Proof.
  induction n as [|n IH]; [reflexivity|]. cbn [days_years]. rewrite IH, Nat2Z.inj_succ. replace (70 + Z.succ (Z.of_nat n)) with (70 + Z.of_nat n + 1) by lia.
  rewrite leaps_step. replace (1900 + (70 + Z.of_nat n)) with (1970 + Z.of_nat n) by lia. destruct (leap (1970 + Z.of_nat n)); lia.
Qed.
Lemma days_months_table y m : 0 <= m < 12 ->
  exists d, nthz month_day m = Some d /\ 0 <= d <= 334 /\ days_months y (Z.to_nat m) = d + (if (1 <? m) && leap y then 1 else 0).
Proof.
  intros H. assert (M : In m [0; 1; 2; 3; 4; 5; 6; 7; 8; 9; 10; 11]) by (cbn [In]; lia). cbn [In] in M.
  repeat (destruct M as [<-|M]; [eexists; split; [reflexivity|]; split; [lia|]; unfold month_length, Z.to_nat, Pos.to_nat; cbn [Pos.iter_op Nat.add days_months]; unfold month_length; destruct (leap y); reflexivity|]). contradiction.
Qed.

Lemma timegm_seconds t y m : calendar y m (tm_mday t) (tm_hour t) (tm_min t) (tm_sec t) ->
  tm_year t + tm_mon t / 12 = y - 1900 -> tm_mon t mod 12 = m ->
  let s := seconds y m (tm_mday t) (tm_hour t) (tm_min t) (tm_sec t) in
  cs_timegm t = if s <? 2 ^ 31 then OK s else UB.
Proof.
  intros (Hy & Hm & Hd & Hh & Hmi & Hs) Ey Em s. change (2 ^ 31) with 2147483648 in *.
  assert (Hd' : 1 <= tm_mday t <= 31).
  { unfold month_length in Hd. destruct (m =? 1), (leap y), (existsb (Z.eqb m) [3; 5; 8; 10]); lia. }
  destruct (days_months_table y m Hm) as (md & Nm & Bm & Tm).
  set (u := y - 1900) in *. set (yl := if 1 <? m then u + 1 else u).
  assert (L : leaps u + (if (1 <? m) && leap y then 1 else 0) = leaps yl).
  { unfold yl. destruct (1 <? m); cbn [andb]; [|lia]. rewrite leaps_step. replace (1900 + u) with y by (unfold u; lia). reflexivity. }
  set (dd := md + tm_mday t - 1 + 365 * (u - 70) + leaps yl).
  assert (Es : s = 86400 * dd + 3600 * tm_hour t + 60 * tm_min t + tm_sec t).
  { unfold s, seconds, dd. rewrite Tm, days_years_closed, Z2Nat.id by lia. replace (70 + (y - 1970)) with u by (unfold u; lia). unfold u in *. lia. }
  clearbody s. assert (Hyl : u <= yl <= u + 1) by (unfold yl; destruct (1 <? m); lia). assert (Hu : 70 <= u) by (unfold u; lia).
  assert (Ql : leaps yl = (yl - 69) / 4 - (yl - 1) / 100 + (yl + 299) / 400) by reflexivity.
  assert (Q1 : Z.quot (yl - 69) 4 = (yl - 69) / 4) by (apply Z.quot_div_nonneg; lia).
  assert (Q2 : Z.quot (yl - 1) 100 = (yl - 1) / 100) by (apply Z.quot_div_nonneg; lia).
  assert (Q3 : Z.quot (yl + 299) 400 = (yl + 299) / 400) by (apply Z.quot_div_nonneg; lia).
  assert (B1 : 0 <= (yl - 69) / 4 <= yl) by (split; [apply Z.div_pos; lia|Z.div_mod_to_equations; lia]).
  assert (B2 : 0 <= (yl - 1) / 100 <= yl) by (split; [apply Z.div_pos; lia|Z.div_mod_to_equations; lia]).
  assert (B3 : 0 <= (yl + 299) / 400 <= yl) by (split; [apply Z.div_pos; lia|Z.div_mod_to_equations; lia]).
  assert (B4 : (yl - 1) / 100 <= (yl - 69) / 4) by (Z.div_mod_to_equations; lia).
  assert (Ed : dd = md + tm_mday t - 1 + 365 * (u - 70) + leaps yl) by reflexivity. clearbody dd.
  assert (Gs : 86400 * (365 * (u - 70) - 1) <= s) by lia.
  (* the month and the year *)
  assert (RR : (0 <= Z.rem (tm_mon t) 12 /\ Z.rem (tm_mon t) 12 = m /\ Z.quot (tm_mon t) 12 = tm_mon t / 12) \/
              (Z.rem (tm_mon t) 12 < 0 /\ Z.rem (tm_mon t) 12 + 12 = m /\ Z.quot (tm_mon t) 12 = tm_mon t / 12 + 1)).
  { pose proof (Z.quot_rem' (tm_mon t) 12) as QR. pose proof (Z.div_mod (tm_mon t) 12 ltac:(lia)) as DM. pose proof (Z.mod_pos_bound (tm_mon t) 12 ltac:(lia)).
    pose proof (Z.rem_bound_abs (tm_mon t) 12 ltac:(lia)). rewrite Em in *. destruct (Z_lt_le_dec (Z.rem (tm_mon t) 12) 0); [right|left]; lia. }
  assert (Big : forall k : R Z, 2147483648 <= s -> k = UB -> k = if s <? 2147483648 then OK s else UB).
  { intros k G ->. replace (s <? 2147483648) with false by lia. reflexivity. }
  unfold cs_timegm. cbv zeta.
  set (rest := fun p : Z * Z => let '(month, year) := p in
    yl <- (if 1 <? month then iadd year 1 else OK year) ;;
    md <- (match nthz month_day month with Some d => OK d | None => UB end) ;;
    d <- iadd md (tm_mday t) ;; d <- isub d 1 ;; y70 <- isub year 70 ;; yd <- imul 365 y70 ;; d <- iadd d yd ;;
    a <- isub yl 69 ;; d <- iadd d (Z.quot a 4) ;; b <- isub yl 1 ;; d <- isub d (Z.quot b 100) ;; c <- iadd yl 299 ;; d <- iadd d (Z.quot c 400) ;;
    h <- imul 24 d ;; h <- iadd (tm_hour t) h ;; m <- imul 60 h ;; m <- iadd (tm_min t) m ;; s <- imul 60 m ;; s <- iadd (tm_sec t) s ;;
    OK (if s <? 0 then -1 else s)).
  assert (I : forall n, (- 2147483648 <= n < 2147483648 /\ int n = OK n) \/ (~ (- 2147483648 <= n < 2147483648) /\ int n = UB)).
  { intros n. unfold int. change (2 ^ 31) with 2147483648. match goal with |- context [if ?b then _ else _] => destruct b eqn:E end; [left|right]; split; try reflexivity; lia. }
  assert (Rest : rest (m, u) = if s <? 2147483648 then OK s else UB).
  { unfold rest. rewrite Nm. clear rest Em Ey RR Nm Tm L Hm Hd Hy.
    assert (Y : (if 1 <? m then iadd u 1 else OK u) = OK yl \/ ((if 1 <? m then iadd u 1 else OK u) = UB /\ 2147483648 <= s)).
    { unfold iadd. unfold yl at 1. destruct (1 <? m); [|left; reflexivity]. destruct (I (u + 1)) as [[G ->]|[G ->]]; [left; reflexivity|right; split; [reflexivity|lia]]. }
    destruct Y as [->|[-> G]]; cbn [bind]; [|apply Big; [exact G|reflexivity]]. clearbody yl u.
    unfold iadd, isub, imul.
    repeat (match goal with |- bind (int ?n) _ = _ => destruct (I n) as [[? ->]|[? ->]]; cbn [bind]; [rewrite ?Q1, ?Q2, ?Q3|apply Big; [lia|reflexivity]] end).
    replace (s <? 2147483648) with true by lia. cbv iota. f_equal. match goal with |- (if ?x <? 0 then _ else _) = _ => replace (x <? 0) with false by lia end. lia. }
  unfold iadd at 1. destruct RR as [(R1 & R2 & R3)|(R1 & R2 & R3)].
  - rewrite R3, Ey. destruct (I u) as [[G ->]|[G ->]]; cbn [bind]; [|apply Big; [lia|reflexivity]].
    replace (Z.rem (tm_mon t) 12 <? 0) with false by lia. cbn [bind]. rewrite R2. exact Rest.
  - rewrite R3. replace (tm_year t + (tm_mon t / 12 + 1)) with (u + 1) by lia. destruct (I (u + 1)) as [[G ->]|[G ->]]; cbn [bind]; [|apply Big; [lia|reflexivity]].
    replace (Z.rem (tm_mon t) 12 <? 0) with true by lia. unfold isub at 1. replace (u + 1 - 1) with u by lia.
    destruct (I u) as [[G2 ->]|[G2 ->]]; cbn [bind]; [|apply Big; [lia|reflexivity]]. rewrite R2. exact Rest.
Qed.

(** ** Before 1970 *)
Lemma table_end y m : 0 <= m < 12 -> exists d, nthz month_day m = Some d /\ 0 <= d <= 334 /\ d + month_length y m <= 365 + (if leap y then 1 else 0) /\ (leap y = true -> m <> 1 -> d + month_length y m <= 365).
Proof.
  intros H. assert (M : In m [0; 1; 2; 3; 4; 5; 6; 7; 8; 9; 10; 11]) by (cbn [In]; lia). cbn [In] in M.
  repeat (destruct M as [<-|M]; [eexists; split; [reflexivity|]; split; [lia|]; unfold month_length; cbn [Z.eqb Pos.eqb existsb orb]; destruct (leap y); split; intros; lia|]). contradiction.
Qed.
Lemma timegm_before t y m : 1902 <= y < 1970 -> fields y m (tm_mday t) (tm_hour t) (tm_min t) (tm_sec t) ->
  tm_year t = y - 1900 -> tm_mon t = m -> cs_timegm t = OK (-1).
Proof.
  intros Hy (Hm & Hd & Hh & Hmi & Hs) Ey Em. destruct (table_end y m Hm) as (md & Nm & Bm & Le & _).
  set (u := y - 1900) in *. assert (Hu : 2 <= u <= 69) by (unfold u; lia).
  assert (Ed : md + tm_mday t <= 365 + (if leap y then 1 else 0)) by lia.
  assert (L69 : u = 69 -> leap y = false) by (intros E; replace y with 1969 by (unfold u in E; lia); reflexivity).
  assert (Gd : u = 69 -> md + tm_mday t <= 365) by (intros E; rewrite (L69 E) in Ed; lia).
  assert (Gd' : md + tm_mday t <= 366) by (destruct (leap y); lia). clear Le Ed L69.
  unfold cs_timegm. cbv zeta. rewrite Em, Ey. rewrite Z.rem_small, Z.quot_small by lia.
  assert (I : forall n, - 2147483648 <= n < 2147483648 -> int n = OK n).
  { intros n G. unfold int. change (2 ^ 31) with 2147483648. match goal with |- (if ?b then _ else _) = _ => replace b with true by lia end. reflexivity. }
  unfold iadd, isub, imul. rewrite (Z.add_0_r u). rewrite (I u) by lia. cbn [bind]. replace (m <? 0) with false by lia. cbn [bind]. rewrite Nm.
  set (yl := if 1 <? m then u + 1 else u). assert (Y : (if 1 <? m then int (u + 1) else OK u) = OK yl).
  { unfold yl. destruct (1 <? m); [apply I; lia|reflexivity]. }
  rewrite Y. cbn [bind]. assert (Hyl : u <= yl <= u + 1) by (unfold yl; destruct (1 <? m); lia). clear Y. clearbody yl u.
  assert (Q1 : -17 <= Z.quot (yl - 69) 4 <= 0 /\ 4 * Z.quot (yl - 69) 4 - 3 <= yl - 69 + 3 /\ yl - 69 <= 4 * Z.quot (yl - 69) 4 + 3).
  { pose proof (Z.quot_rem' (yl - 69) 4). pose proof (Z.rem_bound_abs (yl - 69) 4 ltac:(lia)). destruct (Z_lt_le_dec (yl - 69) 0).
    - pose proof (Z.rem_nonpos (yl - 69) 4 ltac:(lia) ltac:(lia)). lia.
    - assert (yl = 69 \/ yl = 70) by lia. destruct H1 as [-> | ->]; vm_compute; intuition discriminate. }
  assert (Q2 : Z.quot (yl - 1) 100 = 0) by (apply Z.quot_small; lia).
  assert (Q3 : Z.quot (yl + 299) 400 = 0) by (apply Z.quot_small; lia).
  repeat (match goal with |- bind (int ?n) _ = _ => rewrite (I n) by lia; cbn [bind]; rewrite ?Q2, ?Q3 end).
  match goal with |- OK (if ?x <? 0 then _ else _) = _ => assert (X : x < 0) by lia; apply Z.ltb_lt in X; rewrite X end. reflexivity.
Qed.
