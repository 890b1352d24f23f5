(** Rounding in the model is correct rounding. *)
From Verif Require Import Base BaseFacts Value_Model Value_Spec Value_Proofs Float_Proofs NumText_Spec NumRound_Spec.
Ltac Zify.zify_post_hook ::= idtac.

(** A shift record holds the integer part of N/D and where the rest lies. *)
Definition loc_of (N D : Z) : location :=
  if N mod D =? 0 then loc_Exact else loc_Inexact (Z.compare (2 * (N mod D)) D).
Definition tracks (r : shr_record) (N D : Z) : Prop :=
  shr_m r = N / D /\ loc_of_shr_record r = loc_of N D.

Lemma tracks_of_loc q l N D : q = N / D -> l = loc_of N D -> tracks (shr_record_of_loc q l) N D.
Proof. intros -> ->. split; [apply shr_record_m|]. destruct (loc_of N D) as [|[]]; reflexivity. Qed.

Lemma shr_1_parts m r s : 0 <= m -> shr_1 (Build_shr_record m r s) = Build_shr_record (m / 2) (Z.odd m) (r || s).
Proof.
  intros H. destruct m as [|[p|p|]|p]; try lia; cbn [shr_1 Z.odd]; try reflexivity.
  - f_equal. rewrite Pos2Z.inj_xI. rewrite Z.mul_comm, Z.div_add_l by lia. reflexivity.
  - f_equal. rewrite Pos2Z.inj_xO, Z.mul_comm, Z.div_mul by lia. reflexivity.
Qed.
Lemma tracks_shr_1 r N D : 0 < D -> 0 <= N -> tracks r N D -> tracks (shr_1 r) N (2 * D).
Proof.
  intros HD HN [Hm Hl]. destruct r as [m rr s]. cbn [shr_m] in Hm.
  assert (M0 : 0 <= m) by (rewrite Hm; apply Z.div_pos; lia).
  rewrite shr_1_parts by exact M0.
  pose proof (Z.div_mod N D ltac:(lia)) as E. pose proof (Z.mod_pos_bound N D HD) as B. rewrite <- Hm in E.
  pose proof (Z.div_mod m 2 ltac:(lia)) as E2. rewrite Zmod_odd in E2.
  assert (Q : N / (2 * D) = m / 2). { rewrite Z.mul_comm, <- Z.div_div, <- Hm by lia. reflexivity. }
  assert (Rm : N mod (2 * D) = (if Z.odd m then D else 0) + N mod D).
  { pose proof (Z.div_mod N (2 * D) ltac:(lia)) as E3. rewrite Q in E3. destruct (Z.odd m); nia. }
  split; [symmetry; exact Q|]. unfold loc_of in Hl |- *. rewrite Rm.
  set (t := N mod D) in *. clearbody t.
  destruct (t =? 0) eqn:T.
  - assert (rr = false /\ s = false) as [-> ->] by (destruct rr, s; cbn in Hl; try discriminate Hl; auto).
    destruct (Z.odd m); cbn [loc_of_shr_record orb].
    + replace (D + t =? 0) with false by lia. f_equal. symmetry. apply Z.compare_eq_iff. lia.
    + replace (0 + t =? 0) with true by lia. reflexivity.
  - assert (O : rr || s = true) by (destruct rr, s; cbn in Hl; try discriminate Hl; reflexivity). rewrite O.
    destruct (Z.odd m); cbn [loc_of_shr_record].
    + replace (D + t =? 0) with false by lia. f_equal. symmetry. apply Z.compare_gt_iff. lia.
    + replace (0 + t =? 0) with false by lia. f_equal. symmetry. apply Z.compare_lt_iff. lia.
Qed.
Lemma tracks_iter n : forall r N D, 0 < D -> 0 <= N -> tracks r N D -> tracks (iter_pos shr_1 n r) N (2 ^ Z.pos n * D).
Proof.
  induction n as [n IH|n IH|]; intros r N D HD HN T; cbn [iter_pos].
  - assert (P : 0 < 2 ^ Z.pos n) by (apply Z.pow_pos_nonneg; lia).
    replace (2 ^ Z.pos n~1 * D) with (2 ^ Z.pos n * (2 ^ Z.pos n * (2 * D))).
    2:{ change (Z.pos n~1) with (1 + 2 * Z.pos n). replace (1 + 2 * Z.pos n) with (1 + Z.pos n + Z.pos n) by lia. rewrite !Z.pow_add_r by lia. ring. }
    apply IH; [nia|exact HN|]. apply IH; [lia|exact HN|]. apply tracks_shr_1; assumption.
  - assert (P : 0 < 2 ^ Z.pos n) by (apply Z.pow_pos_nonneg; lia).
    replace (2 ^ Z.pos n~0 * D) with (2 ^ Z.pos n * (2 ^ Z.pos n * D)).
    2:{ change (Z.pos n~0) with (2 * Z.pos n). replace (2 * Z.pos n) with (Z.pos n + Z.pos n) by lia. rewrite !Z.pow_add_r by lia. ring. }
    apply IH; [nia|exact HN|]. apply IH; assumption.
  - change (2 ^ 1) with 2. apply tracks_shr_1; assumption.
Qed.
Lemma tracks_nearest r N D : 0 < D -> 0 <= N -> tracks r N D ->
  nearest (round_nearest_even (shr_m r) (loc_of_shr_record r)) N D.
Proof.
  intros HD HN [Hm Hl]. rewrite Hl, Hm. pose proof (Z.div_mod N D ltac:(lia)) as E. pose proof (Z.mod_pos_bound N D HD) as B.
  unfold loc_of, nearest. set (q := N / D) in *. set (t := N mod D) in *. clearbody q t.
  assert (Q0 : q * D - N = - t) by lia. assert (Q1 : (q + 1) * D - N = D - t) by lia.
  destruct (t =? 0) eqn:T; cbn [round_nearest_even].
  - rewrite Q0. lia.
  - destruct (Z.compare_spec (2 * t) D); cbn [round_nearest_even].
    + destruct (Z.even q) eqn:V; [rewrite Q0; split; [lia|auto]|]. rewrite Q1. split; [lia|]. intros _. rewrite Z.even_add, V. reflexivity.
    + rewrite Q0. split; lia.
    + rewrite Q1. split; lia.
Qed.

(** Any double is a multiple of [2^k] units or below [2^(52+k)]. *)
Lemma value_granular q w k : is_u64 q -> dvalue q w -> 0 <= k -> (2 ^ k | w) \/ Z.abs w < 2 ^ (52 + k).
Proof.
  intros U V Hk. unfold dvalue in V. pose proof (dec_valid q U) as B. destruct (d_dec q) as [s|s| |s m e]; try contradiction.
  - left. subst w. apply Z.divide_0_r.
  - cbn [valid_binary] in B. destruct (bounded_facts m e B) as (B1 & B2 & B3 & B4).
    destruct (Z.le_gt_cases k (e + 1074)) as [L|L].
    + left. assert (D : (2 ^ k | Z.pos m * 2 ^ (e + 1074))).
      { exists (Z.pos m * 2 ^ (e + 1074 - k)). rewrite <- Z.mul_assoc, <- Z.pow_add_r by lia. do 2 f_equal. lia. }
      subst w. destruct s; [apply Z.divide_opp_r|]; exact D.
    + right. assert (M : Z.pos m < 2 ^ 53).
      { pose proof (Zdigits2_bounds (Z.pos m) ltac:(lia)) as (_ & _ & X). cbn [Zdigits2] in X. eapply Z.lt_le_trans; [exact X|]. apply Z.pow_le_mono_r; lia. }
      assert (P : 0 < 2 ^ (e + 1074)) by (apply Z.pow_pos_nonneg; lia).
      assert (Z.abs w = Z.pos m * 2 ^ (e + 1074)) as -> by (subst w; destruct s; lia).
      apply Z.lt_le_trans with (2 ^ 53 * 2 ^ (e + 1074)); [nia|]. rewrite <- Z.pow_add_r by lia. apply Z.pow_le_mono_r; lia.
Qed.

(** What rounding computes: an integer nearest to N/D in the unit of the result. *)
Lemma round_aux_shape N D q l e : 0 < D -> 0 < N -> q = N / D -> l = loc_of N D -> e <= fexp64 (Zdigits2 q + e) ->
  exists M e1, e <= e1 /\ -1074 <= e1 /\ nearest M N (2 ^ (e1 - e) * D) /\
    (-1074 < e1 -> 2 ^ 52 <= N / (2 ^ (e1 - e) * D)) /\ N / (2 ^ (e1 - e) * D) < 2 ^ 53 /\ 0 <= M /\
    let f := binary_round_aux 53 1024 false q e l in
    (M = 0 /\ f = S754_zero false \/ 0 < M < 2 ^ 53 /\ e1 <= 971 /\ f = S754_finite false (Z.to_pos M) e1 \/
     M = 2 ^ 53 /\ e1 <= 970 /\ f = S754_finite false (2 ^ 52)%positive (e1 + 1) \/
     0 < M /\ (971 < e1 \/ M = 2 ^ 53 /\ e1 = 971) /\ f = S754_infinity false).
Proof.
  intros HD HN Hq Hl He. set (e1 := fexp64 (Zdigits2 q + e)) in *.
  assert (Q0 : 0 <= q) by (rewrite Hq; apply Z.div_pos; lia).
  unfold binary_round_aux. destruct (shr_fexp 53 1024 q e l) as [r e'] eqn:E1.
  assert (T : tracks r N (2 ^ (e1 - e) * D) /\ e' = e1).
  { unfold shr_fexp in E1. fold e1 in E1. unfold shr in E1. pose proof (tracks_of_loc q l N D Hq Hl) as T0.
    destruct (e1 - e) as [|n|n] eqn:En; [| |lia].
    - injection E1 as <- <-. split; [|lia]. rewrite Z.pow_0_r, Z.mul_1_l. exact T0.
    - injection E1 as <- <-. split; [|lia]. apply tracks_iter; lia || assumption. }
  destruct T as [T ->]. assert (P : 0 < 2 ^ (e1 - e)) by (apply Z.pow_pos_nonneg; lia).
  pose proof (tracks_nearest r N (2 ^ (e1 - e) * D) ltac:(nia) ltac:(lia) T) as Nr.
  set (M := round_nearest_even _ _) in *.
  assert (F : N / (2 ^ (e1 - e) * D) = q / 2 ^ (e1 - e)) by (rewrite Z.mul_comm, <- Z.div_div, <- Hq by lia; reflexivity).
  assert (M01 : M = q / 2 ^ (e1 - e) \/ M = q / 2 ^ (e1 - e) + 1).
  { rewrite <- F, <- (proj1 T). apply round_even_cases. }
  clearbody M. clear T.
  assert (HF : q / 2 ^ (e1 - e) < 2 ^ 53 /\ -1074 <= e1 /\ (-1074 < e1 -> 2 ^ 52 <= q / 2 ^ (e1 - e))).
  { assert (Ee : e1 = Z.max (Zdigits2 q + e - 53) (-1074)) by (unfold e1, fexp, emin; lia). clearbody e1. clear - Ee He P Q0.
    destruct (Z.eq_dec q 0) as [Hz|Hz].
    - subst q. cbn [Zdigits2] in Ee. rewrite Z.div_0_l by lia. repeat split; lia.
    - destruct (Zdigits2_bounds q ltac:(lia)) as [D1 D2]. split; [|split; [lia|]].
      + apply Z.div_lt_upper_bound; [lia|]. rewrite <- Z.pow_add_r by lia.
        apply Z.lt_le_trans with (2 ^ Zdigits2 q); [lia|]. apply Z.pow_le_mono_r; lia.
      + intros Hgt. apply Z.div_le_lower_bound; [lia|]. rewrite <- Z.pow_add_r by lia.
        replace (e1 - e + 52) with (Zdigits2 q - 1) by lia. lia. }
  destruct HF as (F1 & F2 & F3). assert (F0 : 0 <= q / 2 ^ (e1 - e)) by (apply Z.div_pos; lia).
  exists M, e1. rewrite F. split; [exact He|]. split; [exact F2|]. split; [exact Nr|]. split; [exact F3|]. split; [exact F1|].
  split; [lia|]. cbv zeta.
  destruct (shr_fexp 53 1024 M e1 loc_Exact) as [r2 e2] eqn:E2.
  pose proof (shr_fexp_spec M e1 loc_Exact ltac:(lia)) as [T1 T2]. rewrite E2 in T1, T2. cbn [fst snd] in T1, T2. rewrite T1.
  clear E2 T1. subst e2.
  destruct (Z.eq_dec M (2 ^ 53)) as [Em|Em].
  - assert (Dg : Zdigits2 M = 54) by (apply Zdigits2_unique; [lia|rewrite Em; cbn; lia]). rewrite Dg.
    assert (X : fexp64 (54 + e1) = e1 + 1) by (unfold fexp, emin; lia). rewrite X.
    replace (Z.max 0 (e1 + 1 - e1)) with 1 by lia. replace (Z.max e1 (e1 + 1)) with (e1 + 1) by lia. rewrite Em.
    change (2 ^ 53 / 2 ^ 1) with (Z.pos (2 ^ 52)). destruct (Zle_bool (e1 + 1) (1024 - 53)) eqn:L.
    + apply Zle_bool_imp_le in L. right. right. left. repeat split; lia.
    + right. right. right. split; [lia|]. split; [|reflexivity].
      assert (~ e1 + 1 <= 1024 - 53) by (intros K; apply Zle_imp_le_bool in K; congruence). lia.
  - assert (Dg : Zdigits2 M <= 53) by (apply Zdigits2_le; lia).
    assert (X : fexp64 (Zdigits2 M + e1) <= e1) by (unfold fexp, emin; lia).
    replace (Z.max 0 (fexp64 (Zdigits2 M + e1) - e1)) with 0 by lia. replace (Z.max e1 (fexp64 (Zdigits2 M + e1))) with e1 by lia.
    rewrite Z.pow_0_r, Z.div_1_r. destruct M as [|p|p] eqn:Mp; [left; auto| |lia].
    destruct (Zle_bool e1 (1024 - 53)) eqn:L.
    + apply Zle_bool_imp_le in L. right. left. repeat split; lia.
    + right. right. right. split; [lia|]. split; [|reflexivity].
      assert (~ e1 <= 1024 - 53) by (intros K; apply Zle_imp_le_bool in K; congruence). lia.
Qed.

Lemma enc_parity s m e : Z.even (d_enc (S754_finite s m e)) = Z.even (Z.pos m).
Proof.
  assert (H : Z.even (sbit s) = true) by (destruct s; reflexivity).
  cbn [d_enc]. destruct (Z.pos m <? 2 ^ 52); rewrite ?Z.even_add, ?Z.even_sub, ?Z.even_mul, H; change (Z.even (2 ^ 52)) with true;
    destruct (Z.even (Z.pos m)); rewrite ?orb_true_r; reflexivity.
Qed.
Lemma enc_low f : valid_binary 53 1024 f = true -> match f with S754_zero s | S754_infinity s | S754_finite s _ _ => s = false | S754_nan => False end ->
  d_enc f < 2 ^ 63.
Proof.
  intros V S. destruct f as [s|s| |s m e]; [subst s; reflexivity|subst s; reflexivity|contradiction|subst s].
  cbn [valid_binary] in V. destruct (bounded_facts m e V) as (B1 & B2 & B3 & _).
  pose proof (Zdigits2_bounds (Z.pos m) ltac:(lia)) as (_ & _ & X). cbn [Zdigits2] in X.
  assert (Z.pos m < 2 ^ 53) by (eapply Z.lt_le_trans; [exact X|apply Z.pow_le_mono_r; lia]).
  cbn [d_enc sbit]. destruct (Z.pos m <? 2 ^ 52); lia.
Qed.

(** Rounding N/D * 2^e, which is A/B units. *)
Lemma round_aux_nearest A B N D q l e : 0 < A -> 0 < B -> 0 < D -> 0 < N -> q = N / D -> l = loc_of N D -> e <= fexp64 (Zdigits2 q + e) ->
  A * D * 2 ^ Z.max 0 (- (e + 1074)) = N * B * 2 ^ Z.max 0 (e + 1074) ->
  nearest_double A B (d_enc (binary_round_aux 53 1024 false q e l)).
Proof.
  intros HA HB HD HN Hq Hl He Hx.
  assert (V : valid_binary 53 1024 (binary_round_aux 53 1024 false q e l) = true).
  { apply round_aux_valid; [rewrite Hq; apply Z.div_pos; lia|exact He]. }
  destruct (round_aux_shape N D q l e HD HN Hq Hl He) as (M & e1 & L1 & L2 & [Nr1 Nr2] & Lo & Hi & M0 & Sh). cbv zeta in Sh.
  set (f := binary_round_aux 53 1024 false q e l) in *. clearbody f.
  set (U := 2 ^ (e1 + 1074)). set (D' := 2 ^ (e1 - e) * D) in *.
  assert (PU : 0 < U) by (apply Z.pow_pos_nonneg; lia).
  assert (PD : 0 < D') by (unfold D'; assert (0 < 2 ^ (e1 - e)) by (apply Z.pow_pos_nonneg; lia); nia).
  assert (X : A * D' = N * B * U).
  { assert (Pa : 0 < 2 ^ Z.max 0 (- (e + 1074))) by (apply Z.pow_pos_nonneg; lia).
    apply (Z.mul_reg_r _ _ (2 ^ Z.max 0 (- (e + 1074)))); [lia|]. unfold D', U.
    replace (N * B * 2 ^ (e1 + 1074) * 2 ^ Z.max 0 (- (e + 1074))) with (N * B * (2 ^ (e1 + 1074) * 2 ^ Z.max 0 (- (e + 1074)))) by ring.
    rewrite <- Z.pow_add_r by lia. replace (e1 + 1074 + Z.max 0 (- (e + 1074))) with (Z.max 0 (e + 1074) + (e1 - e)) by lia.
    rewrite Z.pow_add_r by lia. transitivity (A * D * 2 ^ Z.max 0 (- (e + 1074)) * 2 ^ (e1 - e)); [ring|]. rewrite Hx. ring. }
  assert (Hlo : -1074 < e1 -> 2 ^ 52 * U * B <= A).
  { intros G. specialize (Lo G). pose proof (Z.mul_div_le N D' PD). assert (2 ^ 52 * D' <= N) by nia.
    apply (Zmult_le_reg_r _ _ D'); [lia|]. rewrite X. nia. }
  assert (Hhi : A < 2 ^ 53 * U * B).
  { pose proof (Z.mod_pos_bound N D' PD). pose proof (Z.div_mod N D' ltac:(lia)). assert (N < 2 ^ 53 * D') by nia.
    apply (Zmult_lt_reg_r _ _ D'); [lia|]. rewrite X. nia. }
  assert (Near : 2 * Z.abs (M * U * B - A) <= U * B /\ (2 * Z.abs (M * U * B - A) = U * B -> Z.even M = true)).
  { assert (K : Z.abs (M * U * B - A) * D' = Z.abs (M * D' - N) * (B * U)).
    { rewrite <- (Z.abs_eq D') at 1 by lia. rewrite <- Z.abs_mul. rewrite <- (Z.abs_eq (B * U)) by nia. rewrite <- Z.abs_mul. f_equal. nia. }
    assert (PB : 0 < B * U) by nia. set (a := Z.abs (M * U * B - A)) in *. set (b := Z.abs (M * D' - N)) in *. clearbody a b.
    split.
    - apply (Zmult_le_reg_r _ _ D'); [lia|]. nia.
    - intros Q. apply Nr2. apply (Z.mul_reg_r _ _ (B * U)); [lia|]. nia. }
  clear Nr1 Nr2 Hx X Lo Hi. clearbody D'.
  destruct Near as [N1 N2].
  assert (Pl : match f with S754_zero s | S754_infinity s | S754_finite s _ _ => s = false | S754_nan => False end).
  { destruct Sh as [[_ ->]|[(_ & _ & ->)|[(_ & _ & ->)|(_ & _ & ->)]]]; reflexivity. }
  unfold nearest_double. split; [apply enc_u64; exact V|]. split; [intros _; apply enc_low; assumption|]. split; [lia|].
  rewrite (Z.abs_eq A) by lia. rewrite dec_enc by exact V. replace (A <? 0) with false by lia.
  assert (UX : forall d, e1 = 970 + d -> 0 <= d -> U = 2 ^ d * 2 ^ (970 + 1074)).
  { intros d -> Hd. unfold U. rewrite <- Z.pow_add_r by lia. f_equal. lia. }
  assert (Fin : f <> S754_infinity false -> A < too_large * B /\ dvalue (d_enc f) (M * U) /\ (Z.even M = true -> Z.even (d_enc f) = true)).
  { intros NI.
    assert (C : M = 0 /\ f = S754_zero false \/ 0 < M /\ e1 <= 971 /\ (e1 = 971 -> M < 2 ^ 53) /\ dvalue (d_enc f) (M * U) /\ (Z.even M = true -> Z.even (d_enc f) = true)).
    { destruct Sh as [[? ->]|[(K1 & K2 & ->)|[(K1 & K2 & ->)|(_ & _ & ->)]]]; [left; auto| | |congruence]; right.
      - split; [lia|]. split; [lia|]. split; [lia|]. split.
        + unfold dvalue. rewrite dec_enc by exact V. rewrite Z2Pos.id by lia. reflexivity.
        + intros Ev. rewrite enc_parity, Z2Pos.id by lia. exact Ev.
      - split; [lia|]. split; [lia|]. split; [lia|]. split.
        + unfold dvalue. rewrite dec_enc by exact V. rewrite K1. unfold U. change (Z.pos (2 ^ 52)) with (2 ^ 52).
          rewrite <- !Z.pow_add_r by lia. f_equal. lia.
        + intros _. rewrite enc_parity. reflexivity. }
    assert (TL : e1 <= 970 -> A < too_large * B).
    { intros G. unfold too_large. assert (U <= 2 ^ (970 + 1074)) by (apply Z.pow_le_mono_r; lia). set (W := 2 ^ (970 + 1074)) in *. clearbody W.
      apply Z.lt_le_trans with (2 ^ 53 * U * B); [exact Hhi|]. apply Z.mul_le_mono_nonneg_r; [lia|]. 
      apply Z.le_trans with (2 ^ 53 * W); [apply Z.mul_le_mono_nonneg_l; lia|]. apply Z.mul_le_mono_nonneg_r; lia. }
    destruct C as [[-> ->]|(K0 & K1 & K2 & K3 & K4)].
    - split; [|split; [unfold dvalue; rewrite dec_enc by reflexivity; lia|intros _; reflexivity]].
      destruct (Z.le_gt_cases e1 970) as [G|G]; [exact (TL G)|]. specialize (Hlo ltac:(lia)). exfalso.
      assert (0 < U * B) by nia. rewrite Z.mul_0_l in N1. lia.
    - split; [|split; [exact K3|exact K4]]. destruct (Z.le_gt_cases e1 970) as [G|G]; [exact (TL G)|].
      assert (e1 = 971) by lia. specialize (K2 H). pose proof (UX 1 ltac:(lia) ltac:(lia)) as UU. unfold too_large. set (W := 2 ^ (970 + 1074)) in *. clearbody W U.
      change (2 ^ 1) with 2 in UU. subst U.
      destruct (Z.le_gt_cases ((2 ^ 54 - 1) * W * B) A) as [Bad|Good]; [|exact Good]. exfalso.
      assert (PW : 0 < W * B) by nia. replace ((2 ^ 54 - 1) * W * B) with ((2 ^ 54 - 1) * (W * B)) in Bad by ring.
      replace (M * (2 * W) * B) with (2 * M * (W * B)) in * by ring. replace (2 * W * B) with (2 * (W * B)) in * by ring. set (Y := W * B) in *. clearbody Y.
      assert (M <= 2 ^ 53 - 1) by lia. assert (2 * M * Y <= (2 ^ 54 - 2) * Y) by (apply Z.mul_le_mono_nonneg_r; lia).
      assert (M = 2 ^ 53 - 1) by nia. subst M. specialize (N2 ltac:(lia)). discriminate N2. }
  destruct Sh as [S1|[S1|[S1|(S1 & S2 & ->)]]].
  4:{ (* overflow *)
    replace (too_large * B <=? A) with true; [reflexivity|]. symmetry. apply Z.leb_le. unfold too_large. destruct S2 as [G|[G1 G2]].
    - specialize (Hlo ltac:(lia)). apply Z.le_trans with (2 ^ 52 * U * B); [|exact Hlo]. apply Z.mul_le_mono_nonneg_r; [lia|].
      assert (2 ^ (2 + (970 + 1074)) <= U) by (apply Z.pow_le_mono_r; lia). rewrite Z.pow_add_r in H by lia. set (W := 2 ^ (970 + 1074)) in *.
      assert (0 < W) by (apply Z.pow_pos_nonneg; lia). clearbody W. lia.
    - pose proof (UX 1 ltac:(lia) ltac:(lia)) as UU. set (W := 2 ^ (970 + 1074)) in *. clearbody W U. change (2 ^ 1) with 2 in UU. subst U M.
      replace ((2 ^ 54 - 1) * W * B) with ((2 ^ 54 - 1) * (W * B)) by ring.
      replace (2 ^ 53 * (2 * W) * B) with (2 ^ 54 * (W * B)) in * by ring. replace (2 * W * B) with (2 * (W * B)) in * by ring. lia. }
  all: assert (NI : f <> S754_infinity false) by (intros Q; rewrite Q in S1; decompose [and] S1; discriminate).
  all: destruct (Fin NI) as (TL & Va & Ev); replace (too_large * B <=? A) with false by lia.
  all: exists (M * U); split; [exact Va|]; intros q' w Uq Vw.
  all: assert (Mult : forall w', Z.abs (M * U * B - A) <= Z.abs (w' * U * B - A) /\ (Z.abs (M * U * B - A) = Z.abs (w' * U * B - A) -> w' <> M -> Z.even M = true)) by
    (intros w'; destruct (Z.eq_dec w' M) as [->|Ne]; [split; [lia|congruence]|];
     assert (U * B <= Z.abs (w' * U * B - M * U * B)) by
       (replace (w' * U * B - M * U * B) with ((w' - M) * (U * B)) by ring; rewrite Z.abs_mul, (Z.abs_eq (U * B)) by nia; assert (0 < U * B) by nia; nia);
     split; [lia|intros Q _; apply N2; lia]).
  all: destruct (value_granular q' w (e1 + 1074) Uq Vw ltac:(lia)) as [[w' ->]|Small]; fold U.
  1,3,5: destruct (Mult w') as [Q1 Q2]; split; [exact Q1|]; intros Q Ne; apply Ev; apply Q2; [exact Q|intros ->; apply Ne; reflexivity].
  all: destruct (Z.eq_dec e1 (-1074)) as [G|G].
  1,3,5: assert (U1 : U = 1) by (unfold U; rewrite G; reflexivity); destruct (Mult w) as [Q1 Q2];
    rewrite U1, ?Z.mul_1_r in *; split; [exact Q1|intros Q Ne; apply Ev; apply Q2; [exact Q|exact Ne]].
  all: specialize (Hlo ltac:(lia)); rewrite Z.pow_add_r in Small by lia; fold U in Small; destruct (Mult (2 ^ 52)) as [Q1 _];
    assert (w * B < 2 ^ 52 * U * B) by (apply Z.mul_lt_mono_pos_r; lia); split; [lia|intros Q _; exfalso; lia].
Qed.
