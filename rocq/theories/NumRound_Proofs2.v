(** Literals and the arithmetic of the model are correctly rounded. *)
From Verif Require Import Base BaseFacts Value_Model Value_Spec Value_Proofs Float_Proofs Num_Model Ops_Model NumText_Spec NumRound_Spec NumRound_Proofs.
Ltac Zify.zify_post_hook ::= idtac.

Lemma ratio_nearest num den : 0 < num -> 0 < den -> nearest_double (num * 2 ^ 1074) den (round_ratio num den).
Proof.
  intros Hn Hd. unfold round_ratio. replace (num =? 0) with false by lia. set (k := Z.max 0 (64 + Z.log2 den - Z.log2 num)). cbv zeta.
  assert (P : 0 < 2 ^ k) by (apply Z.pow_pos_nonneg; lia).
  assert (Q64 : 2 ^ 63 <= num * 2 ^ k / den).
  { apply Z.div_le_lower_bound; [lia|].
    pose proof (Z.log2_spec num ltac:(lia)) as [L1 _]. pose proof (Z.log2_spec den ltac:(lia)) as [_ L2].
    pose proof (Z.log2_nonneg num). pose proof (Z.log2_nonneg den).
    assert (HP : 2 ^ (63 + Z.succ (Z.log2 den)) <= 2 ^ (Z.log2 num + k)) by (apply Z.pow_le_mono_r; lia).
    rewrite !Z.pow_add_r in HP by lia.
    assert (2 ^ Z.log2 num * 2 ^ k <= num * 2 ^ k) by (apply Z.mul_le_mono_nonneg_r; lia).
    assert (den * 2 ^ 63 <= 2 ^ 63 * 2 ^ Z.succ (Z.log2 den)) by (rewrite Z.mul_comm; apply Z.mul_le_mono_nonneg_l; lia). lia. }
  apply (round_aux_nearest _ den (num * 2 ^ k) den); try assumption.
  - apply Z.mul_pos_pos; [exact Hn|apply Z.pow_pos_nonneg; lia].
  - nia.
  - reflexivity.
  - reflexivity.
  - pose proof (Zdigits2_ge (num * 2 ^ k / den) 63 ltac:(lia) Q64). unfold fexp, emin. lia.
  - replace (- (- k + 1074)) with (k - 1074) by lia.
    transitivity (num * den * (2 ^ 1074 * 2 ^ Z.max 0 (k - 1074))); [ring|].
    transitivity (num * den * (2 ^ k * 2 ^ Z.max 0 (- k + 1074))); [|ring]. f_equal. rewrite <- !Z.pow_add_r by lia. f_equal. lia.
Qed.

Lemma nearest_zero B p : 0 < B -> d_dec p = S754_zero false \/ d_dec p = S754_zero true -> is_u64 p -> nearest_double 0 B p.
Proof.
  intros HB Hp U. unfold nearest_double. split; [exact U|]. split; [lia|]. split; [lia|].
  assert (0 < too_large) by (unfold too_large; apply Z.mul_pos_pos; [lia|apply Z.pow_pos_nonneg; lia]).
  replace (too_large * B <=? Z.abs 0) with false by (cbn [Z.abs]; nia). exists 0. split.
  - unfold dvalue. destruct Hp as [-> | ->]; reflexivity.
  - intros q w _ _. split; [lia|]. intros Q N. nia.
Qed.

(** ** Signs *)
Lemma dec_flip p : 0 <= p < 2 ^ 63 -> d_dec (p + 2 ^ 63) = SFopp (d_dec p).
Proof.
  intros H. assert (E1 : d_exp (p + 2 ^ 63) = d_exp p).
  { unfold d_exp. replace (p + 2 ^ 63) with (p + 2 ^ 11 * 2 ^ 52) by lia. rewrite Z.div_add by lia.
    replace (p / 2 ^ 52 + 2 ^ 11) with (p / 2 ^ 52 + 1 * 2 ^ 11) by lia. apply Z.mod_add. lia. }
  assert (E2 : d_man (p + 2 ^ 63) = d_man p).
  { unfold d_man. replace (p + 2 ^ 63) with (p + 2 ^ 11 * 2 ^ 52) by lia. apply Z.mod_add. lia. }
  assert (E3 : d_sign (p + 2 ^ 63) = negb (d_sign p)) by (unfold d_sign; lia).
  unfold d_dec. rewrite E1, E2, E3. cbv zeta. destruct (d_exp p =? 2047); [destruct (d_man p =? 0); reflexivity|].
  destruct (d_exp p =? 0); [destruct (d_man p); reflexivity|]. destruct (d_man p + 2 ^ 52); reflexivity.
Qed.
Lemma value_opp p q v : d_dec q = SFopp (d_dec p) -> dvalue p v -> dvalue q (- v).
Proof.
  unfold dvalue. intros ->. destruct (d_dec p) as [s|s| |s m e]; cbn [SFopp]; try contradiction; [lia|]. destruct s; cbn [negb]; lia.
Qed.
Lemma value_flip w q : is_u64 q -> dvalue q w -> exists q', is_u64 q' /\ dvalue q' (- w).
Proof.
  intros U V. unfold is_u64 in *. destruct (Z.le_gt_cases (2 ^ 63) q).
  - exists (q - 2 ^ 63). split; [lia|]. apply (value_opp q); [|exact V].
    pose proof (dec_flip (q - 2 ^ 63) ltac:(lia)) as F. replace (q - 2 ^ 63 + 2 ^ 63) with q in F by lia. rewrite F.
    destruct (d_dec (q - 2 ^ 63)); cbn [SFopp]; rewrite ?negb_involutive; reflexivity.
  - exists (q + 2 ^ 63). split; [lia|]. apply (value_opp q); [|exact V]. apply dec_flip. lia.
Qed.
Lemma nearest_opp A B p : 0 < A -> nearest_double A B p -> nearest_double (- A) B (p + 2 ^ 63).
Proof.
  intros HA (U & L & _ & H). specialize (L HA). unfold is_u64 in U. pose proof (dec_flip p ltac:(lia)) as F.
  unfold nearest_double. split; [unfold is_u64; lia|]. split; [lia|]. split; [lia|]. rewrite Z.abs_opp.
  destruct (too_large * B <=? Z.abs A).
  - rewrite F, H. replace (A <? 0) with false by lia. replace (- A <? 0) with true by lia. reflexivity.
  - destruct H as (v & V & H). exists (- v). split; [apply (value_opp p); assumption|].
    intros q w Uq Vw. destruct (value_flip w q Uq Vw) as (q' & Uq' & Vq'). destruct (H q' (- w) Uq' Vq') as [H1 H2].
    replace (- v * B - - A) with (- (v * B - A)) by lia. replace (w * B - - A) with (- (- w * B - A)) by lia. rewrite !Z.abs_opp.
    split; [exact H1|]. intros Q N. rewrite Z.even_add, (H2 Q ltac:(lia)). reflexivity.
Qed.
Lemma enc_true f : match f with S754_zero s | S754_infinity s | S754_finite s _ _ => s = false | S754_nan => False end ->
  d_enc (SFopp f) = d_enc f + 2 ^ 63.
Proof.
  destruct f as [s|s| |s m e]; try contradiction; intros ->; cbn [SFopp negb d_enc sbit]; try lia.
  destruct (Z.pos m <? 2 ^ 52); lia.
Qed.
Lemma round_aux_true q e l : binary_round_aux 53 1024 true q e l = SFopp (binary_round_aux 53 1024 false q e l).
Proof.
  unfold binary_round_aux. destruct (shr_fexp 53 1024 q e l) as [r1 e1]. destruct (shr_fexp 53 1024 _ e1 _) as [r2 e2].
  destruct (shr_m r2); try reflexivity. destruct (Zle_bool _ _); reflexivity.
Qed.

(** Rounding with a sign. *)
Definition sgn (s : bool) (n : Z) : Z := if s then - n else n.
Lemma round_aux_signed s A B N D q l e : 0 < A -> 0 < B -> 0 < D -> 0 < N -> q = N / D -> l = loc_of N D -> e <= fexp64 (Zdigits2 q + e) ->
  A * D * 2 ^ Z.max 0 (- (e + 1074)) = N * B * 2 ^ Z.max 0 (e + 1074) ->
  nearest_double (sgn s A) B (d_enc (binary_round_aux 53 1024 s q e l)).
Proof.
  intros HA HB HD HN Hq Hl He Hx. pose proof (round_aux_nearest A B N D q l e HA HB HD HN Hq Hl He Hx) as H.
  destruct s; cbn [sgn]; [|exact H]. rewrite round_aux_true, enc_true; [apply nearest_opp; assumption|].
  destruct (round_aux_shape N D q l e HD HN Hq Hl He) as (M & e1 & _ & _ & _ & _ & _ & _ & Sh). cbv zeta in Sh.
  destruct Sh as [[_ ->]|[(_ & _ & ->)|[(_ & _ & ->)|(_ & _ & ->)]]]; reflexivity.
Qed.
Lemma loc_whole N : loc_of N 1 = loc_Exact.
Proof. unfold loc_of. rewrite Z.mod_1_r. reflexivity. Qed.

Lemma round_nearest_int s A B m e : 0 < A -> 0 < B ->
  A * 2 ^ Z.max 0 (- (e + 1074)) = Z.pos m * B * 2 ^ Z.max 0 (e + 1074) ->
  nearest_double (sgn s A) B (d_enc (binary_round 53 1024 s m e)).
Proof.
  intros HA HB Hx. unfold binary_round, shl_align.
  destruct (fexp64 (Z.pos (digits2_pos m) + e) - e) as [|d|d] eqn:E.
  1,2: apply (round_aux_signed s A B (Z.pos m) 1); try lia; [rewrite Z.div_1_r; reflexivity|rewrite loc_whole; reflexivity|cbn [Zdigits2]; lia].
  apply (round_aux_signed s A B (Z.pos (shift_pos d m)) 1); try lia.
  - rewrite Z.div_1_r; reflexivity.
  - rewrite loc_whole. reflexivity.
  - cbn [Zdigits2]. rewrite digits2_shift.
    replace (Z.pos (digits2_pos m) + Z.pos d + fexp64 (Z.pos (digits2_pos m) + e)) with (Z.pos (digits2_pos m) + e) by lia. lia.
  - set (e' := fexp64 _) in *. assert (Ee : e' = e - Z.pos d) by lia. clearbody e'. subst e'.
    rewrite shift_pos_correct, Zpower_pos_nat, Zpower_nat_Z, positive_nat_Z, Z.mul_1_r.
    assert (P : 0 < 2 ^ Z.max 0 (- (e + 1074))) by (apply Z.pow_pos_nonneg; lia).
    apply (Z.mul_reg_r _ _ (2 ^ Z.max 0 (- (e + 1074)))); [lia|].
    transitivity (A * 2 ^ Z.max 0 (- (e + 1074)) * 2 ^ Z.max 0 (- (e - Z.pos d + 1074))); [ring|]. rewrite Hx.
    transitivity (Z.pos m * B * (2 ^ Z.max 0 (e + 1074) * 2 ^ Z.max 0 (- (e - Z.pos d + 1074)))); [ring|].
    transitivity (Z.pos m * B * (2 ^ Z.pos d * 2 ^ Z.max 0 (e - Z.pos d + 1074) * 2 ^ Z.max 0 (- (e + 1074)))); [|ring].
    f_equal. rewrite <- !Z.pow_add_r by lia. f_equal. lia.
Qed.
(** The sum [n * 2^e] of units. *)
Lemma normalize_nearest n e A : -1074 <= e -> A = n * 2 ^ (e + 1074) -> nearest_double A 1 (d_enc (binary_normalize 53 1024 n e false)).
Proof.
  intros He ->. assert (P : 0 < 2 ^ (e + 1074)) by (apply Z.pow_pos_nonneg; lia). destruct n as [|p|p]; cbn [binary_normalize].
  - rewrite Z.mul_0_l. apply nearest_zero; [lia|left; reflexivity|cbn; unfold is_u64; lia].
  - apply (round_nearest_int false (Z.pos p * 2 ^ (e + 1074)) 1 p e); [nia|lia|].
    replace (Z.max 0 (- (e + 1074))) with 0 by lia. replace (Z.max 0 (e + 1074)) with (e + 1074) by lia. rewrite Z.pow_0_r. ring.
  - replace (Z.neg p * 2 ^ (e + 1074)) with (sgn true (Z.pos p * 2 ^ (e + 1074))) by (cbn [sgn]; lia).
    apply (round_nearest_int true (Z.pos p * 2 ^ (e + 1074)) 1 p e); [nia|lia|].
    replace (Z.max 0 (- (e + 1074))) with 0 by lia. replace (Z.max 0 (e + 1074)) with (e + 1074) by lia. rewrite Z.pow_0_r. ring.
Qed.

(** ** Operands *)
Lemma value_bound p v : is_u64 p -> dvalue p v -> Z.abs v < too_large.
Proof.
  intros U V. unfold dvalue in V. pose proof (dec_valid p U) as B. destruct (d_dec p) as [s|s| |s m e]; try contradiction.
  - subst v. unfold too_large. apply Z.mul_pos_pos; [lia|apply Z.pow_pos_nonneg; lia].
  - cbn [valid_binary] in B. destruct (bounded_facts m e B) as (B1 & B2 & B3 & _).
    pose proof (Zdigits2_bounds (Z.pos m) ltac:(lia)) as (_ & _ & X). cbn [Zdigits2] in X.
    assert (M : Z.pos m < 2 ^ 53) by (eapply Z.lt_le_trans; [exact X|apply Z.pow_le_mono_r; lia]).
    assert (P : 0 < 2 ^ (e + 1074)) by (apply Z.pow_pos_nonneg; lia).
    assert (E : 2 ^ (e + 1074) <= 2 ^ (1 + (970 + 1074))) by (apply Z.pow_le_mono_r; lia). rewrite (Z.pow_add_r 2 1 (970 + 1074)) in E by lia.
    assert (Z.abs v = Z.pos m * 2 ^ (e + 1074)) as -> by (subst v; destruct s; lia). unfold too_large.
    assert (PW : 0 < 2 ^ (970 + 1074)) by (apply Z.pow_pos_nonneg; lia).
    set (W := 2 ^ (970 + 1074)) in *. set (Y := 2 ^ (e + 1074)) in *. clearbody W Y.
    assert (Z.pos m * Y <= (2 ^ 53 - 1) * Y) by (apply Z.mul_le_mono_nonneg_r; lia).
    assert ((2 ^ 53 - 1) * Y <= (2 ^ 53 - 1) * (2 ^ 1 * W)) by (apply Z.mul_le_mono_nonneg_l; lia). lia.
Qed.
Lemma value_sign p v : is_u64 p -> dvalue p v -> (0 < v -> p < 2 ^ 63) /\ (v < 0 -> 2 ^ 63 <= p).
Proof.
  intros U V. unfold dvalue in V. destruct (d_dec p) as [s|s| |s m e] eqn:D; try contradiction; [lia|].
  assert (S : s = d_sign p).
  { revert D. unfold d_dec. cbv zeta. destruct (d_exp p =? 2047); [destruct (d_man p =? 0); discriminate|].
    destruct (d_exp p =? 0); [destruct (d_man p); congruence|destruct (d_man p + 2 ^ 52); congruence]. }
  assert (0 <= 2 ^ (e + 1074)) by (apply Z.pow_nonneg; lia). unfold d_sign in S. destruct s; split; intros; lia || nia.
Qed.
Lemma nearest_exact p v : is_u64 p -> dvalue p v -> nearest_double v 1 p.
Proof.
  intros U V. destruct (value_sign p v U V) as [S1 S2]. pose proof (value_bound p v U V). unfold nearest_double. split; [exact U|].
  split; [exact S1|]. split; [exact S2|]. replace (too_large * 1 <=? Z.abs v) with false by lia. exists v. split; [exact V|].
  intros q w _ _. rewrite !Z.mul_1_r, Z.sub_diag. cbn [Z.abs]. split; [lia|]. intros Q N. lia.
Qed.
Lemma value_enc f v : valid_binary 53 1024 f = true ->
  match f with S754_zero _ => v = 0 | S754_finite s m e => v = sgn s (Z.pos m * 2 ^ (e + 1074)) | _ => False end -> dvalue (d_enc f) v.
Proof. intros V H. unfold dvalue. rewrite dec_enc by exact V. destruct f; exact H. Qed.

Lemma align m e z : z <= e -> Z.pos (fst (shl_align m e z)) = Z.pos m * 2 ^ (e - z).
Proof.
  intros H. unfold shl_align. destruct (z - e) as [|d|d] eqn:E; [|lia|]; cbn [fst].
  - replace (e - z) with 0 by lia. rewrite Z.pow_0_r. lia.
  - rewrite shift_pos_correct, Zpower_pos_nat, Zpower_nat_Z, positive_nat_Z. replace (e - z) with (Z.pos d) by lia. ring.
Qed.
Lemma align_units s m e z : -1074 <= z <= e ->
  cond_Zopp s (Z.pos (fst (shl_align m e z))) * 2 ^ (z + 1074) = sgn s (Z.pos m * 2 ^ (e + 1074)).
Proof.
  intros H. rewrite align by lia. replace (e + 1074) with (e - z + (z + 1074)) by lia. rewrite (Z.pow_add_r 2 (e - z) (z + 1074)) by lia.
  destruct s; cbn [cond_Zopp sgn]; ring.
Qed.

Lemma add_nearest a b x y : is_u64 a -> is_u64 b -> dvalue a x -> dvalue b y -> nearest_double (x + y) 1 (d_add a b).
Proof.
  intros Ua Ub Va Vb. unfold dvalue in Va, Vb. unfold d_add. pose proof (dec_valid a Ua) as Wa. pose proof (dec_valid b Ub) as Wb.
  destruct (d_dec a) as [s1|s1| |s1 m1 e1] eqn:Da, (d_dec b) as [s2|s2| |s2 m2 e2] eqn:Db; try contradiction; cbn [SFadd].
  - subst. destruct (Bool.eqb s1 s2); apply nearest_zero; try lia.
    + rewrite dec_enc by reflexivity. destruct s1; auto.
    + apply enc_u64. reflexivity.
    + left. reflexivity.
    + apply enc_u64. reflexivity.
  - subst x. cbn [Z.add]. apply nearest_exact; [apply enc_u64; exact Wb|]. apply value_enc; assumption.
  - subst y. rewrite Z.add_0_r. apply nearest_exact; [apply enc_u64; exact Wa|]. apply value_enc; assumption.
  - cbn [valid_binary] in Wa, Wb. destruct (bounded_facts _ _ Wa) as (_ & A2 & _). destruct (bounded_facts _ _ Wb) as (_ & B2 & _).
    apply normalize_nearest; [lia|]. rewrite Z.mul_add_distr_r, !align_units by lia. subst. reflexivity.
Qed.
Lemma sub_nearest a b x y : is_u64 a -> is_u64 b -> dvalue a x -> dvalue b y -> nearest_double (x - y) 1 (d_sub a b).
Proof.
  intros Ua Ub Va Vb. unfold dvalue in Va, Vb. unfold d_sub. pose proof (dec_valid a Ua) as Wa. pose proof (dec_valid b Ub) as Wb.
  destruct (d_dec a) as [s1|s1| |s1 m1 e1] eqn:Da, (d_dec b) as [s2|s2| |s2 m2 e2] eqn:Db; try contradiction; cbn [SFsub].
  - subst. destruct (Bool.eqb s1 (negb s2)); apply nearest_zero; try lia.
    + rewrite dec_enc by reflexivity. destruct s1; auto.
    + apply enc_u64. reflexivity.
    + left. reflexivity.
    + apply enc_u64. reflexivity.
  - subst x. cbn [Z.sub Z.add]. apply nearest_exact; [apply (enc_u64 (S754_finite (negb s2) m2 e2)); exact Wb|].
    apply (value_enc (S754_finite (negb s2) m2 e2)); [exact Wb|]. subst y. destruct s2; cbn [negb sgn]; lia.
  - subst y. rewrite Z.sub_0_r. apply nearest_exact; [apply enc_u64; exact Wa|]. apply value_enc; assumption.
  - cbn [valid_binary] in Wa, Wb. destruct (bounded_facts _ _ Wa) as (_ & A2 & _). destruct (bounded_facts _ _ Wb) as (_ & B2 & _).
    apply normalize_nearest; [lia|]. rewrite Z.mul_sub_distr_r, !align_units by lia. subst. reflexivity.
Qed.
Lemma zero_result s : d_dec (d_enc (S754_zero s)) = S754_zero false \/ d_dec (d_enc (S754_zero s)) = S754_zero true.
Proof. rewrite dec_enc by reflexivity. destruct s; auto. Qed.
Lemma mul_nearest a b x y : is_u64 a -> is_u64 b -> dvalue a x -> dvalue b y -> nearest_double (x * y) (2 ^ 1074) (d_mul a b).
Proof.
  intros Ua Ub Va Vb. unfold dvalue in Va, Vb. unfold d_mul. pose proof (dec_valid a Ua) as Wa. pose proof (dec_valid b Ub) as Wb.
  assert (PB : 0 < 2 ^ 1074) by (apply Z.pow_pos_nonneg; lia).
  destruct (d_dec a) as [s1|s1| |s1 m1 e1] eqn:Da, (d_dec b) as [s2|s2| |s2 m2 e2] eqn:Db; try contradiction; cbn [SFmul].
  1,2,3: subst; rewrite ?Z.mul_0_l, ?Z.mul_0_r; apply nearest_zero; [exact PB|apply zero_result|apply enc_u64; reflexivity].
  cbn [valid_binary] in Wa, Wb. destruct (bounded_facts _ _ Wa) as (A1 & A2 & A3 & A4). destruct (bounded_facts _ _ Wb) as (B1 & B2 & B3 & B4).
  set (u := Z.pos m1 * 2 ^ (e1 + 1074)) in *. set (v := Z.pos m2 * 2 ^ (e2 + 1074)) in *.
  assert (x * y = sgn (xorb s1 s2) (u * v)) as -> by (subst x y; destruct s1, s2; cbn [xorb sgn]; ring).
  assert (Pu : 0 < u) by (apply Z.mul_pos_pos; [lia|apply Z.pow_pos_nonneg; lia]).
  assert (Pv : 0 < v) by (apply Z.mul_pos_pos; [lia|apply Z.pow_pos_nonneg; lia]).
  apply (round_aux_signed _ (u * v) (2 ^ 1074) (Z.pos (m1 * m2)) 1); try assumption; try lia.
  - rewrite Z.div_1_r. reflexivity.
  - rewrite loc_whole. reflexivity.
  - pose proof (digits_mul (Z.pos m1) (Z.pos m2) ltac:(lia) ltac:(lia)) as D1.
    pose proof (digits_mul (Z.pos m2) (Z.pos m1) ltac:(lia) ltac:(lia)) as D2.
    rewrite Z.mul_comm in D2. change (Z.pos m1 * Z.pos m2) with (Z.pos (m1 * m2)) in *.
    cbn [Zdigits2] in D1, D2 |- *. set (dd := Z.pos (digits2_pos (m1 * m2))) in *. clearbody dd. unfold fexp, emin. lia.
  - unfold u, v. rewrite Pos2Z.inj_mul.
    transitivity (Z.pos m1 * Z.pos m2 * (2 ^ (e1 + 1074) * 2 ^ (e2 + 1074) * 2 ^ Z.max 0 (- (e1 + e2 + 1074)))); [ring|].
    transitivity (Z.pos m1 * Z.pos m2 * (2 ^ 1074 * 2 ^ Z.max 0 (e1 + e2 + 1074))); [|ring].
    f_equal. rewrite <- !Z.pow_add_r by lia. f_equal. lia.
Qed.
Lemma new_loc D N : 1 < D \/ D = 1 -> new_location D (N mod D) = loc_of N D.
Proof.
  intros HD. assert (P : 0 < D) by lia. pose proof (Z.mod_pos_bound N D P) as B. unfold new_location, new_location_even, new_location_odd, loc_of.
  set (r := N mod D) in *. clearbody r.
  assert (Q : Zeq_bool r 0 = (r =? 0)).
  { destruct (r =? 0) eqn:E; [apply Zeq_is_eq_bool; lia|]. destruct (Zeq_bool r 0) eqn:F; [apply Zeq_bool_eq in F; lia|reflexivity]. }
  destruct (Z.even D) eqn:V; cbv beta; rewrite Q; [reflexivity|]. destruct (r =? 0); [reflexivity|]. f_equal.
  assert (Nq : 2 * r <> D). { intros K. rewrite <- K, Z.even_mul in V. discriminate V. }
  destruct (Z.compare_spec (2 * r + 1) D), (Z.compare_spec (2 * r) D); reflexivity || lia.
Qed.
Lemma div_nearest a b x y : is_u64 a -> is_u64 b -> dvalue a x -> dvalue b y -> y <> 0 ->
  nearest_double (x * Z.sgn y * 2 ^ 1074) (Z.abs y) (d_div a b).
Proof.
  intros Ua Ub Va Vb Hy. unfold dvalue in Va, Vb. unfold d_div. pose proof (dec_valid a Ua) as Wa. pose proof (dec_valid b Ub) as Wb.
  destruct (d_dec b) as [s2|s2| |s2 m2 e2] eqn:Db; try contradiction.
  destruct (d_dec a) as [s1|s1| |s1 m1 e1] eqn:Da; try contradiction; cbn [SFdiv].
  { subst x. rewrite !Z.mul_0_l. apply nearest_zero; [lia|apply zero_result|apply enc_u64; reflexivity]. }
  cbn [valid_binary] in Wa, Wb. destruct (bounded_facts _ _ Wa) as (A1 & A2 & A3 & A4). destruct (bounded_facts _ _ Wb) as (B1 & B2 & B3 & B4).
  set (u := Z.pos m1 * 2 ^ (e1 + 1074)) in *. set (v := Z.pos m2 * 2 ^ (e2 + 1074)) in *.
  assert (Pu : 0 < u) by (apply Z.mul_pos_pos; [lia|apply Z.pow_pos_nonneg; lia]).
  assert (Pv : 0 < v) by (apply Z.mul_pos_pos; [lia|apply Z.pow_pos_nonneg; lia]).
  assert (x * Z.sgn y * 2 ^ 1074 = sgn (xorb s1 s2) (u * 2 ^ 1074)) as ->.
  { assert (Z.sgn y = sgn s2 1) as -> by (subst y; destruct s2; cbn [sgn]; lia). subst x; destruct s1, s2; cbn [xorb sgn]; ring. }
  assert (Z.abs y = v) as -> by (subst y; destruct s2; lia).
  unfold SFdiv_core_binary.
  set (d1 := Zdigits2 (Z.pos m1)). set (d2 := Zdigits2 (Z.pos m2)).
  set (e' := Z.min (fexp64 (d1 + e1 - (d2 + e2))) (e1 - e2)).
  set (s := e1 - e2 - e'). assert (Hs : 0 <= s) by (unfold s, e'; lia).
  set (m' := match s with Z.pos _ => Z.shiftl (Z.pos m1) s | 0 => Z.pos m1 | Z.neg _ => 0 end).
  assert (Hm' : m' = Z.pos m1 * 2 ^ s).
  { unfold m'. destruct s as [|p|p]; [lia| |lia]. rewrite Z.shiftl_mul_pow2 by lia. reflexivity. }
  destruct (Z.div_eucl m' (Z.pos m2)) as [q r] eqn:Eq.
  assert (Hq : q = m' / Z.pos m2 /\ r = m' mod Z.pos m2) by (unfold Z.div, Z.modulo; rewrite Eq; auto). destruct Hq as [Hq Hr].
  assert (Ps : 0 < 2 ^ s) by (apply Z.pow_pos_nonneg; lia).
  assert (Pm : 0 < m') by (rewrite Hm'; nia).
  apply (round_aux_signed _ (u * 2 ^ 1074) v m' (Z.pos m2)); try assumption; try lia.
  - rewrite Hr. apply new_loc. lia.
  - pose proof (Z_div_mod m' (Z.pos m2) ltac:(lia)) as X. rewrite Eq in X. destruct X as [X1 X2].
    destruct (Zdigits2_bounds (Z.pos m1) ltac:(lia)) as [C1 C2]. destruct (Zdigits2_bounds (Z.pos m2) ltac:(lia)) as [F1 F2]. fold d1 in C1, C2. fold d2 in F1, F2.
    assert (Dg : d1 + s - d2 <= Zdigits2 q).
    { destruct (Z.le_gt_cases (d1 + s - d2) 0) as [L|G].
      - assert (0 <= q) by nia. destruct q as [|qq|qq]; cbn [Zdigits2]; lia.
      - replace (d1 + s - d2) with (d1 + s - d2 - 1 + 1) by lia. apply Zdigits2_ge; [lia|].
        assert (Hlow : 2 ^ (d1 + s - 1) <= m').
        { rewrite Hm'. replace (d1 + s - 1) with (d1 - 1 + s) by lia. rewrite Z.pow_add_r by lia. apply Z.mul_le_mono_nonneg_r; lia. }
        replace (d1 + s - 1) with (d2 + (d1 + s - d2 - 1)) in Hlow by lia. rewrite Z.pow_add_r in Hlow by lia.
        set (P := 2 ^ (d1 + s - d2 - 1)) in *. assert (0 < P) by (apply Z.pow_pos_nonneg; lia).
        destruct (Z.le_gt_cases P q); [assumption|]. exfalso. set (Q := 2 ^ d2) in *. clearbody P Q. nia. }
    assert (e' <= fexp64 (d1 + e1 - (d2 + e2))) by (unfold e'; lia). clear - H Dg. unfold fexp, emin in *. lia.
  - rewrite Hm'. unfold u, v.
    transitivity (Z.pos m1 * Z.pos m2 * (2 ^ (e1 + 1074) * 2 ^ 1074 * 2 ^ Z.max 0 (- (e' + 1074)))); [ring|].
    transitivity (Z.pos m1 * Z.pos m2 * (2 ^ s * 2 ^ (e2 + 1074) * 2 ^ Z.max 0 (e' + 1074))); [|ring].
    f_equal. rewrite <- !Z.pow_add_r by lia. f_equal. unfold s. clearbody e'. lia.
Qed.

(** ** Comparisons *)
Lemma magnitude_compare m1 e1 m2 e2 : bounded 53 1024 m1 e1 = true -> bounded 53 1024 m2 e2 = true ->
  match Z.compare e1 e2 with Lt => Lt | Gt => Gt | Eq => Pos.compare_cont Eq m1 m2 end =
  Z.compare (Z.pos m1 * 2 ^ (e1 + 1074)) (Z.pos m2 * 2 ^ (e2 + 1074)).
Proof.
  assert (K : forall m1 e1 m2 e2, bounded 53 1024 m1 e1 = true -> bounded 53 1024 m2 e2 = true -> e1 < e2 ->
    Z.pos m1 * 2 ^ (e1 + 1074) < Z.pos m2 * 2 ^ (e2 + 1074)).
  { clear. intros m1 e1 m2 e2 W1 W2 L. destruct (bounded_facts _ _ W1) as (A1 & A2 & A3 & A4). destruct (bounded_facts _ _ W2) as (B1 & B2 & B3 & B4).
    pose proof (Zdigits2_bounds (Z.pos m1) ltac:(lia)) as (_ & _ & X1). cbn [Zdigits2] in X1.
    pose proof (Zdigits2_bounds (Z.pos m2) ltac:(lia)) as (_ & X2 & _). cbn [Zdigits2] in X2. rewrite (B4 ltac:(lia)) in X2.
    assert (M1 : Z.pos m1 < 2 ^ 53) by (eapply Z.lt_le_trans; [exact X1|apply Z.pow_le_mono_r; lia]).
    assert (P1 : 0 < 2 ^ (e1 + 1074)) by (apply Z.pow_pos_nonneg; lia).
    assert (E : 2 ^ (1 + (e1 + 1074)) <= 2 ^ (e2 + 1074)) by (apply Z.pow_le_mono_r; lia). rewrite (Z.pow_add_r 2 1) in E by lia.
    set (Y1 := 2 ^ (e1 + 1074)) in *. set (Y2 := 2 ^ (e2 + 1074)) in *. clearbody Y1 Y2.
    apply Z.lt_le_trans with (2 ^ 53 * Y1); [apply Z.mul_lt_mono_pos_r; lia|].
    apply Z.le_trans with (2 ^ (53 - 1) * Y2); [|apply Z.mul_le_mono_nonneg_r; lia]. lia. }
  intros W1 W2. destruct (Z.compare_spec e1 e2) as [->|L|L].
  - destruct (bounded_facts _ _ W1) as (_ & A2 & _). assert (P : 0 < 2 ^ (e2 + 1074)) by (apply Z.pow_pos_nonneg; lia).
    rewrite <- Zmult_compare_compat_r by lia. reflexivity.
  - symmetry. apply Z.compare_lt_iff. apply K; assumption.
  - symmetry. apply Z.compare_gt_iff. apply K; assumption.
Qed.
Lemma dvalue_compare a b x y : is_u64 a -> is_u64 b -> dvalue a x -> dvalue b y -> SFcompare (d_dec a) (d_dec b) = Some (Z.compare x y).
Proof.
  intros Ua Ub Va Vb. unfold dvalue in Va, Vb. pose proof (dec_valid a Ua) as Wa. pose proof (dec_valid b Ub) as Wb.
  assert (P : forall m e, bounded 53 1024 m e = true -> 0 < Z.pos m * 2 ^ (e + 1074)).
  { intros m e W. destruct (bounded_facts _ _ W) as (_ & A2 & _). assert (0 < 2 ^ (e + 1074)) by (apply Z.pow_pos_nonneg; lia). nia. }
  destruct (d_dec a) as [s1|s1| |s1 m1 e1] eqn:Da, (d_dec b) as [s2|s2| |s2 m2 e2] eqn:Db; try contradiction; cbn [SFcompare].
  - subst. reflexivity.
  - cbn [valid_binary] in Wb. specialize (P _ _ Wb). subst. f_equal. symmetry. destruct s2; [apply Z.compare_gt_iff|apply Z.compare_lt_iff]; lia.
  - cbn [valid_binary] in Wa. specialize (P _ _ Wa). subst. f_equal. symmetry. destruct s1; [apply Z.compare_lt_iff|apply Z.compare_gt_iff]; lia.
  - cbn [valid_binary] in Wa, Wb. pose proof (P _ _ Wa) as P1. pose proof (P _ _ Wb) as P2. subst. f_equal.
    destruct s1, s2.
    + rewrite Z.compare_opp, (Z.compare_antisym (Z.pos m1 * _)), <- magnitude_compare by assumption. destruct (Z.compare e1 e2); reflexivity.
    + symmetry. apply Z.compare_lt_iff. lia.
    + symmetry. apply Z.compare_gt_iff. lia.
    + apply magnitude_compare; assumption.
Qed.
