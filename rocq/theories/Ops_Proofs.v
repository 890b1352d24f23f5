(** Proofs about the operators: exact integer arithmetic. *)
From Verif Require Import Base BaseFacts Value_Model Value_Spec Value_Proofs Float_Proofs TokNum_Model
  Str_Model Ops_Model Ops_Spec.
Ltac Zify.zify_post_hook ::= Z.div_mod_to_equations.

Definition cm (p : positive) := fst (canon_int p).
Definition ce (p : positive) := snd (canon_int p).
Lemma canon_facts p : Z.pos p < 2 ^ 53 ->
  Z.pos (digits2_pos (cm p)) = 53 /\ -52 <= ce p <= 0 /\ Z.pos (cm p) = Z.pos p * 2 ^ (- ce p) /\
  2 ^ 52 <= Z.pos (cm p) < 2 ^ 53.
Proof.
  intros H. destruct (round_small_int false p H) as (_ & Hd & He & Hm).
  split; [exact Hd|]. split; [exact He|]. split; [exact Hm|].
  pose proof (digits2_bounds (cm p)) as B. unfold cm in *. rewrite Hd in B. exact B.
Qed.
(** The canonical form is the only one with a 53 bit mantissa. *)
Lemma canon_unique p m e : Z.pos p < 2 ^ 53 -> 2 ^ 52 <= Z.pos m < 2 ^ 53 -> e <= 0 ->
  Z.pos m = Z.pos p * 2 ^ (- e) -> m = cm p /\ e = ce p.
Proof.
  intros Hp Hm He E. destruct (canon_facts p Hp) as (_ & F2 & F3 & F4).
  assert (e = ce p).
  { assert (H : forall a b, a <= 0 -> b <= 0 -> 2 ^ 52 <= Z.pos p * 2 ^ (- a) -> Z.pos p * 2 ^ (- b) < 2 ^ 53 -> a <= b).
    { intros a b Ha Hb H1 H2. destruct (Z.le_gt_cases a b) as [|G]; [assumption|exfalso].
      assert (2 ^ (- b) = 2 ^ (- a) * 2 ^ (a - b)) as Q by (rewrite <- Z.pow_add_r by lia; f_equal; lia).
      assert (2 <= 2 ^ (a - b)) by (apply (Z.pow_le_mono_r 2 1); lia).
      assert (0 < 2 ^ (- a)) by (apply Z.pow_pos_nonneg; lia). nia. }
    apply Z.le_antisymm; apply H; lia. }
  subst e. split; [|reflexivity]. rewrite <- F3 in E. congruence.
Qed.

Lemma iter_shr_exact n : forall m, iter_pos shr_1 n {| shr_m := m * 2 ^ Z.pos n; shr_r := false; shr_s := false |} =
  {| shr_m := m; shr_r := false; shr_s := false |}.
Proof.
  assert (S1 : forall m, shr_1 {| shr_m := 2 * m; shr_r := false; shr_s := false |} = {| shr_m := m; shr_r := false; shr_s := false |}).
  { intros [|p|p]; reflexivity. }
  induction n as [n IH|n IH|]; intros m; cbn [iter_pos].
  - replace (m * 2 ^ Z.pos n~1) with (2 * (m * 2 ^ Z.pos n * 2 ^ Z.pos n)).
    + rewrite S1, IH, IH. reflexivity.
    + change (Z.pos n~1) with (1 + 2 * Z.pos n). rewrite Z.pow_add_r by lia.
      replace (2 * Z.pos n) with (Z.pos n + Z.pos n) by lia. rewrite Z.pow_add_r by lia. lia.
  - replace (m * 2 ^ Z.pos n~0) with (m * 2 ^ Z.pos n * 2 ^ Z.pos n).
    + rewrite IH, IH. reflexivity.
    + change (Z.pos n~0) with (2 * Z.pos n).
      replace (2 * Z.pos n) with (Z.pos n + Z.pos n) by lia. rewrite Z.pow_add_r by lia. lia.
  - replace (m * 2 ^ 1) with (2 * m) by lia. apply S1.
Qed.

Lemma round_aux_int s p m e : Z.pos p < 2 ^ 53 -> e <= ce p -> m = Z.pos p * 2 ^ (- e) ->
  binary_round_aux 53 1024 s m e loc_Exact = S754_finite s (cm p) (ce p).
Proof.
  intros Hp He E. destruct (canon_facts p Hp) as (F1 & F2 & F3 & F4).
  assert (Em : m = Z.pos (cm p) * 2 ^ (ce p - e)).
  { rewrite F3, E, <- Z.mul_assoc, <- Z.pow_add_r by lia. do 2 f_equal. lia. }
  assert (P : 0 < 2 ^ (ce p - e)) by (apply Z.pow_pos_nonneg; lia).
  assert (D : Zdigits2 m = 53 + (ce p - e)).
  { apply Zdigits2_unique; [lia|]. rewrite Em. replace (53 + (ce p - e) - 1) with (52 + (ce p - e)) by lia.
    rewrite !Z.pow_add_r by lia. nia. }
  destruct (Z.eq_dec (ce p) e) as [Q|Q].
  - rewrite <- Q in *. rewrite Z.sub_diag, Z.pow_0_r, Z.mul_1_r in Em. rewrite Em.
    apply round_aux_canonical; [unfold fexp, emin; lia|lia].
  - unfold binary_round_aux at 1. unfold shr_fexp at 1. rewrite D. cbn [shr_record_of_loc].
    replace (fexp64 (53 + (ce p - e) + e) - e) with (ce p - e) by (unfold fexp, emin; lia).
    destruct (ce p - e) as [|k|k] eqn:Ek; try lia. cbn [shr]. rewrite Em, iter_shr_exact.
    replace (e + Z.pos k) with (ce p) by lia. cbn [loc_of_shr_record round_nearest_even shr_m].
    unfold shr_fexp. cbn [Zdigits2 shr_record_of_loc]. rewrite F1.
    replace (fexp64 (53 + ce p) - ce p) with 0 by (unfold fexp, emin; lia). cbn [shr shr_m].
    replace (Zle_bool (ce p) (1024 - 53)) with true; [reflexivity|]. symmetry. apply Zle_imp_le_bool. lia.
Qed.

Lemma pow_swap a b m n : a <= 0 -> b <= a -> m = n * 2 ^ (- a) -> n * 2 ^ (- b) = m * 2 ^ (a - b).
Proof. intros. subst m. rewrite <- Z.mul_assoc, <- Z.pow_add_r by lia. do 2 f_equal. lia. Qed.

Lemma round_int s p m e : Z.pos p < 2 ^ 53 -> e <= 0 -> Z.pos m = Z.pos p * 2 ^ (- e) ->
  binary_round 53 1024 s m e = S754_finite s (cm p) (ce p).
Proof.
  intros Hp He E. destruct (canon_facts p Hp) as (F1 & F2 & F3 & F4).
  assert (P : 0 < 2 ^ (- e)) by (apply Z.pow_pos_nonneg; lia).
  assert (Dp : Z.pos (digits2_pos p) = 53 + ce p).
  { assert (Q : Zdigits2 (Z.pos p) = 53 + ce p); [|exact Q].
    assert (2 ^ 52 = 2 ^ (52 + ce p) * 2 ^ (- ce p)) by (rewrite <- Z.pow_add_r by lia; f_equal; lia).
    assert (2 ^ 53 = 2 ^ (53 + ce p) * 2 ^ (- ce p)) by (rewrite <- Z.pow_add_r by lia; f_equal; lia).
    assert (0 < 2 ^ (- ce p)) by (apply Z.pow_pos_nonneg; lia).
    apply Zdigits2_unique; [lia|]. replace (53 + ce p - 1) with (52 + ce p) by lia. nia. }
  assert (D : Z.pos (digits2_pos m) = 53 + ce p - e).
  { assert (Q : Zdigits2 (Z.pos m) = 53 + ce p - e); [|exact Q].
    pose proof (digits2_bounds p) as B. rewrite Dp in B.
    apply Zdigits2_unique; [lia|]. replace (53 + ce p - e - 1) with (53 + ce p - 1 + - e) by lia.
    replace (53 + ce p - e) with (53 + ce p + - e) by lia. rewrite !Z.pow_add_r by lia. nia. }
  unfold binary_round, shl_align. rewrite D. replace (fexp64 (53 + ce p - e + e)) with (ce p) by (unfold fexp, emin; lia).
  destruct (ce p - e) as [|d|d] eqn:Ed.
  - apply round_aux_int; lia.
  - apply round_aux_int; lia.
  - apply round_aux_int; [exact Hp|lia|]. rewrite shift_pos_correct, E. change (Zpower_pos 2 d) with (2 ^ Z.pos d).
    rewrite Z.mul_comm, <- Z.mul_assoc, <- Z.pow_add_r by lia. do 2 f_equal. lia.
Qed.

(** A specification float whose value is the integer [n]. *)
Definition sf_int (f : spec_float) (n : Z) : Prop :=
  match n with
  | Z0 => exists s, f = S754_zero s
  | Z.pos p => f = S754_finite false (cm p) (ce p)
  | Z.neg p => f = S754_finite true (cm p) (ce p)
  end.

Lemma normalize_int n m e z : - 2 ^ 53 < n < 2 ^ 53 -> e <= 0 -> m = n * 2 ^ (- e) ->
  sf_int (binary_normalize 53 1024 m e z) n.
Proof.
  intros Hn He E. assert (P : 0 < 2 ^ (- e)) by (apply Z.pow_pos_nonneg; lia).
  destruct n as [|p|p].
  - replace m with 0 by lia. cbn. eauto.
  - destruct m as [|m|m]; try lia. cbn. apply round_int; lia.
  - destruct m as [|m|m]; try lia. cbn. apply round_int; lia.
Qed.
Lemma sf_of_Z n : - 2 ^ 53 < n < 2 ^ 53 -> sf_int (binary_normalize 53 1024 n 0 false) n.
Proof. intros. apply normalize_int; [assumption|lia|]. rewrite Z.mul_1_r. reflexivity. Qed.

Lemma align m e z : z <= e -> Z.pos (fst (shl_align m e z)) = Z.pos m * 2 ^ (e - z).
Proof.
  intros H. unfold shl_align. destruct (z - e) as [|d|d] eqn:E; cbn [fst]; try lia.
  - replace (e - z) with 0 by lia. lia.
  - rewrite shift_pos_correct. change (Zpower_pos 2 d) with (2 ^ Z.pos d). replace (e - z) with (Z.pos d) by lia. lia.
Qed.

Definition zopp (s : bool) (p : positive) := if s then Z.neg p else Z.pos p.
Lemma sf_int_finite f n : sf_int f n -> n <> 0 -> exists s p, n = zopp s p /\ f = S754_finite s (cm p) (ce p).
Proof. destruct n as [|p|p]; intros H N; [lia|exists false, p; split; [reflexivity|exact H]|exists true, p; split; [reflexivity|exact H]]. Qed.
Lemma sf_int_opp f n : sf_int f n -> sf_int (SFopp f) (- n).
Proof. destruct n as [|p|p]; cbn; [intros [s ->]; cbn; eauto|intros ->; reflexivity|intros ->; reflexivity]. Qed.

Lemma add_int f g x y : - 2 ^ 53 < x < 2 ^ 53 -> - 2 ^ 53 < y < 2 ^ 53 -> - 2 ^ 53 < x + y < 2 ^ 53 ->
  sf_int f x -> sf_int g y -> sf_int (SFadd 53 1024 f g) (x + y).
Proof.
  intros Hx Hy Hs Fx Gy.
  destruct (Z.eq_dec x 0) as [->|Nx]; [destruct Fx as [sx ->]|destruct (sf_int_finite _ _ Fx Nx) as (sx & px & Ex & ->)];
  (destruct (Z.eq_dec y 0) as [->|Ny]; [destruct Gy as [sy ->]|destruct (sf_int_finite _ _ Gy Ny) as (sy & py & Ey & ->)]).
  - cbn. destruct sx, sy; cbn; eauto.
  - exact Gy.
  - rewrite Z.add_0_r. exact Fx.
  - cbn [SFadd]. assert (Px : Z.pos px < 2 ^ 53) by (destruct sx; cbn [zopp] in Ex; lia).
    assert (Py : Z.pos py < 2 ^ 53) by (destruct sy; cbn [zopp] in Ey; lia).
    destruct (canon_facts px Px) as (_ & X2 & X3 & _). destruct (canon_facts py Py) as (_ & Y2 & Y3 & _).
    set (z := Z.min (ce px) (ce py)). apply normalize_int; [exact Hs|lia|].
    rewrite !align by lia. rewrite X3, Y3, <- !Z.mul_assoc, <- !Z.pow_add_r by lia.
    replace (- ce px + (ce px - z)) with (- z) by lia. replace (- ce py + (ce py - z)) with (- z) by lia.
    subst x y. destruct sx, sy; cbn [cond_Zopp zopp]; lia.
Qed.
Lemma sub_opp f g : SFsub 53 1024 f g = SFadd 53 1024 f (SFopp g).
Proof.
  destruct f as [sx|sx| |sx mx ex], g as [sy|sy| |sy my ey]; cbn [SFsub SFadd SFopp]; try reflexivity.
  f_equal. destruct sy; cbn [negb cond_Zopp]; lia.
Qed.
Lemma sub_int f g x y : - 2 ^ 53 < x < 2 ^ 53 -> - 2 ^ 53 < y < 2 ^ 53 -> - 2 ^ 53 < x - y < 2 ^ 53 ->
  sf_int f x -> sf_int g y -> sf_int (SFsub 53 1024 f g) (x - y).
Proof.
  intros Hx Hy Hs Fx Gy. rewrite sub_opp.
  replace (x - y) with (x + - y) by lia. apply add_int; try lia; [exact Fx|apply sf_int_opp; exact Gy].
Qed.

Lemma sf_int_zopp s p : sf_int (S754_finite s (cm p) (ce p)) (zopp s p).
Proof. destruct s; reflexivity. Qed.

Lemma mul_int f g x y : - 2 ^ 53 < x < 2 ^ 53 -> - 2 ^ 53 < y < 2 ^ 53 -> - 2 ^ 53 < x * y < 2 ^ 53 ->
  sf_int f x -> sf_int g y -> sf_int (SFmul 53 1024 f g) (x * y).
Proof.
  intros Hx Hy Hs Fx Gy.
  destruct (Z.eq_dec x 0) as [->|Nx]; [destruct Fx as [sx ->]|destruct (sf_int_finite _ _ Fx Nx) as (sx & px & Ex & ->)];
  (destruct (Z.eq_dec y 0) as [->|Ny]; [destruct Gy as [sy ->]|destruct (sf_int_finite _ _ Gy Ny) as (sy & py & Ey & ->)]).
  - cbn. eauto.
  - cbn. eauto.
  - rewrite Z.mul_0_r. cbn. eauto.
  - cbn [SFmul]. assert (Px : Z.pos px < 2 ^ 53) by (destruct sx; cbn [zopp] in Ex; lia).
    assert (Py : Z.pos py < 2 ^ 53) by (destruct sy; cbn [zopp] in Ey; lia).
    destruct (canon_facts px Px) as (_ & X2 & X3 & X4). destruct (canon_facts py Py) as (_ & Y2 & Y3 & Y4).
    assert (E : x * y = zopp (xorb sx sy) (px * py)) by (subst x y; destruct sx, sy; reflexivity).
    assert (Pp : Z.pos (px * py) < 2 ^ 53) by (rewrite E in Hs; destruct (xorb sx sy); cbn [zopp] in Hs; lia).
    assert (Em : Z.pos (cm px * cm py) = Z.pos (px * py) * 2 ^ (- (ce px + ce py))).
    { rewrite Z.opp_add_distr, Z.pow_add_r by lia.
      replace (Z.pos (cm px * cm py)) with (Z.pos (cm px) * Z.pos (cm py)) by reflexivity. rewrite X3, Y3. nia. }
    rewrite E. rewrite (round_aux_int _ (px * py)).
    + apply sf_int_zopp.
    + exact Pp.
    + destruct (canon_facts _ Pp) as (_ & Q2 & Q3 & Q4).
      destruct (Z.le_gt_cases (ce px + ce py) (ce (px * py))) as [|G]; [assumption|exfalso].
      assert (Z.pos (cm (px * py)) = Z.pos (px * py) * 2 ^ (- (ce px + ce py)) * 2 ^ (ce px + ce py - ce (px * py))).
      { rewrite Q3, <- Z.mul_assoc, <- Z.pow_add_r by lia. do 2 f_equal. lia. }
      rewrite <- Em in H. assert (1 < 2 ^ (ce px + ce py - ce (px * py))) by (apply Z.pow_gt_1; lia).
      assert (2 ^ 52 * 2 ^ 52 <= Z.pos (cm px * cm py)) by (replace (Z.pos (cm px * cm py)) with (Z.pos (cm px) * Z.pos (cm py)) by reflexivity; nia).
      nia.
    + exact Em.
Qed.

Lemma div_int f g x y : - 2 ^ 53 < x < 2 ^ 53 -> - 2 ^ 53 < y < 2 ^ 53 -> y <> 0 -> x mod y = 0 ->
  sf_int f x -> sf_int g y -> sf_int (SFdiv 53 1024 f g) (x / y).
Proof.
  intros Hx Hy Ny Hd Fx Gy. destruct (sf_int_finite _ _ Gy Ny) as (sy & py & Ey & ->).
  destruct (Z.eq_dec x 0) as [->|Nx]; [destruct Fx as [sx ->]; rewrite Z.div_0_l by lia; cbn; eauto|].
  destruct (sf_int_finite _ _ Fx Nx) as (sx & px & Ex & ->). cbn [SFdiv].
  assert (Px : Z.pos px < 2 ^ 53) by (destruct sx; cbn [zopp] in Ex; lia).
  assert (Py : Z.pos py < 2 ^ 53) by (destruct sy; cbn [zopp] in Ey; lia).
  destruct (canon_facts px Px) as (X1 & X2 & X3 & X4). destruct (canon_facts py Py) as (Y1 & Y2 & Y3 & Y4).
  assert (Q : exists q, Z.pos px = Z.pos q * Z.pos py /\ x / y = zopp (xorb sx sy) q).
  { assert (E : x = y * (x / y)) by (apply Z_div_exact_full_2; assumption).
    assert (N : x / y <> 0) by (intros K; rewrite K in E; lia).
    exists (Z.to_pos (Z.abs (x / y))). destruct sx, sy; cbn [zopp xorb] in *; subst x y;
    destruct (_ / _) as [|q|q] eqn:K; try lia; cbn [Z.abs Z.to_pos]; split; lia || reflexivity. }
  destruct Q as (q & Eq & ->).
  assert (Pq : Z.pos q < 2 ^ 53) by nia.
  destruct (canon_facts q Pq) as (Q1 & Q2 & Q3 & Q4).
  assert (Ge : ce py - 52 <= ce q + 52 /\ ce px - ce py - 53 <= ce q).
  { split; [lia|]. destruct (Z.le_gt_cases (ce px - ce py - 53) (ce q)) as [|G]; [assumption|exfalso].
    assert (K : Z.pos (cm q) * Z.pos (cm py) = Z.pos (cm px) * 2 ^ (ce px - ce py - ce q)).
    { rewrite Q3, Y3, X3, Eq. rewrite <- (Z.mul_assoc (Z.pos q * Z.pos py)), <- Z.pow_add_r by lia.
      replace (- ce px + (ce px - ce py - ce q)) with (- ce q + - ce py) by lia. rewrite Z.pow_add_r by lia. lia. }
    assert (2 ^ 54 <= 2 ^ (ce px - ce py - ce q)) by (apply Z.pow_le_mono_r; lia). nia. }
  unfold SFdiv_core_binary. cbn [Zdigits2]. rewrite X1, Y1.
  assert (B : -105 <= ce px - ce py - 53 <= 0).
  { split; [lia|]. destruct (Z.le_gt_cases (ce px - ce py) 53) as [|G]; lia. }
  replace (Z.min (fexp64 (53 + ce px - (53 + ce py))) (ce px - ce py)) with (ce px - ce py - 53)
    by (unfold fexp, emin; lia).
  replace (ce px - ce py - (ce px - ce py - 53)) with 53 by lia. cbv iota.
  rewrite Z.shiftl_mul_pow2 by lia.
  assert (Em : Z.pos (cm px) * 2 ^ 53 = Z.pos q * 2 ^ (- (ce px - ce py - 53)) * Z.pos (cm py)).
  { rewrite X3, Y3, Eq.
    transitivity (Z.pos q * Z.pos py * (2 ^ (- ce px) * 2 ^ 53)); [lia|].
    transitivity (Z.pos q * Z.pos py * (2 ^ (- (ce px - ce py - 53)) * 2 ^ (- ce py))); [|lia].
    f_equal. rewrite <- !Z.pow_add_r by lia. f_equal. lia. }
  rewrite Em. set (k := Z.pos q * 2 ^ (- (ce px - ce py - 53))).
  assert (Dv : Z.div_eucl (k * Z.pos (cm py)) (Z.pos (cm py)) = (k, 0)).
  { rewrite (surjective_pairing (Z.div_eucl _ _)). f_equal.
    - apply Z.div_mul. lia.
    - apply Z_mod_mult. }
  rewrite Dv.
  replace (new_location (Z.pos (cm py)) 0) with loc_Exact by (unfold new_location; destruct (Z.even _); reflexivity).
  rewrite (round_aux_int _ q); [apply sf_int_zopp|exact Pq|lia|reflexivity].
Qed.

Lemma cmp_canon p q : Z.pos p < 2 ^ 53 -> Z.pos q < 2 ^ 53 ->
  match Z.compare (ce p) (ce q) with Lt => Lt | Gt => Gt | Eq => Pcompare (cm p) (cm q) Eq end = Pos.compare p q.
Proof.
  intros Hp Hq. destruct (canon_facts p Hp) as (_ & P2 & P3 & P4). destruct (canon_facts q Hq) as (_ & Q2 & Q3 & Q4).
  assert (L : forall a b, Z.pos a < 2 ^ 53 -> Z.pos b < 2 ^ 53 -> ce a < ce b -> Z.pos a < Z.pos b).
  { intros a b Ha Hb H. destruct (canon_facts a Ha) as (_ & A2 & A3 & A4). destruct (canon_facts b Hb) as (_ & B2 & B3 & B4).
    assert (E : 2 ^ (- ce a) = 2 ^ (- ce b) * 2 ^ (ce b - ce a)) by (rewrite <- Z.pow_add_r by lia; f_equal; lia).
    assert (2 <= 2 ^ (ce b - ce a)) by (apply (Z.pow_le_mono_r 2 1); lia).
    assert (0 < 2 ^ (- ce b)) by (apply Z.pow_pos_nonneg; lia). nia. }
  destruct (Z.compare_spec (ce p) (ce q)) as [E|E|E].
  - change (Z.compare (Z.pos (cm p)) (Z.pos (cm q)) = Z.compare (Z.pos p) (Z.pos q)).
    rewrite P3, Q3, E. assert (0 < 2 ^ (- ce q)) by (apply Z.pow_pos_nonneg; lia).
    symmetry. apply Zmult_compare_compat_r. lia.
  - symmetry. apply Pos.compare_lt_iff. pose proof (L p q Hp Hq E). lia.
  - symmetry. apply Pos.compare_gt_iff. pose proof (L q p Hq Hp E). lia.
Qed.

Lemma compare_int f g x y : - 2 ^ 53 < x < 2 ^ 53 -> - 2 ^ 53 < y < 2 ^ 53 ->
  sf_int f x -> sf_int g y -> SFcompare f g = Some (Z.compare x y).
Proof.
  intros Hx Hy Fx Gy. destruct x as [|p|p], y as [|q|q]; cbn [sf_int] in Fx, Gy;
  repeat match goal with H : exists _, _ = _ |- _ => destruct H as [? H] end; rewrite Fx, Gy; cbn [SFcompare]; try reflexivity.
  - f_equal. apply cmp_canon; lia.
  - f_equal. transitivity (CompOpp (Pos.compare p q)).
    + rewrite <- (cmp_canon p q) by lia. destruct (ce p ?= ce q); reflexivity.
    + cbn [Z.compare]. reflexivity.
Qed.

(** The specification's reading of patterns agrees with the model's decoding. *)
Lemma int_value_dec v n : int_value v n -> - 2 ^ 53 < n < 2 ^ 53 ->
  is_u64 v /\ d_isnan v = false /\ sf_int (d_dec v) n.
Proof.
  intros [[-> H]|(s & F & E & Hs & HF & HE & -> & Hv)] Hn.
  - destruct H as [-> | ->]; (split; [unfold is_u64; lia|]); split; try (vm_compute; reflexivity); cbn [sf_int].
    + exists false. vm_compute. reflexivity.
    + exists true. vm_compute. reflexivity.
  - assert (U : is_u64 (s * 2 ^ 63 + E * 2 ^ 52 + F)) by (unfold is_u64; lia).
    assert (D1 : d_sign (s * 2 ^ 63 + E * 2 ^ 52 + F) = (s =? 1)) by (unfold d_sign; lia).
    assert (D2 : d_exp (s * 2 ^ 63 + E * 2 ^ 52 + F) = E).
    { unfold d_exp. replace (s * 2 ^ 63 + E * 2 ^ 52 + F) with ((s * 2 ^ 11 + E) * 2 ^ 52 + F) by lia.
      rewrite Z.div_add_l by lia. rewrite (Z.div_small F) by lia. lia. }
    assert (D3 : d_man (s * 2 ^ 63 + E * 2 ^ 52 + F) = F).
    { unfold d_man. replace (s * 2 ^ 63 + E * 2 ^ 52 + F) with (F + (s * 2 ^ 11 + E) * 2 ^ 52) by lia.
      rewrite Z.mod_add by lia. apply Z.mod_small. lia. }
    split; [exact U|]. split; [unfold d_isnan; rewrite D2; lia|].
    unfold d_dec. cbv zeta. rewrite D1, D2, D3. replace (E =? 2047) with false by lia. replace (E =? 0) with false by lia.
    destruct (F + 2 ^ 52) as [|m|m] eqn:Em; try lia.
    assert (P : 0 < 2 ^ (1075 - E)) by (apply Z.pow_pos_nonneg; lia).
    destruct n as [|p|p]; [destruct Hs; subst s; lia| |].
    + assert (s = 0) by (destruct Hs; subst s; lia). subst s. cbn [Z.eqb]. destruct (canon_unique p m (E - 1075)) as [A B].
      * lia.
      * lia.
      * lia.
      * replace (- (E - 1075)) with (1075 - E) by lia. lia.
      * cbn [sf_int]. rewrite A, B. reflexivity.
    + assert (s = 1) by (destruct Hs; subst s; lia). subst s. cbn [Z.eqb]. destruct (canon_unique p m (E - 1075)) as [A B].
      * lia.
      * lia.
      * lia.
      * replace (- (E - 1075)) with (1075 - E) by lia. lia.
      * cbn [sf_int]. rewrite A, B. reflexivity.
Qed.

Lemma enc_int f n : - 2 ^ 53 < n < 2 ^ 53 -> sf_int f n -> int_value (d_enc f) n.
Proof.
  intros Hn Hf. destruct n as [|p|p]; cbn in Hf.
  - left. destruct Hf as [[] ->]; split; [reflexivity|right; reflexivity|reflexivity|left; reflexivity].
  - right. subst f. destruct (canon_facts p ltac:(lia)) as (_ & F2 & F3 & F4).
    exists 0, (Z.pos (cm p) - 2 ^ 52), (ce p + 1075). split; [left; reflexivity|]. split; [lia|]. split; [lia|].
    cbn [d_enc sbit]. replace (Z.pos (cm p) <? 2 ^ 52) with false by lia. split; [lia|].
    replace (1075 - (ce p + 1075)) with (- ce p) by lia. lia.
  - right. subst f. destruct (canon_facts p ltac:(lia)) as (_ & F2 & F3 & F4).
    exists 1, (Z.pos (cm p) - 2 ^ 52), (ce p + 1075). split; [right; reflexivity|]. split; [lia|]. split; [lia|].
    cbn [d_enc sbit]. replace (Z.pos (cm p) <? 2 ^ 52) with false by lia. split; [lia|].
    replace (1075 - (ce p + 1075)) with (- ce p) by lia. lia.
Qed.
Lemma of_Z_int n : - 2 ^ 53 < n < 2 ^ 53 -> int_value (d_of_Z n) n.
Proof. intros. apply enc_int; [assumption|]. apply sf_of_Z. assumption. Qed.

Lemma trunc_int v n : int_value v n -> - 2 ^ 53 < n < 2 ^ 53 -> d_trunc v = Some n.
Proof.
  intros H Hn. destruct (int_value_dec _ _ H Hn) as (_ & _ & D). unfold d_trunc.
  destruct n as [|p|p]; cbn in D; [destruct D as [s ->]; reflexivity| |];
  rewrite D; destruct (canon_facts p ltac:(lia)) as (_ & F2 & F3 & F4); f_equal;
  (destruct (0 <=? ce p) eqn:E; [replace (ce p) with 0 in * by lia; cbn in F3; rewrite Z.pow_0_r; lia|]);
  rewrite F3, Z.div_mul; try reflexivity; apply Z.pow_nonzero; lia.
Qed.
Lemma range_int lo hi v n : int_value v n -> - 2 ^ 53 < n < 2 ^ 53 -> lo <= n <= hi -> d_to_range lo hi v = OK n.
Proof.
  intros H Hn Hr. unfold d_to_range. rewrite (trunc_int _ _ H Hn).
  replace ((lo <=? n) && (n <=? hi)) with true by lia. reflexivity.
Qed.

Lemma neg_int v n : int_value v n -> int_value (d_neg v) (- n).
Proof.
  intros [[-> H]|(s & F & E & Hs & HF & HE & -> & Hv)].
  - left. split; [reflexivity|]. destruct H as [-> | ->]; [right|left]; reflexivity.
  - right. exists (1 - s), F, E. split; [lia|]. split; [exact HF|]. split; [exact HE|]. split.
    + unfold d_neg, d_sign. destruct Hs; subst s.
      * replace (2 ^ 63 <=? 0 * 2 ^ 63 + E * 2 ^ 52 + F) with false by lia. lia.
      * replace (2 ^ 63 <=? 1 * 2 ^ 63 + E * 2 ^ 52 + F) with true by lia. lia.
    + lia.
Qed.
