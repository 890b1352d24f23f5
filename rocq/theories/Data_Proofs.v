From Verif Require Import Base BaseFacts Value_Model Float_Proofs Data_Model Data_Spec.
Ltac Zify.zify_post_hook ::= Z.div_mod_to_equations.

Lemma unsigned_le_val bs : unsigned_le bs = le_val bs.
Proof. reflexivity. Qed.

(** The bytes met walking from [p] by steps [inc]. *)
Definition walk (m : rawmem) (p inc : Z) (vs : list Z) : Prop :=
  forall i, (i < length vs)%nat -> m (p + inc * Z.of_nat i) = Some (nth i vs 0).
Lemma walk_cons m p inc v vs : walk m p inc (v :: vs) -> m p = Some v /\ walk m (p + inc) inc vs.
Proof.
  intros H. split.
  - specialize (H 0%nat ltac:(cbn; lia)). cbn [nth] in H. rewrite <- H. f_equal. lia.
  - intros i Hi. specialize (H (S i) ltac:(cbn [length]; lia)). cbn [nth] in H. rewrite <- H. f_equal. lia.
Qed.
Lemma walk_up m p bs : bytes_at m p bs -> walk m p 1 bs.
Proof. intros H i Hi. rewrite <- (H i Hi). f_equal. lia. Qed.
Lemma walk_down m p bs : bytes_at m p bs -> walk m (p + (zlen bs - 1)) (-1) (rev bs).
Proof.
  intros H i Hi. rewrite rev_length in Hi. rewrite rev_nth by exact Hi.
  rewrite <- (H (length bs - S i)%nat ltac:(lia)). f_equal. unfold zlen. lia.
Qed.
Lemma walk_of (be : bool) m p bs : bytes_at m p bs ->
  walk m (p + (if be then 0 else zlen bs - 1)) (if be then 1 else -1) (if be then bs else rev bs).
Proof.
  intros H. destruct be; [|exact (walk_down m p bs H)]. replace (p + 0) with p by lia. exact (walk_up m p bs H).
Qed.

Lemma lor_byte y b : is_byte b -> Z.lor (y * 256) b = y * 256 + b.
Proof.
  intros H. unfold is_byte in H. rewrite Z.lor_comm, Z.add_comm. apply (lor_add_disjoint b y 8); lia.
Qed.
Lemma u32_step V b : is_byte b -> Z.lor (u32 (Z.shiftl (u32 V) 8)) b = u32 (256 * V + b).
Proof.
  intros H. rewrite Z.shiftl_mul_pow2 by lia. change (2 ^ 8) with 256. unfold u32.
  replace ((V mod 2 ^ 32 * 256) mod 2 ^ 32) with ((V mod 2 ^ 24) * 256) by lia.
  rewrite lor_byte by exact H. unfold is_byte in H. lia.
Qed.
Lemma s32_step V b : is_byte b -> Z.lor (s32 (Z.shiftl (s32 V) 8)) b = s32 (256 * V + b).
Proof.
  intros H. rewrite Z.shiftl_mul_pow2 by lia. change (2 ^ 8) with 256.
  assert (E : exists y, s32 (s32 V * 256) = y * 256 /\ s32 (256 * V + b) = y * 256 + b).
  { unfold is_byte in H. unfold s32.
    set (w := if V mod 2 ^ 32 <? 2 ^ 31 then V mod 2 ^ 32 else V mod 2 ^ 32 - 2 ^ 32).
    assert (Hw : exists k, w = V + k * 2 ^ 32) by (unfold w; destruct (_ <? _); [exists (- (V / 2 ^ 32))|exists (- (V / 2 ^ 32) - 1)]; lia).
    destruct Hw as [k Hw]. rewrite Hw. clear Hw w.
    replace (((V + k * 2 ^ 32) * 256) mod 2 ^ 32) with ((V mod 2 ^ 24) * 256) by lia.
    replace ((256 * V + b) mod 2 ^ 32) with ((V mod 2 ^ 24) * 256 + b) by lia.
    exists (if V mod 2 ^ 24 <? 2 ^ 23 then V mod 2 ^ 24 else V mod 2 ^ 24 - 2 ^ 24).
    destruct (V mod 2 ^ 24 <? 2 ^ 23) eqn:E0.
    - replace (_ <? 2 ^ 31) with true by lia. replace (_ <? 2 ^ 31) with true by lia. split; reflexivity.
    - replace (_ <? 2 ^ 31) with false by lia. replace (_ <? 2 ^ 31) with false by lia. split; lia. }
  destruct E as (y & -> & ->). apply lor_byte. exact H.
Qed.
Fixpoint be_acc (V : Z) (vs : list Z) : Z := match vs with [] => V | v :: r => be_acc (256 * V + v) r end.
Lemma be_acc_val vs : forall V, be_acc V vs = V * 256 ^ zlen vs + le_val (rev vs).
Proof.
  induction vs as [|v vs IH]; intros V.
  - cbn [be_acc rev le_val]. change (zlen (@nil Z)) with 0. lia.
  - cbn [be_acc rev]. rewrite IH, le_val_app, zlen_cons. cbn [le_val].
    replace (zlen (rev vs)) with (zlen vs) by (unfold zlen; rewrite rev_length; reflexivity).
    pose proof (zlen_nonneg vs). rewrite Z.pow_add_r, Z.pow_1_r by lia. ring.
Qed.

Lemma uint_loop vs : forall m p inc V, walk m p inc vs -> bytes_ok vs ->
  get_uint_loop (length vs) m p inc (u32 V) = OK (u32 (be_acc V vs)).
Proof.
  induction vs as [|v vs IH]; intros m p inc V W B; [reflexivity|].
  apply walk_cons in W. destruct W as [W0 W]. inversion B; subst. cbn [length get_uint_loop be_acc].
  unfold rd. rewrite W0. cbn [bind]. rewrite u32_step by assumption. apply IH; assumption.
Qed.
Lemma int_loop vs : forall m p inc V, walk m p inc vs -> bytes_ok vs ->
  get_int_loop (length vs) m p inc (s32 V) = OK (s32 (be_acc V vs)).
Proof.
  induction vs as [|v vs IH]; intros m p inc V W B; [reflexivity|].
  apply walk_cons in W. destruct W as [W0 W]. inversion B; subst. cbn [length get_int_loop be_acc].
  unfold rd. rewrite W0. cbn [bind]. rewrite s32_step by assumption. apply IH; assumption.
Qed.

Definition order (be : bool) (bs : list Z) : list Z := if be then bs else rev bs.
Lemma order_ok be bs : bytes_ok bs -> bytes_ok (order be bs).
Proof. intros H. destruct be; [exact H|]. apply Forall_rev. exact H. Qed.
Lemma order_len be bs : length (order be bs) = length bs.
Proof. destruct be; [reflexivity|apply rev_length]. Qed.
Lemma order_val be bs : be_acc 0 (order be bs) = unsigned_val be bs.
Proof.
  rewrite be_acc_val, Z.mul_0_l, Z.add_0_l. unfold order, unsigned_val. change unsigned_le with le_val.
  destruct be; [reflexivity|]. rewrite rev_involutive. reflexivity.
Qed.
Lemma unsigned_bound be bs : bytes_ok bs -> 0 <= unsigned_val be bs < 256 ^ zlen bs.
Proof.
  intros H. unfold unsigned_val. change unsigned_le with le_val. destruct be.
  - replace (zlen bs) with (zlen (rev bs)) by (unfold zlen; rewrite rev_length; reflexivity).
    apply le_val_bound. apply Forall_rev. exact H.
  - apply le_val_bound. exact H.
Qed.

Lemma get_uint_spec m ptr bs be : bytes_at m ptr bs -> bytes_ok bs ->
  mem_get_uint m ptr (zlen bs) be = OK (d_of_Z (unsigned_val be bs mod 2 ^ 32)).
Proof.
  intros H B. unfold mem_get_uint.
  pose proof (uint_loop (order be bs) _ _ _ 0 (walk_of be m ptr bs H) (order_ok be bs B)) as L.
  rewrite order_len in L. change (u32 0) with 0 in L.
  unfold zlen at 1. rewrite Nat2Z.id, L, order_val. reflexivity.
Qed.

Lemma shl_spec n : forall V, shl_loop n (s32 V) = s32 (V * 256 ^ Z.of_nat n).
Proof.
  induction n as [|n IH]; intros V; [f_equal; cbn [Z.of_nat]; rewrite Z.pow_0_r; cbn [shl_loop]; f_equal; lia|].
  cbn [shl_loop]. replace (s32 (Z.shiftl (s32 V) 8)) with (s32 (256 * V + 0)).
  2:{ rewrite <- (s32_step V 0) by (unfold is_byte; lia). apply Z.lor_0_r. }
  rewrite IH, Nat2Z.inj_succ, Z.pow_succ_r by lia. f_equal. ring.
Qed.
Lemma shr_spec n : forall V, shr_loop n V = V / 256 ^ Z.of_nat n.
Proof.
  induction n as [|n IH]; intros V; [cbn [Z.of_nat]; rewrite Z.pow_0_r, Z.div_1_r; reflexivity|].
  cbn [shr_loop]. rewrite IH, Nat2Z.inj_succ, Z.pow_succ_r by lia.
  rewrite Z.shiftr_div_pow2 by lia. change (2 ^ 8) with 256. rewrite Z.div_div by lia. reflexivity.
Qed.
Lemma s32_scale u n : 1 <= n <= 4 -> 0 <= u < 256 ^ n ->
  s32 (u * 256 ^ (4 - n)) / 256 ^ (4 - n) = signed_val n u.
Proof.
  intros Hn Hu. unfold signed_val, s32.
  assert (n = 1 \/ n = 2 \/ n = 3 \/ n = 4) as [-> | [-> | [-> | ->]]] by lia.
  - change (4 - 1) with 3. change (256 ^ 3) with 16777216. change (256 ^ 1) with 256 in Hu. change (2 ^ (8 * 1 - 1)) with 128.
    change (2 ^ (8 * 1)) with 256. destruct (_ <? _) eqn:E1, (u <? 128) eqn:E2; lia.
  - change (4 - 2) with 2. change (256 ^ 2) with 65536 in *. change (2 ^ (8 * 2 - 1)) with 32768.
    change (2 ^ (8 * 2)) with 65536. destruct (_ <? _) eqn:E1, (u <? 32768) eqn:E2; lia.
  - change (4 - 3) with 1. change (256 ^ 1) with 256. change (256 ^ 3) with 16777216 in *. change (2 ^ (8 * 3 - 1)) with 8388608.
    change (2 ^ (8 * 3)) with 16777216. destruct (_ <? _) eqn:E1, (u <? 8388608) eqn:E2; lia.
  - change (4 - 4) with 0. change (256 ^ 0) with 1. change (256 ^ 4) with 4294967296 in *. change (2 ^ (8 * 4 - 1)) with 2147483648.
    change (2 ^ (8 * 4)) with 4294967296. rewrite Z.mul_1_r, Z.div_1_r. destruct (_ <? 2 ^ 31) eqn:E1, (u <? 2147483648) eqn:E2; lia.
Qed.

Lemma get_int_spec m ptr bs be : bytes_at m ptr bs -> bytes_ok bs -> 1 <= zlen bs <= 4 ->
  mem_get_int m ptr (zlen bs) be = OK (d_of_Z (signed_val (zlen bs) (unsigned_val be bs))).
Proof.
  intros H B Hn. unfold mem_get_int.
  pose proof (int_loop (order be bs) _ _ _ 0 (walk_of be m ptr bs H) (order_ok be bs B)) as L.
  rewrite order_len in L. change (s32 0) with 0 in L.
  unfold zlen at 1. rewrite Nat2Z.id, L, order_val. cbn [bind]. f_equal. f_equal.
  rewrite shl_spec, shr_spec. rewrite Z2Nat.id by lia.
  apply s32_scale; [exact Hn|]. apply unsigned_bound. exact B.
Qed.
(** Sizes beyond four bytes: the last four bytes met decide. *)
Lemma get_int_wide m ptr bs be : bytes_at m ptr bs -> bytes_ok bs -> 4 <= zlen bs ->
  mem_get_int m ptr (zlen bs) be = OK (d_of_Z (signed_val 4 (unsigned_val be bs mod 2 ^ 32))).
Proof.
  intros H B Hn. unfold mem_get_int.
  pose proof (int_loop (order be bs) _ _ _ 0 (walk_of be m ptr bs H) (order_ok be bs B)) as L.
  rewrite order_len in L. change (s32 0) with 0 in L.
  unfold zlen at 1. rewrite Nat2Z.id, L, order_val. cbn [bind]. f_equal.
  replace (Z.to_nat (4 - zlen bs)) with 0%nat by lia. reflexivity.
Qed.

(** ** Writing *)
Lemma set_loop_spec n : forall m p inc val, (inc = 1 \/ inc = -1) ->
  (forall i, (i < n)%nat -> m (p + inc * Z.of_nat i) <> None) ->
  exists m', set_loop n m p inc val = OK m' /\
    (forall i, (i < n)%nat -> m' (p + inc * Z.of_nat i) = Some (nth i (le_bytes n val) 0)) /\
    (forall a, (forall i, (i < n)%nat -> a <> p + inc * Z.of_nat i) -> m' a = m a).
Proof.
  induction n as [|n IH]; intros m p inc val Hi Hm.
  - exists m. split; [reflexivity|]. split; [lia|reflexivity].
  - cbn [set_loop]. unfold wr. pose proof (Hm 0%nat ltac:(lia)) as H0. replace (p + inc * Z.of_nat 0) with p in H0 by lia.
    destruct (m p) eqn:Ep; [|contradiction]. cbn [bind].
    destruct (IH (rset m p (Z.land val 255)) (p + inc) inc (Z.shiftr val 8) Hi) as (m' & R & V & F).
    { intros i Hn. unfold rset. destruct (_ =? p); [discriminate|].
      specialize (Hm (S i) ltac:(lia)). replace (p + inc + inc * Z.of_nat i) with (p + inc * Z.of_nat (S i)) by lia. exact Hm. }
    exists m'. split; [exact R|]. 
    assert (E1 : Z.land val 255 = val mod 256).
    { change 255 with (Z.ones 8). rewrite Z.land_ones by lia. reflexivity. }
    assert (E2 : Z.shiftr val 8 = val / 256) by (rewrite Z.shiftr_div_pow2 by lia; reflexivity).
    split.
    + intros i Hn. destruct i as [|i].
      * replace (p + inc * Z.of_nat 0) with p by lia. rewrite F.
        -- unfold rset. rewrite Z.eqb_refl, E1. reflexivity.
        -- intros i _. destruct Hi; subst inc; lia.
      * replace (p + inc * Z.of_nat (S i)) with (p + inc + inc * Z.of_nat i) by lia. rewrite V by lia. rewrite E2. reflexivity.
    + intros a Ha. rewrite F.
      * unfold rset. pose proof (Ha 0%nat ltac:(lia)). destruct (a =? p) eqn:Eq; [lia|reflexivity].
      * intros i Hn Hc. apply (Ha (S i) ltac:(lia)). lia.
Qed.

Definition laid (be : bool) (n : nat) (v : Z) : list Z := if be then rev (le_bytes n v) else le_bytes n v.
Lemma laid_len be n v : length (laid be n v) = n.
Proof. destruct be; cbn [laid]; rewrite ?rev_length; apply le_bytes_length. Qed.
Lemma laid_ok be n v : bytes_ok (laid be n v).
Proof. destruct be; cbn [laid]; [apply Forall_rev|]; apply le_bytes_ok. Qed.
Lemma laid_val be n v : 0 <= v -> unsigned_val be (laid be n v) = v mod 256 ^ Z.of_nat n.
Proof.
  intros Hv. unfold unsigned_val. change unsigned_le with le_val.
  destruct be; cbn [laid]; [rewrite rev_involutive|]; apply le_val_bytes; exact Hv.
Qed.

Lemma set_uint_spec m ptr val old be : bytes_at m ptr old ->
  exists m', mem_set_uint m ptr val (zlen old) be = OK m' /\
    bytes_at m' ptr (laid be (length old) (u32 val)) /\ same_outside m m' ptr (zlen old).
Proof.
  intros H. unfold mem_set_uint. unfold zlen at 1. rewrite Nat2Z.id. set (n := length old).
  assert (Hz : zlen old = Z.of_nat n) by reflexivity. rewrite Hz. destruct be.
  - destruct (set_loop_spec n m (ptr + (Z.of_nat n - 1)) (-1) (u32 val) (or_intror eq_refl)) as (m' & R & V & F).
    + intros i Hi. specialize (H (n - 1 - i)%nat ltac:(unfold n in *; lia)).
      replace (ptr + (Z.of_nat n - 1) + -1 * Z.of_nat i) with (ptr + Z.of_nat (n - 1 - i)) by lia. rewrite H. discriminate.
    + exists m'. split; [exact R|]. split.
      * intros i Hi. rewrite laid_len in Hi. unfold laid. rewrite rev_nth by (rewrite le_bytes_length; exact Hi).
        rewrite le_bytes_length. replace (ptr + Z.of_nat i) with (ptr + (Z.of_nat n - 1) + -1 * Z.of_nat (n - S i)) by lia.
        apply V. lia.
      * intros a Ha. apply F. intros i Hi. lia.
  - destruct (set_loop_spec n m (ptr + 0) 1 (u32 val) (or_introl eq_refl)) as (m' & R & V & F).
    + intros i Hi. specialize (H i Hi). replace (ptr + 0 + 1 * Z.of_nat i) with (ptr + Z.of_nat i) by lia. rewrite H. discriminate.
    + exists m'. split; [exact R|]. split.
      * intros i Hi. rewrite laid_len in Hi. replace (ptr + Z.of_nat i) with (ptr + 0 + 1 * Z.of_nat i) by lia. apply V. exact Hi.
      * intros a Ha. apply F. intros i Hi. lia.
Qed.

(** ** Doubles and pointers *)
Lemma rd_n_spec bs : forall m p, bytes_at m p bs -> rd_n (length bs) m p = OK bs.
Proof.
  induction bs as [|b bs IH]; intros m p H; [reflexivity|]. cbn [length rd_n]. unfold rd.
  pose proof (H 0%nat ltac:(cbn; lia)) as H0. cbn [nth] in H0. replace (p + Z.of_nat 0) with p in H0 by lia.
  rewrite H0. cbn [bind]. rewrite IH; [reflexivity|]. intros i Hi. specialize (H (S i) ltac:(cbn [length]; lia)).
  cbn [nth] in H. rewrite <- H. f_equal. lia.
Qed.
Lemma wr_n_spec bs : forall m p old, length old = length bs -> bytes_at m p old ->
  exists m', wr_n m p bs = OK m' /\ bytes_at m' p bs /\ same_outside m m' p (zlen bs).
Proof.
  induction bs as [|b bs IH]; intros m p old L H.
  - exists m. split; [reflexivity|]. split; [intros i Hi; cbn in Hi; lia|]. intros a Ha. reflexivity.
  - destruct old as [|o old]; [discriminate L|]. cbn [length] in L. cbn [wr_n]. unfold wr.
    pose proof (H 0%nat ltac:(cbn; lia)) as H0. cbn [nth] in H0. replace (p + Z.of_nat 0) with p in H0 by lia.
    rewrite H0. cbn [bind].
    destruct (IH (rset m p b) (p + 1) old ltac:(lia)) as (m' & R & V & F).
    { intros i Hi. specialize (H (S i) ltac:(cbn [length]; lia)). cbn [nth] in H. unfold rset.
      replace (_ =? p) with false by lia. rewrite <- H. f_equal. lia. }
    exists m'. split; [exact R|]. rewrite zlen_cons. split.
    + intros i Hi. destruct i as [|i]; cbn [nth].
      * rewrite F by lia. unfold rset. replace (_ =? p) with true by lia. reflexivity.
      * replace (p + Z.of_nat (S i)) with (p + 1 + Z.of_nat i) by lia. apply V. cbn [length] in Hi. lia.
    + intros a Ha. pose proof (zlen_nonneg bs). rewrite F by lia. unfold rset. replace (a =? p) with false by lia. reflexivity.
Qed.
