(** Generic lemmas about the base definitions. *)
From Verif Require Import Base.
Ltac Zify.zify_post_hook ::= Z.div_mod_to_equations.

Lemma bytes_eqb_eq a b : bytes_eqb a b = true <-> a = b.
Proof.
  revert b; induction a as [|x a IH]; intros [|y b]; cbn [bytes_eqb];
    split; intro H; try congruence; try discriminate.
  - apply andb_true_iff in H as [H1 H2]. apply IH in H2. f_equal; [lia|exact H2].
  - injection H as -> ->. apply andb_true_iff; split; [lia|]. apply IH; reflexivity.
Qed.
Lemma bytes_eqb_refl a : bytes_eqb a a = true.
Proof. apply bytes_eqb_eq; reflexivity. Qed.

Lemma bytes_ok_app a b : bytes_ok (a ++ b) <-> bytes_ok a /\ bytes_ok b.
Proof. apply Forall_app. Qed.

Lemma zlen_app {A} (a b : list A) : zlen (a ++ b) = zlen a + zlen b.
Proof. unfold zlen; rewrite app_length; lia. Qed.
Lemma zlen_nonneg {A} (a : list A) : 0 <= zlen a.
Proof. unfold zlen; lia. Qed.
Lemma zlen_cons {A} (x : A) l : zlen (x :: l) = 1 + zlen l.
Proof. unfold zlen; cbn [length]; lia. Qed.
Lemma zlen_nil {A} : zlen (@nil A) = 0.
Proof. reflexivity. Qed.

Lemma sub_app_mid {A} (a b c : list A) :
  sub (a ++ b ++ c) (zlen a) (zlen b) = b.
Proof.
  unfold sub, zlen. rewrite !Nat2Z.id.
  rewrite skipn_app, skipn_all, Nat.sub_diag; cbn [skipn app].
  rewrite firstn_app, firstn_all, Nat.sub_diag; cbn [firstn]. apply app_nil_r.
Qed.

Lemma sub_length {A} (l : list A) off n :
  0 <= off -> 0 <= n -> off + n <= zlen l -> zlen (sub l off n) = n.
Proof.
  unfold sub, zlen; intros H0 H1 H2. rewrite firstn_length, skipn_length. lia.
Qed.

Lemma sub_app_l {A} (a b : list A) off n :
  0 <= off -> 0 <= n -> off + n <= zlen a -> sub (a ++ b) off n = sub a off n.
Proof.
  unfold sub, zlen; intros H0 H1 H2. rewrite skipn_app, firstn_app, skipn_length.
  replace (Z.to_nat n - (length a - Z.to_nat off))%nat with 0%nat by lia.
  cbn [firstn]. apply app_nil_r.
Qed.

Lemma sub_app_r {A} (a b : list A) off n :
  zlen a <= off -> sub (a ++ b) off n = sub b (off - zlen a) n.
Proof.
  unfold sub, zlen; intros H. rewrite skipn_app, skipn_all2 by lia.
  cbn [app]. f_equal. f_equal. lia.
Qed.

Lemma sub_all {A} (l : list A) : sub l 0 (zlen l) = l.
Proof. unfold sub, zlen. rewrite Nat2Z.id. cbn [skipn Z.to_nat]. apply firstn_all. Qed.

Lemma skipn_skipn {A} x y (l : list A) : skipn x (skipn y l) = skipn (x + y) l.
Proof.
  revert l; induction y as [|y IH]; intros l.
  - rewrite Nat.add_0_r; reflexivity.
  - rewrite Nat.add_succ_r. destruct l as [|a l]; [rewrite !skipn_nil; reflexivity|].
    cbn [skipn]. apply IH.
Qed.

Lemma sub_split {A} (l : list A) off n :
  0 <= off -> 0 <= n -> off + n <= zlen l ->
  l = sub l 0 off ++ sub l off n ++ sub l (off + n) (zlen l - off - n).
Proof.
  intros H0 H1 H2. unfold sub, zlen in *. cbn [Z.to_nat skipn].
  rewrite <- (firstn_skipn (Z.to_nat off) l) at 1. f_equal.
  rewrite <- (firstn_skipn (Z.to_nat n) (skipn (Z.to_nat off) l)) at 1. f_equal.
  rewrite firstn_all2.
  - rewrite skipn_skipn. f_equal. lia.
  - rewrite skipn_length. lia.
Qed.

Lemma bytes_ok_sub l off n : bytes_ok l -> bytes_ok (sub l off n).
Proof.
  unfold bytes_ok, sub; intros H. rewrite Forall_forall in *. intros x Hx.
  apply H. apply (In_nth _ _ 0) in Hx as (i & Hi & <-).
  rewrite firstn_length, skipn_length in Hi.
  rewrite <- (firstn_skipn (Z.to_nat off) l) at 2. apply in_or_app; right.
  rewrite <- (firstn_skipn (Z.to_nat n) (skipn (Z.to_nat off) l)) at 2.
  apply in_or_app; left. apply nth_In. rewrite firstn_length, skipn_length. lia.
Qed.

Lemma blit_length {A} (l d : list A) off :
  0 <= off -> off + zlen d <= zlen l -> zlen (blit l off d) = zlen l.
Proof.
  unfold blit, zlen; intros H0 H1. rewrite !app_length, firstn_length, skipn_length. lia.
Qed.

Lemma blit_app_mid {A} (a b c d : list A) :
  length d = length b -> blit (a ++ b ++ c) (zlen a) d = a ++ d ++ c.
Proof.
  intros H. unfold blit, zlen. rewrite Nat2Z.id.
  rewrite firstn_app, firstn_all, Nat.sub_diag; cbn [firstn]. rewrite app_nil_r.
  f_equal. f_equal. rewrite H.
  rewrite skipn_app, skipn_all2 by lia. cbn [app].
  rewrite skipn_app, skipn_all2 by lia. cbn [app].
  replace (length a + length b - length a - length b)%nat with 0%nat by lia.
  reflexivity.
Qed.

Lemma le_val_bound l : bytes_ok l -> 0 <= le_val l < 256 ^ zlen l.
Proof.
  induction l as [|b l IH]; intros H; [cbn; lia|].
  inversion H as [|? ? Hb Hl]; subst. specialize (IH Hl). cbn [le_val].
  rewrite zlen_cons, Z.pow_add_r by (unfold zlen; lia). unfold is_byte in Hb.
  change (256 ^ 1) with 256. nia.
Qed.

Lemma le_bytes_length k z : length (le_bytes k z) = k.
Proof. revert z; induction k; intros; cbn; [reflexivity|]. f_equal; auto. Qed.

Lemma le_bytes_ok k z : bytes_ok (le_bytes k z).
Proof.
  revert z; induction k as [|k IH]; intros z; cbn [le_bytes]; constructor; [|apply IH].
  unfold is_byte. lia.
Qed.

Lemma le_val_bytes k z : 0 <= z -> le_val (le_bytes k z) = z mod 256 ^ Z.of_nat k.
Proof.
  revert z; induction k as [|k IH]; intros z Hz; cbn [le_bytes le_val].
  - rewrite Z.mod_1_r. reflexivity.
  - rewrite IH by lia. rewrite Nat2Z.inj_succ, Z.pow_succ_r by lia.
    assert (0 < 256 ^ Z.of_nat k) by (apply Z.pow_pos_nonneg; lia).
    rewrite Z.rem_mul_r; [reflexivity|discriminate|assumption].
Qed.

Lemma le_val_bytes_small k z : 0 <= z < 256 ^ Z.of_nat k -> le_val (le_bytes k z) = z.
Proof. intros H. rewrite le_val_bytes by lia. apply Z.mod_small; lia. Qed.

Lemma le_bytes_val l : bytes_ok l -> le_bytes (length l) (le_val l) = l.
Proof.
  induction l as [|b l IH]; intros H; [reflexivity|].
  inversion H as [|? ? Hb Hl]; subst. cbn [length le_bytes le_val]. unfold is_byte in Hb.
  f_equal; [lia|].
  replace ((b + 256 * le_val l) / 256) with (le_val l) by lia. apply IH; exact Hl.
Qed.

Lemma le_val_app a b : le_val (a ++ b) = le_val a + 256 ^ zlen a * le_val b.
Proof.
  induction a as [|x a IH]; [change (zlen (@nil Z)) with 0; cbn [app le_val]; rewrite Z.pow_0_r; lia|].
  cbn [app le_val]. rewrite IH, zlen_cons, Z.pow_add_r by (unfold zlen; lia).
  change (256 ^ 1) with 256. ring.
Qed.

Lemma le_val_inj a b :
  bytes_ok a -> bytes_ok b -> length a = length b -> le_val a = le_val b -> a = b.
Proof.
  intros Ha Hb Hl Hv. rewrite <- (le_bytes_val a Ha), <- (le_bytes_val b Hb).
  rewrite Hl, Hv. reflexivity.
Qed.

(** Disjoint bit ranges: [lor] is [+]. *)
Lemma land_disjoint a b k :
  0 <= k -> 0 <= a < 2 ^ k -> Z.land a (b * 2 ^ k) = 0.
Proof.
  intros Hk Ha. apply Z.bits_inj'. intros n Hn. rewrite Z.land_spec, Z.bits_0.
  destruct (Z.lt_ge_cases n k) as [Hl|Hl].
  - rewrite Z.mul_pow2_bits_low by lia. apply andb_false_r.
  - rewrite (Z.testbit_eqb a n) by lia.
    assert (a < 2 ^ n).
    { apply Z.lt_le_trans with (2 ^ k); [apply Ha|]. apply Z.pow_le_mono_r; [reflexivity|exact Hl]. }
    rewrite (Z.div_small a (2 ^ n)) by (split; [apply Ha|assumption]). reflexivity.
Qed.

Lemma lor_add_disjoint a b k :
  0 <= k -> 0 <= a < 2 ^ k -> Z.lor a (b * 2 ^ k) = a + b * 2 ^ k.
Proof.
  intros Hk Ha. pose proof (land_disjoint a b k Hk Ha) as HL.
  rewrite <- Z.lxor_lor by exact HL. symmetry. apply Z.add_nocarry_lxor. exact HL.
Qed.

Lemma land_ones_mod a k : 0 <= k -> Z.land a (2 ^ k - 1) = a mod 2 ^ k.
Proof. intros; rewrite <- Z.land_ones by lia. f_equal. rewrite Z.ones_equiv. lia. Qed.

Lemma sub_prefix {A} (a b : list A) : sub (a ++ b) 0 (zlen a) = a.
Proof. unfold sub, zlen. rewrite Nat2Z.id. cbn [Z.to_nat skipn]. rewrite firstn_app, Nat.sub_diag, firstn_all. apply app_nil_r. Qed.

Lemma nth_skipn {A} n (l : list A) i d : nth i (skipn n l) d = nth (n + i) l d.
Proof. revert l; induction n as [|n IH]; intros [|x l]; cbn; try reflexivity; [destruct i; reflexivity|apply IH]. Qed.
Lemma nth_firstn {A} n (l : list A) i d : (i < n)%nat -> nth i (firstn n l) d = nth i l d.
Proof.
  revert l i; induction n as [|n IH]; intros [|x l] i H; cbn; try lia; [destruct i; reflexivity|].
  destruct i; [reflexivity|]. apply IH. lia.
Qed.
