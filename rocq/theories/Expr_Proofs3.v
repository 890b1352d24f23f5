(** Values of the virtual machine and the operators on them. *)
From Verif Require Import Base BaseFacts Value_Model Value_Spec Value_Proofs Str_Model Str_Spec Str_Proofs Str_Proofs2 Float_Proofs
  Ops_Model Ops_Spec Ops_Proofs Ops_Proofs2 TokNum_Model Txt_Model Obj_Model Obj_Proofs Vm_Model Vm_Proofs Conv_Model Parse_Model Expr_Spec Run_Spec.
Ltac Zify.zify_post_hook ::= Z.div_mod_to_equations.

(** Representation of values *)
Lemma rep_grows st st' ext v a : grows st st' -> rep st ext v a -> rep st' ext v a.
Proof. intros G. destruct a; cbn [rep]; auto. intros [H B]. split; [eapply holds_grows; eassumption|exact B]. Qed.

(** ** Doubles *)
Lemma dec_nan p : d_isnan p = match d_dec p with S754_nan => true | _ => false end.
Proof.
  unfold d_isnan, d_dec. destruct (d_exp p =? 2047); cbn [andb].
  - destruct (d_man p =? 0); reflexivity.
  - assert (0 <= d_man p) by (unfold d_man; apply Z.mod_pos_bound; lia).
    destruct (d_exp p =? 0); [destruct (d_man p); reflexivity|].
    destruct (d_man p + 2 ^ 52) eqn:E; try reflexivity; lia.
Qed.
Lemma nan_eq p : is_nan p = d_isnan p.
Proof. rewrite dec_nan. reflexivity. Qed.
Lemma canon_eq p : canon p = mk_number p.
Proof. unfold canon, mk_number. rewrite dec_nan. destruct (d_dec p); reflexivity. Qed.
Lemma flip_eq p : flip p = d_neg p.
Proof. unfold flip, d_neg, d_sign. destruct (p <? 2 ^ 63) eqn:E, (2 ^ 63 <=? p) eqn:E2; lia. Qed.
Lemma i64_part p : to_i64 p = match int64_part p with Some n => OK n | None => UB end.
Proof. unfold to_i64, d_to_range, int64_part, int_part, d_trunc, within. destruct (d_dec p); try reflexivity; destruct (_ && _); reflexivity. Qed.
Lemma u32_part p : to_u32 p = match uint32_part p with Some n => OK n | None => UB end.
Proof. unfold to_u32, d_to_range, uint32_part, int_part, d_trunc, within. destruct (d_dec p); try reflexivity; destruct (_ && _); reflexivity. Qed.
Lemma i32_part p : d_to_range (- 2 ^ 31) (2 ^ 31 - 1) p = match int32_part p with Some n => OK n | None => UB end.
Proof. unfold d_to_range, int32_part, int_part, d_trunc, within. destruct (d_dec p); try reflexivity; destruct (_ && _); reflexivity. Qed.
Lemma wrap64_eq n : wrap64 n = Ops_Model.s64 n.
Proof. unfold wrap64, Ops_Model.s64. cbv zeta. destruct (n mod 2 ^ 64 <? 2 ^ 63) eqn:E; lia. Qed.

Lemma num_bin_arith p q op r : In op arith_ops -> num_bin op p q = Some r ->
  exists o, do_arith_op p q op = OK o /\ r = match o with Some d => mk_number d | None => TAG_NAN end.
Proof.
  intros Hin H. unfold num_bin in H. unfold do_arith_op. change nan_num with TAG_NAN in H. rewrite !nan_eq in H.
  destruct (d_isnan p || d_isnan q); [exists None; split; [reflexivity|congruence]|].
  unfold arith_ops in Hin. cbn [In] in Hin.
  repeat match type of Hin with _ \/ _ => destruct Hin as [<-|Hin] | False => destruct Hin end;
  repeat match goal with |- context [?a =? ?b] =>
    let v := eval vm_compute in (a =? b) in
    lazymatch v with true => change (a =? b) with true | false => change (a =? b) with false end end;
  repeat match type of H with context [?a =? ?b] =>
    let v := eval vm_compute in (a =? b) in
    lazymatch v with true => change (a =? b) with true in H | false => change (a =? b) with false in H end end;
  cbv iota in H |- *; rewrite ?canon_eq, ?i64_part, ?u32_part, ?i32_part in *.
  - exists (Some (d_sub p q)). split; [reflexivity|]. cbv iota. unfold d_sub. congruence.
  - exists (Some (d_add p q)). split; [reflexivity|]. cbv iota. unfold d_add. congruence.
  - exists (Some (d_mul p q)). split; [reflexivity|]. cbv iota. unfold d_mul. congruence.
  - change (d_is_zero q) with (is_zero q). destruct (is_zero q); cbn [negb].
    + exists None. split; [reflexivity|congruence].
    + exists (Some (d_div p q)). split; [reflexivity|]. cbv iota. unfold d_div. congruence.
  - destruct (int32_part q) as [y|]; [|discriminate H]. cbn [bind]. destruct (y =? 0); cbn [negb].
    + exists None. split; [reflexivity|congruence].
    + change (d_lt p 0) with (SFltb (d_dec p) (S754_zero false)). cbv zeta in H |- *.
      rewrite ?flip_eq in H. destruct (SFltb (d_dec p) (S754_zero false)).
      * destruct (int64_part (d_neg p)) as [x|]; [|discriminate H]. cbn [bind].
        eexists. split; [reflexivity|]. cbv iota. rewrite ?canon_eq, ?flip_eq in H. unfold of_int in H. unfold d_of_Z. congruence.
      * destruct (int64_part p) as [x|]; [|discriminate H]. cbn [bind].
        eexists. split; [reflexivity|]. cbv iota. rewrite ?canon_eq, ?flip_eq in H. unfold of_int in H. unfold d_of_Z. congruence.
  - unfold int_bin in H. destruct (int64_part p) as [x|], (int64_part q) as [y|]; try discriminate H. cbn [bind option_map] in *.
    eexists. split; [reflexivity|]. cbv iota. rewrite ?canon_eq, ?flip_eq in H. unfold of_int in H. unfold d_of_Z. congruence.
  - unfold int_bin in H. destruct (int64_part p) as [x|], (int64_part q) as [y|]; try discriminate H. cbn [bind option_map] in *.
    eexists. split; [reflexivity|]. cbv iota. rewrite ?canon_eq, ?flip_eq in H. unfold of_int in H. unfold d_of_Z. congruence.
  - unfold int_bin in H. destruct (int64_part p) as [x|], (int64_part q) as [y|]; try discriminate H. cbn [bind option_map] in *.
    eexists. split; [reflexivity|]. cbv iota. rewrite ?canon_eq, ?flip_eq in H. unfold of_int in H. unfold d_of_Z. congruence.
  - unfold int_bin in H. destruct (int64_part q) as [y|]; [|discriminate H]. unfold within in H. destruct ((0 <=? y) && (y <=? 63)) eqn:W; [|discriminate H].
    destruct (int64_part p) as [x|]; [|discriminate H]. cbn [bind option_map] in *. rewrite W.
    eexists. split; [reflexivity|]. cbv iota. rewrite ?canon_eq, ?flip_eq in H. rewrite Z.shiftl_mul_pow2 by lia. rewrite <- wrap64_eq. unfold of_int in H. unfold d_of_Z. congruence.
  - unfold int_bin in H. destruct (int64_part q) as [y|]; [|discriminate H]. unfold within in H. destruct ((0 <=? y) && (y <=? 63)) eqn:W; [|discriminate H].
    destruct (int64_part p) as [x|]; [|discriminate H]. cbn [bind option_map] in *. rewrite W.
    eexists. split; [reflexivity|]. cbv iota. rewrite ?canon_eq, ?flip_eq in H. rewrite Z.shiftr_div_pow2 by lia. unfold of_int in H. unfold d_of_Z. congruence.
  - destruct (uint32_part p) as [x|]; [|discriminate H]. destruct (uint32_part q) as [y|] eqn:Q; [|discriminate H]. cbn [bind] in *.
    assert (0 <= y). { unfold uint32_part, within in Q. destruct (int_part q); [|discriminate Q]. destruct ((0 <=? z) && (z <=? 2 ^ 32 - 1)) eqn:B; [|discriminate Q]. assert (z = y) by congruence. lia. }
    destruct (y <=? 31); [|discriminate H].
    eexists. split; [reflexivity|]. cbv iota. rewrite ?canon_eq, ?flip_eq in H. rewrite Z.shiftr_div_pow2 by lia. unfold of_int in H. unfold d_of_Z. congruence.
Qed.

(** ** Kinds of represented values *)
Definition akind (a : aval) : kind :=
  match a with ANum _ => KNumber | ABool _ => KBoolean | ANull => KNull | AUndef => KUndefined | AStr _ => KString end.
Lemma rep_kind st ext v a : rep st ext v a -> is_u64 v /\ kind_of v = akind a.
Proof.
  destruct a; cbn [rep akind].
  - intros (-> & U & N). split; [exact U|]. destruct (kinds p U) as (K & _). rewrite K in N. destruct (kind_of p); try discriminate N. reflexivity.
  - intros ->. destruct b; (split; [unfold is_u64; vm_compute; intuition congruence|reflexivity]).
  - intros ->. split; [unfold is_u64; vm_compute; intuition congruence|reflexivity].
  - intros ->. split; [unfold is_u64; vm_compute; intuition congruence|reflexivity].
  - intros [(U & K & _) _]. split; [exact U|exact K].
Qed.
Lemma number_nan p : is_u64 p -> is_number p = true -> (p =? TAG_NAN) = d_isnan p.
Proof.
  intros U N. destruct (p =? TAG_NAN) eqn:E; [apply Z.eqb_eq in E; subst; reflexivity|].
  unfold is_number in N. rewrite E in N. cbn [orb] in N. apply negb_true_iff in N. symmetry. exact N.
Qed.
Lemma zero_pattern p : is_u64 p -> is_zero p = (p =? 0) || (p =? 2 ^ 63).
Proof.
  intros U. unfold is_zero. destruct (d_isnan p) eqn:N.
  - pose proof (dec_nan p) as D. rewrite N in D. destruct (d_dec p); try discriminate D.
    destruct ((p =? 0) || (p =? 2 ^ 63)) eqn:E; [|reflexivity]. exfalso. assert (p = 0 \/ p = 2 ^ 63) as [-> | ->] by lia; discriminate N.
  - pose proof (dec_zero p U N) as [D1 D2]. destruct (d_dec p) eqn:E; try (destruct ((p =? 0) || (p =? 2 ^ 63)) eqn:Q; [|reflexivity];
      assert (X : p = 0 \/ p = 2 ^ 63) by lia; destruct (D2 X) as [s' S']; discriminate S').
    assert (X : p = 0 \/ p = 2 ^ 63) by (apply D1; eauto). destruct X as [-> | ->]; reflexivity.
Qed.
Lemma rep_truthy st ext v a : rep st ext v a -> is_truthy st v = OK (truthy a).
Proof.
  intros H. destruct (rep_kind _ _ _ _ H) as [U K]. destruct a; cbn [akind] in K.
  1-4: rewrite truthy_non_string_ok by (try exact U; rewrite K; discriminate); f_equal; unfold truthy_non_string; rewrite K; cbn [truthy rep] in *.
  - destruct H as (-> & _ & N). rewrite (zero_pattern _ U), nan_eq, <- (number_nan _ U N). reflexivity.
  - subst v. destruct b; reflexivity.
  - reflexivity.
  - reflexivity.
  - destruct H as [H _]. rewrite (truthy_string_ok _ _ _ _ H). destruct s; reflexivity.
Qed.
Lemma same_sym_ext a b : same a b = same b a.
Proof.
  destruct a, b; cbn [same]; try reflexivity.
  - destruct (Z.eqb_spec p p0) as [->|]; [rewrite Z.eqb_refl; reflexivity|]. destruct (Z.eqb_spec p0 p); [congruence|reflexivity].
  - destruct b, b0; reflexivity.
  - destruct (list_eq_dec Z.eq_dec s s0), (list_eq_dec Z.eq_dec s0 s); congruence.
Qed.
Lemma rep_equal st ext v w a b : rep st ext v a -> rep st ext w b -> check_equal st ext v w = OK (same a b).
Proof.
  intros Hv Hw. destruct (rep_kind _ _ _ _ Hv) as [Uv Kv]. destruct (rep_kind _ _ _ _ Hw) as [Uw Kw].
  assert (D : (exists s t, a = AStr s /\ b = AStr t) \/ ~ (kind_of v = KString /\ kind_of w = KString)).
  { rewrite Kv, Kw. destruct a, b; cbn [akind]; try (right; intros [? ?]; discriminate); left; eauto. }
  destruct D as [(s & t & -> & ->)|D].
  - destruct Hv as [Hv _], Hw as [Hw _]. rewrite (equal_strings _ _ _ _ _ _ Hv Hw). f_equal. cbn [same].
    destruct (bytes_eqb s t) eqn:E, (list_eq_dec Z.eq_dec s t) as [Q|Q]; try reflexivity.
    + exfalso. apply Q. apply bytes_eqb_eq. exact E.
    + subst. assert (bytes_eqb t t = true) by (apply bytes_eqb_eq; reflexivity). congruence.
  - destruct (equal_others st ext v w Uv Uw D) as (r & -> & Hr). f_equal.
    assert (Nf : forall x, kind_of x <> KForeign -> x <> 65522 * 2 ^ 48) by (intros x Hx ->; apply Hx; reflexivity).
    assert (F : r = true <-> v = w /\ v <> TAG_NAN).
    { rewrite Hr. split.
      - intros [H|[[-> _]|[_ ->]]]; [exact H| |]; exfalso.
        + destruct a; discriminate Kv.
        + destruct b; discriminate Kw.
      - intros H. left. exact H. }
    assert (G : same a b = true <-> v = w /\ v <> TAG_NAN).
    { destruct a, b; cbn [same rep] in *; try (split; [intros X; discriminate X|intros [X _]; exfalso; rewrite X, Kw in Kv; discriminate Kv]).
      - destruct Hv as (-> & U & N), Hw as (-> & U2 & N2). rewrite nan_eq, <- (number_nan _ U N).
        rewrite andb_true_iff, negb_true_iff. lia.
      - subst. destruct b, b0; vm_compute; intuition congruence.
      - subst. split; [intros _; split; [reflexivity|vm_compute; discriminate]|reflexivity].
      - subst. split; [intros _; split; [reflexivity|vm_compute; discriminate]|reflexivity].
      - exfalso. apply D. rewrite Kv, Kw. split; reflexivity. }
    destruct r, (same a b); try reflexivity.
    + symmetry. apply G. apply F. reflexivity.
    + apply F. apply G. reflexivity.
Qed.
Lemma rep_type st ext v a : rep st ext v a -> exists t, get_type v = OK t /\ type_text t = type_name a.
Proof.
  intros H. destruct (rep_kind _ _ _ _ H) as [U K]. destruct a; cbn [rep type_name] in *.
  - destruct H as (-> & _ & N). unfold get_type. rewrite N. exists TyNumber. split; reflexivity.
  - subst. destruct b; (exists TyBoolean; split; reflexivity).
  - subst. exists TyNull. split; reflexivity.
  - subst. exists TyUndefined. split; reflexivity.
  - exists TyString. split; [|reflexivity]. destruct (kinds v U) as (K1 & _ & _ & K4 & _). rewrite K in K1, K4. cbn [kind_eqb akind] in K1, K4.
    unfold get_type. rewrite K1. unfold is_string in K4. rewrite Z.shiftr_div_pow2 by lia.
    assert (L : Z.land v TAG_MASK = (v / 2 ^ 48) * 2 ^ 48) by (apply land_mask; exact U).
    rewrite L in *. rewrite Z.div_mul by lia. unfold TAG_STRING_I, TAG_STRING_F, TAG_STRING_O, TAG_STRING_5, TAG_STRING_D in K4.
    set (h := v / 2 ^ 48) in *.
    assert (C : h = 65526 \/ h = 65527 \/ h = 65528 \/ h = 65529 \/ h = 65531).
    { clear - K4. lia. }
    destruct C as [-> |[-> |[-> |[-> | ->]]]]; reflexivity.
Qed.

(** ** Room for a concatenation *)
Lemma src_room st n st' v : mk_string_src st None n = OK (st', v) -> 0 <= n < 2 ^ 63 -> zlen (so st') <= zlen (so st) + n + 11 /\ 0 <= v.
Proof.
  unfold mk_string_src. intros H Hn. destruct (negb _); [discriminate H|].
  destruct (n <=? 4).
  { assert (st' = st /\ v = Z.lor (untag (le_val (n :: repeat 0 (Z.to_nat n)))) TAG_STRING_I) as [-> ->] by (split; congruence).
    split; [lia|]. apply Z.lor_nonneg. split; [apply Z.land_nonneg; right; lia|unfold TAG_STRING_I; lia]. }
  destruct (n =? 5).
  { assert (st' = st /\ v = Z.lor (untag (le_val (repeat 0 (Z.to_nat n)))) TAG_STRING_5) as [-> ->] by (split; congruence).
    split; [lia|]. apply Z.lor_nonneg. split; [apply Z.land_nonneg; right; lia|unfold TAG_STRING_5; lia]. }
  cbv zeta in H.
  assert (so st' = so st ++ embed_bytes None n /\ v = Z.lor (untag (zlen (so st))) TAG_STRING_O) as [-> ->] by (split; [|congruence]; injection H as <- _; reflexivity).
  split; [|apply Z.lor_nonneg; split; [apply Z.land_nonneg; right; lia|unfold TAG_STRING_O; lia]].
  unfold embed_bytes. rewrite !zlen_app. destruct (Varint_Proofs.varint_len_u64 n) as [L1 L2]; [unfold is_u64; lia|].
  change (zlen [0]) with 1. unfold zlen at 3. rewrite repeat_length. lia.
Qed.
Lemma write_room st v l d st' v' : loc_write st v l d = OK (st', v') -> (forall o, l = POwn o -> 0 <= o) -> zlen (so st') = zlen (so st).
Proof.
  intros H Hl. destruct l as [|o|o|a]; cbn [loc_write] in H.
  - destruct (zlen d =? 0); [|discriminate H]. assert (st' = st) by congruence. subst. reflexivity.
  - destruct (o + zlen d <=? 8); [|discriminate H]. assert (st' = st) by congruence. subst. reflexivity.
  - destruct (o + zlen d <=? zlen (so st)) eqn:E; [|discriminate H].
    assert (S : so st' = blit (so st) o d) by (injection H as <- _; reflexivity). rewrite S. apply blit_length; [apply Hl; reflexivity|lia].
  - discriminate H.
Qed.
Lemma concat_room st ext a b da db st' v : holds st ext a da -> holds st ext b db -> zlen da + zlen db < 2 ^ 63 ->
  s_concat st ext a b = OK (st', v) -> zlen (so st') <= zlen (so st) + (zlen da + zlen db) + 11.
Proof.
  intros (_ & _ & la & A1 & _) (_ & _ & lb & B1 & _) Hn H. pose proof (zlen_nonneg da). pose proof (zlen_nonneg db).
  unfold s_concat in H. rewrite A1, B1 in H. cbn [bind] in H.
  apply bind_ok in H. destruct H as [[st1 res] [E1 H]]. destruct (src_room _ _ _ _ E1 ltac:(lia)) as [R1 P1].
  apply bind_ok in H. destruct H as [[la1 na1] [E2 H]]. apply bind_ok in H. destruct H as [[lb1 nb1] [E3 H]].
  apply bind_ok in H. destruct H as [[lr nr] [E4 H]].
  apply bind_ok in H. destruct H as [xa [E5 H]]. apply bind_ok in H. destruct H as [[st2 res2] [E6 H]].
  apply bind_ok in H. destruct H as [xb [E7 H]].
  assert (Hlr : forall o, lr = POwn o -> 0 <= o) by (intros o ->; exact (get_string_own_nonneg st1 res o nr P1 E4)).
  rewrite (write_room _ _ _ _ _ _ H).
  - rewrite (write_room _ _ _ _ _ _ E6 Hlr). lia.
  - intros o Ho. destruct lr as [|zo|zo|zo]; try discriminate Ho. cbn [loc_add] in Ho. assert (o = zo + na1) by congruence. subst o.
    pose proof (Hlr _ eq_refl).
    assert (0 <= na1). { destruct (Z.le_gt_cases 0 na1); [assumption|exfalso]. unfold loc_read in E5. destruct la1; try discriminate E5.
      - destruct (na1 =? 0) eqn:Q; [lia|discriminate].
      - destruct (0 <=? na1) eqn:Q; [lia|discriminate].
      - destruct (0 <=? na1) eqn:Q; [lia|discriminate].
      - destruct (0 <=? na1) eqn:Q; [lia|discriminate]. }
    lia.
Qed.
