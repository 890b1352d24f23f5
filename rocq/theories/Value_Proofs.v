From Verif Require Import Base BaseFacts Value_Model Value_Spec.
Ltac Zify.zify_post_hook ::= Z.div_mod_to_equations.

Lemma tags_make :
  [TAG_OBJECT; TAG_FOREIGN; TAG_UNDEFINED; TAG_BOOLEAN; TAG_NAN; TAG_STRING_I; TAG_STRING_5;
   TAG_STRING_O; TAG_STRING_F; TAG_STRING_C; TAG_STRING_D; TAG_ARRAY; TAG_FUNCTION;
   TAG_FUNCTION_FFI; TAG_NULL] = map (make_tag 1) [1;2;3;4;5;6;7;8;9;10;11;12;13;14;15].
Proof. vm_compute. reflexivity. Qed.

Lemma land_mask v : is_u64 v -> Z.land v TAG_MASK = v / 2 ^ 48 * 2 ^ 48.
Proof.
  intros H. unfold is_u64 in H. apply Z.bits_inj'. intros n Hn. rewrite Z.land_spec.
  unfold TAG_MASK. destruct (Z.lt_ge_cases n 48).
  - rewrite !Z.mul_pow2_bits_low by lia. apply andb_false_r.
  - rewrite !Z.mul_pow2_bits by lia. rewrite Z.div_pow2_bits by lia.
    replace (n - 48 + 48) with n by lia.
    change 65535 with (Z.ones 16). destruct (Z.lt_ge_cases (n - 48) 16).
    + rewrite Z.ones_spec_low by lia. apply andb_true_r.
    + rewrite Z.ones_spec_high by lia. rewrite andb_false_r. symmetry.
      rewrite Z.testbit_eqb by lia. rewrite Z.div_small; [reflexivity|].
      split; [lia|]. apply Z.lt_le_trans with (2 ^ 64); [lia|]. apply Z.pow_le_mono_r; lia.
Qed.

Lemma land_tag_eqb v k : is_u64 v -> (Z.land v TAG_MASK =? k * 2 ^ 48) = (v / 2 ^ 48 =? k).
Proof. intros H. rewrite land_mask by exact H. destruct (v / 2 ^ 48 =? k) eqn:E; lia. Qed.

Lemma untag_mod v : untag v = v mod 2 ^ 48.
Proof. unfold untag. apply land_ones_mod. lia. Qed.
Lemma get_ptr_raw_mod v : get_ptr_raw v = v mod 2 ^ 48.
Proof. apply untag_mod. Qed.

Lemma lor_tag p k : 0 <= p < 2 ^ 48 -> Z.lor p (k * 2 ^ 48) = p + k * 2 ^ 48.
Proof. intros. apply lor_add_disjoint; lia. Qed.

(** The NaN test in terms of top bits. *)
Lemma isnan_iff b : is_u64 b ->
  d_isnan b = ((32752 * 2 ^ 48 <? b) && (b <? 2 ^ 63)) || (65520 * 2 ^ 48 <? b).
Proof.
  intros H. unfold is_u64 in H. unfold d_isnan, d_exp, d_man.
  change (2 ^ 11) with 2048. change (2 ^ 52) with 4503599627370496 in *.
  change (2 ^ 63) with 9223372036854775808 in *. change (2 ^ 48) with 281474976710656 in *.
  change (2 ^ 64) with 18446744073709551616 in *.
  lia.
Qed.

Lemma isnan_spec b : is_u64 b -> (d_isnan b = true <-> ieee_nan b).
Proof.
  intros H. rewrite isnan_iff by exact H. unfold ieee_nan, is_u64 in *. split.
  - intros E. destruct (Z.lt_ge_cases b (2 ^ 63)).
    + exists 0, (b - 2047 * 2 ^ 52). lia.
    + exists 1, (b - 2 ^ 63 - 2047 * 2 ^ 52). lia.
  - intros (s & m & [->| ->] & Hm & ->); lia.
Qed.

Ltac unfold_tags := unfold V_NULL, V_UNDEFINED, TAG_OBJECT, TAG_FOREIGN, TAG_UNDEFINED, TAG_BOOLEAN, TAG_NAN,
  TAG_STRING_I, TAG_STRING_5, TAG_STRING_O, TAG_STRING_F, TAG_STRING_C, TAG_STRING_D, TAG_ARRAY,
  TAG_FUNCTION, TAG_FUNCTION_FFI, TAG_NULL.

(** Predicates by top 16 bits. *)
Lemma is_number_hi v : is_u64 v ->
  is_number v = (v =? 65525 * 2 ^ 48) || (v <=? 32752 * 2 ^ 48) || ((2 ^ 63 <=? v) && (v <=? 65520 * 2 ^ 48)).
Proof.
  intros H. unfold is_number, get_double. rewrite isnan_iff by exact H. unfold TAG_NAN. lia.
Qed.
Lemma is_boolean_hi v : is_u64 v -> is_boolean v = (v / 2 ^ 48 =? 65524).
Proof. intros; apply land_tag_eqb; assumption. Qed.
Lemma is_foreign_hi v : is_u64 v -> is_foreign v = (v / 2 ^ 48 =? 65522).
Proof. intros; apply land_tag_eqb; assumption. Qed.
Lemma is_function_hi v : is_u64 v -> is_function v = (v / 2 ^ 48 =? 65533).
Proof. intros; apply land_tag_eqb; assumption. Qed.
Lemma is_array_hi v : is_u64 v -> is_array v = (v / 2 ^ 48 =? 65532).
Proof. intros; apply land_tag_eqb; assumption. Qed.
Lemma is_ffi_hi v : is_u64 v -> is_ffi_sig v = (v / 2 ^ 48 =? 65534).
Proof. intros; apply land_tag_eqb; assumption. Qed.
Lemma is_object_hi v : is_u64 v -> is_object v = (v / 2 ^ 48 =? 65521) || (v / 2 ^ 48 =? 65532).
Proof. intros. unfold is_object, TAG_OBJECT, TAG_ARRAY. rewrite !land_tag_eqb by assumption. reflexivity. Qed.
Lemma is_string_hi v : is_u64 v ->
  is_string v = (65526 <=? v / 2 ^ 48) && (v / 2 ^ 48 <=? 65531) && negb (v / 2 ^ 48 =? 65530).
Proof.
  intros. unfold is_string. cbv zeta. unfold TAG_STRING_I, TAG_STRING_F, TAG_STRING_O, TAG_STRING_5, TAG_STRING_D.
  rewrite !land_tag_eqb by assumption. set (h := v / 2 ^ 48). clearbody h. lia.
Qed.

(** The nine predicates as the list of those that hold. *)
Definition preds (v : Z) : list (kind * bool) :=
  [ (KNumber, is_number v); (KBoolean, is_boolean v); (KNull, is_null v);
    (KUndefined, is_undefined v); (KString, is_string v);
    (KObject, is_object v && negb (is_array v)); (KArray, is_array v);
    (KForeign, is_foreign v); (KFunction, is_function v); (KFfi, is_ffi_sig v) ].

Lemma hi_cases h : 65520 <= h < 65536 ->
  h = 65520 \/ h = 65521 \/ h = 65522 \/ h = 65523 \/ h = 65524 \/ h = 65525 \/ h = 65526 \/
  h = 65527 \/ h = 65528 \/ h = 65529 \/ h = 65530 \/ h = 65531 \/ h = 65532 \/ h = 65533 \/
  h = 65534 \/ h = 65535.
Proof. lia. Qed.

Definition kind_eqb (a b : kind) : bool :=
  match a, b with
  | KNumber, KNumber | KBoolean, KBoolean | KNull, KNull | KUndefined, KUndefined
  | KString, KString | KObject, KObject | KArray, KArray | KForeign, KForeign
  | KFunction, KFunction | KFfi, KFfi | KNone, KNone => true
  | _, _ => false
  end.

(** Each predicate is exactly the corresponding kind. *)
Lemma preds_kind v : is_u64 v ->
  is_number v = kind_eqb (kind_of v) KNumber /\
  is_boolean v = kind_eqb (kind_of v) KBoolean /\
  is_null v = kind_eqb (kind_of v) KNull /\
  is_undefined v = kind_eqb (kind_of v) KUndefined /\
  is_string v = kind_eqb (kind_of v) KString /\
  is_object v = kind_eqb (kind_of v) KObject || kind_eqb (kind_of v) KArray /\
  is_array v = kind_eqb (kind_of v) KArray /\
  is_foreign v = kind_eqb (kind_of v) KForeign /\
  is_function v = kind_eqb (kind_of v) KFunction /\
  is_ffi_sig v = kind_eqb (kind_of v) KFfi.
Proof.
  intros H. rewrite is_number_hi, is_boolean_hi, is_string_hi, is_object_hi, is_array_hi,
    is_foreign_hi, is_function_hi, is_ffi_hi by exact H.
  unfold is_null, is_undefined. unfold_tags. unfold kind_of, is_u64 in *.
  change (2 ^ 63) with (32768 * 2 ^ 48).
  pose proof (Z.div_mod v (2 ^ 48) ltac:(lia)) as Hv.
  pose proof (Z.mod_pos_bound v (2 ^ 48) ltac:(lia)) as Hl.
  set (h := v / 2 ^ 48) in *. set (l := v mod 2 ^ 48) in *. clearbody h l.
  change (2 ^ 64) with (65536 * 2 ^ 48) in H. set (P := 2 ^ 48) in *.
  assert (HP : P = 281474976710656) by reflexivity. clearbody P. cbv zeta.
  assert (Hh : 0 <= h < 65536) by nia.
  destruct (h <? 65520) eqn:E1.
  - destruct ((h <? 32752) || (32768 <=? h)) eqn:E2.
    + cbn [kind_eqb orb]. repeat split; lia.
    + destruct (v =? 32752 * P) eqn:E3; cbn [kind_eqb orb]; repeat split; lia.
  - destruct (hi_cases h ltac:(lia)) as [E|[E|[E|[E|[E|[E|[E|[E|[E|[E|[E|[E|[E|[E|[E|E]]]]]]]]]]]]]]];
    rewrite E in *;
    match goal with |- context [?a - 65520] =>
      let x := eval vm_compute in (a - 65520) in change (a - 65520) with x end;
    cbv iota;
    try (destruct (l =? 0) eqn:E3); cbn [kind_eqb orb]; repeat split; lia.
Qed.

Lemma preds_exclusive v : is_u64 v ->
  (length (filter (fun p => snd p) (preds v)) <= 1)%nat.
Proof.
  intros H. destruct (preds_kind v H) as (H1 & H2 & H3 & H4 & H5 & H6 & H7 & H8 & H9 & H10).
  unfold preds. rewrite H1, H2, H3, H4, H5, H6, H7, H8, H9, H10.
  destruct (kind_of v); cbn; lia.
Qed.

Lemma preds_sound v k : is_u64 v -> (In (k, true) (preds v) <-> (kind_of v = k /\ k <> KNone)).
Proof.
  intros H. destruct (preds_kind v H) as (H1 & H2 & H3 & H4 & H5 & H6 & H7 & H8 & H9 & H10).
  unfold preds. rewrite H1, H2, H3, H4, H5, H6, H7, H8, H9, H10.
  destruct (kind_of v); cbn; split; intros X;
    repeat match goal with
    | X : _ \/ _ |- _ => destruct X as [X|X]
    | X : (_, _) = (_, _) |- _ => inversion X; clear X; subst
    | X : _ /\ _ |- _ => destruct X as [X ?]
    | X : False |- _ => destruct X
    end; subst; try (split; congruence); try congruence; auto 20.
Qed.

(** Constructors. *)
Lemma mk_number_u64 d : is_u64 d -> is_u64 (mk_number d).
Proof. unfold mk_number, is_u64, TAG_NAN. destruct (d_isnan d); lia. Qed.

Lemma number_boxing d : is_u64 d ->
  (d_isnan d = false -> get_double (mk_number d) = d) /\
  (d_isnan d = true -> get_double (mk_number d) = TAG_NAN /\ d_isnan (mk_number d) = true) /\
  kind_of (mk_number d) = KNumber.
Proof.
  intros H. split; [intros E; unfold mk_number, get_double; rewrite E; reflexivity|].
  split; [intros E; unfold mk_number, get_double; rewrite E; split; reflexivity|].
  pose proof (preds_kind (mk_number d) (mk_number_u64 d H)) as [Hn _].
  assert (is_number (mk_number d) = true) as Ht.
  { unfold is_number, mk_number, get_double. destruct (d_isnan d) eqn:E; [reflexivity|].
    rewrite E. apply orb_true_r. }
  rewrite Ht in Hn. revert Hn. destruct (kind_of (mk_number d)); cbn [kind_eqb]; intros Hn; (reflexivity || discriminate Hn).
Qed.

Lemma div_tag p k : 0 <= p < 2 ^ 48 -> (p + k * 2 ^ 48) / 2 ^ 48 = k.
Proof. intros. rewrite Z.div_add by lia. rewrite Z.div_small by lia. lia. Qed.
Lemma mod_tag p k : 0 <= p < 2 ^ 48 -> (p + k * 2 ^ 48) mod 2 ^ 48 = p.
Proof. intros. rewrite Z.mod_add by lia. apply Z.mod_small; lia. Qed.
Lemma tag_u64 p k : 0 <= p < 2 ^ 48 -> 0 <= k < 65536 -> is_u64 (p + k * 2 ^ 48).
Proof. unfold is_u64. change (2 ^ 64) with (65536 * 2 ^ 48). intros. nia. Qed.

Lemma mk_boolean_val b : mk_boolean b = (if b then 1 else 0) + 65524 * 2 ^ 48.
Proof. destruct b; vm_compute; reflexivity. Qed.
Lemma boolean_round_trip b : get_bool (mk_boolean b) = b /\ kind_of (mk_boolean b) = KBoolean.
Proof. destruct b; vm_compute; split; reflexivity. Qed.

Lemma mk_function_val off : 0 <= off < 2 ^ 48 -> mk_function off = off + 65533 * 2 ^ 48.
Proof. intros. apply lor_tag; assumption. Qed.

Lemma kind_tagged p k : 0 <= p < 2 ^ 48 -> 65520 <= k < 65536 ->
  kind_of (p + k * 2 ^ 48) =
  match k - 65520 with
  | 0 => if p =? 0 then KNumber else KNone
  | 1 => KObject
  | 2 => KForeign
  | 3 => if p =? 0 then KUndefined else KNone
  | 4 => KBoolean
  | 5 => if p =? 0 then KNumber else KNone
  | 6 | 7 | 8 | 9 | 11 => KString
  | 10 => KNone
  | 12 => KArray
  | 13 => KFunction
  | 14 => KFfi
  | _ => if p =? 0 then KNull else KNone
  end.
Proof.
  intros. unfold kind_of. cbv zeta. rewrite div_tag, mod_tag by assumption.
  replace (k <? 65520) with false by lia. reflexivity.
Qed.

Lemma function_round_trip off : 0 <= off < 2 ^ 48 ->
  get_func_addr (mk_function off) = off /\ kind_of (mk_function off) = KFunction.
Proof.
  intros. rewrite mk_function_val by assumption. unfold get_func_addr. rewrite untag_mod, mod_tag by assumption.
  split; [reflexivity|]. rewrite kind_tagged by lia. reflexivity.
Qed.

Lemma ptr_legit_iff p : is_u64 p -> ptr_legit p = (p <? 2 ^ 48) || (65535 * 2 ^ 48 <=? p).
Proof.
  intros H. unfold ptr_legit. rewrite land_mask by exact H. unfold TAG_MASK, is_u64 in *. lia.
Qed.

Lemma foreign_round_trip p : is_u64 p ->
  (p < 2 ^ 48 -> let '(v, e) := mk_foreign p in e = false /\ get_ptr v = p /\ kind_of v = KForeign) /\
  (2 ^ 48 <= p < 65535 * 2 ^ 48 -> snd (mk_foreign p) = true).
Proof.
  intros H. split.
  - intros Hp. unfold mk_foreign, pointer_to_value. rewrite ptr_legit_iff by exact H.
    unfold is_u64 in H. split; [lia|].
    rewrite untag_mod, Z.mod_small by lia. unfold TAG_FOREIGN. rewrite lor_tag by lia.
    unfold get_ptr. rewrite is_foreign_hi by (apply tag_u64; lia). rewrite div_tag by lia.
    change (65522 =? 65522) with true. cbn [negb]. rewrite get_ptr_raw_mod, mod_tag by lia.
    split; [reflexivity|]. rewrite kind_tagged by lia. reflexivity.
  - intros Hp. unfold mk_foreign, pointer_to_value. cbn [snd]. rewrite ptr_legit_iff by exact H. lia.
Qed.

Lemma object_value p : 0 < p < 2 ^ 48 ->
  object_to_value p = OK (p + 65521 * 2 ^ 48) /\
  get_object_struct (p + 65521 * 2 ^ 48) = OK p /\
  get_object_struct (array_of_object (p + 65521 * 2 ^ 48)) = OK p /\
  kind_of (p + 65521 * 2 ^ 48) = KObject /\
  kind_of (array_of_object (p + 65521 * 2 ^ 48)) = KArray.
Proof.
  intros H. unfold object_to_value, legit_pointer_to_value. replace (p =? 0) with false by lia.
  rewrite ptr_legit_iff by (unfold is_u64; lia). replace (p <? 2 ^ 48) with true by lia.
  cbn [orb bind]. rewrite untag_mod, Z.mod_small by lia. unfold TAG_OBJECT. rewrite lor_tag by lia.
  split; [reflexivity|]. unfold array_of_object. rewrite untag_mod, mod_tag by lia.
  unfold TAG_ARRAY. rewrite lor_tag by lia.
  assert (U1 : is_u64 (p + 65521 * 2 ^ 48)) by (apply tag_u64; lia).
  assert (U2 : is_u64 (p + 65532 * 2 ^ 48)) by (apply tag_u64; lia).
  unfold get_object_struct. rewrite !is_object_hi by assumption. rewrite !div_tag by lia.
  rewrite !get_ptr_raw_mod, !mod_tag by lia. unfold is_null. unfold_tags.
  replace (p + 65521 * 2 ^ 48 =? 65535 * 2 ^ 48) with false by lia.
  replace (p + 65532 * 2 ^ 48 =? 65535 * 2 ^ 48) with false by lia.
  cbn [Z.eqb Pos.eqb orb]. rewrite !kind_tagged by lia. repeat split; reflexivity.
Qed.

Lemma ffi_value p : 0 < p < 2 ^ 48 ->
  ffi_sig_to_value p = OK (p + 65534 * 2 ^ 48) /\ kind_of (p + 65534 * 2 ^ 48) = KFfi.
Proof.
  intros H. unfold ffi_sig_to_value, legit_pointer_to_value. replace (p =? 0) with false by lia.
  rewrite ptr_legit_iff by (unfold is_u64; lia). replace (p <? 2 ^ 48) with true by lia.
  cbn [orb bind]. rewrite untag_mod, Z.mod_small by lia. unfold TAG_FUNCTION_FFI. rewrite lor_tag by lia.
  split; [reflexivity|]. rewrite kind_tagged by lia. reflexivity.
Qed.

(** mjs_get_type agrees with the kind; it aborts exactly on FFI functions and on
    patterns that mean nothing, apart from tagged junk of null and undefined. *)
Definition type_kind (t : mtype) : kind :=
  match t with TyUndefined => KUndefined | TyNull => KNull | TyBoolean => KBoolean
  | TyNumber => KNumber | TyString => KString | TyForeign => KForeign | TyObject => KObject
  | TyArray => KArray | TyFunction => KFunction end.

Lemma get_type_agrees v t : is_u64 v -> kind_of v = type_kind t -> get_type v = OK t.
Proof.
  intros H Hk. destruct (preds_kind v H) as (H1 & _). unfold get_type. rewrite H1, Hk.
  destruct (kind_eqb (type_kind t) KNumber) eqn:En.
  { destruct t; try discriminate En. reflexivity. }
  rewrite land_mask by exact H.
  assert (Hs : Z.shiftr (v / 2 ^ 48 * 2 ^ 48) 48 = v / 2 ^ 48).
  { rewrite Z.shiftr_div_pow2 by lia. apply Z.div_mul. lia. }
  rewrite Hs. cbv zeta. unfold kind_of, is_u64 in *. cbv zeta in Hk.
  set (h := v / 2 ^ 48) in *. set (l := v mod 2 ^ 48) in *.
  assert (Hh : 0 <= h < 65536) by (subst h; clear -H; lia).
  clearbody h l. clear Hs H1.
  destruct (h <? 65520) eqn:E1.
  { destruct ((h <? 32752) || (32768 <=? h)); [destruct t; discriminate|].
    destruct (v =? 32752 * 2 ^ 48); destruct t; discriminate. }
  clear H.
  destruct (hi_cases h ltac:(lia)) as [E|[E|[E|[E|[E|[E|[E|[E|[E|[E|[E|[E|[E|[E|[E|E]]]]]]]]]]]]]]];
    subst h;
    match type of Hk with context [?a - 65520] =>
      let x := eval vm_compute in (a - 65520) in change (a - 65520) with x in Hk end;
    cbv iota in Hk; destruct (l =? 0); destruct t; try discriminate Hk; try discriminate En; reflexivity.
Qed.

Lemma get_type_ffi_aborts v : is_u64 v -> kind_of v = KFfi -> get_type v = Abort.
Proof.
  intros H Hk. destruct (preds_kind v H) as (H1 & _ & _ & _ & _ & _ & _ & _ & _ & H10).
  unfold get_type. rewrite H1, Hk. cbn [kind_eqb]. rewrite Hk, is_ffi_hi in H10 by exact H. cbn [kind_eqb] in H10.
  rewrite land_mask by exact H. rewrite Z.shiftr_div_pow2 by lia. rewrite Z.div_mul by lia.
  apply Z.eqb_eq in H10. rewrite H10. reflexivity.
Qed.

(** Decoding and encoding doubles are inverse on everything but NaNs. *)
Lemma sbit_split b : is_u64 b ->
  b = sbit (d_sign b) + d_exp b * 2 ^ 52 + d_man b /\ 0 <= d_exp b < 2048 /\ 0 <= d_man b < 2 ^ 52.
Proof.
  intros H. unfold is_u64, sbit, d_sign, d_exp, d_man in *.
  change (2 ^ 11) with 2048. change (2 ^ 52) with 4503599627370496 in *.
  change (2 ^ 63) with 9223372036854775808 in *. change (2 ^ 64) with 18446744073709551616 in *.
  destruct (9223372036854775808 <=? b) eqn:E; lia.
Qed.

Lemma enc_dec b : is_u64 b -> d_isnan b = false -> d_enc (d_dec b) = b.
Proof.
  intros H Hn. destruct (sbit_split b H) as (Hb & He & Hm). unfold d_isnan in Hn. unfold d_dec. cbv zeta.
  destruct (d_exp b =? 2047) eqn:E1.
  - destruct (d_man b =? 0) eqn:E2; [|discriminate Hn]. cbn [d_enc]. lia.
  - destruct (d_exp b =? 0) eqn:E2.
    + destruct (d_man b) as [|m|m] eqn:E3; [cbn [d_enc]; lia| |lia].
      cbn [d_enc]. replace (Z.pos m <? 2 ^ 52) with true by lia. lia.
    + destruct (d_man b + 2 ^ 52) as [|m|m] eqn:E3; [lia| |lia].
      cbn [d_enc]. replace (Z.pos m <? 2 ^ 52) with false by lia. rewrite <- E3. lia.
Qed.

Lemma digits2_bounds m : 2 ^ (Z.pos (digits2_pos m) - 1) <= Z.pos m < 2 ^ Z.pos (digits2_pos m).
Proof.
  induction m as [m IH|m IH|]; cbn [digits2_pos]; [| |cbn; lia];
    rewrite Pos2Z.inj_succ; replace (Z.succ (Z.pos (digits2_pos m)) - 1) with (Z.pos (digits2_pos m)) by lia;
    rewrite Z.pow_succ_r by lia;
    replace (Z.pos (digits2_pos m)) with (Z.succ (Z.pos (digits2_pos m) - 1)) at 1 by lia;
    rewrite Z.pow_succ_r by lia; lia.
Qed.

Lemma digits2_unique m n : 0 <= n -> 2 ^ n <= Z.pos m < 2 ^ (n + 1) -> Z.pos (digits2_pos m) = n + 1.
Proof.
  intros Hn H. pose proof (digits2_bounds m) as B.
  destruct (Z.lt_trichotomy (Z.pos (digits2_pos m)) (n + 1)) as [L|[E|G]]; [|exact E|].
  - assert (2 ^ Z.pos (digits2_pos m) <= 2 ^ n) by (apply Z.pow_le_mono_r; lia). lia.
  - assert (2 ^ (n + 1) <= 2 ^ (Z.pos (digits2_pos m) - 1)) by (apply Z.pow_le_mono_r; lia). lia.
Qed.

Lemma dec_valid b : is_u64 b -> valid_binary 53 1024 (d_dec b) = true.
Proof.
  intros H. destruct (sbit_split b H) as (Hb & He & Hm). unfold d_dec. cbv zeta.
  destruct (d_exp b =? 2047) eqn:E1; [destruct (d_man b =? 0); reflexivity|].
  destruct (d_exp b =? 0) eqn:E2.
  - destruct (d_man b) as [|m|m] eqn:E3; [reflexivity| |reflexivity].
    cbn [valid_binary]. unfold bounded, canonical_mantissa, fexp, emin.
    assert (Z.pos (digits2_pos m) <= 52).
    { pose proof (digits2_bounds m). destruct (Z.le_gt_cases (Z.pos (digits2_pos m)) 52); [assumption|].
      assert (2 ^ 52 <= 2 ^ (Z.pos (digits2_pos m) - 1)) by (apply Z.pow_le_mono_r; lia). lia. }
    apply andb_true_iff; split; [apply Zeq_is_eq_bool; lia|apply Zle_imp_le_bool; lia].
  - destruct (d_man b + 2 ^ 52) as [|m|m] eqn:E3; [reflexivity| |reflexivity].
    cbn [valid_binary]. unfold bounded, canonical_mantissa, fexp, emin.
    pose proof (digits2_unique m 52 ltac:(lia) ltac:(rewrite <- E3; lia)).
    apply andb_true_iff; split; [apply Zeq_is_eq_bool; lia|apply Zle_imp_le_bool; lia].
Qed.

(** mjs_normalize_idx (C48). *)
Lemma normalize_idx_spec idx size :
  - 2 ^ 31 <= idx < 2 ^ 31 -> 0 <= size < 2 ^ 31 ->
  normalize_idx idx size = OK (Z.max 0 (Z.min size (if idx <? 0 then size + idx else idx))).
Proof.
  intros Hi Hs. unfold normalize_idx.
  destruct (idx <? 0) eqn:E.
  - replace ((size + idx <? - 2 ^ 31) || (2 ^ 31 <=? size + idx)) with false by lia.
    destruct (size + idx <? 0) eqn:E1.
    + destruct (0 >? size) eqn:E2; f_equal; lia.
    + destruct (size + idx >? size) eqn:E2; f_equal; lia.
  - destruct (idx >? size) eqn:E2; f_equal; lia.
Qed.
