(** C04-C06, C48: boxed values. *)
From Verif Require Import Base BaseFacts Value_Model Value_Spec Value_Proofs Float_Proofs.

(** C04: a double survives boxing bit for bit unless it is a NaN; every NaN becomes
    the one JS NaN; the box is a number and nothing else. *)
Theorem number_round_trip : forall d, is_u64 d ->
  (~ ieee_nan d -> get_double (mk_number d) = d) /\
  (ieee_nan d -> get_double (mk_number d) = TAG_NAN /\ ieee_nan (get_double (mk_number d))) /\
  kind_of (mk_number d) = KNumber.
Proof.
  intros d H. destruct (number_boxing d H) as (H1 & H2 & H3).
  pose proof (isnan_spec d H) as Hi. split; [|split; [|exact H3]].
  - intros Hn. apply H1. destruct (d_isnan d) eqn:E; [|reflexivity]. destruct Hn. apply Hi. reflexivity.
  - intros Hn. apply Hi in Hn. destruct (H2 Hn) as [E1 E2]. split; [exact E1|].
    apply isnan_spec; [apply mk_number_u64; exact H|exact E2].
Qed.
Print Assumptions number_round_trip.

(** Integers of 32 bits travel through values exactly; mjs_get_int of a negative
    number is undefined behaviour in C (conversion of an out-of-range double). *)
Theorem small_integers_round_trip : forall n, 0 <= n < 2 ^ 32 ->
  get_int (mk_number (d_of_Z n)) = OK (s32 n).
Proof. exact int_round_trip. Qed.
Print Assumptions small_integers_round_trip.
Theorem get_int_of_negative_refuted :
  exists n, - 2 ^ 31 <= n < 2 ^ 31 /\ get_int (mk_number (d_of_Z n)) = UB.
Proof. exists (-1). split; [lia|]. apply int_negative_ub. lia. Qed.
Print Assumptions get_int_of_negative_refuted.

(** C05: the type predicates are exactly the kinds, so at most one holds. *)
Theorem predicates_are_kinds : forall v, is_u64 v ->
  is_number v = kind_eqb (kind_of v) KNumber /\
  is_boolean v = kind_eqb (kind_of v) KBoolean /\
  is_null v = kind_eqb (kind_of v) KNull /\
  is_undefined v = kind_eqb (kind_of v) KUndefined /\
  is_string v = kind_eqb (kind_of v) KString /\
  is_object v = kind_eqb (kind_of v) KObject || kind_eqb (kind_of v) KArray /\
  is_array v = kind_eqb (kind_of v) KArray /\
  is_foreign v = kind_eqb (kind_of v) KForeign /\
  is_function v = kind_eqb (kind_of v) KFunction /\
  is_ffi_sig v = kind_eqb (kind_of v) KFfi.
Proof. exact preds_kind. Qed.
Print Assumptions predicates_are_kinds.
Theorem predicates_exclusive : forall v, is_u64 v ->
  (length (filter (fun p => snd p) (preds v)) <= 1)%nat.
Proof. exact preds_exclusive. Qed.
Print Assumptions predicates_exclusive.

(** Every constructor yields the expected kind and gives its argument back. *)
Theorem constructors_have_kind :
  (forall b, get_bool (mk_boolean b) = b /\ kind_of (mk_boolean b) = KBoolean) /\
  (forall off, 0 <= off < 2 ^ 48 ->
     get_func_addr (mk_function off) = off /\ kind_of (mk_function off) = KFunction) /\
  (forall p, 0 < p < 2 ^ 48 -> exists v, object_to_value p = OK v /\
     get_object_struct v = OK p /\ get_object_struct (array_of_object v) = OK p /\
     kind_of v = KObject /\ kind_of (array_of_object v) = KArray) /\
  (forall p, 0 < p < 2 ^ 48 -> exists v, ffi_sig_to_value p = OK v /\ kind_of v = KFfi) /\
  kind_of V_NULL = KNull /\ kind_of V_UNDEFINED = KUndefined.
Proof.
  repeat split; try apply boolean_round_trip; try (apply function_round_trip; assumption).
  - intros p Hp. eexists. apply object_value. exact Hp.
  - intros p Hp. eexists. apply ffi_value. exact Hp.
Qed.
Print Assumptions constructors_have_kind.

(** mjs_get_bool answers false for anything that is not a boolean. *)
Theorem get_bool_of_other_kinds : forall v, is_u64 v -> kind_of v <> KBoolean -> get_bool v = false.
Proof.
  intros v H K. destruct (preds_kind v H) as (_ & B & _). unfold get_bool. rewrite B.
  destruct (kind_of v); try reflexivity. contradiction.
Qed.
Print Assumptions get_bool_of_other_kinds.
(* an odd-valued undefined tag: the low bit is set but the answer is false *)
Example get_bool_of_other_kinds_ex : get_bool (V_NULL + 1) = false /\ Z.land (V_NULL + 1) 1 = 1 /\ kind_of (V_NULL + 1) <> KBoolean.
Proof. vm_compute. repeat split. discriminate. Qed.

(** mjs_get_type reports the kind, for every kind but FFI functions... *)
Theorem get_type_reports_kind : forall v t, is_u64 v -> kind_of v = type_kind t -> get_type v = OK t.
Proof. exact get_type_agrees. Qed.
Print Assumptions get_type_reports_kind.
(** ...on which it aborts the process. *)
Theorem get_type_total_refuted :
  exists p v, 0 < p < 2 ^ 48 /\ ffi_sig_to_value p = OK v /\ get_type v = Abort.
Proof.
  exists 4096, (4096 + 65534 * 2 ^ 48). split; [lia|].
  destruct (ffi_value 4096 ltac:(lia)) as [H1 H2]. split; [exact H1|].
  apply get_type_ffi_aborts; [apply tag_u64; lia|exact H2].
Qed.
Print Assumptions get_type_total_refuted.

(** C06 *)
Theorem foreign_pointers_round_trip : forall p, is_u64 p ->
  (p < 2 ^ 48 -> let '(v, e) := mk_foreign p in e = false /\ get_ptr v = p /\ kind_of v = KForeign) /\
  (2 ^ 48 <= p < 65535 * 2 ^ 48 -> snd (mk_foreign p) = true).
Proof. exact foreign_round_trip. Qed.
Print Assumptions foreign_pointers_round_trip.
(** mjs_primitive_public.h:85-89 promises that the pointer value -1 works; it is accepted
    without an error and comes back as a different pointer. *)
Theorem foreign_sign_extended_refuted :
  exists p, is_u64 p /\ snd (mk_foreign p) = false /\ get_ptr (fst (mk_foreign p)) <> p.
Proof. exists (2 ^ 64 - 1). vm_compute. repeat split; congruence. Qed.
Print Assumptions foreign_sign_extended_refuted.

(** C48 *)
Theorem normalize_idx_clamps : forall idx size,
  - 2 ^ 31 <= idx < 2 ^ 31 -> 0 <= size < 2 ^ 31 ->
  normalize_idx idx size = OK (Z.max 0 (Z.min size (if idx <? 0 then size + idx else idx))).
Proof. exact normalize_idx_spec. Qed.
Print Assumptions normalize_idx_clamps.

(** Doubles: the model's decoding loses nothing. *)
Theorem double_decoding_faithful : forall b, is_u64 b ->
  valid_binary 53 1024 (d_dec b) = true /\ (~ ieee_nan b -> d_enc (d_dec b) = b).
Proof.
  intros b H. split; [apply dec_valid; exact H|]. intros Hn. apply enc_dec; [exact H|].
  destruct (d_isnan b) eqn:E; [|reflexivity]. destruct Hn. apply isnan_spec; assumption.
Qed.
Print Assumptions double_decoding_faithful.

(** Non-vacuity. *)
Example ex_pi : is_u64 4614256656552045848 /\ ~ ieee_nan 4614256656552045848 /\
  get_double (mk_number 4614256656552045848) = 4614256656552045848.
Proof.
  split; [unfold is_u64; lia|]. split; [|vm_compute; reflexivity].
  intros H. apply isnan_spec in H; [vm_compute in H; discriminate H|unfold is_u64; lia].
Qed.
Example ex_nan : ieee_nan (2047 * 2 ^ 52 + 5) /\ mk_number (2047 * 2 ^ 52 + 5) = TAG_NAN.
Proof. split; [exists 0, 5; lia|vm_compute; reflexivity]. Qed.
Example ex_norm : normalize_idx (-2) 5 = OK 3 /\ normalize_idx (-9) 5 = OK 0 /\ normalize_idx 9 5 = OK 5.
Proof. vm_compute. repeat split. Qed.
