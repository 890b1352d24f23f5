(** Properties C19-C21: arrays. *)
From Verif Require Import Base BaseFacts Value_Model Value_Spec Str_Model Str_Spec Str_Proofs Str_Proofs2 SUtil_Model SUtil_Spec
  Conv_Model Obj_Model Arr_Model Obj_Spec Arr_Spec Obj_Proofs Obj_Proofs2 Arr_Proofs Arr_Proofs2.

(** C19. The length is one more than the largest index among the property names, an index
    being what strtoul reads in full. *)
Theorem array_length_is_max_index : forall h ext M v o m,
  hrep h ext M -> M o = Some m -> refers v o ->
  exists L, array_length h ext v = OK L /\ 0 <= L /\
    (forall n w j, In (n, w) m -> index_text n j -> j < 4294967295 -> j < L) /\
    (L = 0 \/ exists n w, In (n, w) m /\ index_text n (L - 1) /\ L - 1 < 4294967295).
Proof. exact array_length_spec. Qed.
Print Assumptions array_length_is_max_index.

(** For an array whose elements are [l] the length is that of [l], whatever other
    properties it has. *)
Theorem array_length_of_list : forall h ext M v o m g l,
  hrep h ext M -> M o = Some m -> refers v o -> arr m (lf l) g -> zlen l < 4294967295 ->
  array_length h ext v = OK (zlen l).
Proof. exact dense_length. Qed.
Print Assumptions array_length_of_list.

(** Blanks, signs and leading zeros make names that count for the length without being
    elements. *)
Definition ext0 : extmem := fun _ => 0.
Definition R_get {A} (d : A) (r : R A) : A := match r with OK x => x | _ => d end.
Definition ar_heap : heap := fst (R_get (heap_init, 0) (mk_array heap_init)).
Definition ar : Z := 65532 * 2 ^ 48 + 4096.
Theorem length_counts_elements_only_refuted : exists n v h',
  obj_set ar_heap ext0 ar n v = OK (h', E_OK) /\ array_length h' ext0 ar = OK 8 /\
  array_get2 h' ext0 ar 7 = OK (V_UNDEFINED, false) /\ ~ numeral 10 7 n.
Proof.
  exists [48; 48; 55], 5, (fst (R_get (heap_init, 0) (obj_set ar_heap ext0 ar [48; 48; 55] 5))).
  split; [vm_compute; reflexivity|]. split; [vm_compute; reflexivity|]. split; [vm_compute; reflexivity|].
  intros (_ & _ & _ & H). discriminate (H eq_refl).
Qed.
Print Assumptions length_counts_elements_only_refuted.

(** C20. Pushing appends and changes no element or other property. *)
Theorem push_appends : forall h ext M v o m g l x,
  hrep h ext M -> M o = Some m -> refers v o -> arr m (lf l) g -> zlen l < 4294967295 -> small h 100 ->
  exists h' m', array_push h ext v x = OK (h', E_OK) /\ hrep h' ext (supd M o m') /\ arr m' (lf (l ++ [x])) g.
Proof.
  intros h ext M v o m g l x H1 H2 H3 H4 H5 H6.
  destruct (array_push_spec h ext M v o m g l x 0 H1 H2 H3 H4 H5 H6) as (h' & m' & E & R & A & _); [lia|]. exists h', m'. auto.
Qed.
Print Assumptions push_appends.

(** The builtin [a.push(x1, ..., xn)] and then reading back. *)
Theorem push_builtin_then_read : forall h ext M v o m g l xs,
  hrep h ext M -> M o = Some m -> refers v o -> v / 2 ^ 48 = 65532 -> arr m (lf l) g ->
  zlen l + zlen xs < 4294967295 -> small h (100 * zlen xs + 1) ->
  exists h', array_push_builtin h ext v xs = OK (h', mk_number (d_of_Z (zlen l + zlen xs)), E_OK) /\
    array_length h' ext v = OK (zlen l + zlen xs) /\
    forall i, 0 <= i < 2 ^ 63 ->
      array_get h' ext v i = OK (match lf (l ++ xs) i with Some y => y | None => V_UNDEFINED end).
Proof.
  intros h ext M v o m g l xs H1 H2 H3 H4 H5 H6 H7.
  destruct (push_all_spec ext v o g xs h M m l 1 H1 H2 H3 H5) as (h' & m' & E & R & A & S);
    [lia|eapply small_le; [exact H7|lia]|lia|].
  exists h'. unfold array_push_builtin.
  destruct (refers_array_kind v o H3 H4) as (U & K).
  assert (C0 : check_arg v xs None TyArray = OK (Some v)).
  { unfold check_arg. rewrite (Value_Proofs.get_type_agrees v TyArray U K). reflexivity. }
  assert (L : array_length h' ext v = OK (zlen l + zlen xs)).
  { rewrite <- zlen_app. eapply dense_length; [exact R|apply supd_same|exact H3|exact A|rewrite zlen_app; lia]. }
  rewrite C0. cbn [bind]. rewrite E. cbn [bind]. change (E_OK =? E_OK) with true. cbv iota. rewrite L. cbn [bind].
  split; [reflexivity|]. split; [reflexivity|].
  intros i Hi. eapply array_get_spec; [exact R|apply supd_same|exact H3| |exact A|exact Hi].
  unfold small in S. lia.
Qed.
Print Assumptions push_builtin_then_read.

(** Starting from [] : the elements are exactly the values pushed. *)
Lemma arr_nil : arr [] (lf []) (fun _ => None).
Proof.
  split; [|split]; [|intros ? ? ? []|reflexivity]. intros i t Hi _. symmetry. apply lf_none. change (zlen (@nil Z)) with 0. lia.
Qed.
Theorem pushed_values_read_back : forall ext xs,
  100 * zlen xs < 2 ^ 38 ->
  exists h' v, (exists h0, mk_array heap_init = OK (h0, v) /\
                array_push_builtin h0 ext v xs = OK (h', mk_number (d_of_Z (zlen xs)), E_OK)) /\
    array_length h' ext v = OK (zlen xs) /\
    (forall i x, nth_error xs i = Some x -> array_get h' ext v (Z.of_nat i) = OK x) /\
    (forall i, zlen xs <= i < 2 ^ 63 -> array_get h' ext v i = OK V_UNDEFINED).
Proof.
  intros ext xs Hx. pose proof (zlen_nonneg xs).
  assert (S0 : small heap_init (64 + (100 * zlen xs + 1))).
  { assert (Q : zlen (so (h_st heap_init)) < 100) by (vm_compute; reflexivity).
    unfold small. change (h_next heap_init) with 4096. lia. }
  destruct (mk_array_spec heap_init ext sempty (hrep_init ext)) as (h0 & v & E & Rv & T & _ & H0 & Q1 & Q2);
    [eapply small_le; [exact S0|lia]|].
  destruct (push_builtin_then_read h0 ext _ v _ [] (fun _ => None) [] xs H0 (supd_same _ _ _) Rv T arr_nil) as (h' & B & L & G).
  { change (zlen (@nil Z)) with 0. lia. }
  { unfold small in *. rewrite Q1, Q2. lia. }
  change (zlen (@nil Z)) with 0 in *. rewrite Z.add_0_l in *. cbn [app] in G.
  exists h', v. split; [exists h0; auto|]. split; [assumption|]. split.
  - intros i x Hi. assert (Li : (i < length xs)%nat) by (apply nth_error_Some; congruence).
    rewrite G by (unfold zlen in *; lia). unfold lf. replace (0 <=? Z.of_nat i) with true by lia.
    rewrite Nat2Z.id, Hi. reflexivity.
  - intros i Hi. rewrite G by lia. rewrite lf_none by lia. reflexivity.
Qed.
Print Assumptions pushed_values_read_back.
Example pushed_values_read_back_ex : exists h' r, array_push_builtin ar_heap ext0 ar [11; 12; 13] = OK (h', r, E_OK) /\
  array_length h' ext0 ar = OK 3 /\ array_get h' ext0 ar 2 = OK 13 /\ array_get h' ext0 ar 3 = OK V_UNDEFINED.
Proof.
  set (x := R_get (heap_init, 0, 0) (array_push_builtin ar_heap ext0 ar [11; 12; 13])).
  exists (fst (fst x)), (snd (fst x)). repeat split; vm_compute; reflexivity.
Qed.

(** C21. splice is list splice. *)
Theorem splice_is_list_splice : forall h ext M this o m g l args sv si dc items,
  hrep h ext M -> M o = Some m -> refers this o -> this / 2 ^ 48 = 65532 -> arr m (lf l) g ->
  zlen l + zlen items < 2 ^ 31 ->
  nth_error args 0 = Some sv -> is_u64 sv -> kind_of sv = KNumber -> get_int sv = OK si ->
  ((args = [sv] /\ items = [] /\ dc = zlen l) \/
   (exists dv, args = sv :: dv :: items /\ is_u64 dv /\ kind_of dv = KNumber /\ get_int dv = OK dc)) ->
  small h (64 + 100 * (2 * zlen l + zlen items)) ->
  exists h' ret r m' mr, array_splice h ext this args = OK (h', ret, E_OK) /\
    refers ret r /\ M r = None /\ hrep h' ext (supd (supd M r mr) o m') /\
    arr m' (lf (sp_result l si dc items)) g /\
    arr mr (lf (sp_removed l si dc)) (fun _ => None).
Proof. exact splice_core. Qed.
Print Assumptions splice_is_list_splice.

(** [1,2,3,4,5].splice(1, 2, 8, 9, 10) and .splice(1, 3, 7): both directions. *)
Definition ar5 : heap := fst (fst (R_get (heap_init, 0, 0) (array_push_builtin ar_heap ext0 ar [1; 2; 3; 4; 5]))).
Definition ar_list (h : heap) (v : Z) : R (list Z) :=
  n <- array_length h ext0 v ;;
  fold_right (fun i acc => x <- array_get h ext0 v (Z.of_nat i) ;; r <- acc ;; OK (x :: r)) (OK []) (seq 0 (Z.to_nat n)).
Example splice_is_list_splice_ex :
  ('(h, ret, e) <- array_splice ar5 ext0 ar [mk_number (d_of_Z 1); mk_number (d_of_Z 2); 8; 9; 10] ;;
   a <- ar_list h ar ;; b <- ar_list h ret ;; OK (a, b, e)) = OK ([1; 8; 9; 10; 4; 5], [2; 3], E_OK) /\
  ('(h, ret, e) <- array_splice ar5 ext0 ar [mk_number (d_of_Z 1); mk_number (d_of_Z 3); 7] ;;
   a <- ar_list h ar ;; b <- ar_list h ret ;; OK (a, b, e)) = OK ([1; 7; 5], [2; 3; 4], E_OK) /\
  sp_result [1; 2; 3; 4; 5] 1 2 [8; 9; 10] = [1; 8; 9; 10; 4; 5] /\ sp_removed [1; 2; 3; 4; 5] 1 2 = [2; 3] /\
  sp_result [1; 2; 3; 4; 5] 1 3 [7] = [1; 7; 5].
Proof. repeat split; vm_compute; reflexivity. Qed.
