(** Proofs about the conversion of C structures, chr and mkstr. *)
From Verif Require Import Base BaseFacts Value_Model Value_Spec Value_Proofs Float_Proofs Str_Model Str_Spec Str_Proofs Obj_Model Obj_Spec Obj_Proofs Obj_Proofs2.
From Verif Require Import Ops_Spec Ops_Proofs Ops_Proofs2 Data_Model Data_Spec Data_Proofs Conv_Model Ffi_Call_Proofs Vm_Proofs4 Obj_Spec Built_Model Built_Spec.
Local Open Scope Z_scope.
Ltac Zify.zify_post_hook ::= idtac.

(** ** Floats *)
Lemma round_exact s m e : Z.pos (digits2_pos m) <= 53 -> -149 <= e <= 200 ->
  exists m' e', binary_round 53 1024 s m e = S754_finite s m' e' /\ e' <= e /\ Z.pos m' = Z.pos m * 2 ^ (e - e').
Proof.
  intros Hd He. unfold binary_round, shl_align.
  assert (Hf : fexp64 (Z.pos (digits2_pos m) + e) = e - (53 - Z.pos (digits2_pos m))) by (unfold fexp, emin; lia).
  rewrite Hf. replace (e - (53 - Z.pos (digits2_pos m)) - e) with (- (53 - Z.pos (digits2_pos m))) by lia.
  destruct (53 - Z.pos (digits2_pos m)) as [|d|d] eqn:E; [| |lia]; cbn [Z.opp].
  - exists m, e. split; [apply round_aux_canonical; [unfold fexp, emin; lia|lia]|]. split; [lia|].
    rewrite Z.sub_diag. lia.
  - exists (shift_pos d m), (e - Z.pos d).
    assert (D : Z.pos (digits2_pos (shift_pos d m)) = 53) by (rewrite digits2_shift; lia).
    split; [apply round_aux_canonical; [unfold fexp, emin; lia|lia]|]. split; [lia|].
    rewrite shift_pos_correct. change (Zpower_pos 2 d) with (2 ^ Z.pos d).
    replace (e - (e - Z.pos d)) with (Z.pos d) by lia. lia.
Qed.

Lemma digits_small m : Z.pos m < 2 ^ 24 -> Z.pos (digits2_pos m) <= 53.
Proof.
  intros H. pose proof (digits2_bounds m) as B. destruct (Z.le_gt_cases (Z.pos (digits2_pos m)) 53); [assumption|].
  assert (2 ^ 53 <= 2 ^ (Z.pos (digits2_pos m) - 1)) by (apply Z.pow_le_mono_r; lia).
  assert (2 ^ 24 < 2 ^ 53) by reflexivity. lia.
Qed.

Lemma finite_double s m e : Z.pos m < 2 ^ 24 -> -149 <= e <= 200 ->
  double_is (d_enc (binary_round 53 1024 s m e)) s (Z.pos m) e.
Proof.
  intros Hm He. unfold double_is. replace (Z.pos m =? 0) with false by lia.
  destruct (round_exact s m e (digits_small m Hm) He) as (m' & e' & E & L & Q).
  exists m', e'. split; [|split; assumption]. pose proof (round_valid s m e) as V. rewrite E in V |- *.
  apply dec_enc. exact V.
Qed.

Lemma f_dec_valid b : valid_binary 53 1024 (match f_dec b with S754_finite s m e => binary_round 53 1024 s m e | f => f end) = true.
Proof. destruct (f_dec b) as [s|s| |s m e]; try reflexivity. apply round_valid. Qed.

Lemma float_exact b : 0 <= b < 2 ^ 32 -> float_is (mk_number (d_of_float b)) b /\ is_number (mk_number (d_of_float b)) = true.
Proof.
  intros Hb. pose proof (enc_number _ (f_dec_valid b)) as [N2 N1]. fold (d_of_float b) in N1, N2. rewrite N2.
  split; [|exact N1]. unfold float_is, d_of_float, f_dec. cbv zeta. change (2 ^ 8) with 256.
  assert (M : 0 <= b mod 2 ^ 23 < 2 ^ 23) by (apply Z.mod_pos_bound; reflexivity).
  assert (X : 0 <= b / 2 ^ 23 mod 256 < 256) by (apply Z.mod_pos_bound; reflexivity).
  set (s := 2 ^ 31 <=? b). set (e := b / 2 ^ 23 mod 256) in *. set (f := b mod 2 ^ 23) in *. clearbody s e f.
  assert (P : 2 ^ 23 = 8388608) by reflexivity. assert (P4 : 2 ^ 24 = 16777216) by reflexivity.
  destruct (e =? 255) eqn:E1.
  - destruct (f =? 0) eqn:E2; [destruct s; vm_compute; reflexivity|vm_compute; reflexivity].
  - destruct (e =? 0) eqn:E2.
    + destruct f as [|f|f]; [destruct s; vm_compute; reflexivity| |lia]. apply finite_double; lia.
    + destruct (f + 2 ^ 23) as [|k|k] eqn:Ek; [lia| |lia]. replace (2 ^ 23 + f) with (Z.pos k) by lia.
      apply finite_double; lia.
Qed.

(** ** Reading memory *)
Lemma word_read m k p n : word_at m k p n -> rd_le k m p = OK n /\ 0 <= n < 256 ^ Z.of_nat k.
Proof.
  intros (bs & L & B & A & <-). unfold rd_le. rewrite <- L, (rd_n_spec bs m p A). cbn [bind].
  replace (unsigned_le bs) with (le_val bs) by (symmetry; apply Data_Proofs.unsigned_le_val).
  split; [reflexivity|]. clear A L. induction B as [|b bs Hb B IH]; [cbn; lia|].
  cbn [le_val length]. rewrite Nat2Z.inj_succ, Z.pow_succ_r by lia. lia.
Qed.
Lemma word1_read m p n : word_at m 1 p n -> rd m p = OK n.
Proof.
  intros ([|b [|c l]] & L & B & A & <-); try discriminate. unfold rd. specialize (A 0%nat ltac:(cbn; lia)).
  cbn [nth] in A. replace (p + Z.of_nat 0) with p in A by lia. rewrite A. cbn [unsigned_le]. f_equal. lia.
Qed.
Lemma text_read m d : forall p f, Forall (fun b => 0 < b < 256) d -> bytes_at m p (d ++ [0]) -> (length d < f)%nat -> rd_str f m p = OK d.
Proof.
  induction d as [|b d IH]; intros p [|f] B A L; cbn [length] in L; try lia; cbn [rd_str]; unfold rd.
  - specialize (A 0%nat ltac:(cbn; lia)). cbn [app nth] in A. replace (p + Z.of_nat 0) with p in A by lia. rewrite A. reflexivity.
  - inversion B as [|? ? Hb Bd]; subst. pose proof (A 0%nat ltac:(cbn; lia)) as A0. cbn [app nth] in A0.
    replace (p + Z.of_nat 0) with p in A0 by lia. rewrite A0. cbn [bind]. replace (b =? 0) with false by lia.
    rewrite (IH (p + 1) f Bd); [reflexivity| |lia]. intros i Hi. specialize (A (S i) ltac:(cbn [app length]; lia)).
    cbn [app nth] in A. rewrite <- A. f_equal. lia.
Qed.
Lemma signed_vals n : signed 32 n = signed_val 4 n /\ signed 16 n = signed_val 2 n /\ signed 8 n = signed_val 1 n.
Proof. repeat split. Qed.

(** ** Values *)
Scheme shows_mut := Induction for shows Sort Prop with shows_all_mut := Induction for shows_all Sort Prop.
Lemma shows_mono st st' ext M M' : grows st st' -> extends M M' ->
  (forall v f, shows st ext M v f -> shows st' ext M' v f) /\
  (forall mp l, shows_all st ext M mp l -> shows_all st' ext M' mp l).
Proof.
  intros G X.
  assert (A : forall v f (H : shows st ext M v f), shows st' ext M' v f).
  { apply (shows_mut st ext M (fun v f _ => shows st' ext M' v f) (fun mp l _ => shows_all st' ext M' mp l));
      intros; try (constructor; assumption); [econstructor; eapply holds_grows; eassumption|].
    econstructor; eauto. }
  split; [exact A|]. intros mp l H. induction H; constructor; auto.
Qed.

Section Conv.
Context (m : rawmem) (ext : extmem) (tab : Z -> list cmember) (custom : Z -> heap -> Z -> R (heap * Z)).
Definition done_to (h : heap) (M : store) (k : Z) (h' : heap) (M' : store) : Prop :=
  hrep h' ext M' /\ grows (h_st h) (h_st h') /\ h_next h <= h_next h' <= h_next h + k /\
  zlen (so (h_st h')) <= zlen (so (h_st h)) + k.
Definition converts (call : nat -> heap -> R (heap * Z * bool)) (v : fval) : Prop :=
  exists F, forall f, (F <= f)%nat -> forall h M, hrep h ext M -> small h (fcost v) ->
    exists h' x M', call f h = OK (h', x, false) /\ done_to h M (fcost v) h' M' /\ extends M M' /\
      shows (h_st h') ext (beyond M M') x v.
Definition fcall ty arg p := fun f h => field m custom (struct_to_obj m ext tab custom f) f h ty arg p.
Definition scall base d := fun f h => struct_to_obj m ext tab custom f h base d.
Definition mcost (l : list (list Z * fval)) : Z := fold_right (fun x n => 64 + zlen (fst x) + fcost (snd x) + n) 0 l.

Lemma fcost_pos : forall v, 0 <= fcost v.
Proof.
  fix IH 1. intros [n|b|b|b|d|p| | |l]; cbn [fcost]; try lia; [pose proof (zlen_nonneg d); lia|].
  induction l as [|[n v] l IHl]; cbn [fold_right fst snd]; [lia|]. pose proof (IH v). pose proof (zlen_nonneg n). lia.
Qed.
Lemma fcost_obj l : fcost (FObj l) = 64 + mcost l.
Proof. cbn [fcost]. unfold mcost. induction l as [|x l IH]; cbn [fold_right]; lia. Qed.
Lemma mcost_pos l : 0 <= mcost l.
Proof.
  unfold mcost. induction l as [|x l IH]; cbn [fold_right]; [lia|]. pose proof (fcost_pos (snd x)). pose proof (zlen_nonneg (fst x)). lia.
Qed.

(** A value made without touching the heap. *)
Lemma converts_plain call v x : fcost v = 0 -> (forall f h, call f h = OK (h, x, false)) ->
  (forall st M, shows st ext M x v) -> converts call v.
Proof.
  intros C E S. exists 0%nat. intros f _ h M H _. exists h, x, M. rewrite C. split; [apply E|].
  split; [|split; [intros o mp; auto|apply S]]. split; [exact H|]. split; [apply grows_refl|]. lia.
Qed.
Lemma converts_num call n : - 2 ^ 53 < n < 2 ^ 53 -> (forall f h, call f h = num_field h n) -> converts call (FInt n).
Proof.
  intros Hn E. pose proof (of_Z_int n Hn) as I. pose proof (int_value_number _ _ I Hn) as (A & B & _).
  apply (converts_plain call _ (mk_number (d_of_Z n))); [reflexivity|intros; apply E|].
  intros. rewrite A. constructor; assumption.
Qed.
Lemma converts_text call d : Forall (fun b => 0 <= b < 256) d ->
  (exists F, forall f, (F <= f)%nat -> forall h, zlen d < 2 ^ 48 ->
     call f h = ('(st, v) <- mk_string (h_st h) d ;; OK (with_st h st, v, false))) -> converts call (FText d).
Proof.
  intros B (F & E). exists F. intros f Hf h M H (S0 & S1 & S2). cbn [fcost] in *. pose proof (zlen_nonneg d).
  pose proof (zlen_nonneg (so (h_st h))).
  destruct (mk_string_holds (h_st h) ext d B ltac:(lia) ltac:(lia)) as (st' & v & Mk & Hh & _).
  exists (with_st h st'), v, M. rewrite (E f Hf h ltac:(lia)), Mk. cbn [bind]. split; [reflexivity|].
  pose proof (mk_string_grows _ _ _ _ Mk) as G. pose proof (mk_string_room _ _ _ _ Mk ltac:(lia)) as [R _].
  split; [|split; [intros o mp; auto|constructor; exact Hh]]. split; [apply hrep_grows; assumption|].
  cbn [with_st h_st h_next]. split; [exact G|]. lia.
Qed.
Lemma data_string h q n d f : data_at m q n d -> zlen d < 2 ^ 48 ->
  str_field m f h q n = ('(st, v) <- mk_string (h_st h) d ;; OK (with_st h st, v, false)).
Proof.
  intros (Q & B & L & A) S. unfold str_field, mk_string_at. pose proof (zlen_nonneg d).
  replace (n =? 2 ^ 64 - 1) with false by lia. replace (q =? 0) with false by lia.
  replace (Z.to_nat n) with (length d) by (unfold zlen in L; lia). rewrite (rd_n_spec d m q A). reflexivity.
Qed.

(** ** The members *)
Lemma fields_app sub f obj base a : forall b h,
  fields m ext custom sub f h obj base (a ++ b) =
  ('(h, e1) <- fields m ext custom sub f h obj base a ;; '(h, e2) <- fields m ext custom sub f h obj base b ;; OK (h, e1 || e2)).
Proof.
  induction a as [|c a IH]; intros b h; cbn [app fields bind].
  - destruct (fields m ext custom sub f h obj base b) as [[h' e]| | |]; reflexivity.
  - destruct (field _ _ _ _ _ _ _ _) as [[[h1 v] e1]| | |]; cbn [bind]; try reflexivity.
    destruct (set_prop _ _ _ _ _ _) as [[h2 e2]| | |]; cbn [bind]; try reflexivity. rewrite IH.
    destruct (fields m ext custom sub f h2 obj base a) as [[h3 e3]| | |]; cbn [bind]; try reflexivity.
    destruct (fields m ext custom sub f h3 obj base b) as [[h4 e4]| | |]; cbn [bind]; try reflexivity.
    rewrite !orb_assoc. reflexivity.
Qed.

(** The members stored so far: the object [o] maps to [mp], everything else of [M] is as it was. *)
Definition members_ok (base : Z) (cs : list cmember) (l : list (list Z * fval)) : Prop :=
  NoDup (map cm_name cs) -> Forall (fun c => name_ok (cm_name c)) cs ->
  exists F, forall f, (F <= f)%nat -> forall h M obj o, hrep h ext M -> refers obj o -> M o = Some [] -> small h (mcost l) ->
    exists h' M' mp, fields m ext custom (struct_to_obj m ext tab custom f) f h obj base (rev cs) = OK (h', false) /\
      done_to h M (mcost l) h' M' /\ (forall x r, x <> o -> M x = Some r -> M' x = Some r) /\ M' o = Some mp /\
      map fst mp = map cm_name cs /\ shows_all (h_st h') ext (beyond M M') mp l.

Lemma lookup_absent mp n : ~ In n (map fst mp) -> lookup mp n = None.
Proof.
  intros H. destruct (lookup mp n) as [v|] eqn:E; [|reflexivity]. apply lookup_in in E. destruct H.
  apply (in_map fst) in E. exact E.
Qed.

Lemma members_step base c cs v l : converts (fcall (cm_type c) (cm_arg c) (base + cm_off c)) v ->
  members_ok base cs l -> members_ok base (c :: cs) ((cm_name c, v) :: l).
Proof.
  intros (F1 & HF) Hm ND NM. cbn [map] in ND. inversion ND as [|? ? N1 N2]; subst. inversion NM as [|? ? K1 K2]; subst.
  destruct (Hm N2 K2) as (F2 & HM). exists (Nat.max F1 F2). intros f Hf h M obj o H R HO (S0 & S1 & S2).
  assert (EC : mcost ((cm_name c, v) :: l) = 64 + zlen (cm_name c) + fcost v + mcost l) by reflexivity.
  rewrite EC in *. pose proof (fcost_pos v). pose proof (mcost_pos l). pose proof (zlen_nonneg (cm_name c)).
  destruct (HM f ltac:(lia) h M obj o H R HO ltac:(repeat split; lia)) as (h1 & M1 & mp & E1 & (D1 & G1 & B1 & Z1) & X1 & O1 & P1 & Sh1).
  destruct (HF f ltac:(lia) h1 M1 D1 ltac:(repeat split; lia)) as (h2 & x & M2 & E2 & (D2 & G2 & B2 & Z2) & X2 & Sh2).
  destruct (set_prop_spec h2 ext M2 obj o mp None (cm_name c) x D2 (X2 o mp O1) R K1 ltac:(repeat split; lia)) as (h3 & E3 & D3 & G3 & B3 & B4 & Z3).
  { intros k Hk. discriminate. }
  assert (PU : mput mp (cm_name c) x = (cm_name c, x) :: mp).
  { unfold mput. rewrite lookup_absent; [reflexivity|]. rewrite P1. exact N1. }
  rewrite PU in D3. exists h3, (supd M2 o ((cm_name c, x) :: mp)), ((cm_name c, x) :: mp).
  split.
  { cbn [rev]. rewrite fields_app, E1. cbn [bind fields]. unfold fcall in E2. rewrite E2. cbn [bind]. rewrite E3. reflexivity. }
  split; [split; [exact D3|]; split; [eauto using grows_trans|]; lia|].
  split; [intros y r Hy HMy; rewrite supd_other by exact Hy; apply X2, X1; assumption|].
  split; [apply supd_same|]. split; [cbn [map fst]; rewrite P1; reflexivity|].
  constructor.
  - refine (proj1 (shows_mono _ _ ext _ _ G3 _) x v Sh2). intros y r. unfold beyond. destruct (M1 y) as [r1|] eqn:Ey; [discriminate|].
    intros Hy. assert (y <> o) by congruence. rewrite supd_other by assumption.
    destruct (M y) as [r0|] eqn:Ey0; [|exact Hy]. rewrite (X1 y r0) in Ey by assumption. discriminate.
  - refine (proj2 (shows_mono _ _ ext _ _ (grows_trans _ _ _ G2 G3) _) mp l Sh1). intros y r. unfold beyond.
    destruct (M y) as [r0|] eqn:Ey0; [discriminate|]. intros Hy. assert (y <> o) by congruence. rewrite supd_other by assumption.
    apply X2. exact Hy.
Qed.

Lemma struct_step base d l : base <> 0 -> d <> 0 -> NoDup (map cm_name (tab d)) -> Forall (fun c => name_ok (cm_name c)) (tab d) ->
  members_ok base (tab d) l -> converts (scall base d) (FObj l).
Proof.
  intros Hb Hd ND NM Hm. destruct (Hm ND NM) as (F & HF). exists (S F). intros [|f] Hf h M H (S0 & S1 & S2); [lia|].
  rewrite fcost_obj in *. pose proof (mcost_pos l). unfold scall. cbn [struct_to_obj].
  replace (base =? 0) with false by lia. replace (d =? 0) with false by lia. cbn [orb].
  destruct (mk_object_spec h ext M H ltac:(repeat split; lia)) as (h1 & v & E1 & R & T & Fr & D1 & St & Nx).
  rewrite E1. cbn [bind].
  destruct (HF f ltac:(lia) h1 _ v (h_next h) D1 R (supd_same _ _ _) ltac:(unfold small; rewrite St, Nx; repeat split; lia))
    as (h2 & M2 & mp & E2 & (D2 & G2 & B2 & Z2) & X2 & O2 & P2 & Sh2).
  rewrite E2. cbn [bind]. exists h2, v, M2. split; [reflexivity|]. rewrite St in *. rewrite Nx in *.
  split; [split; [exact D2|]; split; [exact G2|]; lia|]. split.
  { intros y r Hy. assert (y <> h_next h) by congruence. apply X2; [assumption|]. rewrite supd_other by assumption. exact Hy. }
  destruct R as (R0 & R1). assert (v = 65521 * 2 ^ 48 + h_next h).
  { destruct R1 as [R1|R1]; [exact R1|]. exfalso. rewrite R1, Z.div_add_l, Z.div_small in T by lia. lia. }
  econstructor; [eassumption|exact R0| |].
  - unfold beyond. rewrite Fr. exact O2.
  - refine (proj2 (shows_mono _ _ ext _ _ (grows_refl _) _) mp l Sh2). intros y r. unfold beyond.
    destruct (Z.eq_dec y (h_next h)) as [->|Hy]; [rewrite supd_same; discriminate|]. rewrite supd_other by exact Hy. auto.
Qed.

End Conv.

Scheme field_is_mut := Induction for field_is Sort Prop
  with struct_is_mut := Induction for struct_is Sort Prop with members_are_mut := Induction for members_are Sort Prop.
Combined Scheme memory_mut from field_is_mut, struct_is_mut, members_are_mut.

Section Main.
Context (m : rawmem) (ext : extmem) (tab : Z -> list cmember) (custom : Z -> heap -> Z -> R (heap * Z)).
Notation conv := (converts ext).
Notation fc := (fcall m ext tab custom).
Notation sc := (scall m ext tab custom).
Ltac rd1 H := let E := fresh "E" in let B := fresh "B" in destruct (word_read _ _ _ _ H) as [E B].
Lemma text_string h q d f : text_at m q d -> (length d < f)%nat ->
  str_field m f h q (2 ^ 64 - 1) = ('(st, v) <- mk_string (h_st h) d ;; OK (with_st h st, v, false)).
Proof.
  intros (Q & B & A) L. unfold str_field, mk_string_at. rewrite Z.eqb_refl. replace (q =? 0) with false by lia.
  rewrite (text_read m d q f B A L). reflexivity.
Qed.
Theorem memory_converts :
  (forall ty arg p v, field_is m tab ty arg p v -> conv (fc ty arg p) v) /\
  (forall base d l, struct_is m tab base d l -> conv (sc base d) (FObj l)) /\
  (forall base cs l, members_are m tab base cs l -> members_ok m ext tab custom base cs l).
Proof.
  apply (memory_mut m tab (fun ty arg p v _ => conv (fc ty arg p) v) (fun base d l _ => conv (sc base d) (FObj l))
           (fun base cs l _ => members_ok m ext tab custom base cs l)).
  - intros arg p l _ IH. exact IH.
  - intros p. exists 1%nat. intros [|f] Hf h M H _; [lia|]. exists h, V_UNDEFINED, M. unfold fcall, field.
    change (1 =? FT_STRUCT) with true. cbv iota. cbn [struct_to_obj]. rewrite orb_true_r. split; [reflexivity|].
    split; [|split; [intros o mp; auto|constructor]]. split; [exact H|]. split; [apply grows_refl|]. cbn [fcost]. lia.
  - intros arg p q l W SI IH. rd1 W. assert (Hq0 : q <> 0) by (inversion SI; assumption). destruct IH as (F & IH).
    exists F. intros f Hf h M H S. destruct (IH f Hf h M H S) as (h' & x & M' & E1 & R). exists h', x, M'. split; [|exact R].
    unfold fcall, field. change (2 =? FT_STRUCT) with false. change (2 =? FT_STRUCT_PTR) with true. cbv iota. rewrite E. cbn [bind].
    replace (q =? 0) with false by lia. exact E1.
  - intros arg p W. rd1 W. apply (converts_plain ext _ _ V_NULL); [reflexivity| |constructor]. intros f h. unfold fcall, field.
    change (2 =? FT_STRUCT) with false. change (2 =? FT_STRUCT_PTR) with true. cbv iota. rewrite E. reflexivity.
  - intros arg p n W. rd1 W. change (256 ^ Z.of_nat 4) with 4294967296 in B.
    apply converts_num; [unfold signed_val; change (2 ^ (8 * 4 - 1)) with 2147483648; change (2 ^ (8 * 4)) with 4294967296; destruct (n <? 2147483648) eqn:?; lia|].
    intros f h. unfold fcall, field. cbn [Z.eqb FT_STRUCT]. change (3 =? FT_STRUCT) with false. change (3 =? FT_STRUCT_PTR) with false. change (3 =? FT_INT) with true.
    cbv iota. rewrite E. reflexivity.
  - intros arg p W. apply word1_read in W. apply (converts_plain ext _ _ (mk_boolean false)); [reflexivity| |].
    + intros f h. unfold fcall, field. change (4 =? FT_STRUCT) with false. change (4 =? FT_STRUCT_PTR) with false.
      change (4 =? FT_INT) with false. change (4 =? FT_BOOL) with true. cbv iota. rewrite W. reflexivity.
    + intros. constructor. reflexivity.
  - intros arg p W. apply word1_read in W. apply (converts_plain ext _ _ (mk_boolean true)); [reflexivity| |].
    + intros f h. unfold fcall, field. change (4 =? FT_STRUCT) with false. change (4 =? FT_STRUCT_PTR) with false.
      change (4 =? FT_INT) with false. change (4 =? FT_BOOL) with true. cbv iota. rewrite W. reflexivity.
    + intros. constructor. reflexivity.
  - intros arg p n W. rd1 W. apply (converts_plain ext _ _ (mk_number n)); [reflexivity| |].
    + intros f h. unfold fcall, field. change (5 =? FT_DOUBLE) with true. cbv iota. rewrite E. reflexivity.
    + intros. unfold mk_number. destruct (d_isnan n) eqn:N; constructor; exact N.
  - intros arg p n W. rd1 W. change (256 ^ Z.of_nat 4) with (2 ^ 32) in B. destruct (float_exact n B) as [F1 F2].
    apply (converts_plain ext _ _ (mk_number (d_of_float n))); [reflexivity| |].
    + intros f h. unfold fcall, field. change (6 =? FT_FLOAT) with true. cbv iota. rewrite E. reflexivity.
    + intros. constructor; assumption.
  - intros arg p q d W T. rd1 W. assert (Bd : Forall (fun b => 0 <= b < 256) d).
    { destruct T as (_ & T & _). eapply Forall_impl; [|exact T]. cbn beta. intros; lia. }
    apply converts_text; [exact Bd|]. exists (S (length d)). intros f Hf h _. unfold fcall, field.
    change (7 =? FT_CHAR_PTR) with true. cbv iota. rewrite E. cbn [bind]. apply text_string; [exact T|lia].
  - intros arg p q W Hq. rd1 W. change (256 ^ Z.of_nat 8) with (2 ^ 64) in B.
    destruct (foreign_round_trip q ltac:(unfold is_u64; lia)) as [Fr _]. specialize (Fr Hq).
    destruct (mk_foreign q) as [v e] eqn:Ev. destruct Fr as (-> & Fp & Fk).
    apply (converts_plain ext _ _ v); [reflexivity| |intros; constructor; assumption].
    intros f h. unfold fcall, field. change (8 =? FT_VOID_PTR) with true. cbv iota. rewrite E. cbn [bind]. rewrite Ev. reflexivity.
  - intros arg p s q n d W Hs W1 W2 D. rd1 W. rd1 W1. rd1 W2. pose proof D as (_ & Bd & _).
    apply converts_text; [exact Bd|]. exists 0%nat. intros f _ h S. unfold fcall, field. change (9 =? FT_MG_STR_PTR) with true.
    cbv iota. rewrite E. cbn [bind]. replace (s =? 0) with false by lia. cbn [negb]. rewrite E0. cbn [bind]. rewrite E1. cbn [bind].
    apply data_string; assumption.
  - intros arg p W. rd1 W. apply (converts_plain ext _ _ V_NULL); [reflexivity| |constructor]. intros f h. unfold fcall, field.
    change (9 =? FT_MG_STR_PTR) with true. cbv iota. rewrite E. reflexivity.
  - intros arg p q n d W1 W2 D. rd1 W1. rd1 W2. pose proof D as (_ & Bd & _).
    apply converts_text; [exact Bd|]. exists 0%nat. intros f _ h S. unfold fcall, field. change (10 =? FT_MG_STR) with true.
    cbv iota. rewrite E. cbn [bind]. rewrite E0. cbn [bind]. apply data_string; assumption.
  - intros arg p d D. pose proof D as (_ & Bd & L & _).
    apply converts_text; [exact Bd|]. exists 0%nat. intros f _ h S. unfold fcall, field. change (11 =? FT_DATA) with true.
    cbv iota. pose proof (zlen_nonneg d). replace (u64 arg) with arg by (unfold u64; rewrite Z.mod_small; lia). apply data_string; assumption.
  - intros arg p n W. rd1 W. change (256 ^ Z.of_nat 1) with 256 in B.
    apply converts_num; [unfold signed_val; change (2 ^ (8 * 1 - 1)) with 128; change (2 ^ (8 * 1)) with 256; destruct (n <? 128) eqn:?; lia|].
    intros f h. unfold fcall, field. change (12 =? FT_INT8) with true. cbv iota. rewrite E. reflexivity.
  - intros arg p n W. rd1 W. change (256 ^ Z.of_nat 2) with 65536 in B.
    apply converts_num; [unfold signed_val; change (2 ^ (8 * 2 - 1)) with 32768; change (2 ^ (8 * 2)) with 65536; destruct (n <? 32768) eqn:?; lia|].
    intros f h. unfold fcall, field. change (13 =? FT_INT16) with true. cbv iota. rewrite E. reflexivity.
  - intros arg p n W. rd1 W. change (256 ^ Z.of_nat 1) with 256 in B. apply converts_num; [lia|].
    intros f h. unfold fcall, field. change (14 =? FT_UINT8) with true. cbv iota. rewrite E. reflexivity.
  - intros arg p n W. rd1 W. change (256 ^ Z.of_nat 2) with 65536 in B. apply converts_num; [lia|].
    intros f h. unfold fcall, field. change (15 =? FT_UINT16) with true. cbv iota. rewrite E. reflexivity.
  - intros ty arg p T. apply (converts_plain ext _ _ V_UNDEFINED); [reflexivity| |constructor]. intros f h. unfold fcall, field.
    unfold FT_STRUCT, FT_STRUCT_PTR, FT_INT, FT_BOOL, FT_DOUBLE, FT_FLOAT, FT_CHAR_PTR, FT_VOID_PTR, FT_MG_STR_PTR, FT_MG_STR,
      FT_DATA, FT_INT8, FT_INT16, FT_UINT8, FT_UINT16, FT_CUSTOM.
    repeat match goal with |- context [ty =? ?k] => replace (ty =? k) with false by lia end. reflexivity.
  - intros base d l Hb Hd ND NM _ IH. apply struct_step; assumption.
  - intros base ND NM. exists 0%nat. intros f _ h M obj o H R HO _. exists h, M, []. cbn [rev fields].
    split; [reflexivity|]. split; [split; [exact H|]; split; [apply grows_refl|]; unfold mcost; cbn; lia|].
    split; [auto|]. split; [exact HO|]. split; [reflexivity|constructor].
  - intros base c cs v l _ IH1 _ IH2. apply members_step; assumption.
Qed.
End Main.
