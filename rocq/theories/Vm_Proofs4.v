(** Variables: which scope a name resolves to, and what reading it pushes. *)
From Verif Require Import Base BaseFacts Value_Model Value_Spec Value_Proofs Varint_Model Varint_Proofs Str_Model Str_Spec Str_Proofs Conv_Model
  Obj_Model Obj_Spec Obj_Proofs Obj_Proofs2 TokNum_Model Bcode_Model Bcode_Proofs Txt_Model Vm_Model Vm_Spec Vm_Proofs Vm_Proofs2 Vm_Proofs3.
From Coq Require Import ZifyBool.
Ltac Zify.zify_post_hook ::= Z.div_mod_to_equations.

Section Scopes.
  Context (m : vm) (M : store) (key : Z) (n : list Z).
  Context (Hrep : hrep (m_heap m) (m_ext m) M) (Hk : holds (m_st m) (m_ext m) key n) (Nn : bytes_ok n)
          (Ln : zlen n < 2 ^ 31) (Hs : zlen (so (m_st m)) < 2 ^ 48).

  Lemma own_v_spec s o mp : refers s o -> M o = Some mp ->
    exists a, own_v m s key = OK (m, a) /\
      match lookup mp n with Some x => a <> 0 | None => a = 0 end.
  Proof.
    intros Hr HM. pose proof Hk as Hk'. unfold m_st in Hk'. unfold own_v, own_property_v. rewrite (to_string_holds _ _ _ _ Hk'). cbn [bind].
    destruct (own_property_spec' _ _ M s o mp n Hrep HM Hr Nn Ln Hs) as (a & -> & Q). cbn [bind].
    exists a. split; [reflexivity|]. destruct (lookup mp n); [apply Q|exact Q].
  Qed.
  Lemma find_in_lacks inner rest : Forall (lacks_var M n) inner ->
    find_in m (inner ++ rest) key = find_in m rest key.
  Proof.
    induction 1 as [|s l (o & mp & Hr & HM & Hl) _ IH]; [reflexivity|]. cbn [app find_in].
    destruct (own_v_spec s o mp Hr HM) as (a & -> & Q). rewrite Hl in Q. subst a. cbn [bind].
    change (0 =? 0) with true. exact IH.
  Qed.
  Lemma find_scope_resolves s x : resolves M n (chain m) s x -> find_scope m key = OK (m, s).
  Proof.
    intros (inner & outer & E & F & o & mp & Hr & HM & Hl). unfold find_scope. unfold chain in E. rewrite E.
    rewrite (find_in_lacks _ _ F). cbn [find_in]. destruct (own_v_spec s o mp Hr HM) as (a & -> & Q). rewrite Hl in Q.
    cbn [bind]. replace (a =? 0) with false by lia. reflexivity.
  Qed.
  Lemma find_scope_undeclared : Forall (lacks_var M n) (chain m) -> find_scope m key = OK (set_err m E_REFERENCE, V_UNDEFINED).
  Proof.
    intros F. unfold find_scope. unfold chain in F. pose proof (find_in_lacks _ [] F) as E. rewrite app_nil_r in E.
    rewrite E. reflexivity.
  Qed.
End Scopes.

Lemma loc_read_prefix st ext v l n k d t : 0 <= n <= k ->
  loc_read st ext v l n = OK d -> loc_read st ext v l k = OK t -> firstn (Z.to_nat n) t = d.
Proof.
  intros Hn H1 H2. destruct l as [|o|o|a]; cbn [loc_read] in *.
  - destruct (n =? 0) eqn:Q; [|discriminate]. replace (Z.to_nat n) with O by lia. cbn [firstn]. congruence.
  - destruct ((0 <=? n) && (o + n <=? 8)); [|discriminate]. destruct ((0 <=? k) && (o + k <=? 8)); [|discriminate].
    assert (d = sub (le_bytes 8 v) o n) by congruence. assert (t = sub (le_bytes 8 v) o k) by congruence. subst d t.
    unfold sub. rewrite firstn_firstn. f_equal. lia.
  - destruct ((0 <=? n) && (o + n <=? _)); [|discriminate]. destruct ((0 <=? k) && (o + k <=? _)); [|discriminate].
    assert (d = sub (so st) o n) by congruence. assert (t = sub (so st) o k) by congruence. subst d t.
    unfold sub. rewrite firstn_firstn. f_equal. lia.
  - destruct (0 <=? n); [|discriminate]. destruct (0 <=? k); [|discriminate].
    assert (d = ext_read ext a n) by congruence. assert (t = ext_read ext a k) by congruence. subst d t.
    unfold ext_read. rewrite firstn_map. f_equal.
    replace (Z.to_nat k) with (Z.to_nat n + (Z.to_nat k - Z.to_nat n))%nat by lia.
    rewrite seq_app, firstn_app, seq_length, Nat.sub_diag. cbn [firstn]. rewrite app_nil_r.
    rewrite <- (seq_length (Z.to_nat n) 0) at 1. apply firstn_all.
Qed.

(** The text of a name and what follows it. *)
Lemma name_text_spec m key n : holds (m_st m) (m_ext m) key n -> nul_terminated (m_st m) (m_ext m) key n ->
  exists txt, name_text m key = OK (Some (txt, zlen n)) /\ firstn (length n) txt = n.
Proof.
  intros (U & K & l & G & NP & Rd) (l' & G' & Rd'). assert (l' = l) by congruence. subst l'. unfold name_text.
  assert (S : is_string key = true) by (rewrite (is_string_kind key U), K; reflexivity). rewrite S, G. cbn [bind].
  pose proof (zlen_nonneg n). assert (Z.to_nat (zlen n) = length n) as E by (unfold zlen; lia).
  destruct l as [|o|o|a]; [contradiction| | |].
  - rewrite Rd'. cbn [bind]. eexists. split; [reflexivity|]. rewrite firstn_app, Nat.sub_diag, firstn_all. cbn [firstn]. apply app_nil_r.
  - rewrite Rd'. cbn [bind]. eexists. split; [reflexivity|]. rewrite firstn_app, Nat.sub_diag, firstn_all. cbn [firstn]. apply app_nil_r.
  - destruct (loc_read (m_st m) (m_ext m) key (PExt a) (zlen n + 16)) as [t| | |] eqn:Q.
    + cbn [bind]. exists t. split; [reflexivity|]. rewrite <- E.
      apply (loc_read_prefix (m_st m) (m_ext m) key (PExt a) (zlen n) (zlen n + 16) n t); try assumption. lia.
    + exfalso. cbn [loc_read] in Q. destruct (0 <=? zlen n + 16) eqn:P; [discriminate|lia].
    + exfalso. cbn [loc_read] in Q. destruct (0 <=? zlen n + 16); discriminate.
    + exfalso. cbn [loc_read] in Q. destruct (0 <=? zlen n + 16); discriminate.
Qed.

(** Scopes are plain objects. *)
Lemma plain_object s o : refers s o -> s / 2 ^ 48 = 65521 ->
  is_string s = false /\ is_array s = false /\ is_foreign s = false /\ is_object s = true.
Proof.
  intros Hr T. destruct (refers_object s o Hr) as (I1 & _ & U).
  assert (L : Z.land s TAG_MASK = 65521 * 2 ^ 48).
  { unfold TAG_MASK. rewrite land_mask by exact U. rewrite T. reflexivity. }
  unfold is_string, is_array, is_foreign. rewrite L. repeat split; try reflexivity. exact I1.
Qed.

Lemma pop_cons m v l : sk_live (m_stack m) = v :: l ->
  exists s, pop m = (v, set_stack m s) /\ sk_live s = l.
Proof. intros E. unfold pop. rewrite E. eexists. split; reflexivity. Qed.

(** Reading a variable that the scope [s] has. *)
Lemma do_get_var m M s key n x prev rest :
  sk_live (m_stack m) = s :: key :: rest ->
  hrep (m_heap m) (m_ext m) M -> holds (m_st m) (m_ext m) key n -> nul_terminated (m_st m) (m_ext m) key n ->
  bytes_ok n -> zlen n < 2 ^ 31 -> zlen (so (m_st m)) < 2 ^ 48 ->
  has_var M n s x -> s / 2 ^ 48 = 65521 -> n <> apply_name ->
  exists st, do_get m prev = OK (set_last (set_stack m st) (if prev =? OP_FIND_SCOPE then V_UNDEFINED else s)) /\
    sk_live st = x :: rest.
Proof.
  intros L Hrep Hk Hn Nn Ln Hs (o & mp & Hr & HM & Hl) T NA. unfold do_get.
  destruct (pop_cons m s (key :: rest) L) as (s1 & -> & L1).
  destruct (pop_cons (set_stack m s1) key rest L1) as (s2 & -> & L2).
  change (set_stack (set_stack m s1) s2) with (set_stack m s2).
  unfold getprop_builtin. destruct (name_text_spec (set_stack m s2) key n Hk Hn) as (txt & -> & F). cbn [bind].
  destruct (plain_object s o Hr T) as (P1 & P2 & P3 & P4). rewrite P1, P2, P3.
  replace ((zlen n =? 5) && bytes_eqb (firstn 5 txt) (bs "apply")) with false.
  2:{ symmetry. apply andb_false_iff. destruct (zlen n =? 5) eqn:Q; [|left; reflexivity]. right.
      assert (E5 : length n = 5%nat) by (unfold zlen in Q; lia). rewrite <- E5, F.
      destruct (bytes_eqb n (bs "apply")) eqn:B; [|reflexivity]. exfalso. apply NA.
      apply bytes_eqb_eq in B. exact B. }
  cbn [bind]. rewrite P4. change (m_st (set_stack m s2)) with (m_st m). change (m_ext (set_stack m s2)) with (m_ext m).
  rewrite (to_string_holds _ _ _ _ Hk). cbn [bind]. unfold proto_fuel. cbn [set_stack m_heap].
  rewrite (proto_step _ _ M key n Hrep Hk Nn Ln Hs s o mp _ HM Hr), Hl. cbn [bind].
  eexists. split; [reflexivity|]. cbn [push set_stack m_stack sk_push sk_live]. rewrite L2. reflexivity.
Qed.

(** ** Instructions at a known place. *)
Lemma nthz_at {A} (a : list A) x b : nthz (a ++ x :: b) (zlen a) = Some x.
Proof.
  unfold nthz. replace (zlen a <? 0) with false by (unfold zlen; lia). unfold zlen. rewrite Nat2Z.id.
  rewrite nth_error_app2, Nat.sub_diag by lia. reflexivity.
Qed.
Lemma s32_id n : 0 <= n < 2 ^ 31 -> s32 n = n.
Proof. intros H. unfold s32. cbv zeta. replace (n mod 2 ^ 32) with n by (symmetry; apply Z.mod_small; lia). destruct (n <? 2 ^ 31) eqn:Q; lia. Qed.
Lemma operand_at bp a n b : bp_data bp = a ++ varint n ++ b -> 0 <= n < 2 ^ 31 ->
  operand bp (zlen a) = OK (n, zlen (varint n)).
Proof.
  intros E H. unfold operand. rewrite E, skipn_zlen, varint_decodes. cbn [bind]. rewrite u64_id by lia.
  rewrite s32_id by lia. reflexivity.
Qed.
Section At.
  Context (w : host) (sv : saved).
  Lemma step_at exec k c pre op rest m' i' : bp_data (k_bp c) = pre ++ op :: rest -> k_i c = zlen pre ->
    instr w exec k (set_off (k_m c) (k_i c)) (k_bp c) (k_i c) op (k_op c) = OK (Go m' (k_bp c) i') -> m_err m' = E_OK ->
    step w exec k sv c = OK (inl {| k_m := m'; k_bp := k_bp c; k_i := u64 (i' + 1); k_op := op |}).
  Proof.
    intros E Ei H He. unfold step.
    replace (k_i c <? zlen (bp_data (k_bp c))) with true.
    2:{ rewrite E, Ei, zlen_app, zlen_cons. pose proof (zlen_nonneg rest). lia. }
    cbn [negb]. rewrite E at 1. rewrite Ei at 1. rewrite nthz_at. rewrite H. cbn [bind]. rewrite He. reflexivity.
  Qed.

  Lemma hrep_grows h ext M st : hrep h ext M -> grows (h_st h) st -> hrep (with_st h st) ext M.
  Proof.
    intros (C & A1 & A2 & A3 & A4 & A5) G. exists C. cbn [with_st h_objs h_props h_next].
    split; [exact A1|]. split; [|split; [exact A3|split; [exact A4|exact A5]]].
    intros o mp HM. destruct (A2 o mp HM) as ((first & G1 & Hc & F) & ND & NM). split; [|split; assumption].
    exists first. cbn [with_st h_objs h_st]. split; [exact G1|]. split.
    - eapply cells_frame; [exact Hc|]. intros. reflexivity.
    - eapply Forall2_impl'; [|exact F]. intros x y. apply entry_rep_grows. exact G.
  Qed.

  (** A string constant. *)
  Lemma push_str_step c pre d rest :
    bp_data (k_bp c) = pre ++ OP_PUSH_STR :: varint (zlen d) ++ d ++ rest -> k_i c = zlen pre ->
    zlen (bp_data (k_bp c)) < 2 ^ 31 -> bytes_ok d -> zlen (so (m_st (k_m c))) < 2 ^ 48 -> m_err (k_m c) = E_OK ->
    exists st v, mk_string (m_st (k_m c)) d = OK (st, v) /\
      forall exec k, step w exec k sv c = OK (inl {| k_m := push (set_st (set_off (k_m c) (k_i c)) st) v; k_bp := k_bp c;
        k_i := k_i c + (1 + zlen (varint (zlen d)) + zlen d); k_op := OP_PUSH_STR |}).
  Proof.
    intros E Ei L Hd Hs He. pose proof (zlen_nonneg d) as Pd. pose proof (zlen_nonneg pre) as Pp. pose proof (zlen_nonneg rest) as Pr.
    pose proof (varint_zlen (zlen d)) as Pv.
    assert (Lt : zlen (bp_data (k_bp c)) = zlen pre + (1 + (zlen (varint (zlen d)) + (zlen d + zlen rest)))).
    { rewrite E, zlen_app, zlen_cons, !zlen_app. reflexivity. }
    destruct (mk_string_holds (m_st (k_m c)) (m_ext (k_m c)) d Hd Hs ltac:(lia)) as (st & v & Mk & _).
    exists st, v. split; [exact Mk|]. intros exec k.
    assert (O : operand (k_bp c) (k_i c + 1) = OK (zlen d, zlen (varint (zlen d)))).
    { replace (k_i c + 1) with (zlen (pre ++ [OP_PUSH_STR])) by (rewrite zlen_app, Ei; reflexivity).
      apply (operand_at _ _ _ (d ++ rest)); [rewrite E, <- app_assoc; reflexivity|lia]. }
    assert (I : instr w exec k (set_off (k_m c) (k_i c)) (k_bp c) (k_i c) OP_PUSH_STR (k_op c) =
      OK (Go (push (set_st (set_off (k_m c) (k_i c)) st) v) (k_bp c) (u64 (k_i c + (zlen (varint (zlen d)) + zlen d))))).
    { change (instr w exec k (set_off (k_m c) (k_i c)) (k_bp c) (k_i c) OP_PUSH_STR (k_op c)) with
        ('(n, l) <- operand (k_bp c) (k_i c + 1) ;;
         '(m, v) <- code_str (set_off (k_m c) (k_i c)) (k_bp c) (k_i c + 1 + l) n ;;
         OK (Go (push m v) (k_bp c) (u64 (k_i c + (l + n))))).
      rewrite O. cbn [bind]. unfold code_str.
      replace ((0 <=? zlen d) && (k_i c + 1 + zlen (varint (zlen d)) + zlen d <=? zlen (bp_data (k_bp c)))) with true by lia.
      replace (sub (bp_data (k_bp c)) (k_i c + 1 + zlen (varint (zlen d))) (zlen d)) with d.
      2:{ rewrite E. replace (k_i c + 1 + zlen (varint (zlen d))) with (zlen (pre ++ OP_PUSH_STR :: varint (zlen d)))
            by (rewrite zlen_app, zlen_cons, Ei; lia).
          change (pre ++ OP_PUSH_STR :: varint (zlen d) ++ d ++ rest) with (pre ++ (OP_PUSH_STR :: varint (zlen d)) ++ d ++ rest).
          rewrite app_assoc. symmetry. apply sub_app_mid. }
      change (m_st (set_off (k_m c) (k_i c))) with (m_st (k_m c)). rewrite Mk. reflexivity. }
    rewrite (step_at exec k c pre OP_PUSH_STR _ _ _ E Ei I) by exact He.
    rewrite (u64_id (k_i c + _)) by lia. rewrite u64_id by lia. do 3 f_equal. lia.
  Qed.
End At.

Definition var_code (n : list Z) : list Z := OP_PUSH_STR :: varint (zlen n) ++ n ++ [OP_FIND_SCOPE; OP_GET].
Lemma same_frame_trans a b c : same_frame a b -> same_frame b c -> same_frame a c.
Proof. unfold same_frame. intros (A1&A2&A3&A4&A5&A6&A7&A8&A9) (B1&B2&B3&B4&B5&B6&B7&B8&B9). repeat split; congruence. Qed.

Lemma mk_string_fits st d st' v : mk_string st d = OK (st', v) -> bytes_ok d -> zlen (so st) + zlen d + 16 < 2 ^ 48 ->
  zlen (so st') < 2 ^ 48.
Proof. intros H Hd L. pose proof (zlen_nonneg d). pose proof (zlen_nonneg (so st)). destruct (mk_string_room st d st' v H ltac:(lia)). lia. Qed.

Lemma variable_read_steps w sv c M n s x :
  next_code c (var_code n) -> zlen (bp_data (k_bp c)) < 2 ^ 31 -> m_err (k_m c) = E_OK ->
  hrep (m_heap (k_m c)) (m_ext (k_m c)) M -> zlen (so (m_st (k_m c))) + zlen n + 16 < 2 ^ 48 ->
  name_ok n -> n <> apply_name ->
  resolves M n (chain (k_m c)) s x -> s / 2 ^ 48 = 65521 ->
  exists c', steps w sv c c' /\ after_code c c' (var_code n) /\ same_frame (k_m c) (k_m c') /\
    sk_live (m_stack (k_m c')) = x :: sk_live (m_stack (k_m c)) /\
    hrep (m_heap (k_m c')) (m_ext (k_m c')) M /\ k_op c' = OP_GET /\
    m_heap (k_m c') = with_st (m_heap (k_m c)) (m_st (k_m c')) /\ grows (m_st (k_m c)) (m_st (k_m c')) /\
    zlen (so (m_st (k_m c'))) <= zlen (so (m_st (k_m c))) + zlen n + 16.
Proof.
  intros (pre & rest & E & Ei) L He Hrep Hs (Nb & _ & Nl) NA Hv T.
  pose proof (zlen_nonneg n) as Pn. pose proof (zlen_nonneg pre) as Pp. pose proof (zlen_nonneg rest) as Pr.
  pose proof (varint_zlen (zlen n)) as Pv.
  assert (Lt : zlen (bp_data (k_bp c)) = zlen pre + (1 + (zlen (varint (zlen n)) + (zlen n + (2 + zlen rest))))).
  { rewrite E. unfold var_code. cbn [app]. rewrite zlen_app, zlen_cons. rewrite !zlen_app. change (zlen [OP_FIND_SCOPE; OP_GET]) with 2. lia. }
  assert (E1 : bp_data (k_bp c) = pre ++ OP_PUSH_STR :: varint (zlen n) ++ n ++ [OP_FIND_SCOPE; OP_GET] ++ rest).
  { rewrite E. unfold var_code. cbn [app]. rewrite <- !app_assoc. reflexivity. }
  assert (S0 : zlen (so (m_st (k_m c))) < 2 ^ 48) by lia.
  destruct (push_str_step w sv c pre n _ E1 Ei L Nb S0 He) as (st & v & Mk & St1).
  pose proof (mk_string_grows _ _ _ _ Mk) as G.
  destruct (mk_string_holds (m_st (k_m c)) (m_ext (k_m c)) n Nb S0 ltac:(lia)) as (st' & v' & Mk' & Hh & Hnul & _).
  assert (st' = st) by congruence. assert (v' = v) by congruence. subst st' v'.
  set (m1 := push (set_st (set_off (k_m c) (k_i c)) st) v) in *.
  set (c1 := {| k_m := m1; k_bp := k_bp c; k_i := k_i c + (1 + zlen (varint (zlen n)) + zlen n); k_op := OP_PUSH_STR |}) in *.
  assert (Hrep1 : hrep (m_heap m1) (m_ext m1) M) by (apply hrep_grows; assumption).
  assert (So1 : zlen (so (m_st m1)) < 2 ^ 48) by (apply (mk_string_fits _ _ _ _ Mk Nb Hs)).
  assert (F : find_scope (set_off m1 (k_i c1)) v = OK (set_off m1 (k_i c1), s)).
  { apply (find_scope_resolves (set_off m1 (k_i c1)) M v n Hrep1 Hh Nb Nl So1 s x). exact Hv. }
  set (pre1 := pre ++ OP_PUSH_STR :: varint (zlen n) ++ n) in *.
  assert (Lp1 : zlen pre1 = k_i c1).
  { unfold pre1. rewrite zlen_app, zlen_cons, zlen_app. cbn [c1 k_i]. lia. }
  assert (Ec1 : bp_data (k_bp c1) = pre1 ++ OP_FIND_SCOPE :: OP_GET :: rest).
  { cbn [c1 k_bp]. rewrite E1. unfold pre1. rewrite <- !app_assoc. cbn [app]. rewrite <- !app_assoc. reflexivity. }
  assert (I1 : forall exec k, instr w exec k (set_off (k_m c1) (k_i c1)) (k_bp c1) (k_i c1) OP_FIND_SCOPE (k_op c1) =
     OK (Go (push (set_off m1 (k_i c1)) s) (k_bp c1) (k_i c1))).
  { intros exec k. change (instr w exec k (set_off (k_m c1) (k_i c1)) (k_bp c1) (k_i c1) OP_FIND_SCOPE (k_op c1)) with
      ('(m, s) <- find_scope (set_off m1 (k_i c1)) v ;; OK (Go (push m s) (k_bp c1) (k_i c1))).
    rewrite F. reflexivity. }
  pose proof (fun exec k => step_at w sv exec k c1 pre1 OP_FIND_SCOPE _ _ _ Ec1 (eq_sym Lp1) (I1 exec k) He) as St2.
  assert (K1 : k_i c1 = k_i c + (1 + zlen (varint (zlen n)) + zlen n)) by reflexivity.
  replace (u64 (k_i c1 + 1)) with (k_i c1 + 1) in St2 by (rewrite u64_id; lia).
  set (m2 := push (set_off m1 (k_i c1)) s) in *.
  set (c2 := {| k_m := m2; k_bp := k_bp c1; k_i := k_i c1 + 1; k_op := OP_FIND_SCOPE |}) in *.
  assert (Ec2 : bp_data (k_bp c2) = (pre1 ++ [OP_FIND_SCOPE]) ++ OP_GET :: rest).
  { change (k_bp c2) with (k_bp c1). rewrite Ec1, <- app_assoc. reflexivity. }
  assert (Lp2 : k_i c2 = zlen (pre1 ++ [OP_FIND_SCOPE])) by (rewrite zlen_app, Lp1; reflexivity).
  assert (HV : has_var M n s x) by (destruct Hv as (? & ? & _ & _ & H); exact H).
  destruct (do_get_var (set_off m2 (k_i c2)) M s v n x OP_FIND_SCOPE (sk_live (m_stack (k_m c)))
    eq_refl Hrep1 Hh Hnul Nb Nl So1 HV T NA) as (st2 & Dg & Ls).
  assert (I2 : forall exec k, instr w exec k (set_off (k_m c2) (k_i c2)) (k_bp c2) (k_i c2) OP_GET (k_op c2) =
     OK (Go (set_last (set_stack (set_off m2 (k_i c2)) st2) V_UNDEFINED) (k_bp c2) (k_i c2))).
  { intros exec k. change (instr w exec k (set_off (k_m c2) (k_i c2)) (k_bp c2) (k_i c2) OP_GET (k_op c2)) with
      (m <- do_get (set_off m2 (k_i c2)) OP_FIND_SCOPE ;; OK (Go m (k_bp c2) (k_i c2))).
    rewrite Dg. reflexivity. }
  pose proof (fun exec k => step_at w sv exec k c2 _ OP_GET _ _ _ Ec2 Lp2 (I2 exec k) He) as St3.
  assert (K2 : k_i c2 = k_i c1 + 1) by reflexivity.
  replace (u64 (k_i c2 + 1)) with (k_i c2 + 1) in St3 by (rewrite u64_id; lia).
  eexists. split; [eapply steps_next; [exact St1|]; eapply steps_next; [exact St2|]; eapply steps_next; [exact St3|]; apply steps_end|].
  split; [|split; [|split; [|split; [|split; [|split; [|split]]]]]].
  - split; [reflexivity|]. cbn [k_i]. unfold var_code. rewrite zlen_cons, !zlen_app. change (zlen [OP_FIND_SCOPE; OP_GET]) with 2. lia.
  - repeat split.
  - exact Ls.
  - exact Hrep1.
  - reflexivity.
  - reflexivity.
  - exact G.
  - destruct (mk_string_room _ _ _ _ Mk ltac:(lia)) as [Rm _]. change (zlen (so st) <= zlen (so (m_st (k_m c))) + zlen n + 16). lia.
Qed.

(** ** The value of a failed execution. *)
Lemma run_value w : forall fuel sv start c m' v, m_err (k_m c) = E_OK -> run fuel w sv start c = OK (m', v) ->
  m_err m' <> E_OK -> v = V_UNDEFINED.
Proof.
  induction fuel as [|f IH]; intros sv start c m' v He H Hn; [discriminate|].
  cbn [run] in H. bdestr H. pose proof (step_spec _ _ _ _ _ _ He E) as S. destruct a as [c'|m].
  - exact (IH sv start c' m' v S H Hn).
  - assert (T : m_err m = E_OK \/ sk_top (m_stack m) = V_UNDEFINED).
    { clear H S. unfold step in E. destruct (negb (k_i c <? _)); [left; assert (m = k_m c) by congruence; subst; exact He|].
      destruct (nthz _ _); [|discriminate]. bdestr E. destruct a as [m1 bp i|m1].
      - destruct (negb (m_err m1 =? E_OK)); [|discriminate]. bdestr E. assert (a = m) by congruence. subst a.
        right. apply (recover_sizes _ _ _ E1).
      - left. assert (m = m1) by congruence. subst m1. rewrite (instr_done _ _ _ _ _ _ _ _ _ E0). exact He. }
    unfold finish in H. bdestr H. cbv zeta in H. unfold pop in H. cbn [set_res m_stack] in H. unfold sk_top in T.
    destruct (sk_live (m_stack m)) as [|x l] eqn:Q; apply ok_pair in H; destruct H as [<- <-]; [reflexivity|].
    destruct T as [T|T]; [|exact T]. exfalso. apply Hn. exact T.
Qed.

(** ** mjs_apply of C functions. *)
Lemma push_all_call vs : forall m, m_call (push_all_vals m vs) = m_call m /\ m_arg (push_all_vals m vs) = m_arg m.
Proof. induction vs as [|v r IH]; intros m; [split; reflexivity|]. cbn [push_all_vals]. destruct (IH (push m v)) as [-> ->]. split; reflexivity. Qed.

Lemma apply_foreign_frames call ffi exec m r0 func this vs m' r :
  is_foreign func = true ->
  (forall p m1 m2, call p m1 = OK m2 -> calls m2 = calls m1) ->
  apply_with call ffi exec m r0 func this vs = OK (m', r) -> m_err m' = E_OK ->
  zlen (calls m') = zlen (calls m) + 5.
Proof.
  intros F C H He. unfold apply_with in H. rewrite F in H. rewrite andb_false_r in H. cbn [andb orb negb] in H. cbv zeta in H.
  bdestr H. cbn [orb] in H. apply bind_ok in H. destruct H as [[m2 r2] [H1 H2]]. bdestr H1. 
  destruct (sk_cap (m_stack a0) =? _); [|discriminate]. destruct (nthz (sk_all _) _); [|discriminate].
  assert (a0 = m2) by congruence. subst a0. bdestr H2. apply ok_pair in H2. destruct H2 as [<- _].
  change (m_err (set_this a0 (m_this m))) with (m_err a0) in He. change (calls (set_this a0 (m_this m))) with (calls a0).
  destruct (negb (m_err m2 =? E_OK)) eqn:Q.
  - exfalso. bdestr E1. destruct a1 as [a1 m3]. pose proof (restore_frame_err _ _ _ E2) as R. apply ok_inj in E1. subst a0.
    unfold pop in He. destruct (sk_live (m_stack m3)) eqn:S.
    + cbn in He. discriminate.
    + cbn [snd set_stack m_err] in He. apply negb_true_iff in Q. apply Z.eqb_neq in Q. congruence.
  - apply ok_inj in E1. subst a0. rewrite (C _ _ _ E0).
    destruct (push_frame_spec _ _ _ _ E) as (F1 & _). rewrite F1.
    rewrite zlen_app. change (calls (set_arg (push_all_vals (push m func) vs) (sk_push (m_arg (push_all_vals (push m func) vs)) this)))
      with (sk_live (m_call (push_all_vals (push m func) vs))).
    destruct (push_all_call vs (push m func)) as [-> _]. change (sk_live (m_call (push m func))) with (calls m).
    unfold frame. cbn [zlen length]. unfold zlen at 1. cbn [length]. lia.
Qed.
