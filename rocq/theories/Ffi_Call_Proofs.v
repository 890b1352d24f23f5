(** Calls of C functions: which arguments reach them. *)
From Verif Require Import Base BaseFacts Value_Model Value_Spec Value_Proofs Float_Proofs Str_Model Str_Proofs Ffi_Model Ffi_Spec Ffi_Proofs Ffi_Call_Spec.

(** * ffi_call *)
Definition aclass (a : carg) : bool * bool := (is_d a, is_f a).
Lemma existsb_out {A} (p : A -> bool) l : existsb p l = false -> forall a, In a l -> p a = false.
Proof. intros H a Ha. destruct (p a) eqn:E; [| reflexivity]. assert (existsb p l = true) by (apply existsb_exists; eauto). congruence. Qed.

Lemma all_words_spec n a : (n <= 6)%nat -> length a = 6%nat -> firstn n (all_words n a) = map PW (firstn n a).
Proof.
  intros Hn Ha. unfold all_words. rewrite firstn_map, firstn_firstn. f_equal. f_equal. destruct (Nat.leb_spec n 4); lia.
Qed.
Lemma natural_words l : existsb is_d l = false -> existsb is_f l = false -> map PW l = map natural l.
Proof.
  intros D F. apply map_ext_in. intros a Ha. pose proof (existsb_out _ _ D a Ha) as X. pose proof (existsb_out _ _ F a Ha) as Y.
  destruct a; cbn in *; congruence.
Qed.
Lemma mixed_d n a : (n <= 3)%nat -> length a = 6%nat -> existsb is_d (firstn n a) = true -> existsb is_f (firstn n a) = false ->
  exists ps, mixed is_d PD n a = OK (Some ps) /\ firstn n ps = map natural (firstn n a).
Proof.
  intros Hn Ha D F. destruct a as [| a0 [| a1 [| a2 a]]]; try discriminate.
  destruct n as [| [| [| [| n]]]]; [| | | | lia]; cbn [firstn existsb map] in *; try discriminate; destruct a0, a1, a2; cbn in *; try discriminate; eexists; split; reflexivity.
Qed.
Lemma mixed_f n a : (n <= 3)%nat -> length a = 6%nat -> existsb is_f (firstn n a) = true -> existsb is_d (firstn n a) = false ->
  exists ps, mixed is_f PF n a = OK (Some ps) /\ firstn n ps = map natural (firstn n a).
Proof.
  intros Hn Ha D F. destruct a as [| a0 [| a1 [| a2 a]]]; try discriminate.
  destruct n as [| [| [| [| n]]]]; [| | | | lia]; cbn [firstn existsb map] in *; try discriminate; destruct a0, a1, a2; cbn in *; try discriminate; eexists; split; reflexivity.
Qed.
Lemma mixed_none q p n a : (3 < n)%nat -> length a = 6%nat -> mixed q p n a = OK None.
Proof.
  intros Hn Ha. destruct a as [| a0 [| a1 [| a2 a]]]; try discriminate. cbn [mixed].
  destruct (Nat.leb_spec n 2); [lia |]. destruct (Nat.eqb_spec n 3); [lia | reflexivity].
Qed.

(** the classes of the arguments are those of the types *)
Lemma takes_class st ext fw cw t v a : takes st ext fw cw t v a -> is_d a = (t =? T_DOUBLE) /\ is_f a = (t =? T_FLOAT).
Proof. destruct 1; split; reflexivity. Qed.
Lemma takes_classes st ext fw cw ts vs l : takes_all st ext fw cw ts vs l ->
  (existsb is_d l = true <-> In T_DOUBLE ts) /\ (existsb is_f l = true <-> In T_FLOAT ts) /\ length l = length ts /\ length vs = length ts.
Proof.
  induction 1 as [| t v a ts vs l H _ (A & B & C & D)]; [cbn; intuition discriminate |].
  destruct (takes_class _ _ _ _ _ _ _ H) as [E F]. cbn [existsb In length]. rewrite !orb_true_iff, A, B, C, D, E, F, !Z.eqb_eq. intuition.
Qed.

Definition cls (ret : Z) (r : rclass) : Prop :=
  rclass_of ret = Some r /\ (r = RDouble <-> ret = T_DOUBLE) /\ (r = RFloat <-> ret = T_FLOAT).
Lemma cls_of ret : In ret [T_NONE; T_INT; T_BOOL; T_DOUBLE; T_FLOAT; T_VOID_PTR; T_CHAR_PTR] -> exists r, cls ret r.
Proof.
  cbn [In]. intros H. repeat destruct H as [<- | H]; try contradiction; eexists; (split; [reflexivity |]); split; split; discriminate || reflexivity.
Qed.

Section Call.
  Context (st : strs) (ext : extmem) (fw cw : word) (ts vs : list Z) (l : list carg) (ret : Z) (r : rclass).
  Context (T : takes_all st ext fw cw ts vs l) (Hn : (length ts <= 6)%nat) (Hr : cls ret r).
  Context (junk : list carg) (Hj : (6 <= length junk)%nat).
  Let a := firstn 6 (l ++ junk).

  Lemma arr : length a = 6%nat /\ firstn (length vs) a = l.
  Proof.
    destruct (takes_classes _ _ _ _ _ _ _ T) as (_ & _ & C & D). unfold a. split.
    - rewrite firstn_length, app_length. lia.
    - rewrite firstn_firstn. replace (Nat.min (length vs) 6) with (length l) by lia. apply firstn_app_exact || (rewrite firstn_app, firstn_all, Nat.sub_diag; cbn; apply app_nil_r).
  Qed.
  Lemma small : Nat.leb 7 (length vs) = false.
  Proof. destruct (takes_classes _ _ _ _ _ _ _ T) as (_ & _ & C & D). apply Nat.leb_gt. lia. Qed.

  Lemma call_supported : supported ret ts -> exists ps, ffi_call (length vs) r a = OK (Some ps) /\ firstn (length vs) ps = map natural l.
  Proof.
    intros S0. destruct arr as [L1 L2]. destruct (takes_classes _ _ _ _ _ _ _ T) as (A & B & C & D). destruct Hr as (_ & R1 & R2).
    unfold ffi_call. rewrite small, L2. destruct S0 as [(N1 & N2) | [(N0 & N1 & N2 & N3) | (N0 & N1 & N2 & N3)]].
    - assert (E1 : existsb is_d l = false) by (rewrite <- A in N1; destruct (existsb is_d l); tauto).
      assert (E2 : existsb is_f l = false) by (rewrite <- B in N2; destruct (existsb is_f l); tauto). rewrite E1, E2. cbn [andb].
      exists (all_words (length vs) a). split; [destruct r; reflexivity |]. rewrite all_words_spec by (assumption || lia). rewrite L2. apply natural_words; assumption.
    - assert (E1 : existsb is_d l = true) by (apply A, N1). assert (E2 : existsb is_f l = false) by (rewrite <- B in N2; destruct (existsb is_f l); tauto).
      rewrite E1, E2. cbn [andb]. destruct (mixed_d (length vs) a) as (ps & P1 & P2); [lia | exact L1 | rewrite L2; exact E1 | rewrite L2; exact E2 |].
      rewrite L2 in P2. exists ps. split; [destruct r; try exact P1; exfalso; tauto | exact P2].
    - assert (E1 : existsb is_f l = true) by (apply B, N1). assert (E2 : existsb is_d l = false) by (rewrite <- A in N2; destruct (existsb is_d l); tauto).
      rewrite E1, E2. cbn [andb]. destruct (mixed_f (length vs) a) as (ps & P1 & P2); [lia | exact L1 | rewrite L2; exact E1 | rewrite L2; exact E2 |].
      rewrite L2 in P2. exists ps. split; [destruct r; try exact P1; exfalso; tauto | exact P2].
  Qed.
  Lemma call_unsupported : unsupported ret ts -> ffi_call (length vs) r a = OK None.
  Proof.
    intros S0. destruct arr as [L1 L2]. destruct (takes_classes _ _ _ _ _ _ _ T) as (A & B & C & D). destruct Hr as (_ & R1 & R2).
    unfold ffi_call. rewrite small, L2. destruct S0 as [(N1 & N2) | [(N0 & N1 & N3) | (N0 & N1 & N3)]].
    - apply A in N1. apply B in N2. rewrite N1, N2. reflexivity.
    - apply A in N1. rewrite N1. destruct (existsb is_f l); cbn [andb]; [reflexivity |]. rewrite !mixed_none by (assumption || lia). destruct r; try reflexivity. exfalso; tauto.
    - apply B in N1. rewrite N1. destruct (existsb is_d l); cbn [andb]; [reflexivity |]. rewrite !mixed_none by (assumption || lia). destruct r; try reflexivity. exfalso; tauto.
  Qed.
  Lemma call_crossed : crossed ret ts -> exists ps, ffi_call (length vs) r a = OK (Some ps) /\ firstn (length vs) ps = map PW l.
  Proof.
    intros S0. destruct arr as [L1 L2]. destruct (takes_classes _ _ _ _ _ _ _ T) as (A & B & C & D). destruct Hr as (_ & R1 & R2).
    unfold ffi_call. rewrite small, L2. exists (all_words (length vs) a). rewrite all_words_spec, L2 by (assumption || lia). split; [| reflexivity].
    destruct S0 as [(N1 & N2 & N3) | (N1 & N2 & N3)].
    - assert (E2 : existsb is_d l = false) by (rewrite <- A in N3; destruct (existsb is_d l); tauto). rewrite E2. cbn [andb]. apply R1 in N1. rewrite N1. reflexivity.
    - assert (E2 : existsb is_f l = false) by (rewrite <- B in N3; destruct (existsb is_f l); tauto). rewrite E2, andb_false_r. apply R2 in N1. rewrite N1. reflexivity.
  Qed.
End Call.

(** Every signature is one of the three. *)
Lemma three_cases ret ts : supported ret ts \/ unsupported ret ts \/ crossed ret ts.
Proof.
  unfold supported, unsupported, crossed.
  destruct (in_dec Z.eq_dec T_DOUBLE ts), (in_dec Z.eq_dec T_FLOAT ts), (Nat.le_gt_cases (length ts) 3), (Z.eq_dec ret T_DOUBLE), (Z.eq_dec ret T_FLOAT); tauto.
Qed.

(** * Conversion of the arguments *)
Fixpoint idx (t : Z) (ts : list Z) : nat := match ts with [] => O | x :: r => if x =? t then O else S (idx t r) end.
Definition slot_of (t : Z) (ts vs : list Z) (n : nat) (d : option (Z * nat)) : option (Z * nat) :=
  match arg_of t ts vs with Some v => Some (v, (n + idx t ts)%nat) | None => d end.

Lemma num_kind d : is_u64 d -> ~ ieee_nan d -> mk_number d = d /\ is_number d = true.
Proof.
  intros H N. unfold mk_number, is_number, get_double. destruct (d_isnan d) eqn:E; [exfalso; apply N, (isnan_spec d H), E |].
  split; [reflexivity | rewrite orb_true_r; reflexivity].
Qed.
Lemma read_ok st ext v b : str_bytes st ext v = OK b -> exists x, get_string st v = OK x.
Proof. unfold str_bytes. destruct (get_string st v) as [x | | |]; cbn [bind]; [eauto | discriminate..]. Qed.
Lemma foreign_facts p : 0 <= p < 2 ^ 48 -> is_string (fst (mk_foreign p)) = false /\ is_foreign (fst (mk_foreign p)) = true /\ get_ptr (fst (mk_foreign p)) = p.
Proof.
  intros H. destruct (foreign_round_trip p ltac:(unfold is_u64; lia)) as [F _]. specialize (F ltac:(lia)).
  assert (U : is_u64 (fst (mk_foreign p))).
  { unfold mk_foreign, pointer_to_value. cbn [fst]. rewrite untag_mod, Z.mod_small by lia. unfold TAG_FOREIGN. rewrite lor_tag by lia. apply tag_u64; lia. }
  destruct (mk_foreign p) as [v e]. cbn [fst] in *. destruct F as (_ & F1 & F2). destruct (preds_kind v U) as (_ & _ & _ & _ & P & _ & _ & Q & _). rewrite P, Q, F2. repeat split. exact F1.
Qed.

Lemma conv_arg_ok st ext t v a c : takes st ext WNull WNull t v a -> (t = T_USERDATA -> k_ud c = None) ->
  conv_arg st t v c = OK (Next {| k_args := k_args c ++ [a];
    k_func := if t =? T_CALLBACK then Some (v, length (k_args c)) else k_func c;
    k_ud := if t =? T_USERDATA then Some (v, length (k_args c)) else k_ud c; k_ret := k_ret c; k_err := k_err c |}).
Proof.
  intros H Hud. destruct c as [ka kf ku kr ke]; cbn [k_args k_func k_ud k_ret k_err] in *. destruct H; unfold conv_arg; cbn [k_args k_func k_ud k_ret k_err].
  - destruct (d_of_Z_valid n) as (U & N & M). rewrite int_round_trip by assumption. rewrite M, N. reflexivity.
  - replace (is_number (mk_boolean b)) with false by (destruct b; reflexivity). destruct b; reflexivity.
  - replace (is_number (mk_boolean b)) with false by (destruct b; reflexivity). destruct b; reflexivity.
  - destruct (d_of_Z_valid n) as (U & N & M). rewrite int_round_trip by assumption. rewrite M, N. cbn [bind].
    replace (s32 n =? 0) with (n =? 0); [reflexivity |]. unfold s32. rewrite Z.mod_small by assumption. destruct (n <? 2 ^ 31) eqn:E; lia.
  - destruct (num_kind d) as [M _]; [assumption.. |]. rewrite M. reflexivity.
  - destruct (num_kind d) as [M _]; [assumption.. |]. rewrite M. reflexivity.
  - destruct (read_ok _ _ _ _ H1) as [x E]. destruct (preds_kind v H) as (_ & _ & _ & _ & P & _). rewrite P, H0, E. reflexivity.
  - reflexivity.
  - destruct (read_ok _ _ _ _ H1) as [x E]. destruct (preds_kind v H) as (_ & _ & _ & _ & P & _). rewrite P, H0, E. reflexivity.
  - destruct (read_ok _ _ _ _ H1) as [x E]. destruct (preds_kind v H) as (_ & _ & _ & _ & P & _). rewrite P, H0, E. reflexivity.
  - destruct (foreign_facts p H) as (A & B & C). rewrite A, B, C. reflexivity.
  - reflexivity.
  - rewrite Hud by reflexivity. reflexivity.
  - destruct (preds_kind v H) as (_ & _ & _ & _ & _ & _ & _ & _ & P & _). rewrite P, H0. reflexivity.
Qed.

Lemma arg_of_none t ts : forall vs, ~ In t ts -> arg_of t ts vs = None.
Proof.
  induction ts as [| x ts IH]; intros vs H; [reflexivity |]. cbn [In] in H. destruct vs as [| v vs]; [reflexivity |]. cbn [arg_of].
  replace (x =? t) with false by (symmetry; apply Z.eqb_neq; tauto). apply IH. tauto.
Qed.
Lemma arg_of_some t ts : forall vs, In t ts -> length vs = length ts -> exists v, arg_of t ts vs = Some v.
Proof.
  induction ts as [| x ts IH]; intros vs H L; [destruct H |]. destruct vs as [| v vs]; [discriminate |]. cbn [arg_of].
  destruct (Z.eqb_spec x t); [eauto |]. apply IH; [destruct H; [congruence | assumption] | cbn in L; lia].
Qed.

Lemma conv_args_ok st ext ts vs l rest : takes_all st ext WNull WNull ts vs l -> forall c,
  (count T_USERDATA ts <= 1)%nat -> (count T_CALLBACK ts <= 1)%nat -> (In T_USERDATA ts -> k_ud c = None) ->
  conv_args st (ts ++ rest) vs c = OK (Next {| k_args := k_args c ++ l;
    k_func := slot_of T_CALLBACK ts vs (length (k_args c)) (k_func c);
    k_ud := slot_of T_USERDATA ts vs (length (k_args c)) (k_ud c); k_ret := k_ret c; k_err := k_err c |}).
Proof.
  induction 1 as [| t v a ts vs l H _ IH]; intros c Cu Cc Hud.
  - destruct c, rest; cbn; rewrite app_nil_r; reflexivity.
  - cbn [app conv_args]. rewrite (conv_arg_ok st ext t v a c H) by (intros ->; apply Hud; left; reflexivity). cbn [bind].
    rewrite count_cons in Cu, Cc. rewrite IH; cbn [k_args k_func k_ud k_ret k_err].
    + do 2 f_equal. rewrite <- app_assoc. cbn [app]. rewrite app_length. cbn [length]. unfold slot_of. cbn [arg_of idx].
      f_equal.
      * destruct (Z.eqb_spec t T_CALLBACK) as [-> |].
        -- rewrite arg_of_none by (intros X; apply count_In in X; lia). rewrite Nat.add_0_r. reflexivity.
        -- destruct (arg_of T_CALLBACK ts vs); [do 2 f_equal; lia | reflexivity].
      * destruct (Z.eqb_spec t T_USERDATA) as [-> |].
        -- rewrite arg_of_none by (intros X; apply count_In in X; lia). rewrite Nat.add_0_r. reflexivity.
        -- destruct (arg_of T_USERDATA ts vs); [do 2 f_equal; lia | reflexivity].
    + destruct (t =? T_USERDATA)%Z; lia.
    + destruct (t =? T_CALLBACK)%Z; lia.
    + intros X. destruct (Z.eqb_spec t T_USERDATA) as [-> |]; [apply count_In in X; lia |]. apply Hud. right. exact X.
Qed.

(** * The places of the callback and its userdata *)
Lemma takes_fw st ext fw fw' cw t v a : t <> T_CALLBACK -> takes st ext fw cw t v a -> takes st ext fw' cw t v a.
Proof. intros N H. destruct H; try (econstructor; eassumption). congruence. Qed.
Lemma takes_cw st ext fw cw cw' t v a : t <> T_USERDATA -> takes st ext fw cw t v a -> takes st ext fw cw' t v a.
Proof. intros N H. destruct H; try (econstructor; eassumption). congruence. Qed.
Lemma all_fw st ext fw fw' cw ts vs l : ~ In T_CALLBACK ts -> takes_all st ext fw cw ts vs l -> takes_all st ext fw' cw ts vs l.
Proof. intros N. induction 1; constructor; [eapply takes_fw; [| eassumption]; intros ->; apply N; left; reflexivity | apply IHtakes_all; intros X; apply N; right; exact X]. Qed.
Lemma all_cw st ext fw cw cw' ts vs l : ~ In T_USERDATA ts -> takes_all st ext fw cw ts vs l -> takes_all st ext fw cw' ts vs l.
Proof. intros N. induction 1; constructor; [eapply takes_cw; [| eassumption]; intros ->; apply N; left; reflexivity | apply IHtakes_all; intros X; apply N; right; exact X]. Qed.
Lemma blit_0 {A} (a x : A) l : blit (a :: l) (Z.of_nat 0) [x] = x :: l.
Proof. reflexivity. Qed.
Lemma blit_S {A} (a x : A) l n : blit (a :: l) (Z.of_nat (S n)) [x] = a :: blit l (Z.of_nat n) [x].
Proof. unfold blit. rewrite !Nat2Z.id. replace (S n + length [x])%nat with (S (n + length [x])) by lia. reflexivity. Qed.
Lemma fill_fw st ext fw fw' cw ts vs l : takes_all st ext fw cw ts vs l -> count T_CALLBACK ts = 1%nat ->
  takes_all st ext fw' cw ts vs (blit l (Z.of_nat (idx T_CALLBACK ts)) [CW fw']).
Proof.
  induction 1 as [| t v a ts vs l H R IH]; [discriminate |]. rewrite count_cons. cbn [idx]. destruct (Z.eqb_spec t T_CALLBACK) as [-> |]; intros C.
  - rewrite blit_0. constructor; [inversion H; subst; constructor; assumption |]. eapply all_fw; [| exact R]. intros X. apply count_In in X. lia.
  - rewrite blit_S. constructor; [eapply takes_fw; eassumption | apply IH; lia].
Qed.
Lemma fill_cw st ext fw cw cw' ts vs l : takes_all st ext fw cw ts vs l -> count T_USERDATA ts = 1%nat ->
  takes_all st ext fw cw' ts vs (blit l (Z.of_nat (idx T_USERDATA ts)) [CW cw']).
Proof.
  induction 1 as [| t v a ts vs l H R IH]; [discriminate |]. rewrite count_cons. cbn [idx]. destruct (Z.eqb_spec t T_USERDATA) as [-> |]; intros C.
  - rewrite blit_0. constructor; [inversion H; subst; constructor; assumption |]. eapply all_cw; [| exact R]. intros X. apply count_In in X. lia.
  - rewrite blit_S. constructor; [eapply takes_cw; eassumption | apply IH; lia].
Qed.

Lemma upto_prefix l : exists rest, l = upto_void l ++ rest.
Proof.
  induction l as [| x l [r IH]]; [exists []; reflexivity |]. cbn [upto_void]. destruct (x =? T_NONE); [exists (x :: l); reflexivity |].
  exists r. cbn [app]. rewrite <- IH. reflexivity.
Qed.
Lemma upto_short l : (length (upto_void l) <= length l)%nat.
Proof. destruct (upto_prefix l) as [r E]. rewrite E at 2. rewrite app_length. lia. Qed.

(** * The result *)
Lemma result_ok st ext t r : In t [T_NONE; T_INT; T_BOOL; T_DOUBLE; T_FLOAT; T_VOID_PTR; T_CHAR_PTR] -> cret_ok st t r ->
  exists st' v, result_value st t r = OK (st', v) /\ gives st ext t r st' v /\ (t =? T_VOID_PTR) && snd (mk_foreign (cr_bits r)) = false.
Proof.
  intros Ht (C1 & C2). cbn [In] in Ht. repeat destruct Ht as [<- | Ht]; try contradiction.
  - eexists _, _. split; [reflexivity |]. split; [constructor | reflexivity].
  - eexists _, _. split; [reflexivity |]. split; [| reflexivity]. constructor; unfold s32; destruct (_ <? _) eqn:E; try lia.
  - eexists _, _. split; [reflexivity |]. split; [constructor | reflexivity].
  - eexists _, _. split; [reflexivity |]. split; [constructor | reflexivity].
  - eexists _, _. split; [reflexivity |]. split; [constructor | reflexivity].
  - specialize (C2 eq_refl). eexists _, _. split; [reflexivity |]. destruct (foreign_round_trip (cr_bits r)) as [F _]; [unfold is_u64; lia |]. specialize (F ltac:(lia)).
    destruct (mk_foreign (cr_bits r)) as [v e]. destruct F as (-> & F & _). split; [constructor; exact F | reflexivity].
  - destruct (C1 eq_refl) as (B & L1 & L2). unfold result_value. change (T_CHAR_PTR =? T_CHAR_PTR) with true. cbv iota. destruct (Z.eqb_spec (cr_bits r) 0) as [E | E].
    + eexists _, _. split; [reflexivity |]. split; [constructor; exact E | reflexivity].
    + destruct (mk_string_holds st ext (cr_text r) B L1 L2) as (st' & v & M & (_ & _ & lo & G & _ & Rd) & _).
      exists st', v. split; [exact M |]. split; [| reflexivity]. constructor; [exact E |]. unfold str_bytes. rewrite G. cbn [bind]. exact Rd.
Qed.

(** * The whole call *)
Section Whole.
  Context (cfun : fnptr -> list passed -> cret) (st : strs) (ext : extmem) (cbs : cblist) (g : sig) (junk : list carg) (vs : list Z) (err : Z) (l0 : list carg).
  Context (Hg : callable g) (Hj : (6 <= length junk)%nat) (T0 : takes_all st ext WNull WNull (arg_types g) vs l0).
  Let ret := hd 0 (s_types g).

  Lemma arity : (length (arg_types g) <= 6)%nat.
  Proof.
    destruct Hg as (_ & _ & L & _). unfold arg_types. pose proof (upto_short (tl (s_types g))). destruct (s_types g); cbn [tl length] in *; lia.
  Qed.

  Lemma call2_core : exists fw cw cbs' l rc, cls ret rc /\ registered cbs g vs fw cw cbs' /\ takes_all st ext fw cw (arg_types g) vs l /\
    ffi_call2 cfun st cbs g junk vs err =
      (call <- ffi_call (length vs) rc (firstn 6 (l ++ junk)) ;;
       let r := match call with Some ps => cfun (s_fn g) ps | None => {| cr_bits := 0; cr_text := [] |} end in
       '(st, v) <- result_value st ret r ;;
       let e := if (ret =? T_VOID_PTR) && snd (mk_foreign (cr_bits r)) then report err E_TYPE else err in
       OK {| o_ret := E_OK; o_err := e; o_val := v; o_cbs := cbs'; o_strs := st;
             o_call := match call with Some ps => Some (s_fn g, ps) | None => None end |}).
  Proof.
    destruct Hg as (G & Cn & L & Cb & Hs). pose proof G as G0. destruct G as (R & _ & Cu & Iff). fold ret in R.
    destruct (cls_of ret R) as [rc Hrc]. destruct (takes_classes _ _ _ _ _ _ _ T0) as (_ & _ & C & D).
    assert (NI : ret =? T_INVALID = false) by (cbn [In] in R; repeat destruct R as [<- | R]; try contradiction; reflexivity).
    destruct (upto_prefix (tl (s_types g))) as [rest Hrest]. fold (arg_types g) in Hrest.
    unfold ffi_call2. fold ret. rewrite NI. destruct Hrc as (Hrc & Hrc'). rewrite Hrc.
    replace (zlen vs =? s_cnt g) with true by (rewrite Cn; unfold zlen; lia). cbn [negb]. rewrite Hrest.
    rewrite (conv_args_ok st ext (arg_types g) vs l0 rest T0) by (cbn; auto). cbn [bind k_args k_func k_ud k_ret k_err app length]. unfold slot_of, registered.
    destruct (in_dec Z.eq_dec T_CALLBACK (arg_types g)) as [I | I].
    - assert (I' : In T_USERDATA (arg_types g)) by (apply Iff, I).
      destruct (arg_of_some T_CALLBACK _ vs I D) as [f Ef]. destruct (arg_of_some T_USERDATA _ vs I' D) as [u Eu]. rewrite Ef, Eu.
      assert (N1 : count T_CALLBACK (arg_types g) = 1%nat) by (apply count_In in I; lia). assert (N2 : count T_USERDATA (arg_types g) = 1%nat) by (apply count_In in I'; lia).
      destruct (s_cb g) as [cs |] eqn:Ecs; [| exfalso; apply Hs; auto]. cbn [Nat.add].
      destruct (get_matching (cl_list cbs) f u) as [e |] eqn:Em; cbn [bind].
      + unfold get_matching in Em. destruct (find_some _ _ Em) as [E1 E2]. unfold matches in E2.
        exists (WFn (s_fn cs)), (WCb (ce_id e)), cbs. eexists _, rc. split; [split; assumption |]. split.
        * exists cs, e. repeat split; try reflexivity; try lia; auto.
        * split; [| reflexivity]. apply fill_cw with (cw := WNull); [| exact N2]. apply fill_fw with (fw := WNull); assumption.
      + set (e := {| ce_id := cl_next cbs; ce_func := f; ce_userdata := u; ce_sig := cs |}). set (cbs' := {| cl_next := _; cl_list := _ |}).
        exists (WFn (s_fn cs)), (WCb (ce_id e)), cbs'. eexists _, rc. split; [split; assumption |]. split.
        * exists cs, e. repeat split; try reflexivity; [apply in_or_app; right; left; reflexivity |]. right. repeat split.
          intros x Hx [X1 X2]. unfold get_matching in Em. pose proof (find_none _ _ Em x Hx) as Q. unfold matches in Q. lia.
        * split; [| reflexivity]. apply fill_cw with (cw := WNull); [| exact N2]. apply fill_fw with (fw := WNull); assumption.
    - assert (I' : ~ In T_USERDATA (arg_types g)) by (intros X; apply I, Iff, X). rewrite !arg_of_none by assumption. cbn [bind].
      exists WNull, WNull, cbs, l0, rc. split; [split; assumption |]. split; [reflexivity |]. split; [exact T0 | reflexivity].
  Qed.

  Lemma ret_in : In ret [T_NONE; T_INT; T_BOOL; T_DOUBLE; T_FLOAT; T_VOID_PTR; T_CHAR_PTR].
  Proof. destruct Hg as (G & _). apply G. Qed.

  Lemma call2_called (P : list carg -> list passed) : (forall ps, cret_ok st ret (cfun (s_fn g) ps)) ->
    (forall fw cw l rc, cls ret rc -> takes_all st ext fw cw (arg_types g) vs l ->
      exists ps, ffi_call (length vs) rc (firstn 6 (l ++ junk)) = OK (Some ps) /\ firstn (length vs) ps = P l) ->
    exists fw cw cbs' l o ps, registered cbs g vs fw cw cbs' /\ takes_all st ext fw cw (arg_types g) vs l /\
      ffi_call2 cfun st cbs g junk vs err = OK o /\ o_ret o = E_OK /\ o_err o = err /\ o_cbs o = cbs' /\
      o_call o = Some (s_fn g, ps) /\ firstn (length vs) ps = P l /\
      gives st ext ret (cfun (s_fn g) ps) (o_strs o) (o_val o).
  Proof.
    intros Hc HP. destruct call2_core as (fw & cw & cbs' & l & rc & Hrc & Hreg & T & E). destruct (HP fw cw l rc Hrc T) as (ps & C & F).
    destruct (result_ok st ext ret (cfun (s_fn g) ps) ret_in (Hc ps)) as (st' & v & R & Gv & Er).
    exists fw, cw, cbs', l. eexists _, ps. split; [exact Hreg |]. split; [exact T |]. split.
    { rewrite E, C. cbn [bind]. rewrite R, Er. cbn [bind]. reflexivity. }
    cbn [o_ret o_err o_cbs o_call o_strs o_val]. repeat split; assumption.
  Qed.
  Lemma call2_not_called : unsupported ret (arg_types g) ->
    exists o, ffi_call2 cfun st cbs g junk vs err = OK o /\ o_ret o = E_OK /\ o_err o = err /\ o_call o = None.
  Proof.
    intros U. destruct call2_core as (fw & cw & cbs' & l & rc & Hrc & Hreg & T & E).
    rewrite (call_unsupported st ext fw cw (arg_types g) vs l ret rc T arity Hrc junk Hj U) in E. cbn [bind cr_bits cr_text] in E. cbv zeta in E.
    assert (Q : exists v, result_value st ret {| cr_bits := 0; cr_text := [] |} = OK (st, v) /\ (ret =? T_VOID_PTR) && snd (mk_foreign 0) = false).
    { pose proof ret_in as R. clearbody ret. cbn [In] in R. repeat destruct R as [<- | R]; try contradiction; eexists; split; reflexivity. }
    destruct Q as (v & Q1 & Q2). rewrite Q1, Q2 in E. cbn [bind] in E. eexists. split; [exact E |]. cbn. auto.
  Qed.
End Whole.

(** * Wrong numbers of arguments *)
Lemma call2_arity cfun st cbs g junk vs err : callable g -> length vs <> length (arg_types g) ->
  ffi_call2 cfun st cbs g junk vs err = OK {| o_ret := E_TYPE; o_err := report err E_TYPE; o_val := V_UNDEFINED; o_cbs := cbs; o_strs := st; o_call := None |}.
Proof.
  intros (G & Cn & _) N. unfold ffi_call2. destruct G as (R & _). set (ret := hd 0 (s_types g)) in *. destruct (cls_of ret R) as [rc (Hrc & _)].
  assert (NI : ret =? T_INVALID = false) by (clearbody ret; cbn [In] in R; repeat destruct R as [<- | R]; try contradiction; reflexivity).
  rewrite NI, Hrc, Cn. replace (zlen vs =? zlen (arg_types g)) with false by (unfold zlen; lia). reflexivity.
Qed.
