(** Calls of the C functions that are the methods of arrays and strings. *)
From Verif Require Import Base BaseFacts Value_Model Value_Spec Value_Proofs Data_Model Str_Model Str_Spec Str_Proofs Str_Proofs2 Float_Proofs Lit_Proofs
  Ops_Model Ops_Spec Ops_Proofs Ops_Proofs2 TokNum_Model Txt_Model Obj_Model Obj_Spec Obj_Proofs Obj_Proofs2 Conv_Model Num_Model Varint_Model Varint_Proofs Bcode_Model Bcode_Proofs
  SUtil_Spec SUtil_Proofs Arr_Model Arr_Spec Arr_Proofs Vm_Model Vm_Spec Vm_Proofs Vm_Proofs2 Vm_Proofs4 Tok_Spec Parse_Model Expr_Spec Run_Spec Expr_Proofs1 Expr_Proofs3 Expr_Proofs4 Expr_Proofs5 Lang_Spec Lang_Code Lang_Spec2 Lang_Exec1 Lang_Key Lang_Exec2 Lang_Exec3 Lang_Exec4 Lang_Exec5.
From Coq Require Import ZifyBool.
Ltac Zify.zify_post_hook ::= idtac.

(** ** Where a text begins in another one *)
Lemma to_nat_zlen {A} (l : list A) : Z.to_nat (zlen l) = length l.
Proof. unfold zlen. lia. Qed.
Lemma begins_sub x t : begins x t = true <-> firstn (length x) t = x.
Proof.
  revert t. induction x as [|a x IH]; intros [|b t]; cbn [begins length firstn]; split; intros H; try reflexivity; try discriminate H.
  - apply andb_true_iff in H. destruct H as [E H]. apply Z.eqb_eq in E. subst b. f_equal. apply IH. exact H.
  - injection H as -> H. rewrite Z.eqb_refl. apply IH in H. rewrite H. reflexivity.
Qed.
Lemma index_in_spec x t : forall k, 0 <= k ->
  (exists j, index_in x t k = k + j /\ 0 <= j /\ j + zlen x <= zlen t /\ sub t j (zlen x) = x /\ forall i, 0 <= i < j -> sub t i (zlen x) <> x) \/
  (index_in x t k = -1 /\ forall i, 0 <= i -> i + zlen x <= zlen t -> sub t i (zlen x) <> x).
Proof.
  assert (B : forall t, begins x t = true -> zlen x <= zlen t /\ sub t 0 (zlen x) = x).
  { intros u H. apply begins_sub in H. split; [|unfold sub; cbn [skipn Z.to_nat]; rewrite to_nat_zlen; exact H].
    rewrite <- H. unfold zlen. rewrite firstn_length. lia. }
  assert (Nb : forall t, begins x t = false -> sub t 0 (zlen x) <> x).
  { intros u H Q. unfold sub in Q. cbn [skipn Z.to_nat] in Q. rewrite to_nat_zlen in Q. apply begins_sub in Q. congruence. }
  induction t as [|c t IH]; intros k Hk; cbn [index_in].
  - destruct (begins x []) eqn:E; [left; exists 0; destruct (B _ E); repeat split; try lia; assumption|].
    right. split; [reflexivity|]. intros i Hi Hl. pose proof (zlen_nonneg x). change (zlen (@nil Z)) with 0 in Hl. assert (i = 0) by lia. subst i. exact (Nb _ E).
  - destruct (begins x (c :: t)) eqn:E; [left; exists 0; destruct (B _ E); repeat split; try lia; assumption|].
    assert (Sh : forall i, 0 <= i -> sub (c :: t) (i + 1) (zlen x) = sub t i (zlen x)).
    { intros i Hi. unfold sub. replace (Z.to_nat (i + 1)) with (S (Z.to_nat i)) by lia. reflexivity. }
    destruct (IH (k + 1) ltac:(lia)) as [(j & E1 & J0 & J1 & J2 & J3)|[E1 J]].
    + left. exists (j + 1). rewrite zlen_cons. split; [lia|]. split; [lia|]. split; [lia|]. split; [rewrite Sh by lia; exact J2|].
      intros i Hi. destruct (Z.eq_dec i 0) as [->|]; [exact (Nb _ E)|]. replace i with ((i - 1) + 1) by lia. rewrite Sh by lia. apply J3. lia.
    + right. split; [exact E1|]. intros i Hi Hl. rewrite zlen_cons in Hl. destruct (Z.eq_dec i 0) as [->|]; [exact (Nb _ E)|].
      replace i with ((i - 1) + 1) by lia. rewrite Sh by lia. apply J; lia.
Qed.
Lemma first_unique t x from r : 0 <= from <= zlen t -> (first_occurrence t x from r \/ (r = -1 /\ no_occurrence t x from)) ->
  r = index_in x (skipn (Z.to_nat from) t) from.
Proof.
  intros Hf H. pose proof (zlen_nonneg x).
  assert (Sh : forall i, 0 <= i -> sub (skipn (Z.to_nat from) t) i (zlen x) = sub t (from + i) (zlen x)).
  { intros i Hi. unfold sub. rewrite skipn_skipn. do 2 f_equal. lia. }
  assert (Ln : zlen (skipn (Z.to_nat from) t) = zlen t - from) by (unfold zlen in *; rewrite skipn_length; lia).
  destruct (index_in_spec x (skipn (Z.to_nat from) t) from ltac:(lia)) as [(j & -> & J0 & J1 & J2 & J3)|[-> J]].
  - rewrite Sh in J2 by lia. destruct H as [(F1 & F2 & F3 & F4)|[_ F]]; [|exfalso; apply (F (from + j)); [lia|lia|exact J2]].
    destruct (Z.lt_trichotomy r (from + j)) as [Lt|[Eq|Gt]]; [exfalso|exact Eq|exfalso].
    + apply (J3 (r - from)); [lia|]. rewrite Sh by lia. replace (from + (r - from)) with r by lia. exact F3.
    + apply (F4 (from + j)); [lia|exact J2].
  - destruct H as [(F1 & F2 & F3 & F4)|[H _]]; [exfalso|exact H]. apply (J (r - from)); [lia|lia|]. rewrite Sh by lia. replace (from + (r - from)) with r by lia. exact F3.
Qed.
Lemma arg_int_get v i : arg_int v = Some i -> exists p, v = VPrim (ANum p) /\ get_int p = OK i /\ 0 <= i < 2 ^ 31.
Proof.
  unfold arg_int. destruct v as [[p| | | |]| | | |]; try discriminate. destruct (int32_part p) as [j|] eqn:E; [|discriminate].
  destruct (0 <=? j) eqn:Q; [|discriminate]. intros [= <-]. exists p. split; [reflexivity|]. unfold get_int, get_double. change (d_to_range 0 (2 ^ 32 - 1) p) with (to_u32 p). rewrite u32_part.
  unfold int32_part, uint32_part in *. destruct (int_part p) as [z|]; [|discriminate E]. unfold within in *.
  destruct ((- 2 ^ 31 <=? z) && (z <=? 2 ^ 31 - 1)) eqn:B; [|discriminate E]. injection E as ->.
  replace ((0 <=? j) && (j <=? 2 ^ 32 - 1)) with true by lia. cbn [bind]. rewrite s32_small by lia. split; [reflexivity|lia].
Qed.

Section Native.
Context (w : host) (sv : saved) (cd : code) (mem : rawmem) (res : list (Z * Z)).
Notation ext := (mext mem).
Notation vrep := (vrep cd ext).
Notation rel := (rel cd ext).
Notation look := (look cd mem res).
Notation go := (go w sv cd mem res).

(** ** Arguments and the returned value of the running C function *)
Lemma look_retpos m xs r base C' A SC LP T la h : look m (xs ++ r :: base) (vnum (zlen base + 1) :: C') A SC LP T la h -> zlen base + 1 < 2 ^ 31 ->
  getretvalpos m = OK (zlen base).
Proof.
  intros L Hb. pose proof L as (_ & Lc & _). destruct (look_size _ _ _ _ _ _ _ _ _ _ _ _ L) as (Zs & Zc & _). pose proof (zlen_nonneg base). pose proof (zlen_nonneg xs).
  unfold getretvalpos. assert (Gc : sk_get (m_call m) (-1) = OK (vnum (zlen base + 1)) /\ vptr (m_call m) (-1) <> None).
  { unfold sk_get, vptr. rewrite Zc, zlen_cons. pose proof (zlen_nonneg C'). change (-1 <? 0) with true. cbv iota.
    replace ((0 <=? 1 + zlen C' + -1) && (1 + zlen C' + -1 <? 1 + zlen C')) with true by lia. split; [|discriminate].
    replace (Z.to_nat (1 + zlen C' - 1 - (1 + zlen C' + -1))) with 0%nat by lia. rewrite Lc. reflexivity. }
  destruct Gc as [Gc Gp]. destruct (vptr (m_call m) (-1)); [|congruence]. rewrite Gc. cbn [bind].
  assert (Inb : is_number (vnum (zlen base + 1)) = true) by (unfold vnum; destruct (d_of_Z_valid (zlen base + 1)) as (_ & H' & ->); exact H').
  rewrite Inb. cbn [negb]. rewrite get_int_vnum by lia. cbn [bind]. rewrite Zs, zlen_app, zlen_cons.
  replace (zlen base + 1 - 1 <? zlen xs + (1 + zlen base)) with true by lia. f_equal. lia.
Qed.
Lemma look_arg_at m xs r base C' A SC LP T la h n : look m (xs ++ r :: base) (vnum (zlen base + 1) :: C') A SC LP T la h -> zlen base + 1 < 2 ^ 31 -> 0 <= n < zlen xs ->
  arg m n = OK (nth (Z.to_nat n) (rev xs) V_UNDEFINED).
Proof.
  intros L Hb Hn. pose proof L as (Ls & _). destruct (look_size _ _ _ _ _ _ _ _ _ _ _ _ L) as (Zs & _). pose proof (zlen_nonneg base). pose proof (zlen_nonneg xs).
  unfold arg. rewrite (look_retpos _ _ _ _ _ _ _ _ _ _ _ L Hb). cbn [bind]. cbv zeta. rewrite Zs, zlen_app, zlen_cons.
  replace ((0 <? zlen base + 1) && (zlen base + 1 + n <? zlen xs + (1 + zlen base))) with true by lia.
  unfold sk_get, vptr. rewrite Zs, zlen_app, zlen_cons. replace (zlen base + 1 + n <? 0) with false by lia.
  replace ((0 <=? zlen base + 1 + n) && (zlen base + 1 + n <? zlen xs + (1 + zlen base))) with true by lia. rewrite Ls. f_equal.
  rewrite <- (nth_indep (rev xs) 0 V_UNDEFINED) by (rewrite rev_length; unfold zlen in *; lia).
  rewrite <- (nth_from_bottom xs base r n) by lia. f_equal. rewrite zlen_app, zlen_cons. lia.
Qed.
Lemma look_args m xs r base C' A SC LP T la h : look m (rev xs ++ r :: base) (vnum (zlen base + 1) :: C') A SC LP T la h -> zlen base + 1 < 2 ^ 31 ->
  Vm_Model.args m = OK xs.
Proof.
  intros L Hb. destruct (look_size _ _ _ _ _ _ _ _ _ _ _ _ L) as (Zs & _). pose proof (zlen_nonneg base). pose proof (zlen_nonneg xs).
  assert (Lr : zlen (rev xs) = zlen xs) by (unfold zlen; rewrite rev_length; reflexivity).
  assert (Ef : forall k i, i + Z.of_nat k = zlen xs -> 0 <= i -> args_from m k i = OK (skipn (Z.to_nat i) xs)).
  { induction k as [|k IH]; intros i Hk Hi; cbn [args_from].
    - rewrite skipn_all2; [reflexivity|]. unfold zlen in *. lia.
    - rewrite (look_arg_at _ _ _ _ _ _ _ _ _ _ _ i L Hb) by lia. cbn [bind]. rewrite IH by lia. cbn [bind]. rewrite rev_involutive. f_equal.
      replace (Z.to_nat (i + 1)) with (S (Z.to_nat i)) by lia.
      assert (Q : (Z.to_nat i < length xs)%nat) by (unfold zlen in *; lia). clear - Q. revert Q. generalize (Z.to_nat i). induction xs as [|x xs IH]; intros n Q; [cbn [length] in Q; lia|].
      destruct n as [|n]; [reflexivity|]. change (nth n xs V_UNDEFINED :: skipn (S n) xs = skipn n xs). apply IH. cbn [length] in Q. lia. }
  unfold Vm_Model.args, nargs. rewrite (look_retpos _ _ _ _ _ _ _ _ _ _ _ L Hb). cbn [bind]. cbv zeta. rewrite Zs, zlen_app, zlen_cons, Lr.
  replace (0 <? zlen base + 1) with true by lia. cbn [andb]. destruct (zlen base + 1 <? zlen xs + (1 + zlen base)) eqn:Q.
  - rewrite Ef by lia. reflexivity.
  - assert (zlen xs = 0) by lia. destruct xs; [reflexivity|]. rewrite zlen_cons in *. pose proof (zlen_nonneg xs). lia.
Qed.
Lemma look_return m xs r base C' A SC LP T la h v : look m (xs ++ r :: base) (vnum (zlen base + 1) :: C') A SC LP T la h -> zlen base + 1 < 2 ^ 31 ->
  exists m', return_v m v = OK m' /\ look m' (v :: base) (vnum (zlen base + 1) :: C') A SC LP T la h.
Proof.
  intros L Hb. pose proof L as (Ls & _). pose proof (zlen_nonneg base). unfold return_v. rewrite (look_retpos _ _ _ _ _ _ _ _ _ _ _ L Hb). cbn [bind]. rewrite size_of_int_id by lia.
  assert (Ls' : sk_live (m_stack m) = (xs ++ [r]) ++ base) by (rewrite <- app_assoc; exact Ls).
  rewrite (set_len_live _ _ (xs ++ [r]) base Ls' eq_refl). cbn [bind]. eexists. split; [reflexivity|]. apply look_push. eapply look_stack; [exact L|reflexivity].
Qed.

(** ** CALL of a C function *)
Lemma g_native bp i op xs f base C A SC LP T th la h x h' : part_of cd bp -> code_at bp i [OP_CALL] -> is_u64 f -> kind_of f = KForeign -> zlen base + 1 < 2 ^ 31 -> zlen SC < 2 ^ 31 -> zlen LP < 2 ^ 31 ->
  (forall m, let C1 := vnum (zlen base + 1) :: vnum (zlen LP) :: vnum (zlen SC) :: vnum (bp_start bp + i) :: T :: C in
     look m (xs ++ f :: base) C1 A SC LP th la h -> exists m', (forall exec k, call_native w exec k (get_ptr f) m = OK m') /\ look m' (x :: base) C1 A SC LP th la h') ->
  go (Cf bp i op (xs ++ f :: base) C (vnum (zlen base + 1) :: th :: A) SC LP T la h) (Cf bp (i + 1) OP_CALL (x :: base) C A SC LP T la h').
Proof.
  intros P Ca0 Uf Kf Hb Hs Hl H. pose proof (at_len _ _ _ Ca0) as [Ca1 Ca2]. pose proof (part_len cd bp P) as (Pl1 & Pl2 & Pl3). change (zlen [OP_CALL]) with 1 in Ca2.
  eapply (go_one _ _ _ _ _ _ _ _ []); [exact Ca0|reflexivity|]; unfold looks; cbn [f_bp f_i f_op f_s f_c f_a f_sc f_lp f_t f_la f_h]; intros m L.
  pose proof (zlen_nonneg base). pose proof (zlen_nonneg SC). pose proof (zlen_nonneg LP).
  pose proof L as (Ls & Lc & La & Lsc & Llp & Lt & _ & _ & _ & Lcd & _). destruct (look_size _ _ _ _ _ _ _ _ _ _ _ _ L) as (_ & _ & _ & Zsc & Zlp).
  set (a1 := {| sk_live := th :: A; sk_stale := vnum (zlen base + 1) :: sk_stale (m_arg m); sk_cap := sk_cap (m_arg m) |}).
  set (a2 := {| sk_live := A; sk_stale := th :: vnum (zlen base + 1) :: sk_stale (m_arg m); sk_cap := sk_cap (m_arg m) |}).
  destruct (sk_get_at (m_stack m) xs f base Ls) as [Gf _].
  set (c' := sk_push (sk_push (sk_push (sk_push (sk_push (m_call m) T) (vnum (bp_start bp + i))) (vnum (zlen SC))) (vnum (zlen LP))) (vnum (zlen base + 1))).
  set (m1 := set_call (set_this (set_arg (set_arg m a1) a2) th) c').
  set (C1 := vnum (zlen base + 1) :: vnum (zlen LP) :: vnum (zlen SC) :: vnum (bp_start bp + i) :: T :: C).
  assert (L1 : look m1 (xs ++ f :: base) C1 A SC LP th la h).
  { unfold m1. eapply look_call; [eapply look_this; eapply look_arg; [eapply look_arg; [exact L|reflexivity]|reflexivity]|]. unfold c', C1. cbn [sk_push sk_live]. rewrite Lc. reflexivity. }
  destruct (preds_kind f Uf) as (_ & _ & _ & _ & If2 & _ & _ & If1 & If & If3). rewrite Kf in If1, If2, If, If3. cbn [kind_eqb] in If1, If2, If, If3.
  destruct (H m1 L1) as (m2 & E2 & L2).
  pose proof L2 as (Ls2 & Lc2 & _ & Lsc2 & Llp2 & _). destruct (look_size _ _ _ _ _ _ _ _ _ _ _ _ L2) as (_ & Zc2 & _).
  destruct (shrink_exact (m_scopes m2) [] SC Lsc2) as (s1 & E1 & L1'). destruct (shrink_exact (m_loops m2) [] LP Llp2) as (s2 & E2' & L2').
  pose proof (set_len_live (m_stack m2) (zlen base + 1) [] (x :: base) Ls2 ltac:(rewrite zlen_cons; lia)) as E3.
  eexists _, i. split; [|split; [rewrite u64_id by lia; reflexivity|]].
  - intros exec k. change (instr w exec k m bp i OP_CALL op) with (do_call w exec k m bp i). unfold do_call.
    assert (Et : sk_top (m_arg m) = vnum (zlen base + 1)) by (unfold sk_top; rewrite La; reflexivity). rewrite Et. cbv zeta.
    rewrite get_int_vnum by lia. cbn [bind]. unfold sk_pop at 1. rewrite La. cbn [bind].
    change (m_stack (set_arg m {| sk_live := th :: A; sk_stale := vnum (zlen base + 1) :: sk_stale (m_arg m); sk_cap := sk_cap (m_arg m) |})) with (m_stack m).
    replace (zlen base + 1 - 1) with (zlen base) by lia. rewrite Gf. cbn [bind]. rewrite If, If2, If3, If1. cbn [orb].
    unfold push_frame. cbn [set_arg m_arg sk_pop sk_live sk_stale sk_cap bind m_call m_this m_scopes m_loops].
    rewrite Lt, Zsc, Zlp. fold a1. fold a2. fold c'. change (m_call (set_this (set_arg (set_arg m a1) a2) th)) with (m_call m).
    fold m1. rewrite E2. cbn [bind].
    unfold restore_frame. rewrite Zc2. unfold C1. rewrite !zlen_cons. pose proof (zlen_nonneg C). replace (_ <? 5) with false by lia.
    unfold C1 in Lc2. unfold sk_pop. rewrite Lc2. cbn [bind sk_live sk_stale sk_cap]. rewrite get_int_vnum by lia. cbn [bind sk_live sk_stale sk_cap].
    rewrite get_int_vnum by lia. cbn [bind sk_live sk_stale sk_cap]. rewrite get_int_vnum by lia. cbn [bind sk_live sk_stale sk_cap].
    rewrite get_int_vnum by lia. cbn [bind sk_live sk_stale sk_cap]. rewrite !size_of_int_id by lia. rewrite E1. cbn [bind]. rewrite E2'. cbn [bind]. rewrite E3. cbn [bind]. reflexivity.
  - eapply look_stack; [|reflexivity]. eapply look_loops; [|exact L2']. eapply look_scopes; [|exact L1']. eapply look_this. eapply look_call; [exact L2|reflexivity].
Qed.

(** ** What the methods do *)
Lemma str_native f m xs r base C' A SC LP T la h st v : look m (rev xs ++ r :: base) (vnum (zlen base + 1) :: C') A SC LP T la h -> zlen base + 1 < 2 ^ 31 ->
  f (h_st h) ext T xs = OK (st, v, E_OK) ->
  exists m', str_builtin f m = OK m' /\ look m' (v :: base) (vnum (zlen base + 1) :: C') A SC LP T la (with_st h st).
Proof.
  intros L Hb E. unfold str_builtin. rewrite (look_args _ _ _ _ _ _ _ _ _ _ _ L Hb). cbn [bind]. destruct (look_st _ _ _ _ _ _ _ _ _ _ _ _ L) as [Es Ee].
  pose proof L as (_ & _ & _ & _ & _ & Lt & _). rewrite Es, Ee, Lt, E. cbn [bind]. change (prepend (set_st m st) E_OK) with (set_st m st).
  exact (look_return _ _ _ _ _ _ _ _ _ _ _ v (look_set_st _ _ _ _ st _ _ _ _ _ _ _ _ L) Hb).
Qed.
Lemma arr_native f m xs r base C' A SC LP T la h h' v : look m (rev xs ++ r :: base) (vnum (zlen base + 1) :: C') A SC LP T la h -> zlen base + 1 < 2 ^ 31 ->
  f h ext T xs = OK (h', v, E_OK) ->
  exists m', arr_builtin f m = OK m' /\ look m' (v :: base) (vnum (zlen base + 1) :: C') A SC LP T la h'.
Proof.
  intros L Hb E. unfold arr_builtin. rewrite (look_args _ _ _ _ _ _ _ _ _ _ _ L Hb). cbn [bind]. destruct (look_st _ _ _ _ _ _ _ _ _ _ _ _ L) as [_ Ee].
  pose proof L as (_ & _ & _ & _ & _ & Lt & _ & Lh & _). rewrite Lh, Ee, Lt, E. cbn [bind]. change (prepend (set_heap m h') E_OK) with (set_heap m h').
  exact (look_return _ _ _ _ _ _ _ _ _ _ _ v (look_heap _ _ _ _ h' _ _ _ _ _ _ _ _ L) Hb).
Qed.

Lemma push_all_ok i : forall xs vs W s s' ov, rel W s -> (i < length (w_addr W))%nat -> ov = arr_at W i -> Forall2 (vrep W) xs vs -> append_all s i vs = Some s' ->
  exists W', push_all (w_heap W) ext ov xs = OK (w_heap W', E_OK) /\ rel W' s' /\ later W W' /\ ov = arr_at W' i.
Proof.
  induction xs as [|x xs IH]; intros vs W s s' ov Rl Hi Ho F E; inversion F as [|? v ? vs' Hx Hxs]; subst; cbn [append_all push_all] in *.
  - injection E as <-. exists W. split; [reflexivity|]. split; [exact Rl|]. split; [apply later_refl|reflexivity].
  - destruct (append s i v) as [s1|] eqn:E1; [|discriminate E]. destruct (append_ok _ _ W s s1 i _ x v Rl Hx (or_intror eq_refl) E1) as (h & mp & Ea & R1 & L1).
    rewrite Ea. cbn [bind]. change (E_OK =? E_OK) with true. cbv iota. set (W1 := set_world W h (nth i (w_addr W) 0) mp) in *.
    destruct (IH vs' W1 s1 s' (arr_at W i) R1 Hi eq_refl) as (W' & E' & R' & L' & A').
    + eapply Forall2_impl'; [|exact Hxs]. intros a b. apply vrep_later. exact L1.
    + exact E.
    + exists W'. split; [exact E'|]. split; [exact R'|]. split; [eapply later_trans; eassumption|exact A'].
Qed.
Lemma string_slice_eq st this d bv bi rest e :
  holds st ext this d -> zlen d < 2 ^ 31 -> is_u64 bv -> kind_of bv = KNumber -> get_int bv = OK bi ->
  match rest with
  | [] => e = zlen d
  | ev :: _ => is_u64 ev /\ kind_of ev = KNumber /\ exists ei, get_int ev = OK ei /\ e = clamp_idx ei (zlen d)
  end ->
  string_slice st ext this (bv :: rest) = '(st', r) <- mk_string st (sub d (clamp_idx bi (zlen d)) (Z.max 0 (e - clamp_idx bi (zlen d)))) ;; OK (st', r, E_OK).
Proof.
  intros Hh Hn Hbu Hbk Hbi He. set (b := clamp_idx bi (zlen d)). pose proof (zlen_nonneg d).
  pose proof (get_int_range _ _ Hbi) as Rb. pose proof (clamp_range bi (zlen d) ltac:(lia)).
  unfold string_slice. rewrite check_this_string by apply Hh. cbn [bind].
  destruct (proj2 (proj2 Hh)) as (l & G1 & G2 & G3). rewrite G1. cbn [bind].
  rewrite (check_arg_ok _ _ 0 bv TyNumber) by (try reflexivity; assumption). cbn [bind].
  rewrite Hbi. cbn [bind]. rewrite Str_Proofs2.s32_small by lia. rewrite normalize_idx_spec by lia. cbn [bind].
  fold (clamp_idx bi (zlen d)). fold b.
  assert (HE : (if 2 <=? zlen (bv :: rest) then
          a2 <- check_arg this (bv :: rest) (Some 1%nat) TyNumber ;;
          match a2 with
          | None => OK None
          | Some ev => ei <- get_int ev ;; e <- normalize_idx ei (zlen d) ;; OK (Some e)
          end
        else OK (Some (zlen d))) = OK (Some e) /\ 0 <= e <= zlen d).
  { destruct rest as [|ev rest].
    - subst e. split; [reflexivity|lia].
    - destruct He as (E1 & E2 & ei & E3 & ->). split; [|apply clamp_range; lia].
      replace (2 <=? zlen (bv :: ev :: rest)) with true by (rewrite !zlen_cons; pose proof (zlen_nonneg rest); lia).
      rewrite (check_arg_ok _ _ 1 ev TyNumber) by (try reflexivity; assumption). cbn [bind].
      rewrite E3. cbn [bind]. pose proof (get_int_range _ _ E3). rewrite normalize_idx_spec by lia. reflexivity. }
  destruct HE as [HE HR]. rewrite HE. cbn [bind].
  set (e' := if e <? b then b else e).
  assert (Ee : e' - b = Z.max 0 (e - b)) by (unfold e'; destruct (e <? b) eqn:Q; lia).
  rewrite Ee. rewrite (holds_read_inside st ext this d l b (Z.max 0 (e - b)) Hh G1) by (unfold b in *; lia). reflexivity.
Qed.
Lemma slice_text (t : list Z) i j : 0 <= i -> 0 <= j ->
  sub t (clamp_idx i (zlen t)) (Z.max 0 (clamp_idx j (zlen t) - clamp_idx i (zlen t))) = firstn (Z.to_nat j - Z.to_nat i) (skipn (Z.to_nat i) t).
Proof.
  intros Hi Hj. unfold clamp_idx, sub. replace (i <? 0) with false by lia. replace (j <? 0) with false by lia. pose proof (zlen_nonneg t).
  destruct (Z_le_gt_dec i (zlen t)) as [Q|Q].
  - replace (Z.max 0 (Z.min (zlen t) i)) with i by lia. destruct (Z_le_gt_dec j (zlen t)) as [Q'|Q'].
    + f_equal. lia.
    + rewrite !firstn_all2; [reflexivity| |]; rewrite skipn_length; unfold zlen in *; lia.
  - rewrite !skipn_all2 by (unfold zlen in *; lia). rewrite !firstn_nil. reflexivity.
Qed.
Lemma arg_rep W x v i : vrep W x v -> arg_int v = Some i -> is_u64 x /\ kind_of x = KNumber /\ get_int x = OK i /\ 0 <= i < 2 ^ 31.
Proof.
  intros Hx E. destruct (arg_int_get v i E) as (p & -> & G & B). pose proof (vrep_prim _ _ _ _ _ Hx) as P. destruct (rep_kind _ _ _ _ P) as [U K].
  destruct P as (-> & _ & _). split; [exact U|]. split; [exact K|]. split; assumption.
Qed.

Lemma call_host_ok p f T th vs xs W s s' v : rel W s -> vrep W f (VHost p) -> vrep W T th -> Forall2 (vrep W) xs vs -> call_host p th vs s = Some (v, s') ->
  exists W' x, rel W' s' /\ later W W' /\ vrep W' x v /\
    forall m base r C' A SC LP la, look m (rev xs ++ r :: base) (vnum (zlen base + 1) :: C') A SC LP T la (w_heap W) -> zlen base + 1 < 2 ^ 31 ->
      exists m', (forall exec k, call_native w exec k (get_ptr f) m = OK m') /\ look m' (x :: base) (vnum (zlen base + 1) :: C') A SC LP T la (w_heap W').
Proof.
  intros Rl (-> & Up & Kp) Ht F E. destruct (vrep_kind _ _ W s T th Rl Ht) as [Ut Kt]. unfold call_host in E.
  assert (Hw : with_st (w_heap W) (w_st W) = w_heap W) by (destruct W as [[]]; reflexivity).
  destruct th as [[ | | | |t]|j|j|ps b|q]; try discriminate E.
  - (* strings *)
    destruct (zlen t <? 2 ^ 31) eqn:Zt; [|discriminate E]. apply Z.ltb_lt in Zt. cbn [Lang_Spec2.vrep] in Ht. destruct Ht as [Nt Bt]. pose proof (proj1 Nt) as Hh. pose proof (zlen_nonneg t) as Zt0.
    assert (H : exists a, (if p =? h_char_code_at then char_code_of t vs else if p =? h_slice then slice_of t vs else if p =? h_index_of then index_of t vs else None) = Some a /\
       take (v_cost a) s = Some s' /\ v = a).
    { destruct (if p =? h_char_code_at then _ else _) as [a|]; [|discriminate E]. destruct (take (v_cost a) s) as [s1|] eqn:E1; [|discriminate E]. injection E as <- <-.
      exists a. split; [reflexivity|]. split; [exact E1|reflexivity]. }
    clear E. destruct H as (a & E & Tk & ->).
    destruct (p =? h_char_code_at) eqn:P1; [|destruct (p =? h_slice) eqn:P2; [|destruct (p =? h_index_of) eqn:P3; [|discriminate E]]].
    + apply Z.eqb_eq in P1. subst p. unfold char_code_of in E. destruct vs as [|u vs]; [discriminate E|]. inversion F as [|x ? xs' ? Hx Hxs]; subst. destruct (arg_int u) as [i|] eqn:Ei; [|discriminate E].
      destruct (arg_rep W x u i Hx Ei) as (Ux & Kx & Gx & Bx). pose proof (char_code_at_spec (w_st W) ext T t x i xs' Hh Zt Ux Kx Gx) as Ec.
      set (rv := match nthz t (clamp_idx i (zlen t)) with Some b => mk_number (d_of_Z b) | None => V_UNDEFINED end) in *.
      assert (Rv : vrep W rv a /\ v_cost a = 0).
      { assert (En : nthz t (clamp_idx i (zlen t)) = nth_error t (Z.to_nat i)).
        { unfold nthz, clamp_idx. replace (i <? 0) with false by lia. replace (_ <? 0) with false by lia. destruct (Z_le_gt_dec i (zlen t)) as [Q|Q].
          - f_equal. lia.
          - transitivity (@None Z); [|symmetry]; apply nth_error_None; unfold zlen in *; lia. }
        unfold rv. rewrite En. injection E as <-. destruct (nth_error t (Z.to_nat i)) as [c|]; [split; [exact (vint_rep cd mem W c)|reflexivity]|].
        split; [reflexivity|reflexivity]. }
      destruct Rv as [Rv Cv]. rewrite Cv in Tk. exists W, rv. split; [eapply rel_take; eassumption|]. split; [apply later_refl|]. split; [exact Rv|].
      intros m base r C' A SC LP la L Hb. destruct (str_native _ _ _ _ _ _ _ _ _ _ _ _ _ _ L Hb Ec) as (m' & Em & Lm). rewrite Hw in Lm. exists m'.
      split; [intros exec k; destruct k; exact Em|exact Lm].
    + apply Z.eqb_eq in P2. subst p. unfold slice_of in E. destruct vs as [|u vs]; [discriminate E|]. inversion F as [|x ? xs' ? Hx Hxs]; subst. destruct (arg_int u) as [i|] eqn:Ei; [|discriminate E].
      destruct (arg_rep W x u i Hx Ei) as (Ux & Kx & Gx & Bx).
      assert (H : exists e j, match xs' with [] => e = zlen t | ev :: _ => is_u64 ev /\ kind_of ev = KNumber /\ exists ei, get_int ev = OK ei /\ e = clamp_idx ei (zlen t) end /\
         e = clamp_idx j (zlen t) /\ 0 <= j /\ a = VPrim (AStr (firstn (Z.to_nat j - Z.to_nat i) (skipn (Z.to_nat i) t)))).
      { destruct vs as [|u2 vs]; inversion Hxs as [|y ? ys ? Hy Hys]; subst.
        - exists (zlen t), (zlen t). split; [reflexivity|]. split; [unfold clamp_idx; replace (zlen t <? 0) with false by lia; lia|]. split; [lia|]. injection E as <-. reflexivity.
        - destruct (arg_int u2) as [j|] eqn:Ej; [|discriminate E]. destruct (arg_rep W y u2 j Hy Ej) as (Uy & Ky & Gy & By).
          exists (clamp_idx j (zlen t)), j. split; [split; [exact Uy|split; [exact Ky|exists j; split; [exact Gy|reflexivity]]]|]. split; [reflexivity|]. split; [lia|]. injection E as <-. reflexivity. }
      destruct H as (e & j & He & Ee & Hj & ->). pose proof (string_slice_eq (w_st W) T t x i xs' e Hh Zt Ux Kx Gx He) as Es. rewrite Ee, slice_text in Es by lia.
      set (d := firstn (Z.to_nat j - Z.to_nat i) (skipn (Z.to_nat i) t)) in *. cbn [v_cost val_cost] in Tk. unfold str_cost in Tk. pose proof (take_some _ _ _ Tk) as (Bn & _).
      assert (Bd : bytes_ok d).
      { unfold d, bytes_ok in *. rewrite Forall_forall in Bt |- *. intros c Hc. apply Bt. rewrite <- (firstn_skipn (Z.to_nat i) t). apply in_or_app. right.
        rewrite <- (firstn_skipn (Z.to_nat j - Z.to_nat i) (skipn (Z.to_nat i) t)). apply in_or_app. left. exact Hc. }
      destruct (make_str _ _ W s d Rl Bd ltac:(lia)) as (st & y & Mk & G & Rm & Ny). rewrite Mk in Es. cbn [bind] in Es.
      exists (str_world W st), y. split; [eapply rel_str; [exact Rl|exact G|exact Rm|exact Tk]|]. split; [apply str_later; exact G|]. split; [split; [exact Ny|exact Bd]|].
      intros m base r C' A SC LP la L Hb. destruct (str_native _ _ _ _ _ _ _ _ _ _ _ _ _ _ L Hb Es) as (m' & Em & Lm). exists m'.
      split; [intros exec k; destruct k; exact Em|exact Lm].
    + apply Z.eqb_eq in P3. subst p. unfold index_of in E. destruct vs as [|u vs]; [discriminate E|]. destruct u as [[ | | | |x]| | | |]; try discriminate E. inversion F as [|y ? ys ? Hy Hys]; subst.
      cbn [Lang_Spec2.vrep] in Hy. destruct Hy as [Ny By]. pose proof (proj1 Ny) as Hy.
      assert (H : exists k, match ys with [] => k = 0 | iv :: _ => is_u64 iv /\ kind_of iv = KNumber /\ exists i, get_int iv = OK i /\ k = Z.min (zlen t) (Z.max 0 i) end /\ 0 <= k <= zlen t /\
         a = vint (index_in x (skipn (Z.to_nat k) t) k)).
      { destruct vs as [|u2 vs]; inversion Hys as [|z ? zs ? Hz Hzs]; subst.
        - exists 0. split; [reflexivity|]. split; [lia|]. revert E. cbv zeta. replace (Z.min (zlen t) 0) with 0 by lia. intros E. injection E as <-. reflexivity.
        - destruct (arg_int u2) as [i|] eqn:Ei; [|discriminate E]. destruct (arg_rep W z u2 i Hz Ei) as (Uz & Kz & Gz & Bz).
          exists (Z.min (zlen t) i). split; [split; [exact Uz|split; [exact Kz|exists i; split; [exact Gz|lia]]]|]. split; [lia|]. injection E as <-. reflexivity. }
      destruct H as (k & Hk & Bk & ->). destruct (string_index_of_spec (w_st W) ext T t y x ys k Hh Hy Zt Hk) as (r0 & Er & Hr).
      pose proof (first_unique t x k r0 Bk Hr) as ->. exists W, (vnum (index_in x (skipn (Z.to_nat k) t) k)). split; [eapply rel_take; eassumption|]. split; [apply later_refl|].
      split; [exact (vint_rep cd mem W _)|].
      intros m base r C' A SC LP la L Hb. destruct (str_native _ _ _ _ _ _ _ _ _ _ _ _ _ _ L Hb Er) as (m' & Em & Lm). rewrite Hw in Lm. exists m'.
      split; [intros exec k'; destruct k'; exact Em|exact Lm].
  - (* arrays *)
    destruct (p =? h_push) eqn:P1; [|discriminate E]. apply Z.eqb_eq in P1. subst p. destruct (append_all s j vs) as [s1|] eqn:E1; [|discriminate E].
    destruct (arr_len s1 j) as [n|] eqn:E2; [|discriminate E]. injection E as <- <-. cbn [Lang_Spec2.vrep] in Ht. destruct Ht as [Hj Et].
    destruct (push_all_ok j xs vs W s s1 T Rl Hj Et F E1) as (W' & Ep & R' & L' & A'). destruct (arr_len_ok _ _ W' s1 j T n R' (or_intror A') E2) as [En Bn].
    exists W', (vnum n). split; [exact R'|]. split; [exact L'|]. split; [exact (vint_rep cd mem W' n)|].
    intros m base r C' A SC LP la L Hb.
    assert (Eb : array_push_builtin (w_heap W) ext T xs = OK (w_heap W', vnum n, E_OK)).
    { unfold array_push_builtin, check_arg. rewrite (get_type_agrees T TyArray Ut Kt). cbn [bind]. change (mtype_eqb TyArray TyArray) with true. cbv iota.
      rewrite Ep. cbn [bind]. change (E_OK =? E_OK) with true. cbv iota. rewrite En. reflexivity. }
    destruct (arr_native _ _ _ _ _ _ _ _ _ _ _ _ _ _ L Hb Eb) as (m' & Em & Lm). exists m'.
    split; [intros exec k'; destruct k'; exact Em|exact Lm].
Qed.
End Native.
