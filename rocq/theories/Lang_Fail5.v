(** Calls by the host that fail. *)
From Verif Require Import Base BaseFacts Value_Model Value_Spec Value_Proofs Data_Model Str_Model Str_Spec Str_Proofs Str_Proofs2 Float_Proofs Lit_Proofs
  Ops_Model Ops_Spec Ops_Proofs Ops_Proofs2 TokNum_Model Txt_Model Obj_Model Obj_Spec Obj_Proofs Obj_Proofs2 Conv_Model Num_Model Varint_Model Varint_Proofs Bcode_Model Bcode_Proofs
  Vm_Model Vm_Spec Vm_Proofs Vm_Proofs2 Vm_Proofs4 Tok_Spec Parse_Model Expr_Spec Run_Spec Expr_Proofs1 Expr_Proofs3 Expr_Proofs4 Expr_Proofs5 Lang_Spec Lang_Code Lang_Spec2 Lang_Exec1 Lang_Key Lang_Exec2 Lang_Exec3 Lang_Exec4 Lang_Exec5 Lang_Native Lang_Exec6 Lang_Exec7 Lang_Exec8 Lang_Exec9 Props_Bcode Run_Model Lex_Proofs Expr_Proofs6 Lang_Proofs7 Lang_Exec10 Lang_Spec5 Lang_Fail1 Lang_Fail2 Lang_Fail3 Lang_Fail4 Lang_Spec3 Lang_Spec4 Lang_Spec6 Lang_Apply.
From Coq Require Import ZifyBool.
Ltac Zify.zify_post_hook ::= idtac.




(** The frame of a call by the host is taken off the stack. *)
Lemma restore_ok m r base C isc sc ilp lp T xs : sk_live (m_stack m) = xs ++ r :: base -> sk_live (m_call m) = vnum (zlen base + 1) :: vnum (zlen lp) :: vnum (zlen sc) :: vnum EXIT_ADDR :: T :: C ->
  sk_live (m_scopes m) = isc ++ sc -> sk_live (m_loops m) = ilp ++ lp -> zlen base + 1 < 2 ^ 31 -> zlen sc < 2 ^ 31 -> zlen lp < 2 ^ 31 ->
  exists a m', restore_frame m = OK (a, m') /\ sk_live (m_stack m') = r :: base /\ sk_live (m_call m') = C /\ m_arg m' = m_arg m /\ sk_live (m_scopes m') = sc /\ sk_live (m_loops m') = lp /\
    m_heap m' = m_heap m /\ m_err m' = m_err m /\ m_code m' = m_code m /\ m_mem m' = m_mem m.
Proof.
  intros Ls Lc Lsc Llp Hb Hs Hl. pose proof (zlen_nonneg base). pose proof (zlen_nonneg sc). pose proof (zlen_nonneg lp).
  destruct (shrink_exact (m_scopes m) isc sc Lsc) as (s1 & E1 & L1). destruct (shrink_exact (m_loops m) ilp lp Llp) as (s2 & E2 & L2).
  pose proof (set_len_live (m_stack m) (zlen base + 1) xs (r :: base) Ls ltac:(rewrite zlen_cons; lia)) as E3.
  eexists _, _. split.
  - unfold restore_frame, sk_size. rewrite Lc. rewrite !zlen_cons. pose proof (zlen_nonneg C). replace (_ <? 5) with false by lia.
    unfold sk_pop. rewrite Lc. cbn [bind sk_live sk_stale sk_cap]. rewrite get_int_vnum by lia. cbn [bind sk_live sk_stale sk_cap].
    rewrite get_int_vnum by lia. cbn [bind sk_live sk_stale sk_cap]. rewrite get_int_vnum by lia. cbn [bind sk_live sk_stale sk_cap].
    rewrite get_int_vnum by (unfold EXIT_ADDR; lia). cbn [bind sk_live sk_stale sk_cap]. rewrite !size_of_int_id by (unfold EXIT_ADDR; lia). rewrite E1. cbn [bind]. rewrite E2. cbn [bind]. rewrite E3. cbn [bind].
    reflexivity.
  - cbn [set_stack set_loops set_scopes set_this set_call m_stack m_call m_arg m_scopes m_loops m_heap m_err m_code m_mem sk_live]. repeat split; assumption.
Qed.
Lemma apply_stops w m W s sc th f fv T t xs vs rounds depth c s' : fail_host rounds depth sc fv t vs s = Some (c, s') -> (length vs <= depth)%nat ->
  stack_room m (S depth) -> in_state m W s sc th -> vrep (m_code m) (m_ext m) W f fv -> vrep (m_code m) (m_ext m) W T t -> Forall2 (vrep (m_code m) (m_ext m) W) xs vs ->
  exists fu m' W', (forall fu', (fu <= fu')%nat -> apply fu' w m f T xs = OK (m', V_UNDEFINED)) /\ m_err m' = c /\ c <> E_OK /\
    in_state m' W' s' sc th /\ later W W' /\ same_stacks m m' /\ m_code m' = m_code m.
Proof.
  intros Hc Hn Sr St0 Vf VT Fx.
  assert (No : (c, s') = (E_TYPE, s) -> match fv with VFun _ _ | VHost _ => False | _ => True end ->
    exists fu m' W', (forall fu', (fu <= fu')%nat -> apply fu' w m f T xs = OK (m', V_UNDEFINED)) /\ m_err m' = c /\ c <> E_OK /\
    in_state m' W' s' sc th /\ later W W' /\ same_stacks m m' /\ m_code m' = m_code m).
  { intros E Hv. injection E as -> ->. destruct (kind_facts (m_code m) (m_mem m) W s f fv (proj1 (proj2 St0)) Vf) as (_ & _ & _ & _ & I1 & I2 & _ & I3).
    exists 0%nat, (set_err m E_TYPE), W. split.
    - intros fu _. unfold apply, apply_with. rewrite I1, I2, I3. destruct fv; try contradiction; reflexivity.
    - split; [reflexivity|]. split; [discriminate|]. split; [exact St0|]. split; [apply later_refl|]. split; [repeat split|reflexivity]. }
  unfold fail_host in Hc. destruct fv as [p|jj|jj|ps b|p]; try discriminate Hc; try (apply No; [injection Hc as <- <-; reflexivity|exact I]). clear No.
  destruct St0 as (Hh & Rl & Sc & Vt).
  destruct (new_cell s) as [[j s1]|] eqn:E0; [|discriminate Hc]. destruct (bind_pars j ps vs s1) as [s2|] eqn:E1; [|discriminate Hc].
  destruct (fail_list (at_depth rounds depth) (fails_at rounds depth) (j :: sc) t b s2) as [[[c' t'] s3]|] eqn:E2; [|discriminate Hc]. injection Hc as -> ->.
  pose proof Vf as Vf'. cbn [Lang_Spec2.vrep] in Vf'. destruct Vf' as (fb & pre & rest & Pf & Ed & Np & Ef & Wb).
  assert (Hp : 0 < zlen pre) by (destruct pre; [congruence|rewrite zlen_cons; pose proof (zlen_nonneg pre); lia]).
  assert (Ca : code_at fb (zlen pre) (bracket ps (seqcode (map cst b)))) by (exists pre, rest; split; [exact Ed|reflexivity]).
  pose proof (at_len _ _ _ Ca) as [_ Cl]. assert (Lb : 0 < zlen (bracket ps (seqcode (map cst b)))) by (unfold bracket; rewrite zlen_cons; match goal with |- 0 < 1 + zlen ?a => pose proof (zlen_nonneg a) end; lia).
  set (cd := m_code m) in *. set (mem := m_mem m). set (res := m_res m). set (ext := m_ext m) in *.
  destruct (part_len cd fb Pf) as (Q1 & Q2 & Q3). assert (Bf : 0 <= bp_start fb + zlen pre < 2 ^ 48) by lia.
  destruct (function_round_trip _ Bf) as [Ad Kd]. rewrite <- Ef in Ad, Kd.
  assert (Uf : is_u64 f) by (rewrite Ef, mk_function_val by exact Bf; unfold is_u64; lia).
  destruct (kinds f Uf) as (_ & _ & _ & _ & If & _). rewrite Kd in If. cbn [kind_eqb] in If.
  set (S := sk_live (m_stack m)) in *. set (C := sk_live (m_call m)) in *. set (A := sk_live (m_arg m)) in *. set (SC := sk_live (m_scopes m)) in *. set (LP := sk_live (m_loops m)) in *.
  set (m1 := push m f). set (m2 := push_all_vals m1 xs). set (m3 := set_arg m2 (sk_push (m_arg m2) T)).
  destruct (push_all_rest xs m1) as (X1 & X2 & X3 & X4 & X5 & X6 & X7 & X8 & X9 & X10). fold m2 in X1, X2, X3, X4, X5, X6, X7, X8, X9, X10.
  assert (Ls2 : sk_live (m_stack m2) = rev xs ++ f :: S) by (unfold m2; rewrite push_all_live; reflexivity).
  assert (Sz : sk_size (m_stack m1) = zlen S + 1) by (unfold sk_size; cbn [m1 push set_stack m_stack sk_push sk_live]; rewrite zlen_cons; fold S; lia).
  set (C' := vnum (zlen LP) :: vnum (zlen SC) :: vnum EXIT_ADDR :: m_this m :: C).
  assert (Hf : exists m4, push_frame m3 EXIT_ADDR (vnum (zlen S + 1)) = OK m4 /\ m_heap m4 = m_heap m /\ sk_live (m_stack m4) = rev xs ++ f :: S /\
     sk_live (m_call m4) = vnum (zlen S + 1) :: C' /\ sk_live (m_arg m4) = A /\ sk_live (m_scopes m4) = SC /\ sk_live (m_loops m4) = LP /\ m_this m4 = T /\ m_last m4 = m_last m /\ m_code m4 = cd /\ m_mem m4 = mem /\ m_res m4 = res).
  { unfold push_frame. cbn [m3 set_arg m_arg sk_pop sk_push sk_live bind]. eexists. split; [reflexivity|].
    cbn [set_call set_this set_arg m_heap m_stack m_call m_arg m_scopes m_loops m_this m_last m_code m_mem m_res sk_push sk_live m3].
    unfold sk_size. rewrite X1, X2, X3, X4, X5, X6, X7, X8, X9, X10, Ls2. repeat split. }
  destruct Hf as (m4 & Pf4 & Y1 & Y2 & Y3 & Y4 & Y5 & Y6 & Y7 & Y8 & Y9 & Y10 & Y11).
  set (sv := save m4). set (addr := bp_start fb + zlen pre).
  assert (P0 : forall m', m_code m' = cd -> the_part m' addr = OK fb).
  { intros m' Em. unfold the_part. rewrite Em. destruct Pf as (_ & _ & P). unfold addr. rewrite P by lia. reflexivity. }
  set (c0 := {| k_m := set_err m4 E_OK; k_bp := fb; k_i := u64 (addr - bp_start fb); k_op := OP_MAX |}).
  assert (En : enter m4 addr = OK c0) by (unfold enter; rewrite P0 by exact Y9; reflexivity).
  destruct (all_depths w sv cd mem res rounds depth) as (_ & _ & _ & Ix).
  assert (HK' : depth_cost depth + Z.of_nat depth + 8 <= depth_cost (Datatypes.S depth)) by (unfold depth_cost; nia).
  assert (HK : 0 <= depth_cost depth) by (unfold depth_cost; nia).
  assert (Ft : fits (depth_cost (Datatypes.S depth)) S SC LP) by exact Sr.
  assert (Ext : mext mem = ext) by reflexivity.
  set (S1 := rev xs ++ f :: S) in *. set (C1 := vnum (zlen S + 1) :: C') in *.
  destruct (all_fails w sv cd mem res S1 C1 A SC LP rounds depth) as (_ & _ & _ & Jx).
  (* into the body *)
  unfold bracket in Ca. destruct (at_cons _ _ _ _ Ca) as [Cf1 Cf2]. destruct (at_app _ _ _ _ Cf2) as [Cf3 Cf4]. destruct (at_split _ _ _ _ Cf4) as [Cf5 Cf6]; [sn|].
  destruct (new_cell_ok cd ext W s s1 j Rl E0) as (h & Mk & R1 & L1 & Ej & Hj).
  pose proof (g_new_scope w sv cd mem res fb Pf _ OP_MAX S1 C1 A SC LP T (m_last m) _ _ _ Cf1 Mk) as G2.
  assert (Lx : zlen (rev xs) <= Z.of_nat depth) by (unfold zlen; rewrite rev_length, (Forall2_len _ _ _ Fx); lia).
  unfold fits in Ft. assert (Dc : 17 + Z.of_nat depth <= depth_cost (Datatypes.S depth)) by (unfold depth_cost; nia).
  pose proof (zlen_nonneg pre) as Hi0.
  destruct (bind_ok w sv cd mem res ps 0 j vs s1 s2 E1 fb _ OP_NEW_SCOPE xs f S C' C1 A SC LP T (m_last m) (new_world W h) Pf Cf3 ltac:(lia) eq_refl ltac:(lia) R1 Hj) as (op3 & W3 & G3 & R3 & L3).
  { cbn [skipn Z.to_nat]. clear -Fx L1. induction Fx; constructor; [eapply vrep_later; eassumption|assumption]. }
  pose proof (later_trans _ _ _ L1 L3) as L13.
  assert (Sm3 : sim cd mem W3 s2 (obj_at (new_world W h) j :: SC) (j :: sc) T t).
  { split; [exact R3|]. split; [|eapply vrep_later; eassumption]. destruct (scopes_later _ _ _ _ L13 Sc) as [ES FS].
    destruct (obj_later _ _ _ L3 Hj) as [Eo Hj3]. split; [cbn [map]; rewrite Eo; f_equal; exact ES|constructor; [exact Hj3|exact FS]]. }
  assert (Ft3 : fits (depth_cost depth) S1 (obj_at (new_world W h) j :: SC) LP).
  { unfold fits, S1. rewrite zlen_app, !zlen_cons. lia. }
  assert (Rt3 : roots S1 C1 A SC LP S1 C1 A (obj_at (new_world W h) j :: SC) LP) by (repeat split; try apply rooted_refl; apply rooted_cons, rooted_refl).
  assert (Fx' : fls w sv cd mem res S1 C1 A SC LP W (Cf fb (zlen pre) OP_MAX S1 C1 A SC LP T (m_last m) (w_heap W)) (c, t', s')).
  { eapply fls_go; [exact G2|exact L1|]. eapply fls_go; [exact G3|exact L3|].
    eapply (fseq_ok w sv cd mem res S1 C1 A SC LP (at_depth rounds depth) (fails_at rounds depth) (depth_cost depth) Ix Jx b (j :: sc) t s2 (c, t', s') E2 Wb fb); [exact Pf|exact Cf5|exact Ft3|exact Rt3|exact Sm3]. }
  destruct Fx' as (W' & T' & Fl & Nz & R' & L' & V'). cbn [fst snd] in *.
  destruct (Fl c0) as (k1 & m5 & S5 & C5 & A5 & SC5 & LP5 & la5 & St5 & H5 & Lk & Rt5).
  { split; [reflexivity|]. split; [cbn [c0 k_i f_i]; unfold addr; replace (bp_start fb + zlen pre - bp_start fb) with (zlen pre) by lia; apply u64_id; lia|]. split; [reflexivity|].
    unfold looks, look. cbn [f_bp f_i f_op f_s f_c f_a f_sc f_lp f_t f_la f_h c0 k_m set_err m_stack m_call m_arg m_scopes m_loops m_this m_last m_heap m_err m_code m_mem m_res].
    rewrite Y1. repeat split; assumption. }
  destruct (recover_ok cd mem res m5 sv c S5 C5 A5 SC5 LP5 T' la5 (w_heap W') S1 C1 A SC LP Lk Rt5) as (m6 & Rc & K1 & K2 & K3 & K4 & K5 & K6 & K7 & K8 & K9 & K10 & K11);
    try (unfold sv, save, sk_size; cbn [v_stack v_call v_arg v_scopes v_loops]; f_equal; assumption).
  destruct (steps_run w sv c0 k1 St5) as (nn & Run).
  set (m7 := set_res m6 ((bp_start fb, m_err m6) :: m_res m6)).
  destruct (pop_cons m7 V_UNDEFINED S1 K1) as (s8 & P8 & L8).
  set (m8 := set_stack m7 s8).
  destruct (restore_ok m8 f S C [] SC [] LP (m_this m) (rev xs)) as (ad & m9 & Rs & Z1 & Z2 & Z3 & Z4 & Z5 & Z6 & Z7 & Z8 & Z9);
    [exact L8|exact K2|exact K4|exact K5|lia|lia|lia|].
  destruct (pop_cons m9 f S Z1) as (s10 & P10 & L10).
  set (m10 := set_this (set_stack m9 s10) (m_this m)).
  assert (Ec : m_code m10 = cd) by (change (m_code m10) with (m_code m9); rewrite Z8; exact K9).
  assert (Em : m_mem m10 = mem) by (change (m_mem m10) with (m_mem m9); rewrite Z9; exact K10).
  assert (Ee : m_ext m10 = ext) by (unfold m_ext; rewrite Em; reflexivity).
  exists (nn + 1)%nat, m10, W'. split.
  { intros fu Hfu. unfold apply, apply_with. rewrite If. cbn [negb andb]. cbv zeta. fold m1 m2. rewrite Sz. fold m3. rewrite Pf4. cbn [bind].
    assert (Nf : is_foreign f = false /\ is_ffi_sig f = false).
    { destruct (preds_kind f Uf) as (_ & _ & _ & _ & _ & _ & _ & K14 & _ & K15). rewrite Kd in K14, K15. split; assumption. }
    destruct Nf as [Nf1 Nf2]. rewrite Nf1, Nf2. cbn [orb]. rewrite Ad. fold addr. unfold execute. rewrite En. cbn [bind]. fold sv.
    replace fu with (nn + Datatypes.S (fu - nn - 1))%nat by lia. rewrite Run. cbn [run]. rewrite H5, Rc. cbn [bind]. unfold finish. rewrite P0 by exact K9. cbn [bind]. fold m7. rewrite P8. cbn [bind]. fold m8.
    change (m_err m8) with (m_err m6). rewrite K8. replace (c =? E_OK) with false by lia. cbn [negb]. rewrite Rs. cbn [bind]. rewrite P10. reflexivity. }
  split; [change (m_err m10) with (m_err m9); rewrite Z7; exact K8|]. split; [exact Nz|]. split.
  { split; [change (m_heap m10) with (m_heap m9); rewrite Z6; exact K7|]. rewrite Ee, Ec. split; [exact R'|]. split.
    - change (chain m10) with (sk_live (m_scopes m9)). rewrite Z4. eapply scopes_later; [exact L'|exact Sc].
    - cbn [m10 set_this m_this]. eapply vrep_later; [exact L'|exact Vt]. }
  split; [exact L'|]. split; [|exact Ec].
  split; [exact L10|]. split; [exact Z2|]. split; [change (m_arg m10) with (m_arg m9); rewrite Z3; exact K3|]. split; [exact Z4|]. split; [exact Z5|]. split; [reflexivity|exact Em].
Qed.
