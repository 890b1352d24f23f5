(** mjs_apply of functions made by scripts. *)
From Verif Require Import Base BaseFacts Value_Model Value_Spec Value_Proofs Data_Model Str_Model Str_Spec Str_Proofs Str_Proofs2 Float_Proofs Lit_Proofs
  Ops_Model Ops_Spec Ops_Proofs Ops_Proofs2 TokNum_Model Txt_Model Obj_Model Obj_Spec Obj_Proofs Obj_Proofs2 Conv_Model Num_Model Varint_Model Varint_Proofs Bcode_Model Bcode_Proofs
  Vm_Model Vm_Spec Vm_Proofs Vm_Proofs2 Vm_Proofs4 Tok_Spec Parse_Model Expr_Spec Run_Spec Expr_Proofs1 Expr_Proofs3 Expr_Proofs4 Expr_Proofs5 Lang_Spec Lang_Code Lang_Spec2 Lang_Exec1 Lang_Key Lang_Exec2 Lang_Exec3 Lang_Exec4 Lang_Exec5 Lang_Native Lang_Exec6 Lang_Exec7 Lang_Exec8 Lang_Exec9 Lang_Exec10 Props_Bcode Run_Model Lex_Proofs Expr_Proofs6 Lang_Spec3 Lang_Spec4.
From Coq Require Import ZifyBool.
Ltac Zify.zify_post_hook ::= idtac.

Lemma push_all_live vs : forall m, sk_live (m_stack (push_all_vals m vs)) = rev vs ++ sk_live (m_stack m).
Proof. induction vs as [|v vs IH]; intros m; [reflexivity|]. cbn [push_all_vals rev]. rewrite IH. cbn [push set_stack m_stack sk_push sk_live]. rewrite <- app_assoc. reflexivity. Qed.
Lemma push_all_rest vs : forall m, let m' := push_all_vals m vs in
  m_heap m' = m_heap m /\ m_call m' = m_call m /\ m_arg m' = m_arg m /\ m_scopes m' = m_scopes m /\ m_loops m' = m_loops m /\ m_this m' = m_this m /\
  m_last m' = m_last m /\ m_code m' = m_code m /\ m_mem m' = m_mem m /\ m_res m' = m_res m.
Proof.
  induction vs as [|v vs IH]; intros m; cbn [push_all_vals]; cbv zeta; [repeat split|]. destruct (IH (push m v)) as (H1 & H2 & H3 & H4 & H5 & H6 & H7 & H8 & H9 & H10).
  rewrite H1, H2, H3, H4, H5, H6, H7, H8, H9, H10. repeat split.
Qed.

(** RETURN in a function that was called from C ends mjs_execute. *)
Lemma exit_return w sv cd mem res exec k c bp i op xs r base C A isc sc ilp lp T th la h : part_of cd bp -> code_at bp i [OP_RETURN] ->
  zlen base + 1 < 2 ^ 31 -> zlen sc < 2 ^ 31 -> zlen lp < 2 ^ 31 ->
  St cd mem res c (Cf bp i op (xs ++ r :: base) (vnum (zlen base + 1) :: vnum (zlen lp) :: vnum (zlen sc) :: vnum EXIT_ADDR :: T :: C) A (isc ++ sc) (ilp ++ lp) th la h) ->
  exists m', step w exec k sv c = OK (inr m') /\ look cd mem res m' (r :: base) C A sc lp T la h.
Proof.
  intros P Ca Hb Hs Hl (B & I & O & K). unfold looks in K. cbn [f_bp f_i f_op f_s f_c f_a f_sc f_lp f_t f_la f_h] in *.
  pose proof (at_len _ _ _ Ca) as [Ca1 Ca2]. change (zlen [OP_RETURN]) with 1 in Ca2.
  pose proof (zlen_nonneg base). pose proof (zlen_nonneg sc). pose proof (zlen_nonneg lp).
  assert (N : nthz (bp_data bp) i = Some OP_RETURN).
  { destruct Ca as (pre & rest & E & Ei). rewrite Ei, E. unfold nthz. pose proof (zlen_nonneg pre). replace (zlen pre <? 0) with false by lia.
    unfold zlen. rewrite Nat2Z.id, nth_error_app2, Nat.sub_diag by lia. reflexivity. }
  set (m := set_off (k_m c) i). assert (L : look cd mem res m (xs ++ r :: base) (vnum (zlen base + 1) :: vnum (zlen lp) :: vnum (zlen sc) :: vnum EXIT_ADDR :: T :: C) A (isc ++ sc) (ilp ++ lp) th la h) by exact K.
  pose proof L as (Ls & Lc & La & Lsc & Llp & Lt & _ & _ & _ & Lcd & _). destruct (look_size _ _ _ _ _ _ _ _ _ _ _ _ L) as (_ & Zc & _ & Zsc & Zlp).
  destruct (shrink_exact (m_scopes m) isc sc Lsc) as (s1 & E1 & L1). destruct (shrink_exact (m_loops m) ilp lp Llp) as (s2 & E2 & L2).
  pose proof (set_len_live (m_stack m) (zlen base + 1) xs (r :: base) Ls ltac:(rewrite zlen_cons; lia)) as E3.
  eexists. split.
  - unfold step. rewrite B, I. replace (i <? zlen (bp_data bp)) with true by lia. cbn [negb]. rewrite N. fold m.
    change (instr w exec k m bp i OP_RETURN (k_op c)) with
      ('(a, m) <- restore_frame m ;; if a =? EXIT_ADDR then OK (Done m) else bp <- the_part m a ;; OK (Go m bp (u64 (a - bp_start bp)))).
    unfold restore_frame. rewrite Zc. rewrite !zlen_cons. pose proof (zlen_nonneg C). replace (_ <? 5) with false by lia.
    unfold sk_pop. rewrite Lc. cbn [bind sk_live sk_stale sk_cap]. rewrite get_int_vnum by lia. cbn [bind sk_live sk_stale sk_cap].
    rewrite get_int_vnum by lia. cbn [bind sk_live sk_stale sk_cap]. rewrite get_int_vnum by lia. cbn [bind sk_live sk_stale sk_cap].
    rewrite get_int_vnum by (unfold EXIT_ADDR; lia). cbn [bind sk_live sk_stale sk_cap]. rewrite !size_of_int_id by (unfold EXIT_ADDR; lia). rewrite E1. cbn [bind]. rewrite E2. cbn [bind]. rewrite E3. cbn [bind].
    rewrite Z.eqb_refl. reflexivity.
  - eapply look_stack; [|reflexivity]. eapply look_loops; [|exact L2]. eapply look_scopes; [|exact L1]. eapply look_this. eapply look_call; [exact L|reflexivity].
Qed.

Lemma apply_runs w m W s sc th f fv T t xs vs rounds depth v s' : host_call rounds depth sc fv t vs s = Some (v, s') -> (length vs <= depth)%nat ->
  stack_room m (S depth) -> in_state m W s sc th -> vrep (m_code m) (m_ext m) W f fv -> vrep (m_code m) (m_ext m) W T t -> Forall2 (vrep (m_code m) (m_ext m) W) xs vs ->
  exists fu m' r W', (forall fu', (fu <= fu')%nat -> apply fu' w m f T xs = OK (m', r)) /\ m_err m' = E_OK /\
    in_state m' W' s' sc th /\ later W W' /\ vrep (m_code m') (m_ext m') W' r v /\ same_stacks m m' /\ m_code m' = m_code m.
Proof.
  intros Hc Hn Sr (Hh & Rl & Sc & Vt) Vf VT Fx. unfold host_call in Hc. destruct fv as [| | |ps b|p]; try discriminate Hc.
  destruct (new_cell s) as [[j s1]|] eqn:E0; [|discriminate Hc]. destruct (bind_pars j ps vs s1) as [s2|] eqn:E1; [|discriminate Hc].
  destruct (ex_list (at_depth rounds depth) (j :: sc) t b undef s2) as [[o s3]|] eqn:E2; [|discriminate Hc].
  assert (Ho : match o with ONormal _ | OReturn _ => True | _ => False end) by (destruct o; [exact I|discriminate Hc|discriminate Hc|exact I]).
  pose proof Vf as Vf'. cbn [Lang_Spec2.vrep] in Vf'. destruct Vf' as (fb & pre & rest & Pf & Ed & Np & Ef & Wb).
  assert (Hp : 0 < zlen pre) by (destruct pre; [congruence|rewrite zlen_cons; pose proof (zlen_nonneg pre); lia]).
  assert (Ca : code_at fb (zlen pre) (bracket ps (seqcode (map cst b)))) by (exists pre, rest; split; [exact Ed|reflexivity]).
  pose proof (at_len _ _ _ Ca) as [_ Cl]. assert (Lb : 0 < zlen (bracket ps (seqcode (map cst b)))) by (unfold bracket; rewrite zlen_cons; match goal with |- 0 < 1 + zlen ?a => pose proof (zlen_nonneg a) end; lia).
  set (cd := m_code m) in *. set (mem := m_mem m). set (res := m_res m). set (ext := m_ext m) in *.
  destruct (part_len cd fb Pf) as (Q1 & Q2 & Q3). assert (Bf : 0 <= bp_start fb + zlen pre < 2 ^ 48) by lia.
  destruct (function_round_trip _ Bf) as [Ad Kd]. rewrite <- Ef in Ad, Kd.
  assert (Uf : is_u64 f) by (rewrite Ef, mk_function_val by exact Bf; unfold is_u64; lia).
  destruct (kinds f Uf) as (_ & _ & _ & _ & If & _). rewrite Kd in If. cbn [kind_eqb] in If.
  set (S := sk_live (m_stack m)) in *. set (C := sk_live (m_call m)) in *. set (A := sk_live (m_arg m)) in *. set (SC := sk_live (m_scopes m)) in *. set (LP := sk_live (m_loops m)) in *.
  set (m1 := push m f). set (m2 := push_all_vals m1 xs). set (m3 := set_arg m2 (sk_push (m_arg m2) T)).
  destruct (push_all_rest xs m1) as (X1 & X2 & X3 & X4 & X5 & X6 & X7 & X8 & X9 & X10). fold m2 in X1, X2, X3, X4, X5, X6, X7, X8, X9, X10.
  assert (Ls2 : sk_live (m_stack m2) = rev xs ++ f :: S) by (unfold m2; rewrite push_all_live; reflexivity).
  assert (Sz : sk_size (m_stack m1) = zlen S + 1) by (unfold sk_size; cbn [m1 push set_stack m_stack sk_push sk_live]; rewrite zlen_cons; fold S; lia).
  set (C' := vnum (zlen LP) :: vnum (zlen SC) :: vnum EXIT_ADDR :: m_this m :: C).
  assert (Hf : exists m4, push_frame m3 EXIT_ADDR (vnum (zlen S + 1)) = OK m4 /\ m_heap m4 = m_heap m /\ sk_live (m_stack m4) = rev xs ++ f :: S /\
     sk_live (m_call m4) = vnum (zlen S + 1) :: C' /\ sk_live (m_arg m4) = A /\ sk_live (m_scopes m4) = SC /\ sk_live (m_loops m4) = LP /\ m_this m4 = T /\ m_last m4 = m_last m /\ m_code m4 = cd /\ m_mem m4 = mem /\ m_res m4 = res).
  { unfold push_frame. cbn [m3 set_arg m_arg sk_pop sk_push sk_live bind]. eexists. split; [reflexivity|].
    cbn [set_call set_this set_arg m_heap m_stack m_call m_arg m_scopes m_loops m_this m_last m_code m_mem m_res sk_push sk_live m3].
    unfold sk_size. rewrite X1, X2, X3, X4, X5, X6, X7, X8, X9, X10, Ls2. repeat split. }
  destruct Hf as (m4 & Pf4 & Y1 & Y2 & Y3 & Y4 & Y5 & Y6 & Y7 & Y8 & Y9 & Y10 & Y11).
  set (sv := save m4). set (addr := bp_start fb + zlen pre).
  assert (P0 : forall m', m_code m' = cd -> the_part m' addr = OK fb).
  { intros m' Em. unfold the_part. rewrite Em. destruct Pf as (_ & _ & P). unfold addr. rewrite P by lia. reflexivity. }
  set (c0 := {| k_m := set_err m4 E_OK; k_bp := fb; k_i := u64 (addr - bp_start fb); k_op := OP_MAX |}).
  assert (En : enter m4 addr = OK c0) by (unfold enter; rewrite P0 by exact Y9; reflexivity).
  destruct (all_depths w sv cd mem res rounds depth) as (_ & _ & _ & Ix).
  assert (HK' : depth_cost depth + Z.of_nat depth + 8 <= depth_cost (Datatypes.S depth)) by (unfold depth_cost; nia).
  assert (HK : 0 <= depth_cost depth) by (unfold depth_cost; nia).
  assert (Ft : fits (depth_cost (Datatypes.S depth)) S SC LP) by exact Sr.
  assert (Ext : mext mem = ext) by reflexivity.
  destruct (fun_ok w sv cd mem res (at_depth rounds depth) (depth_cost depth) (depth_cost (Datatypes.S depth)) (Z.of_nat depth) Ix ltac:(lia) HK HK' sc ps b t vs s j s1 s2 o s3 E0 E1 E2 Wb Ho
     ltac:(unfold zlen; lia) fb (zlen pre) OP_MAX xs f S C' A SC LP T (m_last m) W Pf Ca Ft Rl Sc VT)
    as (i5 & op5 & xs5 & isc & ilp & la5 & v5 & W5 & G5 & Cr & R5 & L5 & V5); [unfold C'; rewrite !zlen_cons; pose proof (zlen_nonneg C); lia|exact Fx|].
  cbv zeta in G5. destruct (G5 c0) as (c5 & St5 & K5).
  { split; [reflexivity|]. split; [cbn [c0 k_i f_i]; unfold addr; replace (bp_start fb + zlen pre - bp_start fb) with (zlen pre) by lia; apply u64_id; lia|]. split; [reflexivity|].
    unfold looks, look. cbn [f_bp f_i f_op f_s f_c f_a f_sc f_lp f_t f_la f_h c0 k_m set_err m_stack m_call m_arg m_scopes m_loops m_this m_last m_heap m_err m_code m_mem m_res].
    rewrite Y1. repeat split; assumption. }
  unfold fits in Ft. assert (Dc : 0 <= depth_cost (Datatypes.S depth) /\ 17 <= depth_cost (Datatypes.S depth)) by (unfold depth_cost; nia).
  destruct (steps_run w sv c0 c5 St5) as (nn & Run).
  assert (Stop : exists m6, (forall exec k, step w exec k sv c5 = OK (inr m6)) /\ look cd mem res m6 (v5 :: S) C A SC LP (m_this m) la5 (w_heap W5)).
  { destruct (exit_return w sv cd mem res (fun m o => OK (m, 0)) 0%nat c5 fb i5 op5 xs5 v5 S C A isc SC ilp LP (m_this m) T la5 (w_heap W5) Pf Cr ltac:(lia) ltac:(lia) ltac:(lia) K5) as (m6 & H6 & L6).
    exists m6. split; [|exact L6]. intros exec k. destruct (exit_return w sv cd mem res exec k c5 fb i5 op5 xs5 v5 S C A isc SC ilp LP (m_this m) T la5 (w_heap W5) Pf Cr ltac:(lia) ltac:(lia) ltac:(lia) K5) as (m7 & H7 & _).
    rewrite H7. rewrite <- H6, <- H7. unfold step.
    destruct K5 as (B & I & _). cbn [f_bp f_i] in B, I. rewrite B, I.
    destruct (negb _); [reflexivity|]. assert (N : nthz (bp_data fb) i5 = Some OP_RETURN).
    { destruct Cr as (pr & re & E & Ei). rewrite Ei, E. unfold nthz. pose proof (zlen_nonneg pr). replace (zlen pr <? 0) with false by lia.
      unfold zlen. rewrite Nat2Z.id, nth_error_app2, Nat.sub_diag by lia. reflexivity. }
    rewrite N. reflexivity. }
  destruct Stop as (m6 & H6 & L6). set (m7 := set_res m6 ((bp_start fb, m_err m6) :: m_res m6)).
  pose proof L6 as (K1 & K2 & K3 & K4 & K6 & K7 & K8 & K9 & K10 & K11 & K12 & K13).
  destruct (pop_cons m7 v5 S K1) as (s8 & P8 & L8).
  assert (Ec : m_code (set_this (set_stack m7 s8) (m_this m)) = cd) by exact K11. assert (Ee : m_ext (set_this (set_stack m7 s8) (m_this m)) = ext) by (unfold m_ext; change (m_mem (set_this (set_stack m7 s8) (m_this m))) with (m_mem m6); rewrite K12; reflexivity).
  exists (nn + 1)%nat, (set_this (set_stack m7 s8) (m_this m)), v5, W5. split.
  { intros fu Hfu. unfold apply, apply_with. rewrite If. cbn [negb andb]. cbv zeta. fold m1 m2. rewrite Sz. fold m3. rewrite Pf4. cbn [bind].
    assert (Nf : is_foreign f = false /\ is_ffi_sig f = false).
    { destruct (preds_kind f Uf) as (_ & _ & _ & _ & _ & _ & _ & K14 & _ & K15). rewrite Kd in K14, K15. split; assumption. }
    destruct Nf as [Nf1 Nf2]. rewrite Nf1, Nf2. cbn [orb]. rewrite Ad. fold addr. unfold execute. rewrite En. cbn [bind]. fold sv.
    replace fu with (nn + Datatypes.S (fu - nn - 1))%nat by lia. rewrite Run. cbn [run]. rewrite H6. cbn [bind]. unfold finish. rewrite P0 by exact K11. cbn [bind]. fold m7. rewrite P8. cbn [bind].
    change (m_err (set_stack m7 s8)) with (m_err m6). rewrite K10. reflexivity. }
  split; [exact K10|].
  assert (Sx : s' = s3) by (destruct o; try discriminate Hc; injection Hc as _ <-; reflexivity). subst s'.
  split.
  { split; [exact K9|]. rewrite Ee, Ec. split; [exact R5|]. split.
    - change (chain (set_this (set_stack m7 s8) (m_this m))) with (sk_live (m_scopes m6)). rewrite K4. eapply scopes_later; [exact L5|exact Sc].
    - cbn [set_this m_this]. eapply vrep_later; [exact L5|exact Vt]. }
  split; [exact L5|]. split.
  { rewrite Ee, Ec. destruct o as [u| | |u]; try contradiction; injection Hc as <-.
    - subst v5. eapply vrep_later; [exact L5|exact Vf].
    - exact V5. }
  split; [|exact K11]. split; [exact L8|]. split; [exact K2|]. split; [exact K3|]. split; [exact K4|]. split; [exact K6|]. split; [reflexivity|exact K12].
Qed.
