(** Executing a piece of code again, and the outcome that is kept for it. *)
From Verif Require Import Base BaseFacts Value_Model Value_Spec Value_Proofs Data_Model Str_Model Str_Spec Str_Proofs Str_Proofs2 Float_Proofs Lit_Proofs
  Ops_Model Ops_Spec Ops_Proofs Ops_Proofs2 TokNum_Model Txt_Model Obj_Model Obj_Spec Obj_Proofs Obj_Proofs2 Conv_Model Num_Model Varint_Model Varint_Proofs Bcode_Model Bcode_Proofs
  Vm_Model Vm_Spec Vm_Proofs Vm_Proofs2 Vm_Proofs4 Tok_Spec Parse_Model Expr_Spec Run_Spec Expr_Proofs1 Expr_Proofs3 Expr_Proofs4 Expr_Proofs5 Lang_Spec Lang_Code Lang_Spec2 Lang_Exec1 Lang_Key Lang_Exec2 Lang_Exec3 Lang_Exec4 Lang_Exec5 Lang_Native Lang_Exec6 Lang_Exec7 Lang_Exec8 Lang_Exec9 Props_Bcode Run_Model Lex_Proofs Expr_Proofs6 Lang_Proofs7 Lang_Exec10 Lang_Spec5 Lang_Fail1 Lang_Fail2 Lang_Fail3 Lang_Fail4 Lang_Spec3 Lang_Spec4 Lang_Spec6 Lang_Apply Props_Lang Load_Model.
From Coq Require Import ZifyBool.
Ltac Zify.zify_post_hook ::= idtac.

Lemma part_runs w m W s sc th l rounds depth v s' path x y tail bp0 : all wfs l -> run_program rounds depth sc th l s = Some (v, s') ->
  let code := header path x (le32 (zlen path + 13)) y ++ seqcode (map cst l) ++ OP_EXIT :: tail in
  length x = 4%nat -> length y = 4%nat -> bp_data bp0 = code -> part_of (m_code m) bp0 -> stack_room m depth -> in_state m W s sc th ->
  exists f m' r W', (forall f', (f <= f')%nat -> execute f' w m (bp_start bp0) = OK (m', r)) /\ m_err m' = E_OK /\
    in_state m' W' s' sc th /\ later W W' /\ vrep (m_code m') (m_ext m') W' r v /\ same_stacks m m' /\ m_code m' = m_code m /\ m_res m' = (bp_start bp0, E_OK) :: m_res m.
Proof.
  intros Wf Hr code Lx Ly Ebp Pbp Sr (Hh & Rl & Sc & Vt).
  assert (Hd : zlen (header path x (le32 (zlen path + 13)) y) = zlen path + 14).
  { unfold header. rewrite zlen_cons, !zlen_app. change (zlen [0]) with 1. replace (zlen x) with 4 by (unfold zlen; rewrite Lx; reflexivity). replace (zlen y) with 4 by (unfold zlen; rewrite Ly; reflexivity).
    change (zlen (le32 (zlen path + 13))) with 4. lia. }
  pose proof (zlen_nonneg path) as Pp. pose proof (zlen_nonneg (seqcode (map cst l))) as Pe. pose proof (zlen_nonneg tail) as Pt.
  assert (Lt : zlen code = zlen path + 14 + (zlen (seqcode (map cst l)) + (1 + zlen tail))) by (unfold code; rewrite !zlen_app, zlen_cons; lia).
  set (cd := m_code m) in *.
  assert (Hcd : forall bp, part_of (m_code m) bp -> part_of cd bp) by (intros q Hq; exact Hq).
  set (m0 := m) in *. destruct bp0 as [start dat]. cbn [bp_data] in Ebp. subst dat. cbn [bp_start] in *.
  set (bp := {| bp_start := start; bp_data := code |}) in *.
  pose proof Pbp as P. pose proof P as (Hd0 & Hds & _). cbn [bp bp_start bp_data] in Hd0, Hds.
  assert (P0 : forall m', m_code m' = cd -> the_part m' start = OK bp).
  { intros m' Em. unfold the_part. rewrite Em. destruct P as (_ & _ & P). specialize (P 0 ltac:(cbn [bp bp_data]; lia)). cbn [bp bp_start] in P. rewrite Z.add_0_r in P. rewrite P. reflexivity. }
  set (c0 := {| k_m := set_err m0 E_OK; k_bp := bp; k_i := u64 (start - start); k_op := OP_MAX |}).
  assert (E0 : enter m0 start = OK c0) by (unfold enter; rewrite P0 by reflexivity; reflexivity).
  assert (I0 : k_i c0 = 0) by (cbn [c0 k_i]; rewrite Z.sub_diag; reflexivity).
  set (sv := save m0).
  assert (N0 : next_code c0 (OP_BCODE_HEADER :: x ++ le32 (zlen path + 13) ++ y ++ path ++ [0])).
  { exists [], (seqcode (map cst l) ++ OP_EXIT :: tail). split; [reflexivity|exact I0]. }
  assert (R0 : read_u32 code 5 = OK (zlen path + 13)).
  { unfold read_u32. replace ((0 <=? 5) && (5 + 4 <=? zlen code)) with true by lia.
    replace code with ((OP_BCODE_HEADER :: x) ++ le32 (zlen path + 13) ++ (y ++ path ++ [0]) ++ seqcode (map cst l) ++ OP_EXIT :: tail).
    2:{ unfold code, header. cbn [app]. rewrite <- !app_assoc. reflexivity. }
    replace 5 with (zlen (OP_BCODE_HEADER :: x)) at 1 by (rewrite zlen_cons; unfold zlen; rewrite Lx; reflexivity).
    rewrite sub_4 by reflexivity. unfold le32. rewrite le_val_bytes_small; [unfold u32; rewrite Z.mod_small by lia; reflexivity|].
    unfold u32. change (256 ^ Z.of_nat 4) with (2 ^ 32). apply Z.mod_pos_bound. lia. }
  assert (H0 : steps w sv c0 {| k_m := set_off (k_m c0) 0; k_bp := bp; k_i := 0 + (zlen path + 13) + 1; k_op := OP_BCODE_HEADER |}).
  { pose proof (one w sv c0 OP_BCODE_HEADER _ (set_off (k_m c0) 0) (u64 (0 + (zlen path + 13))) (zlen path + 13) N0) as O. rewrite I0 in O.
    apply O; [cbn [c0 k_bp bp bp_data]; lia|lia| |rewrite !u64_id; rewrite ?u64_id; lia|reflexivity]. intros exec k.
    change (instr w exec k (set_off (k_m c0) 0) (k_bp c0) 0 OP_BCODE_HEADER (k_op c0)) with
      (n <- read_u32 code 5 ;; OK (Go (set_off (k_m c0) 0) (k_bp c0) (u64 (0 + n)))). rewrite R0. reflexivity. }
  set (c1 := {| k_m := set_off (k_m c0) 0; k_bp := bp; k_i := 0 + (zlen path + 13) + 1; k_op := OP_BCODE_HEADER |}) in *.
  (* the statements *)
  set (mem := m_mem m) in *. set (res := m_res m) in *.
  unfold run_program in Hr. destruct (ex_list (at_depth rounds depth) sc th l undef s) as [[o s1]|] eqn:El; [|discriminate Hr].
  destruct o as [v1| | |v1]; try discriminate Hr. injection Hr as -> ->.
  destruct (all_depths w sv cd mem res rounds depth) as (_ & _ & _ & Ix).
  assert (Ca : code_to bp (zlen path + 14) (seqcode (map cst l))).
  { exists (header path x (le32 (zlen path + 13)) y), (OP_EXIT :: tail). split; [reflexivity|]. split; [symmetry; exact Hd|].
    cbn [num_stop]. unfold ident_char, letter, OP_EXIT. lia. }
  set (S := sk_live (m_stack m)) in *. set (C := sk_live (m_call m)) in *. set (A := sk_live (m_arg m)) in *. set (SC := sk_live (m_scopes m)) in *. set (LP := sk_live (m_loops m)) in *.
  destruct (seq_ok w sv cd mem res (at_depth rounds depth) (depth_cost depth) Ix l sc th s (ONormal v) s' El Wf bp (zlen path + 14) OP_BCODE_HEADER S C A SC LP (m_this m) (m_last m) W P Ca Sr) as (W' & R' & L' & (op2 & la2 & r & G & V)).
  { split; [apply (rel_code (m_code m) cd Hcd); exact Rl|]. split; [exact Sc|apply (vrep_code (m_code m) cd Hcd); exact Vt]. }
  destruct (G c1) as (c2 & St2 & (B2 & I2 & O2 & K2)).
  { split; [reflexivity|]. split; [cbn [c1 k_i f_i]; lia|]. split; [reflexivity|]. unfold looks, look. cbn. repeat split; try reflexivity. exact Hh. }
  unfold looks, look in K2. cbn [f_bp f_i f_op f_s f_c f_a f_sc f_lp f_t f_la f_h] in *. destruct K2 as (K1 & K2 & K3 & K4 & K5 & K6 & K7 & K8 & K9 & K10 & K11 & K12).
  (* the exit *)
  assert (N2 : next_code c2 [OP_EXIT]).
  { exists (header path x (le32 (zlen path + 13)) y ++ seqcode (map cst l)), tail. rewrite B2. split; [cbn [bp bp_data]; unfold code; rewrite <- app_assoc; reflexivity|].
    rewrite I2, zlen_app, Hd. lia. }
  assert (H2 : steps w sv c2 {| k_m := set_off (k_m c2) (k_i c2); k_bp := k_bp c2; k_i := k_i c2 + (zlen code - k_i c2) + 1; k_op := OP_EXIT |}).
  { apply (one w sv c2 OP_EXIT [] (set_off (k_m c2) (k_i c2)) (zlen (bp_data (k_bp c2)))); [exact N2|rewrite B2; cbn [bp bp_data]; lia|lia| |rewrite B2; cbn [bp bp_data]; rewrite u64_id; lia|exact K9].
    intros exec k. reflexivity. }
  set (c3 := {| k_m := set_off (k_m c2) (k_i c2); k_bp := k_bp c2; k_i := k_i c2 + (zlen code - k_i c2) + 1; k_op := OP_EXIT |}) in *.
  destruct (steps_run w sv c0 c3 (steps_app w sv _ _ _ H0 (steps_app w sv _ _ _ St2 H2))) as (nn & Run).
  set (m3 := set_res (k_m c3) ((start, m_err (k_m c3)) :: m_res (k_m c3))).
  destruct (pop_cons m3 r S K1) as (s4 & P4 & L4).
  assert (Fin : finish (k_m c3) start = OK (set_stack m3 s4, r)).
  { unfold finish. rewrite P0 by exact K10. cbn [bind bp bp_start]. fold m3. rewrite P4. reflexivity. }
  assert (Stop : forall f, run (Datatypes.S f) w sv start c3 = OK (set_stack m3 s4, r)).
  { intros f. cbn [run]. unfold step.
    replace (k_i c3 <? zlen (bp_data (k_bp c3))) with false.
    2:{ cbn [c3 k_i k_bp]. rewrite B2. cbn [bp bp_data]. lia. }
    cbn [negb bind]. exact Fin. }
  exists (nn + 1)%nat, (set_stack m3 s4), r, W'. split.
  { intros f' Hf. unfold execute. rewrite E0. cbn [bind]. fold sv.
    replace f' with (nn + Datatypes.S (f' - nn - 1))%nat by lia. rewrite Run. apply Stop. }
  assert (Ee : m_ext (set_stack m3 s4) = mext mem) by (unfold m_ext; change (m_mem (set_stack m3 s4)) with (m_mem (k_m c2)); rewrite K11; reflexivity).
  assert (Ec : m_code (set_stack m3 s4) = cd) by exact K10.
  split; [exact K9|]. split.
  { split; [exact K8|]. rewrite Ee, Ec. split; [exact R'|]. split.
    - change (chain (set_stack m3 s4)) with (sk_live (m_scopes (k_m c2))). rewrite K4. eapply scopes_later; [exact L'|exact Sc].
    - change (m_this (set_stack m3 s4)) with (m_this (k_m c2)). rewrite K6. eapply vrep_later; [exact L'|]. apply (vrep_code (m_code m) cd Hcd); exact Vt. }
  split; [exact L'|]. split; [rewrite Ee, Ec; exact V|]. split; [|split; [exact K10|change (m_res (set_stack m3 s4)) with ((start, m_err (k_m c2)) :: m_res (k_m c2)); rewrite K9, K12; reflexivity]].
  split; [exact L4|]. split; [exact K2|]. split; [exact K3|]. split; [exact K4|]. split; [exact K5|]. split; [exact K6|exact K11].
Qed.
Lemma part_stops w m W s sc th l rounds depth c th' s' path x y tail bp0 : all wfs l -> fail_program rounds depth sc th l s = Some (c, th', s') ->
  let code := header path x (le32 (zlen path + 13)) y ++ seqcode (map cst l) ++ OP_EXIT :: tail in
  length x = 4%nat -> length y = 4%nat -> bp_data bp0 = code -> part_of (m_code m) bp0 -> stack_room m depth -> in_state m W s sc th ->
  exists f m' W', (forall f', (f <= f')%nat -> execute f' w m (bp_start bp0) = OK (m', V_UNDEFINED)) /\ m_err m' = c /\ c <> E_OK /\
    in_state m' W' s' sc th' /\ later W W' /\ stacks_back m m' /\ m_code m' = m_code m /\ m_res m' = (bp_start bp0, c) :: m_res m.
Proof.
  intros Wf Hr code Lx Ly Ebp Pbp Sr (Hh & Rl & Sc & Vt).
  assert (Hd : zlen (header path x (le32 (zlen path + 13)) y) = zlen path + 14).
  { unfold header. rewrite zlen_cons, !zlen_app. change (zlen [0]) with 1. replace (zlen x) with 4 by (unfold zlen; rewrite Lx; reflexivity). replace (zlen y) with 4 by (unfold zlen; rewrite Ly; reflexivity).
    change (zlen (le32 (zlen path + 13))) with 4. lia. }
  pose proof (zlen_nonneg path) as Pp. pose proof (zlen_nonneg (seqcode (map cst l))) as Pe. pose proof (zlen_nonneg tail) as Pt.
  assert (Lt : zlen code = zlen path + 14 + (zlen (seqcode (map cst l)) + (1 + zlen tail))) by (unfold code; rewrite !zlen_app, zlen_cons; lia).
  set (cd := m_code m) in *.
  assert (Hcd : forall bp, part_of (m_code m) bp -> part_of cd bp) by (intros q Hq; exact Hq).
  set (m0 := m) in *. destruct bp0 as [start dat]. cbn [bp_data] in Ebp. subst dat. cbn [bp_start] in *.
  set (bp := {| bp_start := start; bp_data := code |}) in *.
  pose proof Pbp as P. pose proof P as (Hd0 & Hds & _). cbn [bp bp_start bp_data] in Hd0, Hds.
  assert (P0 : forall m', m_code m' = cd -> the_part m' start = OK bp).
  { intros m' Em. unfold the_part. rewrite Em. destruct P as (_ & _ & P). specialize (P 0 ltac:(cbn [bp bp_data]; lia)). cbn [bp bp_start] in P. rewrite Z.add_0_r in P. rewrite P. reflexivity. }
  set (c0 := {| k_m := set_err m0 E_OK; k_bp := bp; k_i := u64 (start - start); k_op := OP_MAX |}).
  assert (E0 : enter m0 start = OK c0) by (unfold enter; rewrite P0 by reflexivity; reflexivity).
  assert (I0 : k_i c0 = 0) by (cbn [c0 k_i]; rewrite Z.sub_diag; reflexivity).
  set (sv := save m0).
  assert (N0 : next_code c0 (OP_BCODE_HEADER :: x ++ le32 (zlen path + 13) ++ y ++ path ++ [0])).
  { exists [], (seqcode (map cst l) ++ OP_EXIT :: tail). split; [reflexivity|exact I0]. }
  assert (R0 : read_u32 code 5 = OK (zlen path + 13)).
  { unfold read_u32. replace ((0 <=? 5) && (5 + 4 <=? zlen code)) with true by lia.
    replace code with ((OP_BCODE_HEADER :: x) ++ le32 (zlen path + 13) ++ (y ++ path ++ [0]) ++ seqcode (map cst l) ++ OP_EXIT :: tail).
    2:{ unfold code, header. cbn [app]. rewrite <- !app_assoc. reflexivity. }
    replace 5 with (zlen (OP_BCODE_HEADER :: x)) at 1 by (rewrite zlen_cons; unfold zlen; rewrite Lx; reflexivity).
    rewrite sub_4 by reflexivity. unfold le32. rewrite le_val_bytes_small; [unfold u32; rewrite Z.mod_small by lia; reflexivity|].
    unfold u32. change (256 ^ Z.of_nat 4) with (2 ^ 32). apply Z.mod_pos_bound. lia. }
  assert (H0 : steps w sv c0 {| k_m := set_off (k_m c0) 0; k_bp := bp; k_i := 0 + (zlen path + 13) + 1; k_op := OP_BCODE_HEADER |}).
  { pose proof (one w sv c0 OP_BCODE_HEADER _ (set_off (k_m c0) 0) (u64 (0 + (zlen path + 13))) (zlen path + 13) N0) as O. rewrite I0 in O.
    apply O; [cbn [c0 k_bp bp bp_data]; lia|lia| |rewrite !u64_id; rewrite ?u64_id; lia|reflexivity]. intros exec k.
    change (instr w exec k (set_off (k_m c0) 0) (k_bp c0) 0 OP_BCODE_HEADER (k_op c0)) with
      (n <- read_u32 code 5 ;; OK (Go (set_off (k_m c0) 0) (k_bp c0) (u64 (0 + n)))). rewrite R0. reflexivity. }
  set (c1 := {| k_m := set_off (k_m c0) 0; k_bp := bp; k_i := 0 + (zlen path + 13) + 1; k_op := OP_BCODE_HEADER |}) in *.
  (* the statements *)
  set (mem := m_mem m) in *. set (res := m_res m) in *.
  destruct (all_depths w sv cd mem res rounds depth) as (_ & _ & _ & Ix).
  assert (Ca : code_to bp (zlen path + 14) (seqcode (map cst l))).
  { exists (header path x (le32 (zlen path + 13)) y), (OP_EXIT :: tail). split; [reflexivity|]. split; [symmetry; exact Hd|].
    cbn [num_stop]. unfold ident_char, letter, OP_EXIT. lia. }
  set (S := sk_live (m_stack m)) in *. set (C := sk_live (m_call m)) in *. set (A := sk_live (m_arg m)) in *. set (SC := sk_live (m_scopes m)) in *. set (LP := sk_live (m_loops m)) in *.
  destruct (all_fails w sv cd mem res S C A SC LP rounds depth) as (_ & _ & _ & Jx).
  assert (Rt : roots S C A SC LP S C A SC LP) by (repeat split; apply rooted_refl).
  destruct (fseq_ok w sv cd mem res S C A SC LP (at_depth rounds depth) (fails_at rounds depth) (depth_cost depth) Ix Jx l sc th s (c, th', s') Hr Wf bp (zlen path + 14) OP_BCODE_HEADER S C A SC LP (m_this m) (m_last m) W P Ca Sr Rt)
    as (W' & T' & Fx & Nz & R' & L' & V').
  { split; [apply (rel_code (m_code m) cd Hcd); exact Rl|]. split; [exact Sc|apply (vrep_code (m_code m) cd Hcd); exact Vt]. }
  cbn [fst snd] in *.
  destruct (Fx c1) as (k1 & m1 & S1 & C1 & A1 & SC1 & LP1 & la1 & St1 & H1 & Lk & Rt1).
  { split; [reflexivity|]. split; [cbn [c1 k_i f_i]; lia|]. split; [reflexivity|]. unfold looks, look. cbn. repeat split; try reflexivity. exact Hh. }
  destruct (recover_ok cd mem res m1 sv c S1 C1 A1 SC1 LP1 T' la1 (w_heap W') S C A SC LP Lk Rt1 eq_refl eq_refl eq_refl eq_refl eq_refl)
    as (m2 & Rc & K1 & K2 & K3 & K4 & K5 & K6 & K7 & K8 & K9 & K10 & K11).
  destruct (steps_run w sv c0 k1 (steps_app w sv _ _ _ H0 St1)) as (nn & Run).
  set (m3 := set_res m2 ((start, m_err m2) :: m_res m2)).
  destruct (pop_cons m3 V_UNDEFINED S K1) as (s4 & P4 & L4).
  assert (Fin : finish m2 start = OK (set_stack m3 s4, V_UNDEFINED)).
  { unfold finish. rewrite P0 by exact K9. cbn [bind bp bp_start]. fold m3. rewrite P4. reflexivity. }
  assert (Stop : forall f, run (Datatypes.S f) w sv start k1 = OK (set_stack m3 s4, V_UNDEFINED)).
  { intros f. cbn [run]. rewrite H1, Rc. cbn [bind]. exact Fin. }
  exists (nn + 1)%nat, (set_stack m3 s4), W'. split.
  { intros f' Hf. unfold execute. rewrite E0. cbn [bind]. fold sv.
    replace f' with (nn + Datatypes.S (f' - nn - 1))%nat by lia. rewrite Run. apply Stop. }
  assert (Ee : m_ext (set_stack m3 s4) = mext mem) by (unfold m_ext; change (m_mem (set_stack m3 s4)) with (m_mem m2); rewrite K10; reflexivity).
  assert (Ec : m_code (set_stack m3 s4) = cd) by exact K9.
  split; [exact K8|]. split; [exact Nz|]. split.
  { split; [exact K7|]. rewrite Ee, Ec. split; [exact R'|]. split.
    - change (chain (set_stack m3 s4)) with (sk_live (m_scopes m2)). rewrite K4. eapply scopes_later; [exact L'|exact Sc].
    - change (m_this (set_stack m3 s4)) with (m_this m2). rewrite K6. exact V'. }
  split; [exact L'|]. split; [|split; [exact K9|change (m_res (set_stack m3 s4)) with ((start, m_err m2) :: m_res m2); rewrite K8, K11; reflexivity]].
  split; [exact L4|]. split; [exact K2|]. split; [exact K3|]. split; [exact K4|]. split; [exact K5|exact K10].
Qed.
