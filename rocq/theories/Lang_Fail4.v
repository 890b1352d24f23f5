(** Programs that fail: the error is reported, and the stacks are as they were. *)
From Verif Require Import Base BaseFacts Value_Model Value_Spec Value_Proofs Data_Model Str_Model Str_Spec Str_Proofs Str_Proofs2 Float_Proofs Lit_Proofs
  Ops_Model Ops_Spec Ops_Proofs Ops_Proofs2 TokNum_Model Txt_Model Obj_Model Obj_Spec Obj_Proofs Obj_Proofs2 Conv_Model Num_Model Varint_Model Varint_Proofs Bcode_Model Bcode_Proofs
  Vm_Model Vm_Spec Vm_Proofs Vm_Proofs2 Vm_Proofs4 Tok_Spec Parse_Model Expr_Spec Run_Spec Expr_Proofs1 Expr_Proofs3 Expr_Proofs4 Expr_Proofs5 Lang_Spec Lang_Code Lang_Spec2 Lang_Exec1 Lang_Key Lang_Exec2 Lang_Exec3 Lang_Exec4 Lang_Exec5 Lang_Native Lang_Exec6 Lang_Exec7 Lang_Exec8 Lang_Exec9 Props_Bcode Run_Model Lex_Proofs Expr_Proofs6 Lang_Proofs7 Lang_Exec10 Lang_Spec5 Lang_Fail1 Lang_Fail2 Lang_Fail3.
From Coq Require Import ZifyBool.
Ltac Zify.zify_post_hook ::= idtac.



(** What a stack holds beyond its length stays when its length is changed. *)
Lemma pop_frames_all n : forall s, exists s', pop_frames n s = OK s' /\ sk_all s' = sk_all s.
Proof.
  induction n as [|n IH]; intros s; [exists s; split; reflexivity|]. cbn [pop_frames]. destruct (sk_size s <? 5) eqn:E; [exists s; split; reflexivity|].
  unfold sk_set_len. assert (B : 0 <= sk_size s - 5 <= zlen (sk_all s)).
  { unfold sk_size, sk_all in *. rewrite zlen_app. pose proof (zlen_nonneg (sk_stale s)). unfold zlen in *. rewrite rev_length. lia. }
  replace ((0 <=? sk_size s - 5) && (sk_size s - 5 <=? zlen (sk_all s))) with true by lia. cbn [bind].
  match goal with |- exists s', pop_frames n ?a = _ /\ _ => destruct (IH a) as (s' & E' & A') end. exists s'. split; [exact E'|]. rewrite A'. unfold sk_all at 1. cbn [sk_live sk_stale].
  rewrite rev_involutive. apply firstn_skipn.
Qed.
Lemma set_len_all s s1 n ex base : sk_all s1 = sk_all s -> sk_live s = ex ++ base -> zlen base = n ->
  exists s', sk_set_len s1 n = OK s' /\ sk_live s' = base.
Proof.
  intros A L Hn. pose proof (set_len_live s n ex base L Hn) as E. unfold sk_set_len in *. rewrite A. destruct (_ && _); [|discriminate E].
  eexists. split; [reflexivity|]. cbn [sk_live]. injection E as E _. exact E.
Qed.
Lemma set_len_rooted s n l0 l : sk_live s = l -> rooted l0 l -> zlen l0 = n -> exists s', sk_set_len s n = OK s' /\ sk_live s' = l0.
Proof. intros E [p ->] Hn. exact (set_len_all s s n p l0 eq_refl E Hn). Qed.
Lemma recover_ok cd mem res m0 sv c S C A SC LP T la h S0 C0 A0 SC0 LP0 : look cd mem res m0 S C A SC LP T la h -> roots S0 C0 A0 SC0 LP0 S C A SC LP ->
  v_stack sv = zlen S0 -> v_call sv = zlen C0 -> v_arg sv = zlen A0 -> v_scopes sv = zlen SC0 -> v_loops sv = zlen LP0 ->
  exists m', recover (set_err m0 c) sv = OK m' /\ sk_live (m_stack m') = V_UNDEFINED :: S0 /\ sk_live (m_call m') = C0 /\ sk_live (m_arg m') = A0 /\ sk_live (m_scopes m') = SC0 /\
    sk_live (m_loops m') = LP0 /\ m_this m' = T /\ m_heap m' = h /\ m_err m' = c /\ m_code m' = cd /\ m_mem m' = mem /\ m_res m' = res.
Proof.
  intros (K1 & K2 & K3 & K4 & K5 & K6 & K7 & K8 & K9 & K10 & K11 & K12) (R1 & R2 & R3 & R4 & R5) V1 V2 V3 V4 V5. unfold recover.
  change (m_call (set_err m0 c)) with (m_call m0). change (m_stack (set_err m0 c)) with (m_stack m0). change (m_arg (set_err m0 c)) with (m_arg m0).
  change (m_scopes (set_err m0 c)) with (m_scopes m0). change (m_loops (set_err m0 c)) with (m_loops m0).
  destruct (pop_frames_all (length (sk_live (m_call m0))) (m_call m0)) as (cl & E1 & A1). rewrite E1. cbn [bind].
  destruct (set_len_rooted _ _ _ _ K1 R1 (eq_sym V1)) as (s1 & E2 & L2). rewrite E2. cbn [bind].
  destruct R2 as [pc ->]. destruct (set_len_all _ cl _ pc C0 A1 K2 (eq_sym V2)) as (s2 & E3 & L3). rewrite E3. cbn [bind].
  destruct (set_len_rooted _ _ _ _ K3 R3 (eq_sym V3)) as (s3 & E4 & L4). rewrite E4. cbn [bind].
  destruct (set_len_rooted _ _ _ _ K4 R4 (eq_sym V4)) as (s4 & E5 & L5). rewrite E5. cbn [bind].
  destruct (set_len_rooted _ _ _ _ K5 R5 (eq_sym V5)) as (s5 & E6 & L6). rewrite E6. cbn [bind].
  eexists. split; [reflexivity|]. cbn. rewrite L2. repeat split; assumption.
Qed.

(** Everything on the stacks is as before ([this] may have changed). *)
Definition stacks_back (m m' : vm) : Prop :=
  sk_live (m_stack m') = sk_live (m_stack m) /\ sk_live (m_call m') = sk_live (m_call m) /\ sk_live (m_arg m') = sk_live (m_arg m) /\
  sk_live (m_scopes m') = sk_live (m_scopes m) /\ sk_live (m_loops m') = sk_live (m_loops m) /\ m_mem m' = m_mem m.
Lemma program_stops w m W s sc th l rounds depth c th' s' path x y tail : all wfs l -> fail_program rounds depth sc th l s = Some (c, th', s') ->
  let code := header path x (le32 (zlen path + 13)) y ++ seqcode (map cst l) ++ OP_EXIT :: tail in
  length x = 4%nat -> length y = 4%nat -> code_room m (zlen code) -> stack_room m depth -> in_state m W s sc th ->
  exists f m' W', (forall f', (f <= f')%nat -> exec_code f' w m code = OK (m', V_UNDEFINED)) /\ m_err m' = c /\ c <> E_OK /\
    in_state m' W' s' sc th' /\ later W W' /\ stacks_back m m' /\ m_code m' = commit (m_code m) code.
Proof.
  intros Wf Hr code Lx Ly (ds & Eds & Hds) Sr (Hh & Rl & Sc & Vt).
  assert (Hd : zlen (header path x (le32 (zlen path + 13)) y) = zlen path + 14).
  { unfold header. rewrite zlen_cons, !zlen_app. change (zlen [0]) with 1. replace (zlen x) with 4 by (unfold zlen; rewrite Lx; reflexivity). replace (zlen y) with 4 by (unfold zlen; rewrite Ly; reflexivity).
    change (zlen (le32 (zlen path + 13))) with 4. lia. }
  pose proof (zlen_nonneg path) as Pp. pose proof (zlen_nonneg (seqcode (map cst l))) as Pe. pose proof (zlen_nonneg tail) as Pt. pose proof (zlen_nonneg (concat ds)) as Pd.
  assert (Lt : zlen code = zlen path + 14 + (zlen (seqcode (map cst l)) + (1 + zlen tail))) by (unfold code; rewrite !zlen_app, zlen_cons; lia).
  set (cd := commit (m_code m) code). assert (Ecd : cd = commits (ds ++ [code])) by (unfold cd; rewrite commits_snoc, Eds; reflexivity).
  assert (Hcd : forall bp, part_of (m_code m) bp -> part_of cd bp) by (intros bp; rewrite Eds, Ecd; apply part_stays).
  set (m0 := set_code m cd). set (start := c_len (m_code m)). assert (Es : start = zlen (concat ds)) by (unfold start; rewrite Eds; apply commits_len).
  set (bp := {| bp_start := start; bp_data := code |}).
  assert (P : part_of cd bp) by (unfold bp; rewrite Ecd, Es; apply new_part; exact Hds).
  assert (P0 : forall m', m_code m' = cd -> the_part m' start = OK bp).
  { intros m' Em. unfold the_part. rewrite Em. destruct P as (_ & _ & P). specialize (P 0 ltac:(cbn [bp bp_data]; lia)). cbn [bp bp_start] in P. rewrite Z.add_0_r in P. rewrite P. reflexivity. }
  set (c0 := {| k_m := set_err m0 E_OK; k_bp := bp; k_i := u64 (start - start); k_op := OP_MAX |}).
  assert (E0 : enter m0 start = OK c0) by (unfold enter; rewrite P0 by reflexivity; reflexivity).
  assert (I0 : k_i c0 = 0) by (cbn [c0 k_i]; rewrite Z.sub_diag; reflexivity).
  set (sv := save m0).
  assert (N0 : next_code c0 (OP_BCODE_HEADER :: x ++ le32 (zlen path + 13) ++ y ++ path ++ [0])).
  { exists [], (seqcode (map cst l) ++ OP_EXIT :: tail). split; [reflexivity|exact I0]. }
  assert (R0 : read_u32 code 5 = OK (zlen path + 13)).
  { unfold read_u32. replace ((0 <=? 5) && (5 + 4 <=? zlen code)) with true by lia.
    replace code with ((OP_BCODE_HEADER :: x) ++ le32 (zlen path + 13) ++ (y ++ path ++ [0]) ++ seqcode (map cst l) ++ OP_EXIT :: tail).
    2:{ unfold code, header. cbn [app]. rewrite <- !app_assoc. reflexivity. }
    replace 5 with (zlen (OP_BCODE_HEADER :: x)) at 1 by (rewrite zlen_cons; unfold zlen; rewrite Lx; reflexivity).
    rewrite sub_4 by reflexivity. unfold le32. rewrite le_val_bytes_small; [unfold u32; rewrite Z.mod_small by lia; reflexivity|].
    unfold u32. change (256 ^ Z.of_nat 4) with (2 ^ 32). apply Z.mod_pos_bound. lia. }
  assert (H0 : steps w sv c0 {| k_m := set_off (k_m c0) 0; k_bp := bp; k_i := 0 + (zlen path + 13) + 1; k_op := OP_BCODE_HEADER |}).
  { pose proof (one w sv c0 OP_BCODE_HEADER _ (set_off (k_m c0) 0) (u64 (0 + (zlen path + 13))) (zlen path + 13) N0) as O. rewrite I0 in O.
    apply O; [cbn [c0 k_bp bp bp_data]; lia|lia| |rewrite !u64_id; rewrite ?u64_id; lia|reflexivity]. intros exec k.
    change (instr w exec k (set_off (k_m c0) 0) (k_bp c0) 0 OP_BCODE_HEADER (k_op c0)) with
      (n <- read_u32 code 5 ;; OK (Go (set_off (k_m c0) 0) (k_bp c0) (u64 (0 + n)))). rewrite R0. reflexivity. }
  set (c1 := {| k_m := set_off (k_m c0) 0; k_bp := bp; k_i := 0 + (zlen path + 13) + 1; k_op := OP_BCODE_HEADER |}) in *.
  (* the statements *)
  set (mem := m_mem m) in *. set (res := m_res m) in *.
  destruct (all_depths w sv cd mem res rounds depth) as (_ & _ & _ & Ix).
  assert (Ca : code_to bp (zlen path + 14) (seqcode (map cst l))).
  { exists (header path x (le32 (zlen path + 13)) y), (OP_EXIT :: tail). split; [reflexivity|]. split; [symmetry; exact Hd|].
    cbn [num_stop]. unfold ident_char, letter, OP_EXIT. lia. }
  set (S := sk_live (m_stack m)) in *. set (C := sk_live (m_call m)) in *. set (A := sk_live (m_arg m)) in *. set (SC := sk_live (m_scopes m)) in *. set (LP := sk_live (m_loops m)) in *.
  destruct (all_fails w sv cd mem res S C A SC LP rounds depth) as (_ & _ & _ & Jx).
  assert (Rt : roots S C A SC LP S C A SC LP) by (repeat split; apply rooted_refl).
  destruct (fseq_ok w sv cd mem res S C A SC LP (at_depth rounds depth) (fails_at rounds depth) (depth_cost depth) Ix Jx l sc th s (c, th', s') Hr Wf bp (zlen path + 14) OP_BCODE_HEADER S C A SC LP (m_this m) (m_last m) W P Ca Sr Rt)
    as (W' & T' & Fx & Nz & R' & L' & V').
  { split; [apply (rel_code (m_code m) cd Hcd); exact Rl|]. split; [exact Sc|apply (vrep_code (m_code m) cd Hcd); exact Vt]. }
  cbn [fst snd] in *.
  destruct (Fx c1) as (k1 & m1 & S1 & C1 & A1 & SC1 & LP1 & la1 & St1 & H1 & Lk & Rt1).
  { split; [reflexivity|]. split; [cbn [c1 k_i f_i]; lia|]. split; [reflexivity|]. unfold looks, look. cbn. repeat split; try reflexivity. exact Hh. }
  destruct (recover_ok cd mem res m1 sv c S1 C1 A1 SC1 LP1 T' la1 (w_heap W') S C A SC LP Lk Rt1 eq_refl eq_refl eq_refl eq_refl eq_refl)
    as (m2 & Rc & K1 & K2 & K3 & K4 & K5 & K6 & K7 & K8 & K9 & K10 & K11).
  destruct (steps_run w sv c0 k1 (steps_app w sv _ _ _ H0 St1)) as (nn & Run).
  set (m3 := set_res m2 ((start, m_err m2) :: m_res m2)).
  destruct (pop_cons m3 V_UNDEFINED S K1) as (s4 & P4 & L4).
  assert (Fin : finish m2 start = OK (set_stack m3 s4, V_UNDEFINED)).
  { unfold finish. rewrite P0 by exact K9. cbn [bind bp bp_start]. fold m3. rewrite P4. reflexivity. }
  assert (Stop : forall f, run (Datatypes.S f) w sv start k1 = OK (set_stack m3 s4, V_UNDEFINED)).
  { intros f. cbn [run]. rewrite H1, Rc. cbn [bind]. exact Fin. }
  exists (nn + 1)%nat, (set_stack m3 s4), W'. split.
  { intros f' Hf. unfold exec_code, execute. fold cd. fold m0. fold start. rewrite E0. cbn [bind]. fold sv.
    replace f' with (nn + Datatypes.S (f' - nn - 1))%nat by lia. rewrite Run. apply Stop. }
  assert (Ee : m_ext (set_stack m3 s4) = mext mem) by (unfold m_ext; change (m_mem (set_stack m3 s4)) with (m_mem m2); rewrite K10; reflexivity).
  assert (Ec : m_code (set_stack m3 s4) = cd) by exact K9.
  split; [exact K8|]. split; [exact Nz|]. split.
  { split; [exact K7|]. rewrite Ee, Ec. split; [exact R'|]. split.
    - change (chain (set_stack m3 s4)) with (sk_live (m_scopes m2)). rewrite K4. eapply scopes_later; [exact L'|exact Sc].
    - change (m_this (set_stack m3 s4)) with (m_this m2). rewrite K6. exact V'. }
  split; [exact L'|]. split; [|exact K9].
  split; [exact L4|]. split; [exact K2|]. split; [exact K3|]. split; [exact K4|]. split; [exact K5|exact K10].
Qed.
