(** Running whole programs of the language. *)
From Verif Require Import Base BaseFacts Value_Model Value_Spec Value_Proofs Data_Model Str_Model Str_Spec Str_Proofs Str_Proofs2 Float_Proofs Lit_Proofs
  Ops_Model Ops_Spec Ops_Proofs Ops_Proofs2 TokNum_Model Txt_Model Obj_Model Obj_Spec Obj_Proofs Obj_Proofs2 Conv_Model Num_Model Varint_Model Varint_Proofs Bcode_Model Bcode_Proofs
  Vm_Model Vm_Spec Vm_Proofs Vm_Proofs2 Vm_Proofs4 Tok_Spec Parse_Model Expr_Spec Run_Spec Expr_Proofs1 Expr_Proofs3 Expr_Proofs4 Expr_Proofs5 Lang_Spec Lang_Code Lang_Spec2 Lang_Exec1 Lang_Key Lang_Exec2 Lang_Exec3 Lang_Exec4 Lang_Exec5 Lang_Native Lang_Exec6 Lang_Exec7 Lang_Exec8 Lang_Exec9 Props_Bcode Run_Model Lex_Proofs Expr_Proofs6 Lang_Proofs7.
From Coq Require Import ZifyBool.
Ltac Zify.zify_post_hook ::= idtac.


(** * The grammar produces well-formed trees *)
Lemma leaf_constant t e : leaf t e -> lx_tok t <> TOK_IDENT -> constant e.
Proof.
  intros L K. destruct L as [t p n K' D W V|t p s m x K' D W NW|t ls K' F X|t K'|t K'|t K'|t K'|t K']; cbn [constant]; try exact I; [| | |contradiction].
  - split; [exact (whole_nonneg _ _ _ D W)|exact V].
  - split; [exact D|]. intros q Q. exact (fraction_strtod _ _ _ _ _ q D W NW Q).
  - apply lits_bytes. exact F.
Qed.
Lemma grammar_wf :
  (forall c p q ts e, xp c p q ts e -> wfx e) /\
  (forall l p q acc ts e, more l p q acc ts e -> (1 <= l <= 8)%nat -> wfx acc -> wfx e) /\
  (forall r p q ts e, mem r p q ts e -> wfx e) /\
  (forall r p q ts e, prim r p q ts e -> wfx e) /\
  (forall r0 r p q acc ts e, tail r0 r p q acc ts e -> wfx acc -> wfx e) /\
  (forall p q ts l, args p q ts l -> all wfx l) /\
  (forall p q ts l, props p q ts l -> all (fun p => wfx (snd p)) l) /\
  (forall p q ts l, commas p q ts l -> all wfx l) /\
  (forall p q ts l, lets p q ts l -> all (fun p => match snd p with Some e => wfx e | None => True end) l) /\
  (forall p q ts e, init p q ts e -> match e with Some e => wfx e | None => True end) /\
  (forall p q ts k s, sp p q ts k s -> wfs s) /\
  (forall p q ts s, start p q ts s -> wfs s /\ match s with SExprs _ | SLet _ => True | _ => False end) /\
  (forall p q ts k l, body p q ts k l -> all wfs l) /\
  (forall et p q ts l, stmts et p q ts l -> all wfs l).
Proof.
  apply grammar_ind; intros; cbn [wfx wfs all fold_right snd] in *; repeat match goal with |- _ /\ _ => split end; try exact I; try assumption; try tauto; auto.
  - match goal with H : (1 <= ?l <= 8)%nat -> _ /\ _ -> wfx ?e |- wfx ?e => apply H; [assumption|]; split; [lia|split; assumption] end.
  - eapply leaf_constant; eassumption.
Qed.

(** * Code that is committed stays *)
Lemma part_stays ds d bp : part_of (commits ds) bp -> part_of (commits (ds ++ [d])) bp.
Proof.
  intros (P1 & P2 & P3). split; [exact P1|]. split; [exact P2|]. intros k Hk. specialize (P3 k Hk). set (o := bp_start bp + k) in *.
  assert (Ho : 0 <= o < 2 ^ 64) by (unfold o; lia). destruct (part_containing_offset ds o Ho) as [Q1 Q2].
  destruct (Z_lt_ge_dec o (zlen (concat ds))) as [L|L]; [|rewrite Q2 in P3 by lia; discriminate P3].
  destruct (Q1 L) as (i & d' & N & F & B). rewrite F in P3. injection P3 as <-. pose proof (proj1 (nth_error_Some ds i) ltac:(congruence)) as Li.
  assert (Ef : firstn i (ds ++ [d]) = firstn i ds) by (rewrite firstn_app; replace (i - length ds)%nat with 0%nat by lia; rewrite firstn_O, app_nil_r; reflexivity).
  assert (N' : nth_error (ds ++ [d]) i = Some d') by (rewrite nth_error_app1 by lia; exact N).
  destruct (part_containing_offset (ds ++ [d]) o Ho) as [R1 _].
  destruct R1 as (i2 & d2 & N2 & F2 & B2). { rewrite concat_app, zlen_app. pose proof (zlen_nonneg (concat [d])). lia. }
  assert (i2 = i) by (eapply (parts_do_not_overlap (ds ++ [d]) i2 i); [exact N2|exact N'|exact B2|rewrite Ef; exact B]). subst i2.
  rewrite F2, Ef. assert (d2 = d') by congruence. subst. reflexivity.
Qed.
Lemma new_part ds d : zlen (concat ds) + zlen d < 2 ^ 31 - 1 -> part_of (commits (ds ++ [d])) {| bp_start := zlen (concat ds); bp_data := d |}.
Proof.
  intros H. pose proof (zlen_nonneg (concat ds)). split; [cbn; lia|]. split; [exact H|]. cbn [bp_start bp_data]. intros k Hk.
  destruct (part_containing_offset (ds ++ [d]) (zlen (concat ds) + k) ltac:(lia)) as [P _].
  assert (Nd : nth_error (ds ++ [d]) (length ds) = Some d) by (rewrite nth_error_app2, Nat.sub_diag by lia; reflexivity).
  assert (Ef : firstn (length ds) (ds ++ [d]) = ds) by (rewrite firstn_app, firstn_all, Nat.sub_diag, firstn_O, app_nil_r; reflexivity).
  destruct P as (i & d' & N & P & B). { rewrite concat_app, zlen_app. cbn [concat]. rewrite app_nil_r. lia. }
  assert (i = length ds) by (eapply (parts_do_not_overlap (ds ++ [d])); [exact N|exact Nd|exact B|rewrite Ef; lia]). subst i.
  rewrite P, Ef. assert (d' = d) by congruence. subst. reflexivity.
Qed.
Section More.
Context (cd cd' : code) (Hcd : forall bp, part_of cd bp -> part_of cd' bp).
Lemma vrep_code ext W v a : vrep cd ext W v a -> vrep cd' ext W v a.
Proof.
  destruct a; try exact (fun H => H). intros (bp & pre & rest & P & H). exists bp, pre, rest. split; [apply Hcd; exact P|exact H].
Qed.
Lemma rel_code ext W s : rel cd ext W s -> rel cd' ext W s.
Proof.
  intros (H1 & H2 & H3 & H4). split; [exact H1|]. split; [exact H2|]. split; [|exact H4]. clear H1 H2 H4.
  induction H3 as [|o c l m (mp & E & F) H3 IH]; [constructor|]. constructor; [|exact IH]. exists mp. split; [exact E|].
  clear -F Hcd. induction F as [|x y l m [E V] F IH]; [constructor|]. constructor; [|exact IH]. split; [exact E|apply vrep_code; exact V].
Qed.
End More.

(** * Programs *)
Lemma program_runs w m W s sc th l rounds depth v s' path x y tail : all wfs l -> run_program rounds depth sc th l s = Some (v, s') ->
  let code := header path x (le32 (zlen path + 13)) y ++ seqcode (map cst l) ++ OP_EXIT :: tail in
  length x = 4%nat -> length y = 4%nat -> code_room m (zlen code) -> stack_room m depth -> in_state m W s sc th ->
  exists f m' r W', (forall f', (f <= f')%nat -> exec_code f' w m code = OK (m', r)) /\ m_err m' = E_OK /\
    in_state m' W' s' sc th /\ later W W' /\ vrep (m_code m') (m_ext m') W' r v /\ same_stacks m m' /\ m_code m' = commit (m_code m) code.
Proof.
  intros Wf Hr code Lx Ly (ds & Eds & Hds) Sr (Hh & Rl & Sc & Vt).
  assert (Hd : zlen (header path x (le32 (zlen path + 13)) y) = zlen path + 14).
  { unfold header. rewrite zlen_cons, !zlen_app. change (zlen [0]) with 1. replace (zlen x) with 4 by (unfold zlen; rewrite Lx; reflexivity). replace (zlen y) with 4 by (unfold zlen; rewrite Ly; reflexivity).
    change (zlen (le32 (zlen path + 13))) with 4. lia. }
  pose proof (zlen_nonneg path) as Pp. pose proof (zlen_nonneg (seqcode (map cst l))) as Pe. pose proof (zlen_nonneg tail) as Pt. pose proof (zlen_nonneg (concat ds)) as Pd.
  assert (Lt : zlen code = zlen path + 14 + (zlen (seqcode (map cst l)) + (1 + zlen tail))) by (unfold code; rewrite !zlen_app, zlen_cons; lia).
  set (cd := commit (m_code m) code). assert (Ecd : cd = commits (ds ++ [code])) by (unfold cd; rewrite commits_snoc, Eds; reflexivity).
  assert (Hcd : forall bp, part_of (m_code m) bp -> part_of cd bp) by (intros bp; rewrite Eds, Ecd; apply part_stays).
  set (m0 := set_code m cd). set (start := c_len (m_code m)). assert (Es : start = zlen (concat ds)) by (unfold start; rewrite Eds; apply commits_len).
  set (bp := {| bp_start := start; bp_data := code |}).
  assert (P : part_of cd bp) by (unfold bp; rewrite Ecd, Es; apply new_part; exact Hds).
  assert (P0 : forall m', m_code m' = cd -> the_part m' start = OK bp).
  { intros m' Em. unfold the_part. rewrite Em. destruct P as (_ & _ & P). specialize (P 0 ltac:(cbn [bp bp_data]; lia)). cbn [bp bp_start] in P. rewrite Z.add_0_r in P. rewrite P. reflexivity. }
  set (c0 := {| k_m := set_err m0 E_OK; k_bp := bp; k_i := u64 (start - start); k_op := OP_MAX |}).
  assert (E0 : enter m0 start = OK c0) by (unfold enter; rewrite P0 by reflexivity; reflexivity).
  assert (I0 : k_i c0 = 0) by (cbn [c0 k_i]; rewrite Z.sub_diag; reflexivity).
  set (sv := save m0).
  assert (N0 : next_code c0 (OP_BCODE_HEADER :: x ++ le32 (zlen path + 13) ++ y ++ path ++ [0])).
  { exists [], (seqcode (map cst l) ++ OP_EXIT :: tail). split; [reflexivity|exact I0]. }
  assert (R0 : read_u32 code 5 = OK (zlen path + 13)).
  { unfold read_u32. replace ((0 <=? 5) && (5 + 4 <=? zlen code)) with true by lia.
    replace code with ((OP_BCODE_HEADER :: x) ++ le32 (zlen path + 13) ++ (y ++ path ++ [0]) ++ seqcode (map cst l) ++ OP_EXIT :: tail).
    2:{ unfold code, header. cbn [app]. rewrite <- !app_assoc. reflexivity. }
    replace 5 with (zlen (OP_BCODE_HEADER :: x)) at 1 by (rewrite zlen_cons; unfold zlen; rewrite Lx; reflexivity).
    rewrite sub_4 by reflexivity. unfold le32. rewrite le_val_bytes_small; [unfold u32; rewrite Z.mod_small by lia; reflexivity|].
    unfold u32. change (256 ^ Z.of_nat 4) with (2 ^ 32). apply Z.mod_pos_bound. lia. }
  assert (H0 : steps w sv c0 {| k_m := set_off (k_m c0) 0; k_bp := bp; k_i := 0 + (zlen path + 13) + 1; k_op := OP_BCODE_HEADER |}).
  { pose proof (one w sv c0 OP_BCODE_HEADER _ (set_off (k_m c0) 0) (u64 (0 + (zlen path + 13))) (zlen path + 13) N0) as O. rewrite I0 in O.
    apply O; [cbn [c0 k_bp bp bp_data]; lia|lia| |rewrite !u64_id; rewrite ?u64_id; lia|reflexivity]. intros exec k.
    change (instr w exec k (set_off (k_m c0) 0) (k_bp c0) 0 OP_BCODE_HEADER (k_op c0)) with
      (n <- read_u32 code 5 ;; OK (Go (set_off (k_m c0) 0) (k_bp c0) (u64 (0 + n)))). rewrite R0. reflexivity. }
  set (c1 := {| k_m := set_off (k_m c0) 0; k_bp := bp; k_i := 0 + (zlen path + 13) + 1; k_op := OP_BCODE_HEADER |}) in *.
  (* the statements *)
  set (mem := m_mem m) in *. set (res := m_res m) in *.
  unfold run_program in Hr. destruct (ex_list (at_depth rounds depth) sc th l undef s) as [[o s1]|] eqn:El; [|discriminate Hr].
  destruct o as [v1| | |v1]; try discriminate Hr. injection Hr as -> ->.
  destruct (all_depths w sv cd mem res rounds depth) as (_ & _ & _ & Ix).
  assert (Ca : code_to bp (zlen path + 14) (seqcode (map cst l))).
  { exists (header path x (le32 (zlen path + 13)) y), (OP_EXIT :: tail). split; [reflexivity|]. split; [symmetry; exact Hd|].
    cbn [num_stop]. unfold ident_char, letter, OP_EXIT. lia. }
  set (S := sk_live (m_stack m)) in *. set (C := sk_live (m_call m)) in *. set (A := sk_live (m_arg m)) in *. set (SC := sk_live (m_scopes m)) in *. set (LP := sk_live (m_loops m)) in *.
  destruct (seq_ok w sv cd mem res (at_depth rounds depth) (depth_cost depth) Ix l sc th s (ONormal v) s' El Wf bp (zlen path + 14) OP_BCODE_HEADER S C A SC LP (m_this m) (m_last m) W P Ca Sr) as (W' & R' & L' & (op2 & la2 & r & G & V)).
  { split; [apply (rel_code (m_code m) cd Hcd); exact Rl|]. split; [exact Sc|apply (vrep_code (m_code m) cd Hcd); exact Vt]. }
  destruct (G c1) as (c2 & St2 & (B2 & I2 & O2 & K2)).
  { split; [reflexivity|]. split; [cbn [c1 k_i f_i]; lia|]. split; [reflexivity|]. unfold looks, look. cbn. repeat split; try reflexivity. exact Hh. }
  unfold looks, look in K2. cbn [f_bp f_i f_op f_s f_c f_a f_sc f_lp f_t f_la f_h] in *. destruct K2 as (K1 & K2 & K3 & K4 & K5 & K6 & K7 & K8 & K9 & K10 & K11 & K12).
  (* the exit *)
  assert (N2 : next_code c2 [OP_EXIT]).
  { exists (header path x (le32 (zlen path + 13)) y ++ seqcode (map cst l)), tail. rewrite B2. split; [cbn [bp bp_data]; unfold code; rewrite <- app_assoc; reflexivity|].
    rewrite I2, zlen_app, Hd. lia. }
  assert (H2 : steps w sv c2 {| k_m := set_off (k_m c2) (k_i c2); k_bp := k_bp c2; k_i := k_i c2 + (zlen code - k_i c2) + 1; k_op := OP_EXIT |}).
  { apply (one w sv c2 OP_EXIT [] (set_off (k_m c2) (k_i c2)) (zlen (bp_data (k_bp c2)))); [exact N2|rewrite B2; cbn [bp bp_data]; lia|lia| |rewrite B2; cbn [bp bp_data]; rewrite u64_id; lia|exact K9].
    intros exec k. reflexivity. }
  set (c3 := {| k_m := set_off (k_m c2) (k_i c2); k_bp := k_bp c2; k_i := k_i c2 + (zlen code - k_i c2) + 1; k_op := OP_EXIT |}) in *.
  destruct (steps_run w sv c0 c3 (steps_app w sv _ _ _ H0 (steps_app w sv _ _ _ St2 H2))) as (nn & Run).
  set (m3 := set_res (k_m c3) ((start, m_err (k_m c3)) :: m_res (k_m c3))).
  destruct (pop_cons m3 r S K1) as (s4 & P4 & L4).
  assert (Fin : finish (k_m c3) start = OK (set_stack m3 s4, r)).
  { unfold finish. rewrite P0 by exact K10. cbn [bind bp bp_start]. fold m3. rewrite P4. reflexivity. }
  assert (Stop : forall f, run (Datatypes.S f) w sv start c3 = OK (set_stack m3 s4, r)).
  { intros f. cbn [run]. unfold step.
    replace (k_i c3 <? zlen (bp_data (k_bp c3))) with false.
    2:{ cbn [c3 k_i k_bp]. rewrite B2. cbn [bp bp_data]. lia. }
    cbn [negb bind]. exact Fin. }
  exists (nn + 1)%nat, (set_stack m3 s4), r, W'. split.
  { intros f' Hf. unfold exec_code, execute. fold cd. fold m0. fold start. rewrite E0. cbn [bind]. fold sv.
    replace f' with (nn + Datatypes.S (f' - nn - 1))%nat by lia. rewrite Run. apply Stop. }
  assert (Ee : m_ext (set_stack m3 s4) = mext mem) by (unfold m_ext; change (m_mem (set_stack m3 s4)) with (m_mem (k_m c2)); rewrite K11; reflexivity).
  assert (Ec : m_code (set_stack m3 s4) = cd) by exact K10.
  split; [exact K9|]. split.
  { split; [exact K8|]. rewrite Ee, Ec. split; [exact R'|]. split.
    - change (chain (set_stack m3 s4)) with (sk_live (m_scopes (k_m c2))). rewrite K4. eapply scopes_later; [exact L'|exact Sc].
    - change (m_this (set_stack m3 s4)) with (m_this (k_m c2)). rewrite K6. eapply vrep_later; [exact L'|]. apply (vrep_code (m_code m) cd Hcd); exact Vt. }
  split; [exact L'|]. split; [rewrite Ee, Ec; exact V|]. split; [|exact K10].
  split; [exact L4|]. split; [exact K2|]. split; [exact K3|]. split; [exact K4|]. split; [exact K5|]. split; [exact K6|exact K11].
Qed.
