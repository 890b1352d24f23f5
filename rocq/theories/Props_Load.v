(** Loading files: mjs_load. *)
From Verif Require Import Base BaseFacts Value_Model Value_Spec Value_Proofs Data_Model Str_Model Str_Spec Str_Proofs Str_Proofs2 Float_Proofs Lit_Proofs
  Ops_Model Ops_Spec Ops_Proofs Ops_Proofs2 TokNum_Model Txt_Model Obj_Model Obj_Spec Obj_Proofs Obj_Proofs2 Conv_Model Num_Model Varint_Model Varint_Proofs Bcode_Model Bcode_Proofs
  Vm_Model Vm_Spec Vm_Proofs Vm_Proofs2 Vm_Proofs4 Tok_Spec Parse_Model Expr_Spec Run_Spec Expr_Proofs1 Expr_Proofs3 Expr_Proofs4 Expr_Proofs5 Lang_Spec Lang_Code Lang_Spec2 Lang_Exec1 Lang_Key Lang_Exec2 Lang_Exec3 Lang_Exec4 Lang_Exec5 Lang_Native Lang_Exec6 Lang_Exec7 Lang_Exec8 Lang_Exec9 Props_Bcode Run_Model Lex_Proofs Expr_Proofs6 Lang_Proofs7 Lang_Exec10 Lang_Spec5 Lang_Fail1 Lang_Fail2 Lang_Fail3 Lang_Fail4 Lang_Spec3 Lang_Spec4 Lang_Spec6 Lang_Apply Props_Lang Load_Model Load_Spec Load_Proofs Load_Proofs2.
From Coq Require Import ZifyBool.
Ltac Zify.zify_post_hook ::= idtac.

(** * File names of the pieces of code *)
Lemma bytes_eqb_refl l : bytes_eqb l l = true.
Proof. induction l as [|c l IH]; [reflexivity|]. cbn [bytes_eqb]. rewrite Z.eqb_refl. exact IH. Qed.
Lemma bytes_eqb_neq : forall a b, a <> b -> bytes_eqb a b = false.
Proof.
  induction a as [|x a IH]; intros [|y b] N; try reflexivity; [congruence|]. cbn [bytes_eqb]. destruct (x =? y) eqn:E; [|reflexivity]. cbn [andb]. apply IH. intros ->. apply N. f_equal. lia.
Qed.
Lemma others_skip path l r : Forall (other_name path) l -> loaded_part (l ++ r) path = loaded_part r path.
Proof. induction 1 as [|bp l (n & E & N) _ IH]; [reflexivity|]. cbn [app loaded_part]. rewrite E. cbn [bind]. rewrite bytes_eqb_neq by congruence. exact IH. Qed.
Lemma loaded_none cd path : unknown cd path -> loaded_part (c_parts cd) path = OK None.
Proof. intros H. rewrite <- (app_nil_r (c_parts cd)), (others_skip path (c_parts cd) [] H). reflexivity. Qed.
Lemma c_str_path path r : no_nul path -> Bcode_Model.c_str (path ++ 0 :: r) = OK path.
Proof. induction 1 as [|c l Hc _ IH]; [reflexivity|]. cbn [app Bcode_Model.c_str]. replace (c =? 0) with false by lia. rewrite IH. reflexivity. Qed.
Lemma compiled_name p bp : well_formed p -> compiles p (bp_data bp) -> no_nul (g_path p) -> bcode_filename bp = OK (g_path p).
Proof.
  intros Wp Cp Np. destruct (compiled_code p _ Wp Cp) as (a & c & tail & La & Lc & E). unfold bcode_filename. rewrite E.
  destruct a as [|a1 [|a2 [|a3 [|a4 [|]]]]]; try discriminate La. destruct c as [|c1 [|c2 [|c3 [|c4 [|]]]]]; try discriminate Lc.
  unfold header, le32. cbn [le_bytes app skipn]. rewrite !zlen_cons. match goal with |- context[13 <=? ?x] => replace (13 <=? x) with true by (pose proof (zlen_nonneg ((g_path p ++ [0]) ++ seqcode (map cst (g_tree p)) ++ OP_EXIT :: tail)); lia) end.
  rewrite <- app_assoc. apply c_str_path. exact Np.
Qed.
Lemma loaded_some cd p bp : known cd p bp -> no_nul (g_path p) -> loaded_part (c_parts cd) (g_path p) = OK (Some bp).
Proof.
  intros (Wp & Cp & _ & l & r & E & F) Np. rewrite E, (others_skip _ l (bp :: r) F). cbn [loaded_part]. rewrite (compiled_name p bp Wp Cp Np). cbn [bind]. rewrite bytes_eqb_refl. reflexivity.
Qed.
(** What is loaded stays loaded. *)
Lemma known_stays ds d p bp : known (commits ds) p bp -> known (commits (ds ++ [d])) p bp.
Proof.
  intros (Wp & Cp & P & l & r & E & F). split; [exact Wp|]. split; [exact Cp|]. split; [apply part_stays; exact P|].
  rewrite commits_snoc. cbn [commit c_parts]. rewrite E. eexists l, _. split; [rewrite <- app_assoc; reflexivity|exact F].
Qed.
Lemma known_new ds p code : well_formed p -> compiles p code -> unknown (commits ds) (g_path p) -> zlen (concat ds) + zlen code < 2 ^ 31 - 1 ->
  known (commits (ds ++ [code])) p {| bp_start := c_len (commits ds); bp_data := code |}.
Proof.
  intros Wp Cp U H. split; [exact Wp|]. split; [exact Cp|]. split; [rewrite commits_len; apply new_part; exact H|].
  rewrite commits_snoc. cbn [commit c_parts]. eexists _, []. split; [reflexivity|exact U].
Qed.
Lemma tree_wf p : well_formed p -> all wfs (g_tree p).
Proof. intros (_ & _ & q & D). exact (proj2 (proj2 (proj2 (proj2 (proj2 (proj2 (proj2 (proj2 (proj2 (proj2 (proj2 (proj2 (proj2 grammar_wf)))))))))))) _ _ _ _ _ D). Qed.

(** * Executing a known piece of code *)
Lemma known_runs w m W s sc th p bp rounds depth v s' : known (m_code m) p bp -> run_program rounds depth sc th (g_tree p) s = Some (v, s') -> stack_room m depth -> in_state m W s sc th ->
  exists f m' r W', (forall f', (f <= f')%nat -> execute f' w m (bp_start bp) = OK (m', r)) /\ m_err m' = E_OK /\
    in_state m' W' s' sc th /\ later W W' /\ vrep (m_code m') (m_ext m') W' r v /\ same_stacks m m' /\ m_code m' = m_code m /\ m_res m' = (bp_start bp, E_OK) :: m_res m.
Proof.
  intros (Wp & Cp & P & _) Hr Sr St. destruct (compiled_code p _ Wp Cp) as (a & c & tail & La & Lc & E).
  exact (part_runs w m W s sc th (g_tree p) rounds depth v s' (g_path p) a c tail bp (tree_wf p Wp) Hr La Lc E P Sr St).
Qed.
Lemma known_stops w m W s sc th p bp rounds depth c th' s' : known (m_code m) p bp -> fail_program rounds depth sc th (g_tree p) s = Some (c, th', s') -> stack_room m depth -> in_state m W s sc th ->
  exists f m' W', (forall f', (f <= f')%nat -> execute f' w m (bp_start bp) = OK (m', V_UNDEFINED)) /\ m_err m' = c /\ c <> E_OK /\
    in_state m' W' s' sc th' /\ later W W' /\ stacks_back m m' /\ m_code m' = m_code m /\ m_res m' = (bp_start bp, c) :: m_res m.
Proof.
  intros (Wp & Cp & P & _) Hr Sr St. destruct (compiled_code p _ Wp Cp) as (a & c1 & tail & La & Lc & E).
  exact (part_stops w m W s sc th (g_tree p) rounds depth c th' s' (g_path p) a c1 tail bp (tree_wf p Wp) Hr La Lc E P Sr St).
Qed.
Lemma with_code m W s sc th cd : (forall bp, part_of (m_code m) bp -> part_of cd bp) -> in_state m W s sc th -> in_state (set_code (set_err m E_OK) cd) W s sc th.
Proof.
  intros H (Hh & Rl & Sc & Vt). split; [exact Hh|]. split; [exact (rel_code (m_code m) cd H _ _ _ Rl)|]. split; [exact Sc|exact (vrep_code (m_code m) cd H _ _ _ _ Vt)].
Qed.
Lemma same_back m m' : same_stacks m m' -> stacks_back m m'.
Proof. intros (H1 & H2 & H3 & H4 & H5 & _ & H7). repeat split; assumption. Qed.
Lemma res_of m bp e l : m_res m = (bp_start bp, e) :: l -> exec_res m bp = e.
Proof. intros H. unfold exec_res. rewrite H. cbn [last_res]. rewrite Z.eqb_refl. reflexivity. Qed.

Ltac frame := match goal with H : load_call _ _ _ _ _ _ _ _ _ _ |- _ => destruct H as ((fv & C & Hc) & Hv & Hs & Hp & Hn & Hg) end.

(** The end of mjs_load, for executions with enough fuel. *)
Lemma load_ends fs w m W s sc th xs vs base path sc' f0 m2 W' s' th' res ret e : load_call m W s sc th xs vs base path sc' ->
  (forall f', (f0 <= f')%nat -> middle fs (mjs_exec f' w) (execute f' w) (inside m xs vs) path (has_global vs) = OK (m2, res, ret)) ->
  stacks_back (inside m xs vs) m2 -> in_state m2 W' s' sc' th' -> m_err (prepend m2 ret) = e ->
  exists m', (forall f', (f0 <= f')%nat -> load fs (mjs_exec f' w) (execute f' w) m = OK m') /\ m_err m' = e /\ gave m m' base res /\ in_state m' W' s' sc th' /\
    m_code m' = m_code m2 /\ m_res m' = m_res m2 /\ m_ext m' = m_ext m2 /\ m_heap m' = m_heap m2 /\ m_this m' = m_this m2.
Proof.
  intros Lc Em Sb Is2 Er. frame.
  destruct (load_end fs (mjs_exec f0 w) (execute f0 w) m W s sc sc' th xs vs fv base C path Hc Hv Hs Hp Hn Hg m2 W' s' th' res ret e (Em _ (le_n _)) Sb Is2 Er) as (m' & El & G1 & G2 & G3 & G4 & G5 & G6 & G7).
  exists m'. split; [|repeat (split; [assumption|]); split; [|split; assumption]].
  - intros f' Hf'. rewrite <- El, !(load_is fs _ _ m W s sc sc' th xs vs fv base C path Hc Hv Hs Hp Hn Hg). rewrite !Em by lia. reflexivity.
  - destruct G2 as (_ & _ & _ & _ & _ & G2). destruct Sb as (_ & _ & _ & _ & _ & Sb). unfold m_ext. rewrite G2, Sb. unfold inside. destruct (has_global vs); reflexivity.
Qed.
Lemma call_inside m W s sc th xs vs base path sc' : load_call m W s sc th xs vs base path sc' -> in_state (inside m xs vs) W s sc' th.
Proof. intros Lc. frame. exact (inside_state m W s sc sc' th xs vs fv base C path Hc Hv Hs Hp Hg). Qed.
Lemma back_refl m : stacks_back m m.
Proof. repeat split; reflexivity. Qed.
Lemma prepend_same m e : m_err m = e -> m_err (prepend m e) = e.
Proof. intros H. unfold prepend. destruct (e =? E_OK) eqn:E; [exact H|]. rewrite H, E. exact H. Qed.

(** C84. load(path) of a file that was not loaded before runs its program, in the scopes of the
    caller (and of the object given as second argument): the value of the call is the value of
    the program, its effects are those of the program, and nothing else changes. The file is
    loaded then. *)
Section First.
Context (fs : files) (w : host) (m : vm) (W : world) (s : state) (sc : list nat) (th : val) (xs : list Z) (vs : list val) (base : list Z) (sc' : list nat) (p : prog) (code : list Z) (rounds depth : nat).
Context (Lc : load_call m W s sc th xs vs base (g_path p) sc') (Hf : fs (g_path p) = Some (g_src p)) (Wp : well_formed p) (Cp : compiles p code) (U : unknown (m_code m) (g_path p)).
Context (Rm : code_room m (zlen code)) (Sr : stack_room m (S depth)).
Let bp := {| bp_start := c_len (m_code m); bp_data := code |}.
Let cd := commit (m_code m) code.
Let mi := set_code (set_err (inside m xs vs) E_OK) cd.
Lemma first_known : known cd p bp.
Proof. destruct Rm as (ds & Ed & Hds). unfold cd, bp. rewrite Ed, <- commits_snoc. rewrite Ed in U. exact (known_new ds p code Wp Cp U Hds). Qed.
Lemma first_state : in_state mi W s sc' th.
Proof.
  apply with_code; [|eapply call_inside; exact Lc]. destruct Rm as (ds & Ed & Hds). destruct (inside_code m xs vs) as (I1 & _). intros q. unfold cd. rewrite I1, Ed, <- commits_snoc. apply part_stays.
Qed.
Lemma first_room : stack_room mi depth.
Proof. exact (inside_room m xs vs depth Sr). Qed.
Lemma first_middle f1 m2 r : (forall f', (f1 <= f')%nat -> execute f' w mi (bp_start bp) = OK (m2, r)) ->
  exists f, forall f', (f <= f')%nat -> middle fs (mjs_exec f' w) (execute f' w) (inside m xs vs) (g_path p) (has_global vs) = OK (m2, r, m_err m2).
Proof.
  intros HR. destruct Cp as (f0 & HP). destruct (inside_code m xs vs) as (I1 & _). exists (max f0 f1).
  intros f' Hf'. unfold middle. rewrite I1, (loaded_none _ _ U). cbn [bind]. unfold exec_file. rewrite Hf. unfold mjs_exec. rewrite HP by lia. cbn [bind].
  change (E_OK =? E_OK) with true. cbv iota. unfold exec_code. cbn [set_err m_code]. rewrite I1. fold cd. change (c_len (m_code m)) with (bp_start bp). fold mi. rewrite HR by lia. reflexivity.
Qed.
Theorem load_first v s' : run_program rounds depth sc' th (g_tree p) s = Some (v, s') ->
  exists f m' r W', (forall f', (f <= f')%nat -> load fs (mjs_exec f' w) (execute f' w) m = OK m') /\ m_err m' = E_OK /\ gave m m' base r /\
    vrep (m_code m') (m_ext m') W' r v /\ in_state m' W' s' sc th /\ later W W' /\ m_code m' = commit (m_code m) code /\
    known (m_code m') p {| bp_start := c_len (m_code m); bp_data := code |} /\ exec_res m' {| bp_start := c_len (m_code m); bp_data := code |} = E_OK.
Proof.
  intros Hr. destruct (known_runs w mi W s sc' th p bp rounds depth v s' first_known Hr first_room first_state) as (f1 & m2 & r & W' & HR & Er & Is2 & L2 & Vr & Sm & Cm & Rs).
  destruct (first_middle f1 m2 r HR) as (f & Em). change (m_code mi) with cd in Cm.
  destruct (load_ends fs w m W s sc th xs vs base (g_path p) sc' f m2 W' s' th r (m_err m2) E_OK Lc Em (same_back _ _ Sm) Is2) as (m' & G0 & G1 & G2 & G3 & G4 & G5 & G6 & _).
  { rewrite Er. exact Er. }
  exists f, m', r, W'. split; [exact G0|]. split; [exact G1|]. split; [exact G2|]. split; [rewrite G4, G6; exact Vr|]. split; [exact G3|]. split; [exact L2|].
  split; [rewrite G4, Cm; reflexivity|]. split; [rewrite G4, Cm; exact first_known|]. eapply res_of. rewrite G5. exact Rs.
Qed.
(** If the program fails, the call fails with the same error, and the effects of the program up
    to there stay. The file is loaded, with this outcome. *)
Theorem load_first_fails c th' s' : fail_program rounds depth sc' th (g_tree p) s = Some (c, th', s') ->
  exists f m' W', (forall f', (f <= f')%nat -> load fs (mjs_exec f' w) (execute f' w) m = OK m') /\ m_err m' = c /\ c <> E_OK /\ gave m m' base V_UNDEFINED /\
    in_state m' W' s' sc th' /\ later W W' /\ m_code m' = commit (m_code m) code /\
    known (m_code m') p {| bp_start := c_len (m_code m); bp_data := code |} /\ exec_res m' {| bp_start := c_len (m_code m); bp_data := code |} = c.
Proof.
  intros Hr. destruct (known_stops w mi W s sc' th p bp rounds depth c th' s' first_known Hr first_room first_state) as (f1 & m2 & W' & HR & Er & Nz & Is2 & L2 & Sm & Cm & Rs).
  destruct (first_middle f1 m2 V_UNDEFINED HR) as (f & Em). change (m_code mi) with cd in Cm.
  destruct (load_ends fs w m W s sc th xs vs base (g_path p) sc' f m2 W' s' th' V_UNDEFINED (m_err m2) c Lc Em Sm Is2) as (m' & G0 & G1 & G2 & G3 & G4 & G5 & G6 & _).
  { rewrite Er. apply prepend_same. exact Er. }
  exists f, m', W'. split; [exact G0|]. split; [exact G1|]. split; [exact Nz|]. split; [exact G2|]. split; [exact G3|]. split; [exact L2|].
  split; [rewrite G4, Cm; reflexivity|]. split; [rewrite G4, Cm; exact first_known|]. eapply res_of. rewrite G5. exact Rs.
Qed.
End First.
Print Assumptions load_first.
Print Assumptions load_first_fails.

(** C85. load(path) of a file that was loaded and whose last execution succeeded does nothing
    and gives undefined. *)
Theorem load_again fs w m W s sc th xs vs base sc' p bp : load_call m W s sc th xs vs base (g_path p) sc' -> known (m_code m) p bp -> exec_res m bp = E_OK -> has_global vs = false ->
  exists m', (forall f', load fs (mjs_exec f' w) (execute f' w) m = OK m') /\ m_err m' = m_err m /\ gave m m' base V_UNDEFINED /\ in_state m' W s sc th /\
    m_code m' = m_code m /\ m_res m' = m_res m /\ m_heap m' = m_heap m /\ m_this m' = m_this m.
Proof.
  intros Lc Kn Ex Ng. pose proof (call_inside _ _ _ _ _ _ _ _ _ _ Lc) as Is. destruct (inside_code m xs vs) as (I1 & I2 & I3 & I4 & I5).
  assert (Np : no_nul (g_path p)) by (destruct Lc as (_ & _ & _ & _ & H & _); exact H).
  destruct (load_ends fs w m W s sc th xs vs base (g_path p) sc' 0 (inside m xs vs) W s th V_UNDEFINED E_OK (m_err m) Lc) as (m' & G0 & G1 & G2 & G3 & G4 & G5 & G6 & G7 & G8).
  - intros f' _. unfold middle. rewrite I1, (loaded_some _ p bp Kn Np). cbn [bind]. unfold exec_res in *. rewrite I2, Ex, Ng. reflexivity.
  - apply back_refl.
  - exact Is.
  - change (prepend (inside m xs vs) E_OK) with (inside m xs vs). unfold inside. rewrite Ng. reflexivity.
  - exists m'. split; [intros f'; apply G0; lia|]. rewrite G4, G5, G7, G8, I1, I2, I4, I5. repeat (split; [first [assumption|reflexivity]|]). reflexivity.
Qed.
Print Assumptions load_again.
(** If the last execution did not succeed, or with an object as second argument, the program is
    run again, in the scopes as for the first time. *)
Section Again.
Context (fs : files) (w : host) (m : vm) (W : world) (s : state) (sc : list nat) (th : val) (xs : list Z) (vs : list val) (base : list Z) (sc' : list nat) (p : prog) (bp : part) (rounds depth : nat).
Context (Lc : load_call m W s sc th xs vs base (g_path p) sc') (Kn : known (m_code m) p bp) (Ex : exec_res m bp <> E_OK \/ has_global vs = true) (Sr : stack_room m (S depth)).
Let mi := inside m xs vs.
Lemma again_middle f1 m2 r : (forall f', (f1 <= f')%nat -> execute f' w mi (bp_start bp) = OK (m2, r)) ->
  forall f', (f1 <= f')%nat -> middle fs (mjs_exec f' w) (execute f' w) (inside m xs vs) (g_path p) (has_global vs) = OK (m2, r, m_err m2).
Proof.
  intros HR f' Hf'. destruct (inside_code m xs vs) as (I1 & I2 & _). assert (Np : no_nul (g_path p)) by (destruct Lc as (_ & _ & _ & _ & H & _); exact H).
  unfold middle. rewrite I1, (loaded_some _ p bp Kn Np). cbn [bind]. fold mi. unfold exec_res in *. fold mi in I2. rewrite I2.
  replace (negb (last_res (m_res m) (bp_start bp) =? E_OK) || has_global vs) with true by (destruct Ex as [H|H]; [lia|rewrite H; lia]). rewrite HR by lia. reflexivity.
Qed.
Lemma again_known : known (m_code mi) p bp.
Proof. destruct (inside_code m xs vs) as (I1 & _). unfold mi. rewrite I1. exact Kn. Qed.
Theorem load_runs_again v s' : run_program rounds depth sc' th (g_tree p) s = Some (v, s') ->
  exists f m' r W', (forall f', (f <= f')%nat -> load fs (mjs_exec f' w) (execute f' w) m = OK m') /\ m_err m' = E_OK /\ gave m m' base r /\
    vrep (m_code m') (m_ext m') W' r v /\ in_state m' W' s' sc th /\ later W W' /\ m_code m' = m_code m /\ exec_res m' bp = E_OK.
Proof.
  intros Hr. destruct (known_runs w mi W s sc' th p bp rounds depth v s' again_known Hr (inside_room m xs vs depth Sr) (call_inside _ _ _ _ _ _ _ _ _ _ Lc)) as (f & m2 & r & W' & HR & Er & Is2 & L2 & Vr & Sm & Cm & Rs).
  destruct (inside_code m xs vs) as (I1 & _). unfold mi in Cm. rewrite I1 in Cm.
  destruct (load_ends fs w m W s sc th xs vs base (g_path p) sc' f m2 W' s' th r (m_err m2) E_OK Lc (again_middle f m2 r HR) (same_back _ _ Sm) Is2) as (m' & G0 & G1 & G2 & G3 & G4 & G5 & G6 & _).
  { rewrite Er. exact Er. }
  exists f, m', r, W'. split; [exact G0|]. split; [exact G1|]. split; [exact G2|]. split; [rewrite G4, G6; exact Vr|]. split; [exact G3|]. split; [exact L2|].
  split; [rewrite G4; exact Cm|]. eapply res_of. rewrite G5. exact Rs.
Qed.
Theorem load_fails_again c th' s' : fail_program rounds depth sc' th (g_tree p) s = Some (c, th', s') ->
  exists f m' W', (forall f', (f <= f')%nat -> load fs (mjs_exec f' w) (execute f' w) m = OK m') /\ m_err m' = c /\ c <> E_OK /\ gave m m' base V_UNDEFINED /\
    in_state m' W' s' sc th' /\ later W W' /\ m_code m' = m_code m /\ exec_res m' bp = c.
Proof.
  intros Hr. destruct (known_stops w mi W s sc' th p bp rounds depth c th' s' again_known Hr (inside_room m xs vs depth Sr) (call_inside _ _ _ _ _ _ _ _ _ _ Lc)) as (f & m2 & W' & HR & Er & Nz & Is2 & L2 & Sm & Cm & Rs).
  destruct (inside_code m xs vs) as (I1 & _). unfold mi in Cm. rewrite I1 in Cm.
  destruct (load_ends fs w m W s sc th xs vs base (g_path p) sc' f m2 W' s' th' V_UNDEFINED (m_err m2) c Lc (again_middle f m2 V_UNDEFINED HR) Sm Is2) as (m' & G0 & G1 & G2 & G3 & G4 & G5 & G6 & _).
  { rewrite Er. apply prepend_same. exact Er. }
  exists f, m', W'. split; [exact G0|]. split; [exact G1|]. split; [exact Nz|]. split; [exact G2|]. split; [exact G3|]. split; [exact L2|].
  split; [rewrite G4; exact Cm|]. eapply res_of. rewrite G5. exact Rs.
Qed.
End Again.
Print Assumptions load_runs_again.
Print Assumptions load_fails_again.

(** C86. A file that cannot be read, or whose program the parser rejects, makes load fail with
    the error of the file or of the parser, and nothing else happens: nothing is executed and
    nothing is loaded. *)
Theorem load_missing fs w m W s sc th xs vs base sc' path : load_call m W s sc th xs vs base path sc' -> fs path = None -> unknown (m_code m) path -> m_err m = E_OK ->
  exists m', (forall f', load fs (mjs_exec f' w) (execute f' w) m = OK m') /\ m_err m' = E_FILE /\ gave m m' base V_UNDEFINED /\ in_state m' W s sc th /\
    m_code m' = m_code m /\ m_res m' = m_res m /\ m_heap m' = m_heap m /\ m_this m' = m_this m.
Proof.
  intros Lc Hf U Eo. pose proof (call_inside _ _ _ _ _ _ _ _ _ _ Lc) as Is. destruct (inside_code m xs vs) as (I1 & I2 & I3 & I4 & I5).
  assert (Ei : m_err (inside m xs vs) = E_OK) by (unfold inside; destruct (has_global vs); exact Eo).
  destruct (load_ends fs w m W s sc th xs vs base path sc' 0 (set_err (inside m xs vs) E_FILE) W s th V_UNDEFINED E_FILE E_FILE Lc) as (m' & G0 & G1 & G2 & G3 & G4 & G5 & G6 & G7 & G8).
  - intros f' _. unfold middle. rewrite I1, (loaded_none _ _ U). cbn [bind]. unfold exec_file. rewrite Hf. unfold prepend. rewrite Ei. reflexivity.
  - exact (back_refl (inside m xs vs)).
  - exact Is.
  - reflexivity.
  - exists m'. split; [intros f'; apply G0; lia|]. rewrite G4, G5, G7, G8. cbn [set_err m_code m_res m_heap m_this]. rewrite I1, I2, I4, I5. repeat (split; [first [assumption|reflexivity]|]). reflexivity.
Qed.
Print Assumptions load_missing.
Theorem load_rejected fs w m W s sc th xs vs base sc' path src f code e : load_call m W s sc th xs vs base path sc' -> fs path = Some src -> unknown (m_code m) path ->
  (forall f', (f <= f')%nat -> mjs_parse f' path src = OK (code, e)) -> e <> E_OK ->
  exists m', (forall f', (f <= f')%nat -> load fs (mjs_exec f' w) (execute f' w) m = OK m') /\ m_err m' = e /\ gave m m' base V_UNDEFINED /\ in_state m' W s sc th /\
    m_code m' = m_code m /\ m_res m' = m_res m /\ m_heap m' = m_heap m /\ m_this m' = m_this m.
Proof.
  intros Lc Hf U HP Ne. pose proof (call_inside _ _ _ _ _ _ _ _ _ _ Lc) as Is. destruct (inside_code m xs vs) as (I1 & I2 & I3 & I4 & I5).
  destruct (load_ends fs w m W s sc th xs vs base path sc' f (set_err (inside m xs vs) e) W s th V_UNDEFINED e e Lc) as (m' & G0 & G1 & G2 & G3 & G4 & G5 & G6 & G7 & G8).
  - intros f' Hf'. unfold middle. rewrite I1, (loaded_none _ _ U). cbn [bind]. unfold exec_file. rewrite Hf. unfold mjs_exec. rewrite HP by exact Hf'. cbn [bind]. replace (e =? E_OK) with false by lia. reflexivity.
  - exact (back_refl (inside m xs vs)).
  - exact Is.
  - apply prepend_same. reflexivity.
  - exists m'. split; [exact G0|]. rewrite G4, G5, G7, G8. cbn [set_err m_code m_res m_heap m_this]. rewrite I1, I2, I4, I5. repeat (split; [first [assumption|reflexivity]|]). reflexivity.
Qed.
Print Assumptions load_rejected.
(** Without a string as first argument load does nothing. *)
Theorem load_no_name fs ex exe m W s sc th xs vs f base C : called m xs f base C -> Forall2 (vrep (m_code m) (m_ext m) W) xs vs -> in_state m W s sc th ->
  match vs with VPrim (AStr _) :: _ => False | _ => True end ->
  exists m', load fs ex exe m = OK m' /\ m_err m' = m_err m /\ gave m m' base V_UNDEFINED /\ in_state m' W s sc th /\
    m_code m' = m_code m /\ m_res m' = m_res m /\ m_heap m' = m_heap m /\ m_this m' = m_this m.
Proof.
  intros Hc Hv (Hh & Rl & Sc & Vt) Hx. unfold load. rewrite (called_arg _ _ _ _ _ 0 Hc) by lia. rewrite (called_arg _ _ _ _ _ 1 Hc) by lia. cbn [bind].
  assert (Q : is_string (nth (Z.to_nat 0) xs V_UNDEFINED) = false).
  { change (Z.to_nat 0) with 0%nat. destruct Hv as [|x0 y0 xs1 vs1 V0 F1]; [reflexivity|]. cbn [nth]. destruct (same_kind _ _ _ _ _ _ Rl V0) as [_ ->]. destruct y0 as [[]| | | |]; try reflexivity. contradiction. }
  rewrite Q. destruct (called_return _ _ _ _ _ V_UNDEFINED Hc) as (s4 & L4 & Er). rewrite Er. eexists. split; [reflexivity|]. split; [reflexivity|].
  split; [unfold gave; cbn; rewrite L4; repeat split; reflexivity|]. split; [|repeat split; reflexivity]. split; [exact Hh|]. split; [exact Rl|]. split; [exact Sc|exact Vt].
Qed.
Print Assumptions load_no_name.
