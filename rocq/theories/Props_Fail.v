(** Programs and calls that fail. *)
From Verif Require Import Base Value_Model Value_Spec Str_Model Str_Spec TokNum_Model Txt_Model Tok_Model Tok_Spec Num_Model NumText_Spec Lit_Proofs Obj_Model Obj_Spec Bcode_Model Bcode_Proofs Vm_Model Vm_Spec Parse_Model Run_Model Expr_Spec Run_Spec
  Tok_Proofs2 Obj_Proofs Obj_Proofs2 Props_Obj Props_Vm Props_Expr Lang_Spec Lang_Code Lang_Spec2 Lang_Exec1 Lang_Exec2 Lang_Exec10 Lang_Spec3 Lang_Spec4 Lang_Apply Props_Lang Props_Lang2 Props_Apply Lang_Spec5 Lang_Fail4 Lang_Spec6 Lang_Fail5.
From Coq Require Import ZifyBool.
Ltac Zify.zify_post_hook ::= idtac.

(** C81. If the specification says that the program fails with the error [c] in the state [s']
    (everything done up to the failing instruction, and nothing after it), mjs_exec reports [c] and
    gives undefined, and the engine is in the state [s'] with its stacks as before: only the
    current value of [this] may be another one (the one of the function that failed). *)
Theorem program_failure w m W s sc th p code rounds depth c th' s' : well_formed p -> compiles p code ->
  fail_program rounds depth sc th (g_tree p) s = Some (c, th', s') ->
  code_room m (zlen code) -> stack_room m depth -> in_state m W s sc th ->
  exists f m' W', (forall f', (f <= f')%nat -> mjs_exec f' w m (g_path p) (g_src p) = OK (m', V_UNDEFINED)) /\ m_err m' = c /\ c <> E_OK /\
    in_state m' W' s' sc th' /\ later W W' /\ stacks_back m m' /\ m_code m' = commit (m_code m) code.
Proof.
  intros Wp Cp Hr Rm Sr St. destruct (compiled_code p code Wp Cp) as (a & b & tail & La & Lc & ->). destruct Cp as (f & HP). destruct Wp as (_ & _ & q & D).
  destruct (program_stops w (set_err m E_OK) W s sc th (g_tree p) rounds depth c th' s' (g_path p) a b tail
    (proj2 (proj2 (proj2 (proj2 (proj2 (proj2 (proj2 (proj2 (proj2 (proj2 (proj2 (proj2 (proj2 grammar_wf)))))))))))) _ _ _ _ _ D) Hr La Lc Rm Sr St) as (f2 & m' & W' & HR & H).
  exists (max f f2), m', W'. split; [|exact H].
  intros f' Hf. unfold mjs_exec. rewrite HP by lia. cbn [bind]. change (E_OK =? E_OK) with true. cbv iota. apply HR. lia.
Qed.
Print Assumptions program_failure.
(** mjs_apply on a function whose body fails, or on a value that is no function. *)
Theorem apply_failure w m W s sc th f fv T t xs vs rounds depth c s' : fail_host rounds depth sc fv t vs s = Some (c, s') -> (length vs <= depth)%nat ->
  stack_room m (S depth) -> in_state m W s sc th -> vrep (m_code m) (m_ext m) W f fv -> vrep (m_code m) (m_ext m) W T t -> Forall2 (vrep (m_code m) (m_ext m) W) xs vs ->
  exists fu m' W', (forall fu', (fu <= fu')%nat -> apply fu' w m f T xs = OK (m', V_UNDEFINED)) /\ m_err m' = c /\ c <> E_OK /\
    in_state m' W' s' sc th /\ later W W' /\ same_stacks m m' /\ m_code m' = m_code m.
Proof. apply apply_stops. Qed.
Print Assumptions apply_failure.
(** No program both has a value and fails. *)
Theorem program_one_outcome m W s sc th p code rounds depth rounds' depth' v s1 x : well_formed p -> compiles p code ->
  code_room m (zlen code) -> stack_room m depth -> stack_room m depth' -> in_state m W s sc th ->
  run_program rounds depth sc th (g_tree p) s = Some (v, s1) -> fail_program rounds' depth' sc th (g_tree p) s = Some x -> False.
Proof.
  intros Wp Cp Rm S1 S2 St Hr Hf. destruct x as [[c t] s2].
  destruct (program_result Props_Vm.w0 m W s sc th p code rounds depth v s1 Wp Cp Hr Rm S1 St) as (f1 & m1 & r & _ & H1 & E1 & _).
  destruct (program_failure Props_Vm.w0 m W s sc th p code rounds' depth' c t s2 Wp Cp Hf Rm S2 St) as (f2 & m2 & _ & H2 & E2 & Nc & _).
  specialize (H1 (max f1 f2) ltac:(lia)). specialize (H2 (max f1 f2) ltac:(lia)). rewrite H1 in H2. injection H2 as Em _. apply Nc. rewrite <- E2, <- Em. exact E1.
Qed.
Print Assumptions program_one_outcome.

(** C82. A host that runs programs and calls functions, any of which may fail, and that goes on
    after failures: the errors it is told are the specification's, and all results represent the
    specification's values at the end. *)
Definition answers cd ext W (a : Z * Z) (b : reply) : Prop := fst a = fst b /\ vrep cd ext W (snd a) (snd b).
Lemma answers_snd cd ext W l l' : Forall2 (answers cd ext W) l l' -> Forall2 (vrep cd ext W) (map snd l) (map snd l').
Proof. intros F. induction F as [|a b l l' [_ H] F IH]; constructor; assumption. Qed.
Lemma answers_later cd cd' ext W W' rs vs : (forall bp, part_of cd bp -> part_of cd' bp) -> later W W' -> Forall2 (answers cd ext W) rs vs -> Forall2 (answers cd' ext W') rs vs.
Proof. intros H L F. induction F as [|a b l l' [E V] F IH]; constructor; [|assumption]. split; [exact E|]. apply (vrep_code cd cd' H). eapply vrep_later; eassumption. Qed.
Lemma stacks_back_same m m' : same_stacks m m' -> stacks_back m m'.
Proof. unfold same_stacks, stacks_back. tauto. Qed.
Lemma stacks_back_trans m1 m2 m3 : stacks_back m1 m2 -> stacks_back m2 m3 -> stacks_back m1 m3.
Proof. unfold stacks_back. intros (A1 & A2 & A3 & A4 & A5 & A6) (B1 & B2 & B3 & B4 & B5 & B6). rewrite B1, B2, B3, B4, B5, B6. repeat split; assumption. Qed.
Lemma run_reply_ok w m W s sc th p code rounds depth c v th' s' : well_formed p -> compiles p code -> run_reply rounds depth sc th (g_tree p) s = Some ((c, v), th', s') ->
  code_room m (zlen code) -> stack_room m depth -> in_state m W s sc th ->
  exists f m' r W', (forall f', (f <= f')%nat -> mjs_exec f' w m (g_path p) (g_src p) = OK (m', r)) /\ m_err m' = c /\
    in_state m' W' s' sc th' /\ later W W' /\ vrep (m_code m') (m_ext m') W' r v /\ stacks_back m m' /\ m_code m' = commit (m_code m) code.
Proof.
  intros Wp Cp H Rm Sr St. unfold run_reply in H. destruct (fail_program rounds depth sc th (g_tree p) s) as [[[c0 t0] s0]|] eqn:Ef.
  - injection H as <- <- <- <-. destruct (program_failure w m W s sc th p code rounds depth c0 t0 s0 Wp Cp Ef Rm Sr St) as (f & m' & W' & H1 & H2 & _ & H4 & H5 & H6 & H7).
    exists f, m', V_UNDEFINED, W'. repeat (split; [assumption|]). split; [constructor|split; assumption].
  - destruct (run_program rounds depth sc th (g_tree p) s) as [[v0 s0]|] eqn:Er; [|discriminate H]. injection H as <- <- <- <-.
    destruct (program_result w m W s sc th p code rounds depth v0 s0 Wp Cp Er Rm Sr St) as (f & m' & r & W' & H1 & H2 & H4 & H5 & H6 & H7 & H8).
    exists f, m', r, W'. repeat (split; [assumption|]). split; [apply stacks_back_same|]; assumption.
Qed.
Lemma call_reply_ok w m W s sc th f fv T t xs vs rounds depth c v s' : call_reply rounds depth sc fv t vs s = Some ((c, v), s') -> (length vs <= depth)%nat ->
  stack_room m (S depth) -> in_state m W s sc th -> vrep (m_code m) (m_ext m) W f fv -> vrep (m_code m) (m_ext m) W T t -> Forall2 (vrep (m_code m) (m_ext m) W) xs vs ->
  exists fu m' r W', (forall fu', (fu <= fu')%nat -> apply fu' w m f T xs = OK (m', r)) /\ m_err m' = c /\
    in_state m' W' s' sc th /\ later W W' /\ vrep (m_code m') (m_ext m') W' r v /\ same_stacks m m' /\ m_code m' = m_code m.
Proof.
  intros H Hn Sr St Vf Vt Vx. unfold call_reply in H. destruct (fail_host rounds depth sc fv t vs s) as [[c0 s0]|] eqn:Ef.
  - injection H as <- <- <-. destruct (apply_failure w m W s sc th f fv T t xs vs rounds depth c0 s0 Ef Hn Sr St Vf Vt Vx) as (fu & m' & W' & H1 & H2 & _ & H4 & H5 & H6 & H7).
    exists fu, m', V_UNDEFINED, W'. repeat (split; [assumption|]). split; [constructor|split; assumption].
  - destruct (host_call rounds depth sc fv t vs s) as [[v0 s0]|] eqn:Er; [|discriminate H]. injection H as <- <- <-.
    eapply apply_result; eassumption.
Qed.
Theorem failing_session w sc rounds depth l : forall codes, Forall well_formed (programs l) -> Forall2 compiles (programs l) codes -> few depth l ->
  forall m W s th rs us vs th' s', play rounds depth sc th l us s = Some (vs, th', s') -> Forall2 (answers (m_code m) (m_ext m) W) rs us ->
  code_room m (total codes) -> stack_room m (S depth) -> in_state m W s sc th ->
  exists f m' rs' W', (forall f', (f <= f')%nat -> exec_play f' w m l rs = OK (m', rs')) /\
    in_state m' W' s' sc th' /\ later W W' /\ Forall2 (answers (m_code m') (m_ext m') W') rs' vs /\ stacks_back m m'.
Proof.
  induction l as [|a l IH]; intros codes Fw Fc Fe m W s th rs us vs th' s' Hr Fr Rm Sr St.
  { cbn [play] in Hr. injection Hr as <- <- <-. exists 0%nat, m, rs, W. split; [reflexivity|]. split; [exact St|]. split; [apply later_refl|]. split; [exact Fr|]. repeat split. }
  pose proof (Forall_inv Fe) as Fa. pose proof (Forall_inv_tail Fe) as Ft. destruct a as [p|f t ns]; cbn [play programs] in *.
  - destruct codes as [|code codes]; [inversion Fc|]. assert (Cp : compiles p code) by (inversion Fc; assumption). assert (Fc' : Forall2 compiles (programs l) codes) by (inversion Fc; assumption).
    pose proof (Forall_inv Fw) as Wp. pose proof (Forall_inv_tail Fw) as Fp.
    destruct (run_reply rounds depth sc th (g_tree p) s) as [[[[c v] th1] s1]|] eqn:E1; [|discriminate Hr].
    change (total (code :: codes)) with (zlen code + total codes) in Rm. pose proof (total_nonneg codes) as Pt.
    assert (Sr' : stack_room m depth) by (unfold stack_room in *; nia).
    destruct (run_reply_ok w m W s sc th p code rounds depth c v th1 s1 Wp Cp E1 ltac:(eapply code_room_less; [exact Rm|lia]) Sr' St) as (f1 & m1 & r & W1 & H1 & Er & St1 & L1 & V1 & S1 & C1).
    pose proof S1 as (T1 & T2 & T3 & T4 & T5 & T7).
    assert (Ee : m_ext m1 = m_ext m) by (unfold m_ext; rewrite T7; reflexivity).
    assert (Fr1 : Forall2 (answers (m_code m1) (m_ext m1) W1) (rs ++ [(m_err m1, r)]) (us ++ [(c, v)])).
    { apply snoc_rep; [|split; assumption]. rewrite Ee. eapply answers_later; [|exact L1|exact Fr]. intros bp. rewrite C1. destruct Rm as (ds & Ed & _). rewrite Ed. rewrite <- commits_snoc. apply part_stays. }
    destruct (IH codes Fp Fc' Ft m1 W1 s1 _ _ _ vs _ s' Hr Fr1) as (f2 & m2 & rs2 & W2 & H2 & St2 & L2 & V2 & S2).
    { eapply code_room_commit; [exact Rm|exact C1]. }
    { unfold stack_room in *. rewrite T1, T4, T5. exact Sr. }
    { exact St1. }
    exists (max f1 f2), m2, rs2, W2. split.
    { intros f' Hf. cbn [exec_play]. rewrite H1 by lia. cbn [bind]. apply H2. lia. }
    split; [exact St2|]. split; [eapply later_trans; eassumption|]. split; [exact V2|]. eapply stacks_back_trans; eassumption.
  - cbv zeta in Hr. pose proof (answers_snd _ _ _ _ _ Fr) as Fs.
    destruct (nth_error (map snd us) f) as [fv|] eqn:Ef; [|discriminate Hr]. destruct (nth_error (map snd us) t) as [tv|] eqn:Et; [|discriminate Hr]. destruct (all_of (map snd us) ns) as [xv|] eqn:Ex; [|discriminate Hr].
    destruct (call_reply rounds depth sc fv tv xv s) as [[[c v] s1]|] eqn:E1; [|discriminate Hr].
    destruct (nth_rep _ _ _ f fv Fs Ef) as (fx & Nf & Vf). destruct (nth_rep _ _ _ t tv Fs Et) as (tx & Nt & Vt). destruct (all_rep _ _ _ ns xv Fs Ex) as (xx & Nx & Vx & Ln).
    destruct (call_reply_ok w m W s sc th fx fv tx tv xx xv rounds depth c v s1 E1 ltac:(lia) Sr St Vf Vt Vx) as (f1 & m1 & r & W1 & H1 & Er & St1 & L1 & V1 & S1 & C1).
    pose proof S1 as (T1 & T2 & T3 & T4 & T5 & T6 & T7).
    assert (Ee : m_ext m1 = m_ext m) by (unfold m_ext; rewrite T7; reflexivity).
    assert (Fr1 : Forall2 (answers (m_code m1) (m_ext m1) W1) (rs ++ [(m_err m1, r)]) (us ++ [(c, v)])).
    { apply snoc_rep; [|split; assumption]. rewrite Ee, C1. eapply answers_later; [|exact L1|exact Fr]. auto. }
    destruct (IH codes Fw Fc Ft m1 W1 s1 _ _ _ vs _ s' Hr Fr1) as (f2 & m2 & rs2 & W2 & H2 & St2 & L2 & V2 & S2).
    { unfold code_room in *. rewrite C1. exact Rm. }
    { unfold stack_room in *. rewrite T1, T4, T5. exact Sr. }
    { exact St1. }
    exists (max f1 f2), m2, rs2, W2. split.
    { intros f' Hf. cbn [exec_play]. cbv zeta. rewrite Nf, Nt, Nx, H1 by lia. cbn [bind]. apply H2. lia. }
    split; [exact St2|]. split; [eapply later_trans; eassumption|]. split; [exact V2|]. eapply stacks_back_trans; [apply stacks_back_same; exact S1|exact S2].
Qed.
Print Assumptions failing_session.

(** An example: a program fails in its fourth call of a method; the programs after it read what it
    has done; two calls by the host fail. *)
Lemma lit_100 : literal (bs "100") (scale10 100 0).
Proof. apply (lit_dec (bs "100") [] [] [] 0); [split; [discriminate|numbers]|left; split; reflexivity|left; split; reflexivity]. Qed.
Lemma num_100 : leaf (tk1 TOK_NUM "100") (EInt 100).
Proof. apply (leaf_int (tk1 TOK_NUM "100") _ 100 eq_refl lit_100); [apply (W_down _ false (100 * 2 ^ 46)%positive (-46) 100); [vm_compute; reflexivity|lia|reflexivity]|lia]. Qed.
Definition seven_src : list Z := bs "let n = 0; let o = {f: function(k) { n = n + k; if (k > 2) { nosuch; } return n; }}; for (let i = 0; i < 5; i++) { o.f(i); } n = 100;".
Definition seven_tree : list stmt :=
  [(SLet [((bs "n"), Some (XConst (EInt 0)))]);
   (SLet [((bs "o"), Some (XObj [((bs "f"), (XFun None [(bs "k")] [(SExprs [(XAsg TOK_ASSIGN (XVar (bs "n")) (XBin TOK_PLUS (XVar (bs "n")) (XVar (bs "k"))))]); (SIf (XBin TOK_GT (XVar (bs "k")) (XConst (EInt 2))) (SBlock [(SExprs [(XVar (bs "nosuch"))])]) None); (SReturn (Some (XVar (bs "n"))))]))]))]);
   (SFor (SLet [((bs "i"), Some (XConst (EInt 0)))]) (XBin TOK_LT (XVar (bs "i")) (XConst (EInt 5))) (XInc TOK_POSTFIX_PLUS (XVar (bs "i"))) [(SExprs [(XCall (XDot (XVar (bs "o")) (bs "f")) [(XVar (bs "i"))])])]);
   (SExprs [(XAsg TOK_ASSIGN (XVar (bs "n")) (XConst (EInt 100)))])].
Definition seven_t0 : tokn := tk1 TOK_KEYWORD_LET "let".
Definition seven_t1 : tokn := tk1 TOK_IDENT "n".
Definition seven_t2 : tokn := tk1 TOK_ASSIGN "=".
Definition seven_t3 : tokn := tk1 TOK_NUM "0".
Definition seven_t4 : tokn := tk1 TOK_SEMICOLON ";".
Definition seven_t5 : tokn := tk1 TOK_KEYWORD_LET "let".
Definition seven_t6 : tokn := tk1 TOK_IDENT "o".
Definition seven_t7 : tokn := tk1 TOK_ASSIGN "=".
Definition seven_t8 : tokn := tk1 TOK_OPEN_CURLY "{".
Definition seven_t9 : tokn := tk1 TOK_IDENT "f".
Definition seven_t10 : tokn := tk1 TOK_COLON ":".
Definition seven_t11 : tokn := tk1 TOK_KEYWORD_FUNCTION "function".
Definition seven_t12 : tokn := tk1 TOK_OPEN_PAREN "(".
Definition seven_t13 : tokn := tk1 TOK_IDENT "k".
Definition seven_t14 : tokn := tk1 TOK_CLOSE_PAREN ")".
Definition seven_t15 : tokn := tk1 TOK_OPEN_CURLY "{".
Definition seven_t16 : tokn := tk1 TOK_IDENT "n".
Definition seven_t17 : tokn := tk1 TOK_ASSIGN "=".
Definition seven_t18 : tokn := tk1 TOK_IDENT "n".
Definition seven_t19 : tokn := tk1 TOK_PLUS "+".
Definition seven_t20 : tokn := tk1 TOK_IDENT "k".
Definition seven_t21 : tokn := tk1 TOK_SEMICOLON ";".
Definition seven_t22 : tokn := tk1 TOK_KEYWORD_IF "if".
Definition seven_t23 : tokn := tk1 TOK_OPEN_PAREN "(".
Definition seven_t24 : tokn := tk1 TOK_IDENT "k".
Definition seven_t25 : tokn := tk1 TOK_GT ">".
Definition seven_t26 : tokn := tk1 TOK_NUM "2".
Definition seven_t27 : tokn := tk1 TOK_CLOSE_PAREN ")".
Definition seven_t28 : tokn := tk1 TOK_OPEN_CURLY "{".
Definition seven_t29 : tokn := tk1 TOK_IDENT "nosuch".
Definition seven_t30 : tokn := tk1 TOK_SEMICOLON ";".
Definition seven_t31 : tokn := tk1 TOK_CLOSE_CURLY "}".
Definition seven_t32 : tokn := tk1 TOK_KEYWORD_RETURN "return".
Definition seven_t33 : tokn := tk1 TOK_IDENT "n".
Definition seven_t34 : tokn := tk1 TOK_SEMICOLON ";".
Definition seven_t35 : tokn := tk1 TOK_CLOSE_CURLY "}".
Definition seven_t36 : tokn := tk1 TOK_CLOSE_CURLY "}".
Definition seven_t37 : tokn := tk1 TOK_SEMICOLON ";".
Definition seven_t38 : tokn := tk1 TOK_KEYWORD_FOR "for".
Definition seven_t39 : tokn := tk1 TOK_OPEN_PAREN "(".
Definition seven_t40 : tokn := tk1 TOK_KEYWORD_LET "let".
Definition seven_t41 : tokn := tk1 TOK_IDENT "i".
Definition seven_t42 : tokn := tk1 TOK_ASSIGN "=".
Definition seven_t43 : tokn := tk1 TOK_NUM "0".
Definition seven_t44 : tokn := tk1 TOK_SEMICOLON ";".
Definition seven_t45 : tokn := tk1 TOK_IDENT "i".
Definition seven_t46 : tokn := tk1 TOK_LT "<".
Definition seven_t47 : tokn := tk1 TOK_NUM "5".
Definition seven_t48 : tokn := tk1 TOK_SEMICOLON ";".
Definition seven_t49 : tokn := tk1 TOK_IDENT "i".
Definition seven_t50 : tokn := tk1 TOK_PLUS_PLUS "++".
Definition seven_t51 : tokn := tk1 TOK_CLOSE_PAREN ")".
Definition seven_t52 : tokn := tk1 TOK_OPEN_CURLY "{".
Definition seven_t53 : tokn := tk1 TOK_IDENT "o".
Definition seven_t54 : tokn := tk1 TOK_DOT ".".
Definition seven_t55 : tokn := tk1 TOK_IDENT "f".
Definition seven_t56 : tokn := tk1 TOK_OPEN_PAREN "(".
Definition seven_t57 : tokn := tk1 TOK_IDENT "i".
Definition seven_t58 : tokn := tk1 TOK_CLOSE_PAREN ")".
Definition seven_t59 : tokn := tk1 TOK_SEMICOLON ";".
Definition seven_t60 : tokn := tk1 TOK_CLOSE_CURLY "}".
Definition seven_t61 : tokn := tk1 TOK_IDENT "n".
Definition seven_t62 : tokn := tk1 TOK_ASSIGN "=".
Definition seven_t63 : tokn := tk1 TOK_NUM "100".
Definition seven_t64 : tokn := tk1 TOK_SEMICOLON ";".
Definition seven_toks : list tokn := [seven_t0; seven_t1; seven_t2; seven_t3; seven_t4; seven_t5; seven_t6; seven_t7; seven_t8; seven_t9; seven_t10; seven_t11; seven_t12; seven_t13; seven_t14; seven_t15; seven_t16; seven_t17; seven_t18; seven_t19; seven_t20; seven_t21; seven_t22; seven_t23; seven_t24; seven_t25; seven_t26; seven_t27; seven_t28; seven_t29; seven_t30; seven_t31; seven_t32; seven_t33; seven_t34; seven_t35; seven_t36; seven_t37; seven_t38; seven_t39; seven_t40; seven_t41; seven_t42; seven_t43; seven_t44; seven_t45; seven_t46; seven_t47; seven_t48; seven_t49; seven_t50; seven_t51; seven_t52; seven_t53; seven_t54; seven_t55; seven_t56; seven_t57; seven_t58; seven_t59; seven_t60; seven_t61; seven_t62; seven_t63; seven_t64].
Lemma seven_source : source seven_src seven_toks.
Proof.
  unfold seven_src, seven_toks.
  keyword (bs "let") (bs " n = 0; let o = {f: function(k) { n = n + k; if (k > 2) { nosuch; } return n; }}; for (let i = 0; i < 5; i++) { o.f(i); } n = 100;").
  apply source_blank; [cbn; tauto|].
  word (bs "n") (bs " = 0; let o = {f: function(k) { n = n + k; if (k > 2) { nosuch; } return n; }}; for (let i = 0; i < 5; i++) { o.f(i); } n = 100;"). { intros n H. vm_compute in H. intuition discriminate. }
  apply source_blank; [cbn; tauto|].
  opr (bs "=") (bs " 0; let o = {f: function(k) { n = n + k; if (k > 2) { nosuch; } return n; }}; for (let i = 0; i < 5; i++) { o.f(i); } n = 100;") TOK_ASSIGN.
  apply source_blank; [cbn; tauto|].
  number (bs "0") (bs "; let o = {f: function(k) { n = n + k; if (k > 2) { nosuch; } return n; }}; for (let i = 0; i < 5; i++) { o.f(i); } n = 100;") lit_0.
  opr (bs ";") (bs " let o = {f: function(k) { n = n + k; if (k > 2) { nosuch; } return n; }}; for (let i = 0; i < 5; i++) { o.f(i); } n = 100;") TOK_SEMICOLON.
  apply source_blank; [cbn; tauto|].
  keyword (bs "let") (bs " o = {f: function(k) { n = n + k; if (k > 2) { nosuch; } return n; }}; for (let i = 0; i < 5; i++) { o.f(i); } n = 100;").
  apply source_blank; [cbn; tauto|].
  word (bs "o") (bs " = {f: function(k) { n = n + k; if (k > 2) { nosuch; } return n; }}; for (let i = 0; i < 5; i++) { o.f(i); } n = 100;"). { intros n H. vm_compute in H. intuition discriminate. }
  apply source_blank; [cbn; tauto|].
  opr (bs "=") (bs " {f: function(k) { n = n + k; if (k > 2) { nosuch; } return n; }}; for (let i = 0; i < 5; i++) { o.f(i); } n = 100;") TOK_ASSIGN.
  apply source_blank; [cbn; tauto|].
  opr (bs "{") (bs "f: function(k) { n = n + k; if (k > 2) { nosuch; } return n; }}; for (let i = 0; i < 5; i++) { o.f(i); } n = 100;") TOK_OPEN_CURLY.
  word (bs "f") (bs ": function(k) { n = n + k; if (k > 2) { nosuch; } return n; }}; for (let i = 0; i < 5; i++) { o.f(i); } n = 100;"). { intros n H. vm_compute in H. intuition discriminate. }
  opr (bs ":") (bs " function(k) { n = n + k; if (k > 2) { nosuch; } return n; }}; for (let i = 0; i < 5; i++) { o.f(i); } n = 100;") TOK_COLON.
  apply source_blank; [cbn; tauto|].
  keyword (bs "function") (bs "(k) { n = n + k; if (k > 2) { nosuch; } return n; }}; for (let i = 0; i < 5; i++) { o.f(i); } n = 100;").
  opr (bs "(") (bs "k) { n = n + k; if (k > 2) { nosuch; } return n; }}; for (let i = 0; i < 5; i++) { o.f(i); } n = 100;") TOK_OPEN_PAREN.
  word (bs "k") (bs ") { n = n + k; if (k > 2) { nosuch; } return n; }}; for (let i = 0; i < 5; i++) { o.f(i); } n = 100;"). { intros n H. vm_compute in H. intuition discriminate. }
  opr (bs ")") (bs " { n = n + k; if (k > 2) { nosuch; } return n; }}; for (let i = 0; i < 5; i++) { o.f(i); } n = 100;") TOK_CLOSE_PAREN.
  apply source_blank; [cbn; tauto|].
  opr (bs "{") (bs " n = n + k; if (k > 2) { nosuch; } return n; }}; for (let i = 0; i < 5; i++) { o.f(i); } n = 100;") TOK_OPEN_CURLY.
  apply source_blank; [cbn; tauto|].
  word (bs "n") (bs " = n + k; if (k > 2) { nosuch; } return n; }}; for (let i = 0; i < 5; i++) { o.f(i); } n = 100;"). { intros n H. vm_compute in H. intuition discriminate. }
  apply source_blank; [cbn; tauto|].
  opr (bs "=") (bs " n + k; if (k > 2) { nosuch; } return n; }}; for (let i = 0; i < 5; i++) { o.f(i); } n = 100;") TOK_ASSIGN.
  apply source_blank; [cbn; tauto|].
  word (bs "n") (bs " + k; if (k > 2) { nosuch; } return n; }}; for (let i = 0; i < 5; i++) { o.f(i); } n = 100;"). { intros n H. vm_compute in H. intuition discriminate. }
  apply source_blank; [cbn; tauto|].
  opr (bs "+") (bs " k; if (k > 2) { nosuch; } return n; }}; for (let i = 0; i < 5; i++) { o.f(i); } n = 100;") TOK_PLUS.
  apply source_blank; [cbn; tauto|].
  word (bs "k") (bs "; if (k > 2) { nosuch; } return n; }}; for (let i = 0; i < 5; i++) { o.f(i); } n = 100;"). { intros n H. vm_compute in H. intuition discriminate. }
  opr (bs ";") (bs " if (k > 2) { nosuch; } return n; }}; for (let i = 0; i < 5; i++) { o.f(i); } n = 100;") TOK_SEMICOLON.
  apply source_blank; [cbn; tauto|].
  keyword (bs "if") (bs " (k > 2) { nosuch; } return n; }}; for (let i = 0; i < 5; i++) { o.f(i); } n = 100;").
  apply source_blank; [cbn; tauto|].
  opr (bs "(") (bs "k > 2) { nosuch; } return n; }}; for (let i = 0; i < 5; i++) { o.f(i); } n = 100;") TOK_OPEN_PAREN.
  word (bs "k") (bs " > 2) { nosuch; } return n; }}; for (let i = 0; i < 5; i++) { o.f(i); } n = 100;"). { intros n H. vm_compute in H. intuition discriminate. }
  apply source_blank; [cbn; tauto|].
  opr (bs ">") (bs " 2) { nosuch; } return n; }}; for (let i = 0; i < 5; i++) { o.f(i); } n = 100;") TOK_GT.
  apply source_blank; [cbn; tauto|].
  number (bs "2") (bs ") { nosuch; } return n; }}; for (let i = 0; i < 5; i++) { o.f(i); } n = 100;") lit_2.
  opr (bs ")") (bs " { nosuch; } return n; }}; for (let i = 0; i < 5; i++) { o.f(i); } n = 100;") TOK_CLOSE_PAREN.
  apply source_blank; [cbn; tauto|].
  opr (bs "{") (bs " nosuch; } return n; }}; for (let i = 0; i < 5; i++) { o.f(i); } n = 100;") TOK_OPEN_CURLY.
  apply source_blank; [cbn; tauto|].
  word (bs "nosuch") (bs "; } return n; }}; for (let i = 0; i < 5; i++) { o.f(i); } n = 100;"). { intros n H. vm_compute in H. intuition discriminate. }
  opr (bs ";") (bs " } return n; }}; for (let i = 0; i < 5; i++) { o.f(i); } n = 100;") TOK_SEMICOLON.
  apply source_blank; [cbn; tauto|].
  opr (bs "}") (bs " return n; }}; for (let i = 0; i < 5; i++) { o.f(i); } n = 100;") TOK_CLOSE_CURLY.
  apply source_blank; [cbn; tauto|].
  keyword (bs "return") (bs " n; }}; for (let i = 0; i < 5; i++) { o.f(i); } n = 100;").
  apply source_blank; [cbn; tauto|].
  word (bs "n") (bs "; }}; for (let i = 0; i < 5; i++) { o.f(i); } n = 100;"). { intros n H. vm_compute in H. intuition discriminate. }
  opr (bs ";") (bs " }}; for (let i = 0; i < 5; i++) { o.f(i); } n = 100;") TOK_SEMICOLON.
  apply source_blank; [cbn; tauto|].
  opr (bs "}") (bs "}; for (let i = 0; i < 5; i++) { o.f(i); } n = 100;") TOK_CLOSE_CURLY.
  opr (bs "}") (bs "; for (let i = 0; i < 5; i++) { o.f(i); } n = 100;") TOK_CLOSE_CURLY.
  opr (bs ";") (bs " for (let i = 0; i < 5; i++) { o.f(i); } n = 100;") TOK_SEMICOLON.
  apply source_blank; [cbn; tauto|].
  keyword (bs "for") (bs " (let i = 0; i < 5; i++) { o.f(i); } n = 100;").
  apply source_blank; [cbn; tauto|].
  opr (bs "(") (bs "let i = 0; i < 5; i++) { o.f(i); } n = 100;") TOK_OPEN_PAREN.
  keyword (bs "let") (bs " i = 0; i < 5; i++) { o.f(i); } n = 100;").
  apply source_blank; [cbn; tauto|].
  word (bs "i") (bs " = 0; i < 5; i++) { o.f(i); } n = 100;"). { intros n H. vm_compute in H. intuition discriminate. }
  apply source_blank; [cbn; tauto|].
  opr (bs "=") (bs " 0; i < 5; i++) { o.f(i); } n = 100;") TOK_ASSIGN.
  apply source_blank; [cbn; tauto|].
  number (bs "0") (bs "; i < 5; i++) { o.f(i); } n = 100;") lit_0.
  opr (bs ";") (bs " i < 5; i++) { o.f(i); } n = 100;") TOK_SEMICOLON.
  apply source_blank; [cbn; tauto|].
  word (bs "i") (bs " < 5; i++) { o.f(i); } n = 100;"). { intros n H. vm_compute in H. intuition discriminate. }
  apply source_blank; [cbn; tauto|].
  opr (bs "<") (bs " 5; i++) { o.f(i); } n = 100;") TOK_LT.
  apply source_blank; [cbn; tauto|].
  number (bs "5") (bs "; i++) { o.f(i); } n = 100;") lit_5.
  opr (bs ";") (bs " i++) { o.f(i); } n = 100;") TOK_SEMICOLON.
  apply source_blank; [cbn; tauto|].
  word (bs "i") (bs "++) { o.f(i); } n = 100;"). { intros n H. vm_compute in H. intuition discriminate. }
  opr (bs "++") (bs ") { o.f(i); } n = 100;") TOK_PLUS_PLUS.
  opr (bs ")") (bs " { o.f(i); } n = 100;") TOK_CLOSE_PAREN.
  apply source_blank; [cbn; tauto|].
  opr (bs "{") (bs " o.f(i); } n = 100;") TOK_OPEN_CURLY.
  apply source_blank; [cbn; tauto|].
  word (bs "o") (bs ".f(i); } n = 100;"). { intros n H. vm_compute in H. intuition discriminate. }
  opr (bs ".") (bs "f(i); } n = 100;") TOK_DOT.
  word (bs "f") (bs "(i); } n = 100;"). { intros n H. vm_compute in H. intuition discriminate. }
  opr (bs "(") (bs "i); } n = 100;") TOK_OPEN_PAREN.
  word (bs "i") (bs "); } n = 100;"). { intros n H. vm_compute in H. intuition discriminate. }
  opr (bs ")") (bs "; } n = 100;") TOK_CLOSE_PAREN.
  opr (bs ";") (bs " } n = 100;") TOK_SEMICOLON.
  apply source_blank; [cbn; tauto|].
  opr (bs "}") (bs " n = 100;") TOK_CLOSE_CURLY.
  apply source_blank; [cbn; tauto|].
  word (bs "n") (bs " = 100;"). { intros n H. vm_compute in H. intuition discriminate. }
  apply source_blank; [cbn; tauto|].
  opr (bs "=") (bs " 100;") TOK_ASSIGN.
  apply source_blank; [cbn; tauto|].
  number (bs "100") (bs ";") lit_100.
  opr (bs ";") (bs "") TOK_SEMICOLON.
  apply src_end, gap_end; [intros c r H; discriminate|no_start|no_start].
Qed.
Lemma seven_stmts : stmts TOK_EOF 0 2 seven_toks seven_tree.
Proof.
  unfold seven_toks, seven_tree.
  eapply (ss_cons TOK_EOF 0 2 0 [seven_t0; seven_t1; seven_t2; seven_t3] [seven_t4] [seven_t5; seven_t6; seven_t7; seven_t8; seven_t9; seven_t10; seven_t11; seven_t12; seven_t13; seven_t14; seven_t15; seven_t16; seven_t17; seven_t18; seven_t19; seven_t20; seven_t21; seven_t22; seven_t23; seven_t24; seven_t25; seven_t26; seven_t27; seven_t28; seven_t29; seven_t30; seven_t31; seven_t32; seven_t33; seven_t34; seven_t35; seven_t36; seven_t37; seven_t38; seven_t39; seven_t40; seven_t41; seven_t42; seven_t43; seven_t44; seven_t45; seven_t46; seven_t47; seven_t48; seven_t49; seven_t50; seven_t51; seven_t52; seven_t53; seven_t54; seven_t55; seven_t56; seven_t57; seven_t58; seven_t59; seven_t60; seven_t61; seven_t62; seven_t63; seven_t64] _ _); [eapply (s_let 0 0 seven_t0 [seven_t1; seven_t2; seven_t3] TOK_SEMICOLON _); [side|eapply (l_one 0 0 seven_t1 [seven_t2; seven_t3] _); [side|eapply (i_some 0 0 seven_t2 [seven_t3] _); [side|eapply (from8 12 0 0 2 2 [seven_t3] _); [side|side|side|side|eapply (lift 0 8 2 2 10 10 [seven_t3] _); [side|side|side|side|eapply (x_mem _ 10 10 [seven_t3] _); [eapply (m_intro _ _ 10 10 10 [seven_t3] [] _ _); [eapply (p_const 10 seven_t3 _); [exact num_0|side]|eapply (t_none _ 10 _)]]]]]]|side]|side|side|side|side|right; side|eapply (ss_cons TOK_EOF 0 2 2 [seven_t5; seven_t6; seven_t7; seven_t8; seven_t9; seven_t10; seven_t11; seven_t12; seven_t13; seven_t14; seven_t15; seven_t16; seven_t17; seven_t18; seven_t19; seven_t20; seven_t21; seven_t22; seven_t23; seven_t24; seven_t25; seven_t26; seven_t27; seven_t28; seven_t29; seven_t30; seven_t31; seven_t32; seven_t33; seven_t34; seven_t35; seven_t36] [seven_t37] [seven_t38; seven_t39; seven_t40; seven_t41; seven_t42; seven_t43; seven_t44; seven_t45; seven_t46; seven_t47; seven_t48; seven_t49; seven_t50; seven_t51; seven_t52; seven_t53; seven_t54; seven_t55; seven_t56; seven_t57; seven_t58; seven_t59; seven_t60; seven_t61; seven_t62; seven_t63; seven_t64] _ _); [eapply (s_let 0 2 seven_t5 [seven_t6; seven_t7; seven_t8; seven_t9; seven_t10; seven_t11; seven_t12; seven_t13; seven_t14; seven_t15; seven_t16; seven_t17; seven_t18; seven_t19; seven_t20; seven_t21; seven_t22; seven_t23; seven_t24; seven_t25; seven_t26; seven_t27; seven_t28; seven_t29; seven_t30; seven_t31; seven_t32; seven_t33; seven_t34; seven_t35; seven_t36] TOK_SEMICOLON _); [side|eapply (l_one 0 2 seven_t6 [seven_t7; seven_t8; seven_t9; seven_t10; seven_t11; seven_t12; seven_t13; seven_t14; seven_t15; seven_t16; seven_t17; seven_t18; seven_t19; seven_t20; seven_t21; seven_t22; seven_t23; seven_t24; seven_t25; seven_t26; seven_t27; seven_t28; seven_t29; seven_t30; seven_t31; seven_t32; seven_t33; seven_t34; seven_t35; seven_t36] _); [side|eapply (i_some 0 2 seven_t7 [seven_t8; seven_t9; seven_t10; seven_t11; seven_t12; seven_t13; seven_t14; seven_t15; seven_t16; seven_t17; seven_t18; seven_t19; seven_t20; seven_t21; seven_t22; seven_t23; seven_t24; seven_t25; seven_t26; seven_t27; seven_t28; seven_t29; seven_t30; seven_t31; seven_t32; seven_t33; seven_t34; seven_t35; seven_t36] _); [side|eapply (from8 12 0 2 2 4 [seven_t8; seven_t9; seven_t10; seven_t11; seven_t12; seven_t13; seven_t14; seven_t15; seven_t16; seven_t17; seven_t18; seven_t19; seven_t20; seven_t21; seven_t22; seven_t23; seven_t24; seven_t25; seven_t26; seven_t27; seven_t28; seven_t29; seven_t30; seven_t31; seven_t32; seven_t33; seven_t34; seven_t35; seven_t36] _); [side|side|side|side|eapply (lift 0 8 2 4 10 12 [seven_t8; seven_t9; seven_t10; seven_t11; seven_t12; seven_t13; seven_t14; seven_t15; seven_t16; seven_t17; seven_t18; seven_t19; seven_t20; seven_t21; seven_t22; seven_t23; seven_t24; seven_t25; seven_t26; seven_t27; seven_t28; seven_t29; seven_t30; seven_t31; seven_t32; seven_t33; seven_t34; seven_t35; seven_t36] _); [side|side|side|side|eapply (x_mem _ 10 12 [seven_t8; seven_t9; seven_t10; seven_t11; seven_t12; seven_t13; seven_t14; seven_t15; seven_t16; seven_t17; seven_t18; seven_t19; seven_t20; seven_t21; seven_t22; seven_t23; seven_t24; seven_t25; seven_t26; seven_t27; seven_t28; seven_t29; seven_t30; seven_t31; seven_t32; seven_t33; seven_t34; seven_t35; seven_t36] _); [eapply (m_intro _ _ 10 12 12 [seven_t8; seven_t9; seven_t10; seven_t11; seven_t12; seven_t13; seven_t14; seven_t15; seven_t16; seven_t17; seven_t18; seven_t19; seven_t20; seven_t21; seven_t22; seven_t23; seven_t24; seven_t25; seven_t26; seven_t27; seven_t28; seven_t29; seven_t30; seven_t31; seven_t32; seven_t33; seven_t34; seven_t35; seven_t36] [] _ _); [eapply (p_obj 10 12 seven_t8 [seven_t9; seven_t10; seven_t11; seven_t12; seven_t13; seven_t14; seven_t15; seven_t16; seven_t17; seven_t18; seven_t19; seven_t20; seven_t21; seven_t22; seven_t23; seven_t24; seven_t25; seven_t26; seven_t27; seven_t28; seven_t29; seven_t30; seven_t31; seven_t32; seven_t33; seven_t34; seven_t35] seven_t36 _); [side|side|eapply (pr_one 10 12 seven_t9 seven_t10 [seven_t11; seven_t12; seven_t13; seven_t14; seven_t15; seven_t16; seven_t17; seven_t18; seven_t19; seven_t20; seven_t21; seven_t22; seven_t23; seven_t24; seven_t25; seven_t26; seven_t27; seven_t28; seven_t29; seven_t30; seven_t31; seven_t32; seven_t33; seven_t34; seven_t35] _); [exact (or_introl eq_refl)|side|eapply (from8 12 10 12 12 14 [seven_t11; seven_t12; seven_t13; seven_t14; seven_t15; seven_t16; seven_t17; seven_t18; seven_t19; seven_t20; seven_t21; seven_t22; seven_t23; seven_t24; seven_t25; seven_t26; seven_t27; seven_t28; seven_t29; seven_t30; seven_t31; seven_t32; seven_t33; seven_t34; seven_t35] _); [side|side|side|side|eapply (lift 0 8 12 14 20 22 [seven_t11; seven_t12; seven_t13; seven_t14; seven_t15; seven_t16; seven_t17; seven_t18; seven_t19; seven_t20; seven_t21; seven_t22; seven_t23; seven_t24; seven_t25; seven_t26; seven_t27; seven_t28; seven_t29; seven_t30; seven_t31; seven_t32; seven_t33; seven_t34; seven_t35] _); [side|side|side|side|eapply (x_mem _ 20 22 [seven_t11; seven_t12; seven_t13; seven_t14; seven_t15; seven_t16; seven_t17; seven_t18; seven_t19; seven_t20; seven_t21; seven_t22; seven_t23; seven_t24; seven_t25; seven_t26; seven_t27; seven_t28; seven_t29; seven_t30; seven_t31; seven_t32; seven_t33; seven_t34; seven_t35] _); [eapply (m_intro _ _ 20 22 22 [seven_t11; seven_t12; seven_t13; seven_t14; seven_t15; seven_t16; seven_t17; seven_t18; seven_t19; seven_t20; seven_t21; seven_t22; seven_t23; seven_t24; seven_t25; seven_t26; seven_t27; seven_t28; seven_t29; seven_t30; seven_t31; seven_t32; seven_t33; seven_t34; seven_t35] [] _ _); [eapply (p_fun 20 22 seven_t11 [] _ seven_t12 [seven_t13] _ seven_t14 seven_t15 [seven_t16; seven_t17; seven_t18; seven_t19; seven_t20; seven_t21; seven_t22; seven_t23; seven_t24; seven_t25; seven_t26; seven_t27; seven_t28; seven_t29; seven_t30; seven_t31; seven_t32; seven_t33; seven_t34] _ seven_t35); [side|exact fn_none|side|exact (pa_one seven_t13 eq_refl)|side|side|side|side|eapply (ss_cons TOK_CLOSE_CURLY 21 22 21 [seven_t16; seven_t17; seven_t18; seven_t19; seven_t20] [seven_t21] [seven_t22; seven_t23; seven_t24; seven_t25; seven_t26; seven_t27; seven_t28; seven_t29; seven_t30; seven_t31; seven_t32; seven_t33; seven_t34] _ _); [eapply (s_exprs 21 21 [seven_t16; seven_t17; seven_t18; seven_t19; seven_t20] TOK_SEMICOLON _); [eapply (c_one 21 21 [seven_t16; seven_t17; seven_t18; seven_t19; seven_t20] _); [eapply (x_assign 21 21 21 [seven_t16] seven_t17 [seven_t18; seven_t19; seven_t20] _ _); [side|side|eapply (m_intro _ _ 31 31 31 [seven_t16] [] _ _); [eapply (p_var 31 seven_t16); [side]|eapply (t_none _ 31 _)]|eapply (from8 12 21 21 23 23 [seven_t18; seven_t19; seven_t20] _); [side|side|side|side|eapply (lift 2 8 23 23 29 29 [seven_t18; seven_t19; seven_t20] _); [side|side|side|side|eapply (x_level 2 29 29 30 [seven_t18] [seven_t19; seven_t20] _ _); [side|side|eapply (lift 0 1 30 30 31 31 [seven_t18] _); [side|side|side|side|eapply (x_mem _ 31 31 [seven_t18] _); [eapply (m_intro _ _ 31 31 31 [seven_t18] [] _ _); [eapply (p_var 31 seven_t18); [side]|eapply (t_none _ 31 _)]]]|eapply (o_one 2 30 30 31 _ seven_t19 [seven_t20] [] _ _); [side|side|eapply (lift 0 1 31 31 32 32 [seven_t20] _); [side|side|side|side|eapply (x_mem _ 32 32 [seven_t20] _); [eapply (m_intro _ _ 32 32 32 [seven_t20] [] _ _); [eapply (p_var 32 seven_t20); [side]|eapply (t_none _ 32 _)]]]|eapply (o_none 2 31 _)]]]]]]|side|side|side]|side|side|side|side|right; side|eapply (ss_cons TOK_CLOSE_CURLY 21 22 22 [seven_t22; seven_t23; seven_t24; seven_t25; seven_t26; seven_t27; seven_t28; seven_t29; seven_t30; seven_t31] [] [seven_t32; seven_t33; seven_t34] _ _); [eapply (s_if 21 22 21 seven_t22 seven_t23 [seven_t24; seven_t25; seven_t26] seven_t27 [seven_t28; seven_t29; seven_t30; seven_t31] TOK_KEYWORD_RETURN _ _); [side|side|side|eapply (from8 12 21 21 23 23 [seven_t24; seven_t25; seven_t26] _); [side|side|side|side|eapply (lift 4 8 23 23 27 27 [seven_t24; seven_t25; seven_t26] _); [side|side|side|side|eapply (x_level 4 27 27 28 [seven_t24] [seven_t25; seven_t26] _ _); [side|side|eapply (lift 0 3 28 28 31 31 [seven_t24] _); [side|side|side|side|eapply (x_mem _ 31 31 [seven_t24] _); [eapply (m_intro _ _ 31 31 31 [seven_t24] [] _ _); [eapply (p_var 31 seven_t24); [side]|eapply (t_none _ 31 _)]]]|eapply (o_one 4 28 28 29 _ seven_t25 [seven_t26] [] _ _); [side|side|eapply (lift 0 3 29 29 32 32 [seven_t26] _); [side|side|side|side|eapply (x_mem _ 32 32 [seven_t26] _); [eapply (m_intro _ _ 32 32 32 [seven_t26] [] _ _); [eapply (p_const 32 seven_t26 _); [exact num_2|side]|eapply (t_none _ 32 _)]]]|eapply (o_none 4 29 _)]]]]|eapply (s_block 21 22 seven_t28 [seven_t29; seven_t30] seven_t31 TOK_KEYWORD_RETURN _); [side|side|side|eapply (ss_cons TOK_CLOSE_CURLY 22 22 22 [seven_t29] [seven_t30] [] _ _); [eapply (s_exprs 22 22 [seven_t29] TOK_SEMICOLON _); [eapply (c_one 22 22 [seven_t29] _); [eapply (from8 12 22 22 24 24 [seven_t29] _); [side|side|side|side|eapply (lift 0 8 24 24 32 32 [seven_t29] _); [side|side|side|side|eapply (x_mem _ 32 32 [seven_t29] _); [eapply (m_intro _ _ 32 32 32 [seven_t29] [] _ _); [eapply (p_var 32 seven_t29); [side]|eapply (t_none _ 32 _)]]]]]|side|side|side]|side|side|side|side|exact (or_introl eq_refl)|eapply (ss_nil TOK_CLOSE_CURLY 22)]]|side|side]|side|side|side|side|right; side|eapply (ss_cons TOK_CLOSE_CURLY 22 22 22 [seven_t32; seven_t33] [seven_t34] [] _ _); [eapply (s_return 22 22 seven_t32 [seven_t33] TOK_SEMICOLON _); [side|eapply (from8 12 22 22 24 24 [seven_t33] _); [side|side|side|side|eapply (lift 0 8 24 24 32 32 [seven_t33] _); [side|side|side|side|eapply (x_mem _ 32 32 [seven_t33] _); [eapply (m_intro _ _ 32 32 32 [seven_t33] [] _ _); [eapply (p_var 32 seven_t33); [side]|eapply (t_none _ 32 _)]]]]|side]|side|side|side|side|exact (or_introl eq_refl)|eapply (ss_nil TOK_CLOSE_CURLY 22)]]]]|eapply (t_none _ 22 _)]]]]]]|eapply (t_none _ 12 _)]]]]]]|side]|side|side|side|side|right; side|eapply (ss_cons TOK_EOF 2 2 2 [seven_t38; seven_t39; seven_t40; seven_t41; seven_t42; seven_t43; seven_t44; seven_t45; seven_t46; seven_t47; seven_t48; seven_t49; seven_t50; seven_t51; seven_t52; seven_t53; seven_t54; seven_t55; seven_t56; seven_t57; seven_t58; seven_t59; seven_t60] [] [seven_t61; seven_t62; seven_t63; seven_t64] _ _); [eapply (s_for 2 2 2 2 2 seven_t38 seven_t39 [seven_t40; seven_t41; seven_t42; seven_t43] seven_t44 [seven_t45; seven_t46; seven_t47] seven_t48 [seven_t49; seven_t50] seven_t51 [seven_t52; seven_t53; seven_t54; seven_t55; seven_t56; seven_t57; seven_t58; seven_t59; seven_t60] TOK_IDENT _ _ _ _); [side|side|side|side|side|eapply (st_let 2 2 seven_t40 [seven_t41; seven_t42; seven_t43] _); [side|eapply (l_one 2 2 seven_t41 [seven_t42; seven_t43] _); [side|eapply (i_some 2 2 seven_t42 [seven_t43] _); [side|eapply (from8 12 2 2 4 4 [seven_t43] _); [side|side|side|side|eapply (lift 0 8 4 4 12 12 [seven_t43] _); [side|side|side|side|eapply (x_mem _ 12 12 [seven_t43] _); [eapply (m_intro _ _ 12 12 12 [seven_t43] [] _ _); [eapply (p_const 12 seven_t43 _); [exact num_0|side]|eapply (t_none _ 12 _)]]]]]]|side]|eapply (from8 12 2 2 4 4 [seven_t45; seven_t46; seven_t47] _); [side|side|side|side|eapply (lift 4 8 4 4 8 8 [seven_t45; seven_t46; seven_t47] _); [side|side|side|side|eapply (x_level 4 8 8 9 [seven_t45] [seven_t46; seven_t47] _ _); [side|side|eapply (lift 0 3 9 9 12 12 [seven_t45] _); [side|side|side|side|eapply (x_mem _ 12 12 [seven_t45] _); [eapply (m_intro _ _ 12 12 12 [seven_t45] [] _ _); [eapply (p_var 12 seven_t45); [side]|eapply (t_none _ 12 _)]]]|eapply (o_one 4 9 9 10 _ seven_t46 [seven_t47] [] _ _); [side|side|eapply (lift 0 3 10 10 13 13 [seven_t47] _); [side|side|side|side|eapply (x_mem _ 13 13 [seven_t47] _); [eapply (m_intro _ _ 13 13 13 [seven_t47] [] _ _); [eapply (p_const 13 seven_t47 _); [exact num_5|side]|eapply (t_none _ 13 _)]]]|eapply (o_none 4 10 _)]]]]|eapply (from8 12 2 2 4 4 [seven_t49; seven_t50] _); [side|side|side|side|eapply (lift 0 8 4 4 12 12 [seven_t49; seven_t50] _); [side|side|side|side|eapply (x_post 12 12 [seven_t49] seven_t50 _); [eapply (m_intro _ _ 12 12 12 [seven_t49] [] _ _); [eapply (p_var 12 seven_t49); [side]|eapply (t_none _ 12 _)]|side]]]|eapply (b_list 2 2 seven_t52 [seven_t53; seven_t54; seven_t55; seven_t56; seven_t57; seven_t58; seven_t59] seven_t60 TOK_IDENT _); [side|side|eapply (ss_cons TOK_CLOSE_CURLY 2 2 2 [seven_t53; seven_t54; seven_t55; seven_t56; seven_t57; seven_t58] [seven_t59] [] _ _); [eapply (s_exprs 2 2 [seven_t53; seven_t54; seven_t55; seven_t56; seven_t57; seven_t58] TOK_SEMICOLON _); [eapply (c_one 2 2 [seven_t53; seven_t54; seven_t55; seven_t56; seven_t57; seven_t58] _); [eapply (from8 12 2 2 4 4 [seven_t53; seven_t54; seven_t55; seven_t56; seven_t57; seven_t58] _); [side|side|side|side|eapply (lift 0 8 4 4 12 12 [seven_t53; seven_t54; seven_t55; seven_t56; seven_t57; seven_t58] _); [side|side|side|side|eapply (x_mem _ 12 12 [seven_t53; seven_t54; seven_t55; seven_t56; seven_t57; seven_t58] _); [eapply (m_intro _ _ 12 12 12 [seven_t53] [seven_t54; seven_t55; seven_t56; seven_t57; seven_t58] _ _); [eapply (p_var 12 seven_t53); [side]|eapply (t_dot _ _ 12 12 _ seven_t54 seven_t55 [seven_t56; seven_t57; seven_t58] _); [side|side|eapply (t_call _ _ 12 12 12 _ seven_t56 [seven_t57] seven_t58 [] _ _); [side|side|eapply (a_one 12 12 [seven_t57] _); [eapply (from8 12 12 12 14 14 [seven_t57] _); [side|side|side|side|eapply (lift 0 8 14 14 22 22 [seven_t57] _); [side|side|side|side|eapply (x_mem _ 22 22 [seven_t57] _); [eapply (m_intro _ _ 22 22 22 [seven_t57] [] _ _); [eapply (p_var 22 seven_t57); [side]|eapply (t_none _ 22 _)]]]]]|eapply (t_none _ 12 _)]]]]]]]|side|side|side]|side|side|side|side|exact (or_introl eq_refl)|eapply (ss_nil TOK_CLOSE_CURLY 2)]]]|side|side|side|side|right; side|eapply (ss_cons TOK_EOF 2 2 2 [seven_t61; seven_t62; seven_t63] [seven_t64] [] _ _); [eapply (s_exprs 2 2 [seven_t61; seven_t62; seven_t63] TOK_SEMICOLON _); [eapply (c_one 2 2 [seven_t61; seven_t62; seven_t63] _); [eapply (x_assign 2 2 2 [seven_t61] seven_t62 [seven_t63] _ _); [side|side|eapply (m_intro _ _ 12 12 12 [seven_t61] [] _ _); [eapply (p_var 12 seven_t61); [side]|eapply (t_none _ 12 _)]|eapply (from8 12 2 2 4 4 [seven_t63] _); [side|side|side|side|eapply (lift 0 8 4 4 12 12 [seven_t63] _); [side|side|side|side|eapply (x_mem _ 12 12 [seven_t63] _); [eapply (m_intro _ _ 12 12 12 [seven_t63] [] _ _); [eapply (p_const 12 seven_t63 _); [exact num_100|side]|eapply (t_none _ 12 _)]]]]]]|side|side|side]|side|side|side|side|exact (or_introl eq_refl)|eapply (ss_nil TOK_EOF 2)]]]].
Qed.
Definition eight_src : list Z := bs "n;".
Definition eight_tree : list stmt :=
  [(SExprs [(XVar (bs "n"))])].
Definition eight_t0 : tokn := tk1 TOK_IDENT "n".
Definition eight_t1 : tokn := tk1 TOK_SEMICOLON ";".
Definition eight_toks : list tokn := [eight_t0; eight_t1].
Lemma eight_source : source eight_src eight_toks.
Proof.
  unfold eight_src, eight_toks.
  word (bs "n") (bs ";"). { intros n H. vm_compute in H. intuition discriminate. }
  opr (bs ";") (bs "") TOK_SEMICOLON.
  apply src_end, gap_end; [intros c r H; discriminate|no_start|no_start].
Qed.
Lemma eight_stmts : stmts TOK_EOF 0 0 eight_toks eight_tree.
Proof.
  unfold eight_toks, eight_tree.
  eapply (ss_cons TOK_EOF 0 0 0 [eight_t0] [eight_t1] [] _ _); [eapply (s_exprs 0 0 [eight_t0] TOK_SEMICOLON _); [eapply (c_one 0 0 [eight_t0] _); [eapply (from8 12 0 0 2 2 [eight_t0] _); [side|side|side|side|eapply (lift 0 8 2 2 10 10 [eight_t0] _); [side|side|side|side|eapply (x_mem _ 10 10 [eight_t0] _); [eapply (m_intro _ _ 10 10 10 [eight_t0] [] _ _); [eapply (p_var 10 eight_t0); [side]|eapply (t_none _ 10 _)]]]]]|side|side|side]|side|side|side|side|exact (or_introl eq_refl)|eapply (ss_nil TOK_EOF 0)].
Qed.
Definition nine_src : list Z := bs "this === o;".
Definition nine_tree : list stmt :=
  [(SExprs [(XBin TOK_EQ_EQ XThis (XVar (bs "o")))])].
Definition nine_t0 : tokn := tk1 TOK_KEYWORD_THIS "this".
Definition nine_t1 : tokn := tk1 TOK_EQ_EQ "===".
Definition nine_t2 : tokn := tk1 TOK_IDENT "o".
Definition nine_t3 : tokn := tk1 TOK_SEMICOLON ";".
Definition nine_toks : list tokn := [nine_t0; nine_t1; nine_t2; nine_t3].
Lemma nine_source : source nine_src nine_toks.
Proof.
  unfold nine_src, nine_toks.
  keyword (bs "this") (bs " === o;").
  apply source_blank; [cbn; tauto|].
  opr (bs "===") (bs " o;") TOK_EQ_EQ.
  apply source_blank; [cbn; tauto|].
  word (bs "o") (bs ";"). { intros n H. vm_compute in H. intuition discriminate. }
  opr (bs ";") (bs "") TOK_SEMICOLON.
  apply src_end, gap_end; [intros c r H; discriminate|no_start|no_start].
Qed.
Lemma nine_stmts : stmts TOK_EOF 0 0 nine_toks nine_tree.
Proof.
  unfold nine_toks, nine_tree.
  eapply (ss_cons TOK_EOF 0 0 0 [nine_t0; nine_t1; nine_t2] [nine_t3] [] _ _); [eapply (s_exprs 0 0 [nine_t0; nine_t1; nine_t2] TOK_SEMICOLON _); [eapply (c_one 0 0 [nine_t0; nine_t1; nine_t2] _); [eapply (from8 12 0 0 2 2 [nine_t0; nine_t1; nine_t2] _); [side|side|side|side|eapply (lift 5 8 2 2 5 5 [nine_t0; nine_t1; nine_t2] _); [side|side|side|side|eapply (x_level 5 5 5 6 [nine_t0] [nine_t1; nine_t2] _ _); [side|side|eapply (lift 0 4 6 6 10 10 [nine_t0] _); [side|side|side|side|eapply (x_mem _ 10 10 [nine_t0] _); [eapply (m_intro _ _ 10 10 10 [nine_t0] [] _ _); [eapply (p_this 10 nine_t0); [side]|eapply (t_none _ 10 _)]]]|eapply (o_one 5 6 6 7 _ nine_t1 [nine_t2] [] _ _); [side|side|eapply (lift 0 4 7 7 11 11 [nine_t2] _); [side|side|side|side|eapply (x_mem _ 11 11 [nine_t2] _); [eapply (m_intro _ _ 11 11 11 [nine_t2] [] _ _); [eapply (p_var 11 nine_t2); [side]|eapply (t_none _ 11 _)]]]|eapply (o_none 5 7 _)]]]]]|side|side|side]|side|side|side|side|exact (or_introl eq_refl)|eapply (ss_nil TOK_EOF 0)].
Qed.
Definition ten_src : list Z := bs "let g = function(a) { return a.b.c; };".
Definition ten_tree : list stmt :=
  [(SLet [((bs "g"), Some (XFun None [(bs "a")] [(SReturn (Some (XDot (XDot (XVar (bs "a")) (bs "b")) (bs "c"))))]))])].
Definition ten_t0 : tokn := tk1 TOK_KEYWORD_LET "let".
Definition ten_t1 : tokn := tk1 TOK_IDENT "g".
Definition ten_t2 : tokn := tk1 TOK_ASSIGN "=".
Definition ten_t3 : tokn := tk1 TOK_KEYWORD_FUNCTION "function".
Definition ten_t4 : tokn := tk1 TOK_OPEN_PAREN "(".
Definition ten_t5 : tokn := tk1 TOK_IDENT "a".
Definition ten_t6 : tokn := tk1 TOK_CLOSE_PAREN ")".
Definition ten_t7 : tokn := tk1 TOK_OPEN_CURLY "{".
Definition ten_t8 : tokn := tk1 TOK_KEYWORD_RETURN "return".
Definition ten_t9 : tokn := tk1 TOK_IDENT "a".
Definition ten_t10 : tokn := tk1 TOK_DOT ".".
Definition ten_t11 : tokn := tk1 TOK_IDENT "b".
Definition ten_t12 : tokn := tk1 TOK_DOT ".".
Definition ten_t13 : tokn := tk1 TOK_IDENT "c".
Definition ten_t14 : tokn := tk1 TOK_SEMICOLON ";".
Definition ten_t15 : tokn := tk1 TOK_CLOSE_CURLY "}".
Definition ten_t16 : tokn := tk1 TOK_SEMICOLON ";".
Definition ten_toks : list tokn := [ten_t0; ten_t1; ten_t2; ten_t3; ten_t4; ten_t5; ten_t6; ten_t7; ten_t8; ten_t9; ten_t10; ten_t11; ten_t12; ten_t13; ten_t14; ten_t15; ten_t16].
Lemma ten_source : source ten_src ten_toks.
Proof.
  unfold ten_src, ten_toks.
  keyword (bs "let") (bs " g = function(a) { return a.b.c; };").
  apply source_blank; [cbn; tauto|].
  word (bs "g") (bs " = function(a) { return a.b.c; };"). { intros n H. vm_compute in H. intuition discriminate. }
  apply source_blank; [cbn; tauto|].
  opr (bs "=") (bs " function(a) { return a.b.c; };") TOK_ASSIGN.
  apply source_blank; [cbn; tauto|].
  keyword (bs "function") (bs "(a) { return a.b.c; };").
  opr (bs "(") (bs "a) { return a.b.c; };") TOK_OPEN_PAREN.
  word (bs "a") (bs ") { return a.b.c; };"). { intros n H. vm_compute in H. intuition discriminate. }
  opr (bs ")") (bs " { return a.b.c; };") TOK_CLOSE_PAREN.
  apply source_blank; [cbn; tauto|].
  opr (bs "{") (bs " return a.b.c; };") TOK_OPEN_CURLY.
  apply source_blank; [cbn; tauto|].
  keyword (bs "return") (bs " a.b.c; };").
  apply source_blank; [cbn; tauto|].
  word (bs "a") (bs ".b.c; };"). { intros n H. vm_compute in H. intuition discriminate. }
  opr (bs ".") (bs "b.c; };") TOK_DOT.
  word (bs "b") (bs ".c; };"). { intros n H. vm_compute in H. intuition discriminate. }
  opr (bs ".") (bs "c; };") TOK_DOT.
  word (bs "c") (bs "; };"). { intros n H. vm_compute in H. intuition discriminate. }
  opr (bs ";") (bs " };") TOK_SEMICOLON.
  apply source_blank; [cbn; tauto|].
  opr (bs "}") (bs ";") TOK_CLOSE_CURLY.
  opr (bs ";") (bs "") TOK_SEMICOLON.
  apply src_end, gap_end; [intros c r H; discriminate|no_start|no_start].
Qed.
Lemma ten_stmts : stmts TOK_EOF 0 1 ten_toks ten_tree.
Proof.
  unfold ten_toks, ten_tree.
  eapply (ss_cons TOK_EOF 0 1 1 [ten_t0; ten_t1; ten_t2; ten_t3; ten_t4; ten_t5; ten_t6; ten_t7; ten_t8; ten_t9; ten_t10; ten_t11; ten_t12; ten_t13; ten_t14; ten_t15] [ten_t16] [] _ _); [eapply (s_let 0 1 ten_t0 [ten_t1; ten_t2; ten_t3; ten_t4; ten_t5; ten_t6; ten_t7; ten_t8; ten_t9; ten_t10; ten_t11; ten_t12; ten_t13; ten_t14; ten_t15] TOK_SEMICOLON _); [side|eapply (l_one 0 1 ten_t1 [ten_t2; ten_t3; ten_t4; ten_t5; ten_t6; ten_t7; ten_t8; ten_t9; ten_t10; ten_t11; ten_t12; ten_t13; ten_t14; ten_t15] _); [side|eapply (i_some 0 1 ten_t2 [ten_t3; ten_t4; ten_t5; ten_t6; ten_t7; ten_t8; ten_t9; ten_t10; ten_t11; ten_t12; ten_t13; ten_t14; ten_t15] _); [side|eapply (from8 12 0 1 2 3 [ten_t3; ten_t4; ten_t5; ten_t6; ten_t7; ten_t8; ten_t9; ten_t10; ten_t11; ten_t12; ten_t13; ten_t14; ten_t15] _); [side|side|side|side|eapply (lift 0 8 2 3 10 11 [ten_t3; ten_t4; ten_t5; ten_t6; ten_t7; ten_t8; ten_t9; ten_t10; ten_t11; ten_t12; ten_t13; ten_t14; ten_t15] _); [side|side|side|side|eapply (x_mem _ 10 11 [ten_t3; ten_t4; ten_t5; ten_t6; ten_t7; ten_t8; ten_t9; ten_t10; ten_t11; ten_t12; ten_t13; ten_t14; ten_t15] _); [eapply (m_intro _ _ 10 11 11 [ten_t3; ten_t4; ten_t5; ten_t6; ten_t7; ten_t8; ten_t9; ten_t10; ten_t11; ten_t12; ten_t13; ten_t14; ten_t15] [] _ _); [eapply (p_fun 10 11 ten_t3 [] _ ten_t4 [ten_t5] _ ten_t6 ten_t7 [ten_t8; ten_t9; ten_t10; ten_t11; ten_t12; ten_t13; ten_t14] _ ten_t15); [side|exact fn_none|side|exact (pa_one ten_t5 eq_refl)|side|side|side|side|eapply (ss_cons TOK_CLOSE_CURLY 11 11 11 [ten_t8; ten_t9; ten_t10; ten_t11; ten_t12; ten_t13] [ten_t14] [] _ _); [eapply (s_return 11 11 ten_t8 [ten_t9; ten_t10; ten_t11; ten_t12; ten_t13] TOK_SEMICOLON _); [side|eapply (from8 12 11 11 13 13 [ten_t9; ten_t10; ten_t11; ten_t12; ten_t13] _); [side|side|side|side|eapply (lift 0 8 13 13 21 21 [ten_t9; ten_t10; ten_t11; ten_t12; ten_t13] _); [side|side|side|side|eapply (x_mem _ 21 21 [ten_t9; ten_t10; ten_t11; ten_t12; ten_t13] _); [eapply (m_intro _ _ 21 21 21 [ten_t9] [ten_t10; ten_t11; ten_t12; ten_t13] _ _); [eapply (p_var 21 ten_t9); [side]|eapply (t_dot _ _ 21 21 _ ten_t10 ten_t11 [ten_t12; ten_t13] _); [side|side|eapply (t_dot _ _ 21 21 _ ten_t12 ten_t13 [] _); [side|side|eapply (t_none _ 21 _)]]]]]]|side]|side|side|side|side|exact (or_introl eq_refl)|eapply (ss_nil TOK_CLOSE_CURLY 11)]]|eapply (t_none _ 11 _)]]]]]]|side]|side|side|side|side|exact (or_introl eq_refl)|eapply (ss_nil TOK_EOF 1)].
Qed.
Definition prog_seven : prog := {| g_path := bs "seven.js"; g_src := seven_src; g_toks := seven_toks; g_tree := seven_tree |}.
Definition prog_eight : prog := {| g_path := bs "eight.js"; g_src := eight_src; g_toks := eight_toks; g_tree := eight_tree |}.
Definition prog_nine : prog := {| g_path := bs "nine.js"; g_src := nine_src; g_toks := nine_toks; g_tree := nine_tree |}.
Definition prog_ten : prog := {| g_path := bs "ten.js"; g_src := ten_src; g_toks := ten_toks; g_tree := ten_tree |}.
Definition some_play : list act := [Run prog_seven; Run prog_eight; Run prog_nine; Run prog_ten; Call 3 1 [1%nat]; Call 1 1 []].
Example play_well_formed : Forall well_formed (programs some_play).
Proof.
  apply Forall_cons; [|apply Forall_cons; [|apply Forall_cons; [|apply Forall_cons; [|apply Forall_nil]]]].
  - split; [unfold c_text; cbn [prog_seven g_src]; unfold seven_src; c_bytes|]. split; [apply seven_source|eexists; apply seven_stmts].
  - split; [unfold c_text; cbn [prog_eight g_src]; unfold eight_src; c_bytes|]. split; [apply eight_source|eexists; apply eight_stmts].
  - split; [unfold c_text; cbn [prog_nine g_src]; unfold nine_src; c_bytes|]. split; [apply nine_source|eexists; apply nine_stmts].
  - split; [unfold c_text; cbn [prog_ten g_src]; unfold ten_src; c_bytes|]. split; [apply ten_source|eexists; apply ten_stmts].
Qed.
(** The specification's answers and the engine's. *)
Example play_value : option_map (fun r => map (fun v => (fst v, match snd v with VPrim a => Some a | _ => None end)) (fst (fst r))) (play 10 50 [0%nat] undef some_play [] start_state) =
  Some [(E_REFERENCE, Some AUndef); (E_OK, Some (ANum (vnum 6))); (E_OK, Some (ABool true)); (E_OK, None); (E_TYPE, Some AUndef); (E_TYPE, Some AUndef)].
Proof. vm_compute. reflexivity. Qed.
Definition seen (r : Z * Z) : Z * Z := (fst r, if is_function (snd r) then 0 else snd r).
Example play_engine : (r <- exec_play 1500 Props_Vm.w0 new_engine some_play [] ;; OK (map seen (snd r))) =
  OK [(E_REFERENCE, V_UNDEFINED); (E_OK, vnum 6); (E_OK, mk_boolean true); (E_OK, 0); (E_TYPE, V_UNDEFINED); (E_TYPE, V_UNDEFINED)].
Proof. vm_compute. reflexivity. Qed.
(** The hypotheses of [failing_session], and with them those of [program_failure] and
    [apply_failure], are met. *)
Example play_holds : exists m codes W vs th' s', create = OK m /\ Forall2 compiles (programs some_play) codes /\ few 50 some_play /\
  play 10 50 [0%nat] undef some_play [] start_state = Some (vs, th', s') /\
  in_state m W start_state [0%nat] undef /\ stack_room m 51 /\ code_room m (total codes).
Proof.
  destruct (created_engine 1000000 ltac:(lia)) as (m & W & E & I & S1 & S2 & S3 & C).
  destruct (play 10 50 [0%nat] undef some_play [] start_state) as [[[vs th'] s']|] eqn:R; [|pose proof play_value as V; rewrite R in V; discriminate V].
  exists m, [code_of prog_seven; code_of prog_eight; code_of prog_nine; code_of prog_ten], W, vs, th', s'. split; [exact E|]. split.
  { repeat (apply Forall2_cons; [apply (compiles_at 900); vm_compute; reflexivity|]). constructor. }
  split; [unfold few, some_play; repeat constructor; cbn [length]; lia|].
  split; [reflexivity|]. split; [exact I|]. split.
  - unfold stack_room. rewrite S1, S2, S3. vm_compute. repeat split; reflexivity.
  - exists []. split; [exact C|]. vm_compute. reflexivity.
Qed.
Example seven_fails : exists th' s', fail_program 10 50 [0%nat] undef seven_tree start_state = Some (E_REFERENCE, th', s').
Proof.
  destruct (fail_program 10 50 [0%nat] undef seven_tree start_state) as [[[c th'] s']|] eqn:R.
  - exists th', s'. assert (V : option_map (fun r => fst (fst r)) (fail_program 10 50 [0%nat] undef seven_tree start_state) = Some E_REFERENCE) by (vm_compute; reflexivity). rewrite R in V. injection V as ->. reflexivity.
  - assert (V : option_map (fun r => fst (fst r)) (fail_program 10 50 [0%nat] undef seven_tree start_state) = Some E_REFERENCE) by (vm_compute; reflexivity). rewrite R in V. discriminate V.
Qed.
(** It is not so that a failing program leaves [this] as it was: mjs_exec does not restore it
    (mjs_exec.c:962-977 only sets the sizes of the stacks), so that the next program starts with the
    [this] of the method that failed. *)
Definition this_src : list Z := bs "let o = {f: function() { nosuch; }}; o.f();".
Definition this_after : vm * Z := Props_Obj.R_get (new_engine, 0) (mjs_exec 900 Props_Vm.w0 new_engine (bs "a.js") this_src).
Definition this_read : vm * Z := Props_Obj.R_get (new_engine, 0) (mjs_exec 900 Props_Vm.w0 (fst this_after) (bs "b.js") (bs "this === o;")).
Theorem failure_restores_this_refuted : exists src m m', src = this_src /\ mjs_exec 900 Props_Vm.w0 new_engine (bs "a.js") src = OK (m, V_UNDEFINED) /\ m_err m = E_REFERENCE /\
  m_this new_engine = V_UNDEFINED /\ m_this m <> m_this new_engine /\ mjs_exec 900 Props_Vm.w0 m (bs "b.js") (bs "this === o;") = OK (m', mk_boolean true) /\ m_err m' = E_OK.
Proof.
  exists this_src, (fst this_after), (fst this_read). split; [reflexivity|]. split; [vm_compute; reflexivity|]. split; [vm_compute; reflexivity|].
  split; [vm_compute; reflexivity|]. split; [vm_compute; discriminate|]. split; vm_compute; reflexivity.
Qed.
Print Assumptions failure_restores_this_refuted.
