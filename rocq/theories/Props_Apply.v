(** Calls of script functions from C. *)
From Verif Require Import Base Value_Model Value_Spec Str_Model Str_Spec TokNum_Model Txt_Model Tok_Model Tok_Spec Num_Model NumText_Spec Lit_Proofs Obj_Model Obj_Spec Bcode_Model Bcode_Proofs Vm_Model Vm_Spec Parse_Model Run_Model Expr_Spec Run_Spec
  Tok_Proofs2 Obj_Proofs Obj_Proofs2 Props_Obj Props_Vm Props_Expr Lang_Spec Lang_Code Lang_Spec2 Lang_Exec1 Lang_Exec2 Lang_Exec10 Lang_Spec3 Lang_Spec4 Lang_Apply Props_Lang Props_Lang2.
From Coq Require Import ZifyBool.
Ltac Zify.zify_post_hook ::= idtac.

(** C80. mjs_apply on a function made by a script: if the interpreter gives the call a value,
    mjs_apply gives that value without an error, and leaves the engine in the interpreter's
    state, with its stacks and its current [this] as before. *)
Theorem apply_result w m W s sc th f fv T t xs vs rounds depth v s' : host_call rounds depth sc fv t vs s = Some (v, s') -> (length vs <= depth)%nat ->
  stack_room m (S depth) -> in_state m W s sc th -> vrep (m_code m) (m_ext m) W f fv -> vrep (m_code m) (m_ext m) W T t -> Forall2 (vrep (m_code m) (m_ext m) W) xs vs ->
  exists fu m' r W', (forall fu', (fu <= fu')%nat -> apply fu' w m f T xs = OK (m', r)) /\ m_err m' = E_OK /\
    in_state m' W' s' sc th /\ later W W' /\ vrep (m_code m') (m_ext m') W' r v /\ same_stacks m m' /\ m_code m' = m_code m.
Proof. apply apply_runs. Qed.
Print Assumptions apply_result.
(** The host gets what a script gets that makes the same call, except from a function that ends
    without a return: the script gets undefined and the host the function. *)
Theorem host_call_is_call rounds depth sc f th vs s v s' : host_call rounds depth sc f th vs s = Some (v, s') ->
  exists v', call (at_depth rounds depth) sc f th vs s = Some (v', s') /\ (v' = v \/ v' = undef /\ v = f).
Proof.
  unfold host_call, call. destruct f as [| | |ps b|p]; try discriminate. destruct (new_cell s) as [[i s1]|]; [|discriminate].
  destruct (bind_pars i ps vs s1) as [s2|]; [|discriminate]. destruct (ex_list (at_depth rounds depth) (i :: sc) th b undef s2) as [[o s3]|]; [|discriminate].
  destruct o as [u| | |u]; try discriminate; intros H; injection H as <- <-; [exists undef|exists u]; auto.
Qed.
Print Assumptions host_call_is_call.

(** A host that runs programs and calls the functions they made, in any order: every result
    represents the interpreter's value, and still does at the end. *)
Lemma nth_rep {A B} (P : A -> B -> Prop) l l' n y : Forall2 P l l' -> nth_error l' n = Some y -> exists x, nth_error l n = Some x /\ P x y.
Proof. intros F. revert n. induction F as [|a b l l' H F IH]; intros [|n] E; try discriminate E; cbn in *; [injection E as <-; exists a; auto|apply IH; exact E]. Qed.
Lemma all_rep {A B} (P : A -> B -> Prop) l l' ns ys : Forall2 P l l' -> all_of l' ns = Some ys -> exists xs, all_of l ns = Some xs /\ Forall2 P xs ys /\ length ys = length ns.
Proof.
  intros F. revert ys. induction ns as [|n ns IH]; intros ys H; cbn [all_of] in *.
  - injection H as <-. exists []. repeat split. constructor.
  - destruct (nth_error l' n) as [y|] eqn:E; [|discriminate H]. destruct (all_of l' ns) as [r|] eqn:E2; [|discriminate H]. injection H as <-.
    destruct (nth_rep P l l' n y F E) as (x & Ex & Px). destruct (IH r eq_refl) as (xs & Exs & Pxs & Ln). exists (x :: xs). rewrite Ex, Exs. split; [reflexivity|]. split; [constructor; assumption|].
    cbn [length]. rewrite Ln. reflexivity.
Qed.
Lemma reps_later cd cd' ext W W' rs vs : (forall bp, part_of cd bp -> part_of cd' bp) -> later W W' -> Forall2 (vrep cd ext W) rs vs -> Forall2 (vrep cd' ext W') rs vs.
Proof. intros H L F. induction F; constructor; [|assumption]. apply (vrep_code cd cd' H). eapply vrep_later; eassumption. Qed.
Lemma snoc_rep {A B} (P : A -> B -> Prop) l l' x y : Forall2 P l l' -> P x y -> Forall2 P (l ++ [x]) (l' ++ [y]).
Proof. intros F H. apply Forall2_app; [exact F|constructor; [exact H|constructor]]. Qed.
Theorem host_session w sc th rounds depth l : forall codes, Forall well_formed (programs l) -> Forall2 compiles (programs l) codes -> few depth l ->
  forall m W s rs us vs s', run_acts rounds depth sc th l us s = Some (vs, s') -> Forall2 (vrep (m_code m) (m_ext m) W) rs us ->
  code_room m (total codes) -> stack_room m (S depth) -> in_state m W s sc th ->
  exists f m' rs' W', (forall f', (f <= f')%nat -> exec_acts f' w m l rs = OK (m', rs')) /\
    in_state m' W' s' sc th /\ later W W' /\ Forall2 (vrep (m_code m') (m_ext m') W') rs' vs /\ same_stacks m m'.
Proof.
  induction l as [|a l IH]; intros codes Fw Fc Fe m W s rs us vs s' Hr Fr Rm Sr St.
  { cbn [run_acts] in Hr. injection Hr as <- <-. exists 0%nat, m, rs, W. split; [reflexivity|]. split; [exact St|]. split; [apply later_refl|]. split; [exact Fr|]. repeat split. }
  pose proof (Forall_inv Fe) as Fa. pose proof (Forall_inv_tail Fe) as Ft. destruct a as [p|f t ns]; cbn [run_acts programs] in *.
  - destruct codes as [|code codes]; [inversion Fc|]. assert (Cp : compiles p code) by (inversion Fc; assumption). assert (Fc' : Forall2 compiles (programs l) codes) by (inversion Fc; assumption).
    pose proof (Forall_inv Fw) as Wp. pose proof (Forall_inv_tail Fw) as Fp.
    destruct (run_program rounds depth sc th (g_tree p) s) as [[v s1]|] eqn:E1; [|discriminate Hr].
    change (total (code :: codes)) with (zlen code + total codes) in Rm. pose proof (total_nonneg codes) as Pt.
    assert (Sr' : stack_room m depth) by (unfold stack_room in *; nia).
    destruct (program_result w m W s sc th p code rounds depth v s1 Wp Cp E1 ltac:(eapply code_room_less; [exact Rm|lia]) Sr' St) as (f1 & m1 & r & W1 & H1 & Er & St1 & L1 & V1 & S1 & C1).
    pose proof S1 as (T1 & T2 & T3 & T4 & T5 & T6 & T7).
    assert (Ee : m_ext m1 = m_ext m) by (unfold m_ext; rewrite T7; reflexivity).
    assert (Fr1 : Forall2 (vrep (m_code m1) (m_ext m1) W1) (rs ++ [r]) (us ++ [v])).
    { apply snoc_rep; [|exact V1]. rewrite Ee. eapply reps_later; [|exact L1|exact Fr]. intros bp. rewrite C1. destruct Rm as (ds & Ed & _). rewrite Ed. rewrite <- commits_snoc. apply part_stays. }
    destruct (IH codes Fp Fc' Ft m1 W1 s1 _ _ vs s' Hr Fr1) as (f2 & m2 & rs2 & W2 & H2 & St2 & L2 & V2 & S2).
    { eapply code_room_commit; [exact Rm|exact C1]. }
    { unfold stack_room in *. rewrite T1, T4, T5. exact Sr. }
    { exact St1. }
    pose proof S2 as (U1 & U2 & U3 & U4 & U5 & U6 & U7).
    exists (max f1 f2), m2, rs2, W2. split.
    { intros f' Hf. cbn [exec_acts]. rewrite H1 by lia. cbn [bind]. rewrite Er. change (E_OK =? E_OK) with true. cbv iota. apply H2. lia. }
    split; [exact St2|]. split; [eapply later_trans; eassumption|]. split; [exact V2|]. unfold same_stacks. rewrite U1, U2, U3, U4, U5, U6, U7. repeat split; assumption.
  - destruct (nth_error us f) as [fv|] eqn:Ef; [|discriminate Hr]. destruct (nth_error us t) as [tv|] eqn:Et; [|discriminate Hr]. destruct (all_of us ns) as [xv|] eqn:Ex; [|discriminate Hr].
    destruct (host_call rounds depth sc fv tv xv s) as [[v s1]|] eqn:E1; [|discriminate Hr].
    destruct (nth_rep _ rs us f fv Fr Ef) as (fx & Nf & Vf). destruct (nth_rep _ rs us t tv Fr Et) as (tx & Nt & Vt). destruct (all_rep _ rs us ns xv Fr Ex) as (xx & Nx & Vx & Ln).
    destruct (apply_result w m W s sc th fx fv tx tv xx xv rounds depth v s1 E1 ltac:(lia) Sr St Vf Vt Vx) as (f1 & m1 & r & W1 & H1 & Er & St1 & L1 & V1 & S1 & C1).
    pose proof S1 as (T1 & T2 & T3 & T4 & T5 & T6 & T7).
    assert (Ee : m_ext m1 = m_ext m) by (unfold m_ext; rewrite T7; reflexivity).
    assert (Fr1 : Forall2 (vrep (m_code m1) (m_ext m1) W1) (rs ++ [r]) (us ++ [v])).
    { apply snoc_rep; [|exact V1]. rewrite Ee, C1. eapply reps_later; [|exact L1|exact Fr]. auto. }
    destruct (IH codes Fw Fc Ft m1 W1 s1 _ _ vs s' Hr Fr1) as (f2 & m2 & rs2 & W2 & H2 & St2 & L2 & V2 & S2).
    { unfold code_room in *. rewrite C1. exact Rm. }
    { unfold stack_room in *. rewrite T1, T4, T5. exact Sr. }
    { exact St1. }
    pose proof S2 as (U1 & U2 & U3 & U4 & U5 & U6 & U7).
    exists (max f1 f2), m2, rs2, W2. split.
    { intros f' Hf. cbn [exec_acts]. rewrite Nf, Nt, Nx, H1 by lia. cbn [bind]. rewrite Er. change (E_OK =? E_OK) with true. cbv iota. apply H2. lia. }
    split; [exact St2|]. split; [eapply later_trans; eassumption|]. split; [exact V2|]. unfold same_stacks. rewrite U1, U2, U3, U4, U5, U6, U7. repeat split; assumption.
Qed.
Print Assumptions host_session.

(** An example: a program makes a function, the host calls it twice. *)

Definition five_src : list Z := bs "let n = 1; let f = function(a, b) { n = n + a; return n * b; };".
Definition five_tree : list stmt :=
  [(SLet [((bs "n"), Some (XConst (EInt 1)))]);
   (SLet [((bs "f"), Some (XFun None [(bs "a"); (bs "b")] [(SExprs [(XAsg TOK_ASSIGN (XVar (bs "n")) (XBin TOK_PLUS (XVar (bs "n")) (XVar (bs "a"))))]); (SReturn (Some (XBin TOK_MUL (XVar (bs "n")) (XVar (bs "b")))))]))])].
Definition five_t0 : tokn := tk1 TOK_KEYWORD_LET "let".
Definition five_t1 : tokn := tk1 TOK_IDENT "n".
Definition five_t2 : tokn := tk1 TOK_ASSIGN "=".
Definition five_t3 : tokn := tk1 TOK_NUM "1".
Definition five_t4 : tokn := tk1 TOK_SEMICOLON ";".
Definition five_t5 : tokn := tk1 TOK_KEYWORD_LET "let".
Definition five_t6 : tokn := tk1 TOK_IDENT "f".
Definition five_t7 : tokn := tk1 TOK_ASSIGN "=".
Definition five_t8 : tokn := tk1 TOK_KEYWORD_FUNCTION "function".
Definition five_t9 : tokn := tk1 TOK_OPEN_PAREN "(".
Definition five_t10 : tokn := tk1 TOK_IDENT "a".
Definition five_t11 : tokn := tk1 TOK_COMMA ",".
Definition five_t12 : tokn := tk1 TOK_IDENT "b".
Definition five_t13 : tokn := tk1 TOK_CLOSE_PAREN ")".
Definition five_t14 : tokn := tk1 TOK_OPEN_CURLY "{".
Definition five_t15 : tokn := tk1 TOK_IDENT "n".
Definition five_t16 : tokn := tk1 TOK_ASSIGN "=".
Definition five_t17 : tokn := tk1 TOK_IDENT "n".
Definition five_t18 : tokn := tk1 TOK_PLUS "+".
Definition five_t19 : tokn := tk1 TOK_IDENT "a".
Definition five_t20 : tokn := tk1 TOK_SEMICOLON ";".
Definition five_t21 : tokn := tk1 TOK_KEYWORD_RETURN "return".
Definition five_t22 : tokn := tk1 TOK_IDENT "n".
Definition five_t23 : tokn := tk1 TOK_MUL "*".
Definition five_t24 : tokn := tk1 TOK_IDENT "b".
Definition five_t25 : tokn := tk1 TOK_SEMICOLON ";".
Definition five_t26 : tokn := tk1 TOK_CLOSE_CURLY "}".
Definition five_t27 : tokn := tk1 TOK_SEMICOLON ";".
Definition five_toks : list tokn := [five_t0; five_t1; five_t2; five_t3; five_t4; five_t5; five_t6; five_t7; five_t8; five_t9; five_t10; five_t11; five_t12; five_t13; five_t14; five_t15; five_t16; five_t17; five_t18; five_t19; five_t20; five_t21; five_t22; five_t23; five_t24; five_t25; five_t26; five_t27].
Lemma five_source : source five_src five_toks.
Proof.
  unfold five_src, five_toks.
  keyword (bs "let") (bs " n = 1; let f = function(a, b) { n = n + a; return n * b; };").
  apply source_blank; [cbn; tauto|].
  word (bs "n") (bs " = 1; let f = function(a, b) { n = n + a; return n * b; };"). { intros n H. vm_compute in H. intuition discriminate. }
  apply source_blank; [cbn; tauto|].
  opr (bs "=") (bs " 1; let f = function(a, b) { n = n + a; return n * b; };") TOK_ASSIGN.
  apply source_blank; [cbn; tauto|].
  number (bs "1") (bs "; let f = function(a, b) { n = n + a; return n * b; };") lit_1.
  opr (bs ";") (bs " let f = function(a, b) { n = n + a; return n * b; };") TOK_SEMICOLON.
  apply source_blank; [cbn; tauto|].
  keyword (bs "let") (bs " f = function(a, b) { n = n + a; return n * b; };").
  apply source_blank; [cbn; tauto|].
  word (bs "f") (bs " = function(a, b) { n = n + a; return n * b; };"). { intros n H. vm_compute in H. intuition discriminate. }
  apply source_blank; [cbn; tauto|].
  opr (bs "=") (bs " function(a, b) { n = n + a; return n * b; };") TOK_ASSIGN.
  apply source_blank; [cbn; tauto|].
  keyword (bs "function") (bs "(a, b) { n = n + a; return n * b; };").
  opr (bs "(") (bs "a, b) { n = n + a; return n * b; };") TOK_OPEN_PAREN.
  word (bs "a") (bs ", b) { n = n + a; return n * b; };"). { intros n H. vm_compute in H. intuition discriminate. }
  opr (bs ",") (bs " b) { n = n + a; return n * b; };") TOK_COMMA.
  apply source_blank; [cbn; tauto|].
  word (bs "b") (bs ") { n = n + a; return n * b; };"). { intros n H. vm_compute in H. intuition discriminate. }
  opr (bs ")") (bs " { n = n + a; return n * b; };") TOK_CLOSE_PAREN.
  apply source_blank; [cbn; tauto|].
  opr (bs "{") (bs " n = n + a; return n * b; };") TOK_OPEN_CURLY.
  apply source_blank; [cbn; tauto|].
  word (bs "n") (bs " = n + a; return n * b; };"). { intros n H. vm_compute in H. intuition discriminate. }
  apply source_blank; [cbn; tauto|].
  opr (bs "=") (bs " n + a; return n * b; };") TOK_ASSIGN.
  apply source_blank; [cbn; tauto|].
  word (bs "n") (bs " + a; return n * b; };"). { intros n H. vm_compute in H. intuition discriminate. }
  apply source_blank; [cbn; tauto|].
  opr (bs "+") (bs " a; return n * b; };") TOK_PLUS.
  apply source_blank; [cbn; tauto|].
  word (bs "a") (bs "; return n * b; };"). { intros n H. vm_compute in H. intuition discriminate. }
  opr (bs ";") (bs " return n * b; };") TOK_SEMICOLON.
  apply source_blank; [cbn; tauto|].
  keyword (bs "return") (bs " n * b; };").
  apply source_blank; [cbn; tauto|].
  word (bs "n") (bs " * b; };"). { intros n H. vm_compute in H. intuition discriminate. }
  apply source_blank; [cbn; tauto|].
  opr (bs "*") (bs " b; };") TOK_MUL.
  apply source_blank; [cbn; tauto|].
  word (bs "b") (bs "; };"). { intros n H. vm_compute in H. intuition discriminate. }
  opr (bs ";") (bs " };") TOK_SEMICOLON.
  apply source_blank; [cbn; tauto|].
  opr (bs "}") (bs ";") TOK_CLOSE_CURLY.
  opr (bs ";") (bs "") TOK_SEMICOLON.
  apply src_end, gap_end; [intros c r H; discriminate|no_start|no_start].
Qed.
Lemma five_stmts : stmts TOK_EOF 0 1 five_toks five_tree.
Proof.
  unfold five_toks, five_tree.
  eapply (ss_cons TOK_EOF 0 1 0 [five_t0; five_t1; five_t2; five_t3] [five_t4] [five_t5; five_t6; five_t7; five_t8; five_t9; five_t10; five_t11; five_t12; five_t13; five_t14; five_t15; five_t16; five_t17; five_t18; five_t19; five_t20; five_t21; five_t22; five_t23; five_t24; five_t25; five_t26; five_t27] _ _); [eapply (s_let 0 0 five_t0 [five_t1; five_t2; five_t3] TOK_SEMICOLON _); [side|eapply (l_one 0 0 five_t1 [five_t2; five_t3] _); [side|eapply (i_some 0 0 five_t2 [five_t3] _); [side|eapply (from8 12 0 0 2 2 [five_t3] _); [side|side|side|side|eapply (lift 0 8 2 2 10 10 [five_t3] _); [side|side|side|side|eapply (x_mem _ 10 10 [five_t3] _); [eapply (m_intro _ _ 10 10 10 [five_t3] [] _ _); [eapply (p_const 10 five_t3 _); [exact num_1|side]|eapply (t_none _ 10 _)]]]]]]|side]|side|side|side|side|right; side|eapply (ss_cons TOK_EOF 0 1 1 [five_t5; five_t6; five_t7; five_t8; five_t9; five_t10; five_t11; five_t12; five_t13; five_t14; five_t15; five_t16; five_t17; five_t18; five_t19; five_t20; five_t21; five_t22; five_t23; five_t24; five_t25; five_t26] [five_t27] [] _ _); [eapply (s_let 0 1 five_t5 [five_t6; five_t7; five_t8; five_t9; five_t10; five_t11; five_t12; five_t13; five_t14; five_t15; five_t16; five_t17; five_t18; five_t19; five_t20; five_t21; five_t22; five_t23; five_t24; five_t25; five_t26] TOK_SEMICOLON _); [side|eapply (l_one 0 1 five_t6 [five_t7; five_t8; five_t9; five_t10; five_t11; five_t12; five_t13; five_t14; five_t15; five_t16; five_t17; five_t18; five_t19; five_t20; five_t21; five_t22; five_t23; five_t24; five_t25; five_t26] _); [side|eapply (i_some 0 1 five_t7 [five_t8; five_t9; five_t10; five_t11; five_t12; five_t13; five_t14; five_t15; five_t16; five_t17; five_t18; five_t19; five_t20; five_t21; five_t22; five_t23; five_t24; five_t25; five_t26] _); [side|eapply (from8 12 0 1 2 3 [five_t8; five_t9; five_t10; five_t11; five_t12; five_t13; five_t14; five_t15; five_t16; five_t17; five_t18; five_t19; five_t20; five_t21; five_t22; five_t23; five_t24; five_t25; five_t26] _); [side|side|side|side|eapply (lift 0 8 2 3 10 11 [five_t8; five_t9; five_t10; five_t11; five_t12; five_t13; five_t14; five_t15; five_t16; five_t17; five_t18; five_t19; five_t20; five_t21; five_t22; five_t23; five_t24; five_t25; five_t26] _); [side|side|side|side|eapply (x_mem _ 10 11 [five_t8; five_t9; five_t10; five_t11; five_t12; five_t13; five_t14; five_t15; five_t16; five_t17; five_t18; five_t19; five_t20; five_t21; five_t22; five_t23; five_t24; five_t25; five_t26] _); [eapply (m_intro _ _ 10 11 11 [five_t8; five_t9; five_t10; five_t11; five_t12; five_t13; five_t14; five_t15; five_t16; five_t17; five_t18; five_t19; five_t20; five_t21; five_t22; five_t23; five_t24; five_t25; five_t26] [] _ _); [eapply (p_fun 10 11 five_t8 [] _ five_t9 [five_t10; five_t11; five_t12] _ five_t13 five_t14 [five_t15; five_t16; five_t17; five_t18; five_t19; five_t20; five_t21; five_t22; five_t23; five_t24; five_t25] _ five_t26); [side|exact fn_none|side|exact (pa_more five_t10 five_t11 [five_t12] _ eq_refl eq_refl (pa_one five_t12 eq_refl))|side|side|side|side|eapply (ss_cons TOK_CLOSE_CURLY 11 11 11 [five_t15; five_t16; five_t17; five_t18; five_t19] [five_t20] [five_t21; five_t22; five_t23; five_t24; five_t25] _ _); [eapply (s_exprs 11 11 [five_t15; five_t16; five_t17; five_t18; five_t19] TOK_SEMICOLON _); [eapply (c_one 11 11 [five_t15; five_t16; five_t17; five_t18; five_t19] _); [eapply (x_assign 11 11 11 [five_t15] five_t16 [five_t17; five_t18; five_t19] _ _); [side|side|eapply (m_intro _ _ 21 21 21 [five_t15] [] _ _); [eapply (p_var 21 five_t15); [side]|eapply (t_none _ 21 _)]|eapply (from8 12 11 11 13 13 [five_t17; five_t18; five_t19] _); [side|side|side|side|eapply (lift 2 8 13 13 19 19 [five_t17; five_t18; five_t19] _); [side|side|side|side|eapply (x_level 2 19 19 20 [five_t17] [five_t18; five_t19] _ _); [side|side|eapply (lift 0 1 20 20 21 21 [five_t17] _); [side|side|side|side|eapply (x_mem _ 21 21 [five_t17] _); [eapply (m_intro _ _ 21 21 21 [five_t17] [] _ _); [eapply (p_var 21 five_t17); [side]|eapply (t_none _ 21 _)]]]|eapply (o_one 2 20 20 21 _ five_t18 [five_t19] [] _ _); [side|side|eapply (lift 0 1 21 21 22 22 [five_t19] _); [side|side|side|side|eapply (x_mem _ 22 22 [five_t19] _); [eapply (m_intro _ _ 22 22 22 [five_t19] [] _ _); [eapply (p_var 22 five_t19); [side]|eapply (t_none _ 22 _)]]]|eapply (o_none 2 21 _)]]]]]]|side|side|side]|side|side|side|side|right; side|eapply (ss_cons TOK_CLOSE_CURLY 11 11 11 [five_t21; five_t22; five_t23; five_t24] [five_t25] [] _ _); [eapply (s_return 11 11 five_t21 [five_t22; five_t23; five_t24] TOK_SEMICOLON _); [side|eapply (from8 12 11 11 13 13 [five_t22; five_t23; five_t24] _); [side|side|side|side|eapply (lift 1 8 13 13 20 20 [five_t22; five_t23; five_t24] _); [side|side|side|side|eapply (x_level 1 20 20 21 [five_t22] [five_t23; five_t24] _ _); [side|side|eapply (x_mem _ 21 21 [five_t22] _); [eapply (m_intro _ _ 21 21 21 [five_t22] [] _ _); [eapply (p_var 21 five_t22); [side]|eapply (t_none _ 21 _)]]|eapply (o_one 1 21 21 22 _ five_t23 [five_t24] [] _ _); [side|side|eapply (x_mem _ 22 22 [five_t24] _); [eapply (m_intro _ _ 22 22 22 [five_t24] [] _ _); [eapply (p_var 22 five_t24); [side]|eapply (t_none _ 22 _)]]|eapply (o_none 1 22 _)]]]]|side]|side|side|side|side|exact (or_introl eq_refl)|eapply (ss_nil TOK_CLOSE_CURLY 11)]]]|eapply (t_none _ 11 _)]]]]]]|side]|side|side|side|side|exact (or_introl eq_refl)|eapply (ss_nil TOK_EOF 1)]].
Qed.
Definition six_src : list Z := bs "5;".
Definition six_tree : list stmt :=
  [(SExprs [(XConst (EInt 5))])].
Definition six_t0 : tokn := tk1 TOK_NUM "5".
Definition six_t1 : tokn := tk1 TOK_SEMICOLON ";".
Definition six_toks : list tokn := [six_t0; six_t1].
Lemma six_source : source six_src six_toks.
Proof.
  unfold six_src, six_toks.
  number (bs "5") (bs ";") lit_5.
  opr (bs ";") (bs "") TOK_SEMICOLON.
  apply src_end, gap_end; [intros c r H; discriminate|no_start|no_start].
Qed.
Lemma six_stmts : stmts TOK_EOF 0 0 six_toks six_tree.
Proof.
  unfold six_toks, six_tree.
  eapply (ss_cons TOK_EOF 0 0 0 [six_t0] [six_t1] [] _ _); [eapply (s_exprs 0 0 [six_t0] TOK_SEMICOLON _); [eapply (c_one 0 0 [six_t0] _); [eapply (from8 12 0 0 2 2 [six_t0] _); [side|side|side|side|eapply (lift 0 8 2 2 10 10 [six_t0] _); [side|side|side|side|eapply (x_mem _ 10 10 [six_t0] _); [eapply (m_intro _ _ 10 10 10 [six_t0] [] _ _); [eapply (p_const 10 six_t0 _); [exact num_5|side]|eapply (t_none _ 10 _)]]]]]|side|side|side]|side|side|side|side|exact (or_introl eq_refl)|eapply (ss_nil TOK_EOF 0)].
Qed.
Definition prog_five : prog := {| g_path := bs "e.js"; g_src := five_src; g_toks := five_toks; g_tree := five_tree |}.
Definition prog_six : prog := {| g_path := bs "f.js"; g_src := six_src; g_toks := six_toks; g_tree := six_tree |}.
Definition some_acts : list act := [Run prog_five; Run prog_six; Call 0 1 [1%nat; 1%nat]; Call 0 1 [2%nat; 1%nat]].
Example acts_well_formed : Forall well_formed (programs some_acts).
Proof.
  apply Forall_cons; [|apply Forall_cons; [|apply Forall_nil]].
  - split; [unfold c_text; cbn [prog_five g_src]; unfold five_src; c_bytes|]. split; [apply five_source|eexists; apply five_stmts].
  - split; [unfold c_text; cbn [prog_six g_src]; unfold six_src; c_bytes|]. split; [apply six_source|eexists; apply six_stmts].
Qed.
(** The interpreter's values and the engine's: 30 and 180. *)
Example acts_value : option_map (fun r => map (fun v => match v with VPrim a => Some a | _ => None end) (fst r)) (run_acts 10 50 [0%nat] undef some_acts [] start_state) =
  Some [None; Some (ANum (vnum 5)); Some (ANum (vnum 30)); Some (ANum (vnum 180))].
Proof. vm_compute. reflexivity. Qed.
Example acts_engine : (r <- exec_acts 1500 Props_Vm.w0 new_engine some_acts [] ;; OK (tl (snd r))) = OK [vnum 5; vnum 30; vnum 180].
Proof. vm_compute. reflexivity. Qed.
(** The hypotheses of [host_session], and with them those of [apply_result], are met. *)
Example acts_holds : exists m codes W vs s', create = OK m /\ Forall2 compiles (programs some_acts) codes /\ few 50 some_acts /\
  run_acts 10 50 [0%nat] undef some_acts [] start_state = Some (vs, s') /\
  in_state m W start_state [0%nat] undef /\ stack_room m 51 /\ code_room m (total codes).
Proof.
  destruct (created_engine 1000000 ltac:(lia)) as (m & W & E & I & S1 & S2 & S3 & C).
  destruct (run_acts 10 50 [0%nat] undef some_acts [] start_state) as [[vs s']|] eqn:R; [|pose proof acts_value as V; rewrite R in V; discriminate V].
  exists m, [code_of prog_five; code_of prog_six], W, vs, s'. split; [exact E|]. split.
  { apply Forall2_cons; [apply (compiles_at 500); vm_compute; reflexivity|]. apply Forall2_cons; [apply (compiles_at 500); vm_compute; reflexivity|constructor]. }
  split; [unfold few, some_acts; repeat constructor; cbn [length]; lia|].
  split; [reflexivity|]. split; [exact I|]. split.
  - unfold stack_room. rewrite S1, S2, S3. vm_compute. repeat split; reflexivity.
  - exists []. split; [exact C|]. vm_compute. reflexivity.
Qed.
(** A function without a return does not give the host undefined. *)
Definition noop_src : list Z := bs "let f = function() {};".
Definition noop_made : vm * Z := Props_Obj.R_get (new_engine, 0) (mjs_exec 300 Props_Vm.w0 new_engine (bs "g.js") noop_src).
Definition noop_called : vm * Z := Props_Obj.R_get (new_engine, 0) (apply 300 Props_Vm.w0 (fst noop_made) (snd noop_made) V_UNDEFINED []).
Theorem host_call_without_return_is_undefined_refuted : exists src m f m' r,
  mjs_exec 300 Props_Vm.w0 new_engine (bs "g.js") src = OK (m, f) /\ m_err m = E_OK /\ is_function f = true /\
  apply 300 Props_Vm.w0 m f V_UNDEFINED [] = OK (m', r) /\ m_err m' = E_OK /\ r = f /\ r <> V_UNDEFINED.
Proof.
  exists noop_src, (fst noop_made), (snd noop_made), (fst noop_called), (snd noop_called).
  split; [vm_compute; reflexivity|]. split; [vm_compute; reflexivity|]. split; [vm_compute; reflexivity|].
  split; [vm_compute; reflexivity|]. split; [vm_compute; reflexivity|]. split; [vm_compute; reflexivity|]. vm_compute. discriminate.
Qed.
Print Assumptions host_call_without_return_is_undefined_refuted.
