(** f.apply(null, [7, 2]): the hypotheses of the theorems about f.apply are met. *)
From Verif Require Import Base Value_Model Value_Spec Str_Model Str_Spec TokNum_Model Txt_Model Tok_Model Tok_Spec Num_Model NumText_Spec SUtil_Spec Lit_Proofs Obj_Model Obj_Spec Bcode_Model Bcode_Proofs Vm_Model Vm_Spec Parse_Model Run_Model Expr_Spec Run_Spec
  Tok_Proofs2 Obj_Proofs Obj_Proofs2 Props_Obj Props_Vm Props_Expr Lang_Spec Lang_Code Lang_Spec2 Lang_Exec1 Lang_Exec2 Lang_Exec10 Lang_Spec3 Lang_Spec4 Lang_Apply Props_Lang Props_Lang2 Props_Lang3 Load_Spec Meth_Spec Props_Meth.
From Coq Require Import ZifyBool.
Ltac Zify.zify_post_hook ::= idtac.

Lemma lit_7 : literal (bs "7") (scale10 7 0).
Proof. apply (lit_dec (bs "7") [] [] [] 0); [split; [discriminate|numbers]|left; split; reflexivity|left; split; reflexivity]. Qed.
Lemma num_7 : leaf (tk1 TOK_NUM "7") (EInt 7).
Proof. apply (leaf_int (tk1 TOK_NUM "7") _ 7 eq_refl lit_7); [apply (W_down _ false (7 * 2 ^ 50)%positive (-50) 7); [vm_compute; reflexivity|lia|reflexivity]|lia]. Qed.
Definition meth_src : list Z := bs "let x = [7, 2]; let f = function(a, b) { return a - b; }; f;".
Definition meth_tree : list stmt :=
  [(SLet [((bs "x"), Some (XArr [(XConst (EInt 7)); (XConst (EInt 2))]))]);
   (SLet [((bs "f"), Some (XFun None [(bs "a"); (bs "b")] [(SReturn (Some (XBin TOK_MINUS (XVar (bs "a")) (XVar (bs "b")))))]))]);
   (SExprs [(XVar (bs "f"))])].
Definition meth_t0 : tokn := tk1 TOK_KEYWORD_LET "let".
Definition meth_t1 : tokn := tk1 TOK_IDENT "x".
Definition meth_t2 : tokn := tk1 TOK_ASSIGN "=".
Definition meth_t3 : tokn := tk1 TOK_OPEN_BRACKET "[".
Definition meth_t4 : tokn := tk1 TOK_NUM "7".
Definition meth_t5 : tokn := tk1 TOK_COMMA ",".
Definition meth_t6 : tokn := tk1 TOK_NUM "2".
Definition meth_t7 : tokn := tk1 TOK_CLOSE_BRACKET "]".
Definition meth_t8 : tokn := tk1 TOK_SEMICOLON ";".
Definition meth_t9 : tokn := tk1 TOK_KEYWORD_LET "let".
Definition meth_t10 : tokn := tk1 TOK_IDENT "f".
Definition meth_t11 : tokn := tk1 TOK_ASSIGN "=".
Definition meth_t12 : tokn := tk1 TOK_KEYWORD_FUNCTION "function".
Definition meth_t13 : tokn := tk1 TOK_OPEN_PAREN "(".
Definition meth_t14 : tokn := tk1 TOK_IDENT "a".
Definition meth_t15 : tokn := tk1 TOK_COMMA ",".
Definition meth_t16 : tokn := tk1 TOK_IDENT "b".
Definition meth_t17 : tokn := tk1 TOK_CLOSE_PAREN ")".
Definition meth_t18 : tokn := tk1 TOK_OPEN_CURLY "{".
Definition meth_t19 : tokn := tk1 TOK_KEYWORD_RETURN "return".
Definition meth_t20 : tokn := tk1 TOK_IDENT "a".
Definition meth_t21 : tokn := tk1 TOK_MINUS "-".
Definition meth_t22 : tokn := tk1 TOK_IDENT "b".
Definition meth_t23 : tokn := tk1 TOK_SEMICOLON ";".
Definition meth_t24 : tokn := tk1 TOK_CLOSE_CURLY "}".
Definition meth_t25 : tokn := tk1 TOK_SEMICOLON ";".
Definition meth_t26 : tokn := tk1 TOK_IDENT "f".
Definition meth_t27 : tokn := tk1 TOK_SEMICOLON ";".
Definition meth_toks : list tokn := [meth_t0; meth_t1; meth_t2; meth_t3; meth_t4; meth_t5; meth_t6; meth_t7; meth_t8; meth_t9; meth_t10; meth_t11; meth_t12; meth_t13; meth_t14; meth_t15; meth_t16; meth_t17; meth_t18; meth_t19; meth_t20; meth_t21; meth_t22; meth_t23; meth_t24; meth_t25; meth_t26; meth_t27].
Lemma meth_source : source meth_src meth_toks.
Proof.
  unfold meth_src, meth_toks.
  keyword (bs "let") (bs " x = [7, 2]; let f = function(a, b) { return a - b; }; f;").
  apply source_blank; [cbn; tauto|].
  word (bs "x") (bs " = [7, 2]; let f = function(a, b) { return a - b; }; f;"). { intros n H. vm_compute in H. intuition discriminate. }
  apply source_blank; [cbn; tauto|].
  opr (bs "=") (bs " [7, 2]; let f = function(a, b) { return a - b; }; f;") TOK_ASSIGN.
  apply source_blank; [cbn; tauto|].
  opr (bs "[") (bs "7, 2]; let f = function(a, b) { return a - b; }; f;") TOK_OPEN_BRACKET.
  number (bs "7") (bs ", 2]; let f = function(a, b) { return a - b; }; f;") lit_7.
  opr (bs ",") (bs " 2]; let f = function(a, b) { return a - b; }; f;") TOK_COMMA.
  apply source_blank; [cbn; tauto|].
  number (bs "2") (bs "]; let f = function(a, b) { return a - b; }; f;") lit_2.
  opr (bs "]") (bs "; let f = function(a, b) { return a - b; }; f;") TOK_CLOSE_BRACKET.
  opr (bs ";") (bs " let f = function(a, b) { return a - b; }; f;") TOK_SEMICOLON.
  apply source_blank; [cbn; tauto|].
  keyword (bs "let") (bs " f = function(a, b) { return a - b; }; f;").
  apply source_blank; [cbn; tauto|].
  word (bs "f") (bs " = function(a, b) { return a - b; }; f;"). { intros n H. vm_compute in H. intuition discriminate. }
  apply source_blank; [cbn; tauto|].
  opr (bs "=") (bs " function(a, b) { return a - b; }; f;") TOK_ASSIGN.
  apply source_blank; [cbn; tauto|].
  keyword (bs "function") (bs "(a, b) { return a - b; }; f;").
  opr (bs "(") (bs "a, b) { return a - b; }; f;") TOK_OPEN_PAREN.
  word (bs "a") (bs ", b) { return a - b; }; f;"). { intros n H. vm_compute in H. intuition discriminate. }
  opr (bs ",") (bs " b) { return a - b; }; f;") TOK_COMMA.
  apply source_blank; [cbn; tauto|].
  word (bs "b") (bs ") { return a - b; }; f;"). { intros n H. vm_compute in H. intuition discriminate. }
  opr (bs ")") (bs " { return a - b; }; f;") TOK_CLOSE_PAREN.
  apply source_blank; [cbn; tauto|].
  opr (bs "{") (bs " return a - b; }; f;") TOK_OPEN_CURLY.
  apply source_blank; [cbn; tauto|].
  keyword (bs "return") (bs " a - b; }; f;").
  apply source_blank; [cbn; tauto|].
  word (bs "a") (bs " - b; }; f;"). { intros n H. vm_compute in H. intuition discriminate. }
  apply source_blank; [cbn; tauto|].
  opr (bs "-") (bs " b; }; f;") TOK_MINUS.
  apply source_blank; [cbn; tauto|].
  word (bs "b") (bs "; }; f;"). { intros n H. vm_compute in H. intuition discriminate. }
  opr (bs ";") (bs " }; f;") TOK_SEMICOLON.
  apply source_blank; [cbn; tauto|].
  opr (bs "}") (bs "; f;") TOK_CLOSE_CURLY.
  opr (bs ";") (bs " f;") TOK_SEMICOLON.
  apply source_blank; [cbn; tauto|].
  word (bs "f") (bs ";"). { intros n H. vm_compute in H. intuition discriminate. }
  opr (bs ";") (bs "") TOK_SEMICOLON.
  apply src_end, gap_end; [intros c r H; discriminate|no_start|no_start].
Qed.
Lemma meth_stmts : stmts TOK_EOF 0 1 meth_toks meth_tree.
Proof.
  unfold meth_toks, meth_tree.
  eapply (ss_cons TOK_EOF 0 1 0 [meth_t0; meth_t1; meth_t2; meth_t3; meth_t4; meth_t5; meth_t6; meth_t7] [meth_t8] [meth_t9; meth_t10; meth_t11; meth_t12; meth_t13; meth_t14; meth_t15; meth_t16; meth_t17; meth_t18; meth_t19; meth_t20; meth_t21; meth_t22; meth_t23; meth_t24; meth_t25; meth_t26; meth_t27] _ _); [eapply (s_let 0 0 meth_t0 [meth_t1; meth_t2; meth_t3; meth_t4; meth_t5; meth_t6; meth_t7] TOK_SEMICOLON _); [side|eapply (l_one 0 0 meth_t1 [meth_t2; meth_t3; meth_t4; meth_t5; meth_t6; meth_t7] _); [side|eapply (i_some 0 0 meth_t2 [meth_t3; meth_t4; meth_t5; meth_t6; meth_t7] _); [side|eapply (from8 12 0 0 2 2 [meth_t3; meth_t4; meth_t5; meth_t6; meth_t7] _); [side|side|side|side|eapply (lift 0 8 2 2 10 10 [meth_t3; meth_t4; meth_t5; meth_t6; meth_t7] _); [side|side|side|side|eapply (x_mem _ 10 10 [meth_t3; meth_t4; meth_t5; meth_t6; meth_t7] _); [eapply (m_intro _ _ 10 10 10 [meth_t3; meth_t4; meth_t5; meth_t6; meth_t7] [] _ _); [eapply (p_arr 10 10 meth_t3 [meth_t4; meth_t5; meth_t6] meth_t7 _); [side|side|eapply (a_more 10 10 10 [meth_t4] meth_t5 [meth_t6] _ _); [eapply (from8 12 10 10 12 12 [meth_t4] _); [side|side|side|side|eapply (lift 0 8 12 12 20 20 [meth_t4] _); [side|side|side|side|eapply (x_mem _ 20 20 [meth_t4] _); [eapply (m_intro _ _ 20 20 20 [meth_t4] [] _ _); [eapply (p_const 20 meth_t4 _); [exact num_7|side]|eapply (t_none _ 20 _)]]]]|side|eapply (a_one 10 10 [meth_t6] _); [eapply (from8 12 10 10 12 12 [meth_t6] _); [side|side|side|side|eapply (lift 0 8 12 12 20 20 [meth_t6] _); [side|side|side|side|eapply (x_mem _ 20 20 [meth_t6] _); [eapply (m_intro _ _ 20 20 20 [meth_t6] [] _ _); [eapply (p_const 20 meth_t6 _); [exact num_2|side]|eapply (t_none _ 20 _)]]]]]]]|eapply (t_none _ 10 _)]]]]]]|side]|side|side|side|side|right; side|eapply (ss_cons TOK_EOF 0 1 1 [meth_t9; meth_t10; meth_t11; meth_t12; meth_t13; meth_t14; meth_t15; meth_t16; meth_t17; meth_t18; meth_t19; meth_t20; meth_t21; meth_t22; meth_t23; meth_t24] [meth_t25] [meth_t26; meth_t27] _ _); [eapply (s_let 0 1 meth_t9 [meth_t10; meth_t11; meth_t12; meth_t13; meth_t14; meth_t15; meth_t16; meth_t17; meth_t18; meth_t19; meth_t20; meth_t21; meth_t22; meth_t23; meth_t24] TOK_SEMICOLON _); [side|eapply (l_one 0 1 meth_t10 [meth_t11; meth_t12; meth_t13; meth_t14; meth_t15; meth_t16; meth_t17; meth_t18; meth_t19; meth_t20; meth_t21; meth_t22; meth_t23; meth_t24] _); [side|eapply (i_some 0 1 meth_t11 [meth_t12; meth_t13; meth_t14; meth_t15; meth_t16; meth_t17; meth_t18; meth_t19; meth_t20; meth_t21; meth_t22; meth_t23; meth_t24] _); [side|eapply (from8 12 0 1 2 3 [meth_t12; meth_t13; meth_t14; meth_t15; meth_t16; meth_t17; meth_t18; meth_t19; meth_t20; meth_t21; meth_t22; meth_t23; meth_t24] _); [side|side|side|side|eapply (lift 0 8 2 3 10 11 [meth_t12; meth_t13; meth_t14; meth_t15; meth_t16; meth_t17; meth_t18; meth_t19; meth_t20; meth_t21; meth_t22; meth_t23; meth_t24] _); [side|side|side|side|eapply (x_mem _ 10 11 [meth_t12; meth_t13; meth_t14; meth_t15; meth_t16; meth_t17; meth_t18; meth_t19; meth_t20; meth_t21; meth_t22; meth_t23; meth_t24] _); [eapply (m_intro _ _ 10 11 11 [meth_t12; meth_t13; meth_t14; meth_t15; meth_t16; meth_t17; meth_t18; meth_t19; meth_t20; meth_t21; meth_t22; meth_t23; meth_t24] [] _ _); [eapply (p_fun 10 11 meth_t12 [] _ meth_t13 [meth_t14; meth_t15; meth_t16] _ meth_t17 meth_t18 [meth_t19; meth_t20; meth_t21; meth_t22; meth_t23] _ meth_t24); [side|exact fn_none|side|exact (pa_more meth_t14 meth_t15 [meth_t16] _ eq_refl eq_refl (pa_one meth_t16 eq_refl))|side|side|side|side|eapply (ss_cons TOK_CLOSE_CURLY 11 11 11 [meth_t19; meth_t20; meth_t21; meth_t22] [meth_t23] [] _ _); [eapply (s_return 11 11 meth_t19 [meth_t20; meth_t21; meth_t22] TOK_SEMICOLON _); [side|eapply (from8 12 11 11 13 13 [meth_t20; meth_t21; meth_t22] _); [side|side|side|side|eapply (lift 2 8 13 13 19 19 [meth_t20; meth_t21; meth_t22] _); [side|side|side|side|eapply (x_level 2 19 19 20 [meth_t20] [meth_t21; meth_t22] _ _); [side|side|eapply (lift 0 1 20 20 21 21 [meth_t20] _); [side|side|side|side|eapply (x_mem _ 21 21 [meth_t20] _); [eapply (m_intro _ _ 21 21 21 [meth_t20] [] _ _); [eapply (p_var 21 meth_t20); [side]|eapply (t_none _ 21 _)]]]|eapply (o_one 2 20 20 21 _ meth_t21 [meth_t22] [] _ _); [side|side|eapply (lift 0 1 21 21 22 22 [meth_t22] _); [side|side|side|side|eapply (x_mem _ 22 22 [meth_t22] _); [eapply (m_intro _ _ 22 22 22 [meth_t22] [] _ _); [eapply (p_var 22 meth_t22); [side]|eapply (t_none _ 22 _)]]]|eapply (o_none 2 21 _)]]]]|side]|side|side|side|side|exact (or_introl eq_refl)|eapply (ss_nil TOK_CLOSE_CURLY 11)]]|eapply (t_none _ 11 _)]]]]]]|side]|side|side|side|side|right; side|eapply (ss_cons TOK_EOF 1 1 1 [meth_t26] [meth_t27] [] _ _); [eapply (s_exprs 1 1 [meth_t26] TOK_SEMICOLON _); [eapply (c_one 1 1 [meth_t26] _); [eapply (from8 12 1 1 3 3 [meth_t26] _); [side|side|side|side|eapply (lift 0 8 3 3 11 11 [meth_t26] _); [side|side|side|side|eapply (x_mem _ 11 11 [meth_t26] _); [eapply (m_intro _ _ 11 11 11 [meth_t26] [] _ _); [eapply (p_var 11 meth_t26); [side]|eapply (t_none _ 11 _)]]]]]|side|side|side]|side|side|side|side|exact (or_introl eq_refl)|eapply (ss_nil TOK_EOF 1)]]].
Qed.
Definition prog_meth : prog := {| g_path := bs "e.js"; g_src := meth_src; g_toks := meth_toks; g_tree := meth_tree |}.
Example meth_well_formed : well_formed prog_meth.
Proof. split; [unfold Tok_Spec.c_text; cbn [prog_meth g_src]; unfold meth_src; c_bytes|]. split; [apply meth_source|eexists; apply meth_stmts]. Qed.
Definition meth_run : option (val * state) := run_program 10 50 [0%nat] undef meth_tree start_state.
Definition meth_fun : val := match meth_run with Some (v, _) => v | None => undef end.
Definition meth_state : state := match meth_run with Some (_, s) => s | None => start_state end.
Definition applying (m : vm) (f A : Z) : vm :=
  set_this (set_call (set_stack m {| sk_live := [A; V_NULL; foreign_fn F_APPLY]; sk_stale := []; sk_cap := 0 |}) {| sk_live := [vnum 1]; sk_stale := []; sk_cap := 0 |}) f.
Lemma digit_name d : 0 <= d <= 9 -> numeral 10 d [48 + d].
Proof.
  intros H. split; [discriminate|]. split; [constructor; [|constructor]; split; [left; lia|unfold digit_of; replace (48 + d <? 58) with true by lia; lia]|].
  split; [cbn [num_value]; unfold digit_of; replace (48 + d <? 58) with true by lia; lia|]. cbn [hd]. intros E. f_equal. exact E.
Qed.
Example method_apply_holds : exists m W xs, called m xs (foreign_fn F_APPLY) [] [] /\ in_state m W meth_state [0%nat] meth_fun /\
  Forall2 (vrep (m_code m) (m_ext m) W) xs [VPrim ANull; VArr 1] /\ spread meth_state [VPrim ANull; VArr 1] [vint 7; vint 2] /\ stack_room m 51 /\
  option_map fst (host_call 10 50 [0%nat] meth_fun (VPrim ANull) [vint 7; vint 2] meth_state) = Some (vint 5).
Proof.
  destruct (created_engine 1000000 ltac:(lia)) as (m & W & E & I & S1 & S2 & S3 & C).
  assert (R : run_program 10 50 [0%nat] undef (g_tree prog_meth) start_state = Some (meth_fun, meth_state)) by (vm_compute; reflexivity).
  destruct (program_result Props_Vm.w0 m W start_state [0%nat] undef prog_meth (code_of prog_meth) 10 50 meth_fun meth_state meth_well_formed) as (f & m' & r & W' & _ & _ & St & _ & Vr & Ss & _).
  { apply (compiles_at 500). vm_compute. reflexivity. }
  { exact R. }
  { exists []. split; [exact C|]. vm_compute. reflexivity. }
  { unfold stack_room. rewrite S1, S2, S3. vm_compute. repeat split; reflexivity. }
  { exact I. }
  destruct St as (H1 & H2 & H3 & _). destruct Ss as (_ & _ & _ & T4 & T5 & _).
  exists (applying m' r (arr_at W' 1)), W', [V_NULL; arr_at W' 1].
  split; [repeat split; vm_compute; reflexivity|]. split; [exact (conj H1 (conj H2 (conj H3 Vr)))|]. split.
  { constructor; [reflexivity|]. constructor; [|constructor]. split; [|reflexivity]. rewrite (rel_len _ _ W' _ H2). apply Nat.ltb_lt. vm_compute. reflexivity. }
  split.
  { split; [vm_compute; reflexivity|]. intros [|[|j]] v Hv; [injection Hv as <-|injection Hv as <-|destruct j; discriminate Hv].
    - exists [48 + 0]. split; [apply digit_name; lia|]. vm_compute. reflexivity.
    - exists [48 + 1]. split; [apply digit_name; lia|]. vm_compute. reflexivity. }
  split; [|vm_compute; reflexivity]. unfold stack_room, applying. cbn [set_this set_call set_stack m_stack m_scopes m_loops sk_live]. rewrite T4, T5, S2, S3. vm_compute. repeat split; reflexivity.
Qed.
(** On the engine: this and the arguments arrive. *)
Example method_apply_engine : (r <- mjs_exec 1500 Props_Vm.w0 new_engine (bs "e.js") (bs "let f = function(a, b) { return this.k + a - b; }; f.apply({k: 100}, [7, 2]);") ;; OK (snd r)) = OK (vnum 105).
Proof. vm_compute. reflexivity. Qed.
