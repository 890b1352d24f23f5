(** The parser emits the code of the tree: statements. *)
From Verif Require Import Base BaseFacts Value_Model Str_Model Str_Spec Ops_Model TokNum_Model Num_Model Txt_Model Tok_Spec Tok_Model
  Bcode_Model Bcode_Proofs Str_Proofs Parse_Model Parse_Proofs Expr_Spec Expr_Proofs Lit_Proofs Expr_Proofs1 Expr_Proofs2 Props_Str Str_Proofs3 Lang_Spec
  Lang_Proofs1 Lang_Proofs2 Lang_Proofs3 Lang_Proofs4 Lang_Proofs5.
Ltac Zify.zify_post_hook ::= Z.div_mod_to_equations.

Lemma seqcode_more c cs : cs <> [] -> seqcode (c :: cs) = c ++ OP_DROP :: seqcode cs.
Proof. destruct cs; [contradiction|reflexivity]. Qed.
Lemma map_ne {A B} (f : A -> B) l : l <> [] -> map f l <> [].
Proof. destruct l; [contradiction|discriminate]. Qed.
Ltac wk R := eapply reach_weaken; [exact R|]; intros ? ?; cbv beta in *.

(** ** Lists of expressions, let *)
Lemma Pc_one p q ts e : P_xp 12 p q ts e -> P_commas p q ts [e].
Proof.
  intros [_ He]. split; [discriminate|]. intros s t k rest a b S A P R N. pose proof (ahead_adv _ _ _ A) as A1. destruct (ahead_next _ _ _ A1) as (_ & _ & _ & Tk1 & _).
  apply reach_parse. cbn [rule]. unfold parse_comma. eapply (reach_rec (fun f => parse f NAssign s)); [apply (He _ _ _ _ _ _ S A P); lia|].
  intros s1 S1; cbv beta in *. rewrite (st_tk _ _ _ _ _ S1), Tk1. replace (lx_tok k =? TOK_COMMA) with false by lia. fin S1. cbn [map]. unfold seqcode, dropcode. lapp.
Qed.
Lemma Pc_more p q q1 ts c ts' e l : P_xp 12 p q1 ts e -> lx_tok c = TOK_COMMA -> P_commas q1 q ts' l -> P_commas p q (ts ++ c :: ts') (e :: l).
Proof.
  intros [_ He] Kc [NE Hl]. split; [discriminate|]. intros s t k rest a b S A P R N. ja A. pose proof (ahead_adv _ _ _ A) as A1. destruct (ahead_next _ _ _ A1) as (_ & P1 & A2 & Tk1 & _).
  apply reach_parse. cbn [rule]. unfold parse_comma. eapply (reach_rec (fun f => parse f NAssign s)); [apply (He _ _ _ _ _ _ S A P); rk|].
  intros s1 S1; cbv beta in *. rewrite (st_tk _ _ _ _ _ S1), Tk1, Kc. tokc. eb. nx A1.
  eapply reach_weaken; [apply (Hl _ _ _ _ _ _ H0 A2); [pk P1 Kc|exact R|exact N]|]. intros s' H'; cbv beta in *.
  eapply st_eq; [exact H'|tadv|cbn [map]; rewrite seqcode_more by (apply map_ne; exact NE); lapp|reflexivity|reflexivity].
Qed.
Lemma Pi_none p : P_init p p [] None.
Proof.
  intros x s t k rest a b S A R. cbn [app] in A. aprev A. unfold let_init. tkr. rewrite Tk.
  replace (lx_tok k =? TOK_ASSIGN) with false; [eb; fin H|]. symmetry. apply Z.eqb_neq. intros E. rewrite E in R. vm_compute in R. discriminate.
Qed.
Lemma Pi_some p q t0 ts e : lx_tok t0 = TOK_ASSIGN -> P_xp 12 p q ts e -> P_init p q (t0 :: ts) (Some e).
Proof.
  intros K [_ He] x s t k rest a b S A R. cbn [app] in A. aprev A. unfold let_init. tkr. rewrite Tk, K. tokc. nx A. eb. eb. eb.
  eapply (reach_rec (fun f => parse f NAssign s3)); [apply (He _ _ _ _ _ _ H2 A0); [rewrite Pv, K; apply prev_assign; vm_compute; tauto|lia]|].
  intros s4 S4; cbv beta in *. eop. fin H3. unfold initcode, varcode. lapp.
Qed.
(** One declaration, up to what follows it. *)
Lemma let_loop_eq rec s : parse_let_loop rec s =
  (s0 <- OK s ;; s1 <-- expect s TOK_IDENT ;;
   s <- e_byte s1 OP_PUSH_STR ;; s <- e_str s (tok_text (p_t s0)) ;; s <- e_bytes s [OP_PUSH_SCOPE; OP_CREATE] ;;
   s <-- let_init rec (tok_text (p_t s0)) s ;;
   s <- (if tk s =? TOK_COMMA then s <- e_byte s OP_DROP ;; pnext1 s else OK s) ;;
   if (tk s =? TOK_SEMICOLON) || (tk s =? TOK_EOF) then pok s else rec NLetLoop s).
Proof. reflexivity. Qed.
Lemma let_parsed p q n ts e s t k rest a b (K : nat -> ps -> pres) Q : lx_tok n = TOK_IDENT -> P_init p q ts e -> st s t a b p -> ahead t (n :: ts ++ k :: rest) ->
  lrank (lx_tok k) = 13%nat ->
  (forall s', st s' (adv (nxt t) ts) (a ++ letcode (lx_text n, e)) b q -> reach (fun f => K f s') Q) ->
  reach (fun f => (s0 <- OK s ;; s1 <-- expect s TOK_IDENT ;;
   s <- e_byte s1 OP_PUSH_STR ;; s <- e_str s (tok_text (p_t s0)) ;; s <- e_bytes s [OP_PUSH_SCOPE; OP_CREATE] ;;
   s <-- let_init (parse f) (tok_text (p_t s0)) s ;; K f s)) Q.
Proof.
  intros Kn Hi S A R HK. aprev A. cbnb. pose proof S as (E1 & _ & _). rewrite E1, Tx by (rewrite Kn; discriminate). expt A Kn. eb. eb. cbn [e_bytes]. eb. eb.
  eapply reach_rec; [apply (Hi _ _ _ _ _ _ _ H3 A0 R)|]. intros s5 S5; cbv beta in *. apply HK.
  eapply st_eq; [exact S5|reflexivity|unfold letcode, declcode; lapp|reflexivity|reflexivity].
Qed.
Lemma semi_eof_rank k : lx_tok k = TOK_SEMICOLON \/ lx_tok k = TOK_EOF ->
  lrank (lx_tok k) = 13%nat /\ (lx_tok k =? TOK_COMMA) = false /\ (lx_tok k =? TOK_SEMICOLON) || (lx_tok k =? TOK_EOF) = true.
Proof. intros [-> | ->]; repeat split; vm_compute; reflexivity. Qed.
Lemma Pl_one p q n ts e : lx_tok n = TOK_IDENT -> P_init p q ts e -> P_lets p q (n :: ts) [(lx_text n, e)].
Proof.
  intros Kn Hi. split; [discriminate|]. split; [exact Kn|]. intros s t k rest a b S A Hk. destruct (semi_eof_rank _ Hk) as (R & NC & SE).
  apply reach_parse. cbn [rule]. eapply reach_ext; [intros f; apply let_loop_eq|].
  eapply let_parsed; [exact Kn|exact Hi|exact S|exact A|exact R|]. intros s1 S1.
  pose proof (ahead_adv (n :: ts) _ _ A) as A1. cbn [adv] in A1. destruct (ahead_next _ _ _ A1) as (_ & _ & _ & Tk1 & _).
  rewrite (st_tk _ _ _ _ _ S1), Tk1, NC. cbnb. rewrite (st_tk _ _ _ _ _ S1), Tk1, SE. fin S1. cbn [map]. unfold seqcode, dropcode. lapp.
Qed.
Lemma Pl_more p q q1 n ts c ts' e l : lx_tok n = TOK_IDENT -> P_init p q1 ts e -> lx_tok c = TOK_COMMA -> P_lets q1 q ts' l ->
  P_lets p q (n :: ts ++ c :: ts') ((lx_text n, e) :: l).
Proof.
  intros Kn Hi Kc (NE & Hd & Hl). split; [discriminate|]. split; [exact Kn|]. intros s t k rest a b S A Hk. ja A.
  apply reach_parse. cbn [rule]. eapply reach_ext; [intros f; apply let_loop_eq|].
  eapply let_parsed; [exact Kn|exact Hi|exact S|exact A|rewrite Kc; vm_compute; reflexivity|]. intros s1 S1.
  pose proof (ahead_adv (n :: ts) _ _ A) as A1. cbn [adv] in A1. destruct (ahead_next _ _ _ A1) as (_ & _ & A2 & Tk1 & _).
  rewrite (st_tk _ _ _ _ _ S1), Tk1, Kc. tokc. eb. nx A1. rewrite (st_tk _ _ _ _ _ H0), (ahead_hd _ _ _ _ A2).
  rewrite (hd_ne _ _ TOK_EOF) by (rewrite Hd; discriminate). rewrite Hd. tokc. cbn [orb].
  eapply reach_weaken; [apply (Hl _ _ _ _ _ _ H0 A2 Hk)|]. intros s' H'; cbv beta in *.
  eapply st_eq; [exact H'|tadv|cbn [map]; rewrite seqcode_more by (apply map_ne; exact NE); lapp|reflexivity|reflexivity].
Qed.
Lemma slet_code l : cst (SLet l) = seqcode (map letcode l).
Proof. cbn [cst]. f_equal. Qed.

(** ** Simple statements *)
Lemma Ps_empty p t0 k0 : lx_tok t0 = TOK_SEMICOLON -> P_sp p p [t0] k0 SEmpty.
Proof.
  intros K. split; [discriminate|]. intros s t k rest a b S A _ P. cbn [app] in A. aprev A. apply reach_parse. cbn [rule]. unfold parse_statement. tkr. rewrite Tk, K. tokc. eb. nx A. fin H0.
Qed.
Lemma Ps_break p t0 k0 : lx_tok t0 = TOK_KEYWORD_BREAK -> P_sp p p [t0] k0 SBreak.
Proof.
  intros K. split; [discriminate|]. intros s t k rest a b S A _ P. cbn [app] in A. aprev A. apply reach_parse. cbn [rule]. unfold parse_statement. tkr. rewrite Tk, K. tokc. cbn [e_bytes]. eb. eb. nx A. fin H1.
Qed.
Lemma Ps_continue p t0 k0 : lx_tok t0 = TOK_KEYWORD_CONTINUE -> P_sp p p [t0] k0 SContinue.
Proof.
  intros K. split; [discriminate|]. intros s t k rest a b S A _ P. cbn [app] in A. aprev A. apply reach_parse. cbn [rule]. unfold parse_statement. tkr. rewrite Tk, K. tokc. eb. nx A. fin H0.
Qed.
Lemma Ps_exprs p q ts k0 l : P_commas p q ts l -> ~ In (hd_tok ts k0) stmt_words -> ~ In k0 joins -> k0 <> TOK_COMMA -> ts <> [] -> P_sp p q ts k0 (SExprs l).
Proof.
  intros [_ Hl] Nw Nj Nc NE. split; [exact NE|]. intros s t k rest a b S A K P.
  apply reach_parse. cbn [rule]. unfold parse_statement. tkr. rewrite (ahead_hd _ _ _ _ A), K.
  assert (F : forall x, In x stmt_words -> (hd_tok ts k0 =? x) = false) by (intros x I; apply Z.eqb_neq; intros E; apply Nw; rewrite E; exact I).
  rewrite !F by (vm_compute; tauto). replace (findtok refused (hd_tok ts k0)) with false.
  - apply (Hl _ _ _ _ _ _ S A P); [rewrite K; apply lrank_top; exact Nj|rewrite K; exact Nc].
  - symmetry. apply findtok_out. intros I. apply Nw. unfold stmt_words. unfold refused in I. cbn [In] in *. tauto.
Qed.
Lemma Ps_let p q t0 ts k0 l : lx_tok t0 = TOK_KEYWORD_LET -> P_lets p q ts l -> k0 = TOK_SEMICOLON \/ k0 = TOK_EOF -> P_sp p q (t0 :: ts) k0 (SLet l).
Proof.
  intros Kt (_ & _ & Hl) Hk. split; [discriminate|]. intros s t k rest a b S A K P. cbn [app] in A. aprev A.
  apply reach_parse. cbn [rule]. unfold parse_statement. tkr. rewrite Tk, Kt. tokc. apply reach_parse. cbn [rule]. unfold parse_let. expt A Kt.
  cbn [adv]. rewrite slet_code. apply (Hl _ _ _ _ _ _ H A0). rewrite K. exact Hk.
Qed.
Lemma Ps_block p q lc ts rc k0 l : lx_tok lc = TOK_OPEN_CURLY -> lx_tok rc = TOK_CLOSE_CURLY -> p + 1 <= 512 ->
  P_stmts TOK_CLOSE_CURLY (p + 1) q ts l -> P_sp p q (lc :: ts ++ [rc]) k0 (SBlock l).
Proof.
  intros Kl Kr D IH. split; [discriminate|]. intros s t k rest a b S A K P. ja A. pose proof A as A'. aprev A.
  apply reach_parse. cbn [rule]. unfold parse_statement. tkr. rewrite Tk, Kl. tokc.
  eapply reach_weaken; [apply (block_parsed true _ _ _ _ _ _ _ _ k rest _ _ Kl Kr D IH S A')|]. intros s' H'; cbv beta iota in *.
  eapply st_eq; [exact H'|reflexivity|cbn [cst]; lapp|reflexivity|reflexivity].
Qed.

(** ** Return *)
Definition fails (n : nt) (s : ps) : Prop := exists f, forall f', (f <= f')%nat -> exists s', parse f' n s = OK (s', E_SYNTAX) /\ p_g s' = p_g s.
Definition ender (k : Z) : Prop := In k [TOK_SEMICOLON; TOK_CLOSE_CURLY; TOK_EOF].
Lemma fails_rule n s : (exists f, forall f', (f <= f')%nat -> exists s', rule (parse f') n s = OK (s', E_SYNTAX) /\ p_g s' = p_g s) -> fails n s.
Proof. intros (f & H). exists (Datatypes.S f). intros [|f'] Hf; [lia|]. cbn [parse]. apply H. lia. Qed.
Lemma fails_then n s (K : nat -> ps -> pres) : fails n s -> exists f, forall f', (f <= f')%nat -> exists s', andthen (parse f' n s) (K f') = OK (s', E_SYNTAX) /\ p_g s' = p_g s.
Proof. intros (f & H). exists f. intros f' Hf. destruct (H f' Hf) as (s' & -> & G). exists s'. split; [reflexivity|exact G]. Qed.
Lemma fails_literal s : ender (tk s) -> fails NLiteral s.
Proof.
  intros E. apply fails_rule. exists 0%nat. intros f' _. exists s. split; [|reflexivity]. cbn [rule]. unfold parse_literal. revert E. generalize (tk s). intros z E.
  unfold ender in E. in_cases E; reflexivity.
Qed.
Lemma fails_unary s : ender (tk s) -> fails NUnary s.
Proof.
  intros E. apply fails_rule. cbn [rule]. unfold parse_unary. assert (F : findtok s_unary_ops (tk s) = false) by (revert E; generalize (tk s); intros z E; unfold ender in E; in_cases E; reflexivity).
  rewrite F. cbn [bind]. rewrite F. apply (fails_then NPostfix). apply fails_rule. cbn [rule]. unfold parse_postfix. apply (fails_then NMem).
  apply fails_rule. cbn [rule]. unfold parse_call_dot_mem. apply (fails_then NLiteral). apply fails_literal. exact E.
Qed.
Lemma fails_level l : (l <= 10)%nat -> forall s, ender (tk s) -> fails (nt_of l) s.
Proof.
  induction l as [|l IH]; intros Hl s E; [apply fails_unary; exact E|].
  assert (X : exists f, forall f', (f <= f')%nat -> exists s', parse_ltr (parse f') (level_of (Datatypes.S l)) TOK_EOF s = OK (s', E_SYNTAX) /\ p_g s' = p_g s).
  { destruct (IH ltac:(lia) (with_depth s (p_depth s + 1)) E) as (f & H). exists f. intros f' Hf. rewrite parse_ltr_eq.
    destruct (DEPTH_LIMIT <? p_depth s + 1); [eexists; split; reflexivity|]. rewrite lower_of by lia. cbn [Nat.sub]. rewrite Nat.sub_0_r.
    destruct (H f' Hf) as (s' & -> & G). cbn [andthen undepth]. eexists. split; [reflexivity|exact G]. }
  apply fails_rule. destruct X as (f & H). exists f. intros f' Hf. specialize (H f' Hf). do 10 (destruct l as [|l]; [exact H|]). lia.
Qed.
Lemma fails_assign s : ender (tk s) -> fails NAssign s.
Proof.
  intros E. apply fails_rule. cbn [rule]. unfold parse_assignment. apply (fails_then (NTernary TOK_EOF)). apply fails_rule. cbn [rule]. unfold parse_ternary.
  apply (fails_then (NBin LLor TOK_EOF)). apply (fails_level 10 ltac:(lia) s E).
Qed.
Lemma revert_st s s' t a b d : st s t a b d -> p_g s' = p_g s -> st (pstate_revert s' s (zlen (g_code (p_g s)))) t a b d.
Proof.
  intros (E1 & (C1 & C2) & E2) G. split; [exact E1|]. split; [|exact E2]. split; cbn [pstate_revert p_g g_code g_cur]; [|exact C2].
  rewrite G, firstn_all2 by (unfold zlen; lia). exact C1.
Qed.
Lemma Ps_return0 p t0 k0 : lx_tok t0 = TOK_KEYWORD_RETURN -> In k0 [TOK_SEMICOLON; TOK_CLOSE_CURLY; TOK_EOF] -> P_sp p p [t0] k0 (SReturn None).
Proof.
  intros K Hk. split; [discriminate|]. intros s t k rest a b S A Kk P. cbn [app] in A. aprev A. apply reach_parse. cbn [rule]. unfold parse_statement. tkr. rewrite Tk, K. tokc.
  apply reach_parse. cbn [rule]. unfold parse_return. expt A K. cbv zeta.
  assert (En : ender (tk s0)) by (rewrite (st_tk _ _ _ _ _ H); destruct (ahead_next _ _ _ A0) as (_ & _ & _ & -> & _); rewrite Kk; exact Hk).
  destruct (fails_assign _ En) as (f & HF). destruct (HF f (Nat.le_refl _)) as (sf & _ & Gf).
  destruct (e_byte_st _ _ _ _ _ OP_PUSH_UNDEF (revert_st _ _ _ _ _ _ H Gf) ltac:(vm_compute; intuition congruence)) as (s1 & E1 & S1).
  destruct (e_byte_st _ _ _ _ _ OP_SETRETVAL S1 ltac:(vm_compute; intuition congruence)) as (s2 & E2 & S2).
  destruct (e_byte_st _ _ _ _ _ OP_RETURN S2 ltac:(vm_compute; intuition congruence)) as (s3 & E3 & S3).
  exists f, s3. split.
  - intros f' Hf. destruct (HF f' Hf) as (sf' & Ep & Gf'). rewrite Ep. cbnb. change (E_SYNTAX =? E_OK) with false. cbv iota.
    assert (Eq : pstate_revert sf' s0 (zlen (g_code (p_g s0))) = pstate_revert sf s0 (zlen (g_code (p_g s0)))) by (unfold pstate_revert; rewrite Gf, Gf'; reflexivity).
    rewrite Eq, E1. cbnb. cbn [e_bytes]. rewrite E2. cbnb. rewrite E3. reflexivity.
  - eapply st_eq; [exact S3|reflexivity|cbn [cst]; lapp|reflexivity|reflexivity].
Qed.
Lemma Ps_return p q t0 ts k0 e : lx_tok t0 = TOK_KEYWORD_RETURN -> P_xp 12 p q ts e -> ~ In k0 joins -> P_sp p q (t0 :: ts) k0 (SReturn (Some e)).
Proof.
  intros K [_ He] Nj. split; [discriminate|]. intros s t k rest a b S A Kk P. cbn [app] in A. aprev A. apply reach_parse. cbn [rule]. unfold parse_statement. tkr. rewrite Tk, K. tokc.
  apply reach_parse. cbn [rule]. unfold parse_return. expt A K. cbv zeta.
  eapply (reach_rec2 (fun f => parse f NAssign s0)); [apply (He _ _ _ _ _ _ H A0); [pk Pv K|rewrite Kk, (lrank_top _ Nj); lia]|].
  intros s1 S1; cbv beta iota in *. change (E_OK =? E_OK) with true. cbv iota. cbnb. cbn [e_bytes]. eb. eb. fin H1.
Qed.

(** ** If *)
Lemma branch_parsed p q ts k0 s0 s t k rest a b : P_sp p q ts k0 s0 -> branch_ok ts k0 -> st s t a b p -> ahead t (ts ++ k :: rest) -> lx_tok k = k0 ->
  prev_ok (t_prev t) -> gets (NBlockOrStmt true) s t ts (a ++ cst s0) b q.
Proof.
  intros [NE H] Hb S A K P. specialize (H _ _ _ _ _ _ S A K P). destruct ts as [|x ts]; [contradiction|]. cbn [app] in A. aprev A.
  apply reach_parse. cbn [rule]. unfold parse_block_or_stmt, ptest. pose proof S as (E1 & _ & _). destruct (ahead_next _ _ _ A) as (N & _). rewrite E1, N. cbnb.
  rewrite (ahead_hd _ _ _ _ A0), K. destruct (hd_tok ts k0 =? TOK_OPEN_CURLY) eqn:E; [|exact H].
  destruct Hb as [Hb|Hb]; [|cbn [List.tl] in Hb; lia]. cbn [hd_tok] in Hb.
  apply reach_inv in H. cbn [rule] in H. unfold parse_statement in H. rewrite (st_tk _ _ _ _ _ S), Tk, Hb in H.
  revert H. tokc. intros H. exact H.
Qed.
Lemma Ps_if p q q1 t0 lp ts rp ts1 k0 c x : lx_tok t0 = TOK_KEYWORD_IF -> lx_tok lp = TOK_OPEN_PAREN -> lx_tok rp = TOK_CLOSE_PAREN ->
  P_xp 12 p q1 ts c -> P_sp q1 q ts1 k0 x -> branch_ok ts1 k0 -> k0 <> TOK_KEYWORD_ELSE -> P_sp p q (t0 :: lp :: ts ++ rp :: ts1) k0 (SIf c x None).
Proof.
  intros Kt Kl Kr [_ Hc] Hx Hb Ne. split; [discriminate|]. intros s t k rest a b S A K P. ja A. aprev A. aprev A0.
  apply reach_parse. cbn [rule]. unfold parse_statement. tkr. rewrite Tk, Kt. tokc. apply reach_parse. cbn [rule]. unfold parse_if. expt A Kt. expt A0 Kl.
  eapply (reach_rec (fun f => parse f NAssign s1)); [apply (Hc _ _ _ _ _ _ H0 A1); [pk Pv0 Kl|rk]|].
  intros s2 S2; cbv beta in *. eb. eb. pose proof (ahead_adv _ _ _ A1) as A2. expt A2 Kr. destruct (ahead_next _ _ _ A2) as (_ & P2 & A3 & _).
  eapply (reach_rec (fun f => parse f (NBlockOrStmt true) s5)); [apply (branch_parsed _ _ _ _ _ _ _ k rest _ _ Hx Hb H3 A3 K); pk P2 Kr|].
  intros s6 S6; cbv beta in *. pose proof (ahead_adv _ _ _ A3) as A4. destruct (ahead_next _ _ _ A4) as (_ & _ & _ & Tk4 & _).
  rewrite (st_tk _ _ _ _ _ S6), Tk4, K. replace (k0 =? TOK_KEYWORD_ELSE) with false by lia.
  assert (S6' : st s6 (adv (nxt (adv (nxt (nxt t)) ts)) ts1) ((a ++ cex c ++ [OP_JMP_FALSE]) ++ 0 :: cst x) b q).
  { eapply st_eq; [exact S6|reflexivity|lapp|reflexivity|reflexivity]. }
  match goal with |- context [ins s6 ?o ?v] => destruct (ins_st _ _ _ _ _ _ _ o v S6') as (s10 & E10 & S10);
    [rewrite !zlen_app, ?zlen_cons; change (zlen []) with 0; lia|rewrite E10; cbnb; replace v with (zlen (cst x)) in *
      by (rewrite (st_cur _ _ _ _ _ S6'), !zlen_app, ?zlen_cons; change (zlen []) with 0; lia)] end.
  fin S10.
Qed.
Lemma Ps_ifelse p q q1 q2 t0 lp ts rp ts1 u ts2 k0 c x y : lx_tok t0 = TOK_KEYWORD_IF -> lx_tok lp = TOK_OPEN_PAREN -> lx_tok rp = TOK_CLOSE_PAREN ->
  lx_tok u = TOK_KEYWORD_ELSE -> P_xp 12 p q1 ts c -> P_sp q1 q2 ts1 TOK_KEYWORD_ELSE x -> branch_ok ts1 TOK_KEYWORD_ELSE ->
  P_sp q2 q ts2 k0 y -> branch_ok ts2 k0 -> P_sp p q (t0 :: lp :: ts ++ rp :: ts1 ++ u :: ts2) k0 (SIf c x (Some y)).
Proof.
  intros Kt Kl Kr Ku [_ Hc] Hx Hb Hy Hb2. split; [discriminate|]. intros s t k rest a b S A K P. ja A. aprev A. aprev A0.
  apply reach_parse. cbn [rule]. unfold parse_statement. tkr. rewrite Tk, Kt. tokc. apply reach_parse. cbn [rule]. unfold parse_if. expt A Kt. expt A0 Kl.
  eapply (reach_rec (fun f => parse f NAssign s1)); [apply (Hc _ _ _ _ _ _ H0 A1); [pk Pv0 Kl|rk]|].
  intros s2 S2; cbv beta in *. eb. eb. pose proof (ahead_adv _ _ _ A1) as A2. expt A2 Kr. destruct (ahead_next _ _ _ A2) as (_ & P2 & A3 & _).
  eapply (reach_rec (fun f => parse f (NBlockOrStmt true) s5)); [apply (branch_parsed _ _ _ _ _ _ _ u _ _ _ Hx Hb H3 A3 Ku); pk P2 Kr|].
  intros s6 S6; cbv beta in *. pose proof (ahead_adv _ _ _ A3) as A4. destruct (ahead_next _ _ _ A4) as (_ & P4 & A5 & Tk4 & _).
  rewrite (st_tk _ _ _ _ _ S6), Tk4, Ku. tokc. nx A4. eb. eb. cbv zeta. rewrite (st_cur _ _ _ _ _ H6). eb.
  eapply (reach_rec (fun f => parse f (NBlockOrStmt true) s10)); [apply (branch_parsed _ _ _ _ _ _ _ k rest _ _ Hy Hb2 H7 A5 K); pk P4 Ku|].
  intros s9' S9; cbv beta in *.
  assert (S9' : st s9' (adv (nxt (adv (nxt (adv (nxt (nxt t)) ts)) ts1)) ts2) (a ++ cex c ++ [OP_JMP_FALSE; 0] ++ cst x ++ [OP_JMP; 0; OP_DROP] ++ cst y) b q).
  { eapply st_eq; [exact S9|reflexivity|lapp|reflexivity|reflexivity]. }
  match goal with |- context [ins s9' ?o2 _] => match goal with |- context [ins _ ?o1 (?e + _ - ?o1 - 1)] =>
    destruct (cond_ins _ _ _ _ _ _ _ _ S9' o1 o2 e) as (s11 & s12 & dd & X1 & (dd' & X2) & S11) end end.
  1-3: rewrite !zlen_app, ?zlen_cons; change (zlen []) with 0; lia.
  rewrite X1. cbnb. rewrite X2. cbnb. fin S11.
Qed.

(** ** Lists of statements *)
Lemma semis_gets semis : Forall (fun t => lx_tok t = TOK_SEMICOLON) semis -> forall s t k rest a b d, st s t a b d -> ahead t (semis ++ k :: rest) -> lx_tok k <> TOK_SEMICOLON ->
  gets NSemis s t semis a b d.
Proof.
  induction 1 as [|x semis K F IH]; intros s t k rest a b d S A N; cbn [app] in A; aprev A; apply reach_parse; cbn [rule]; unfold parse_semis; tkr; rewrite Tk.
  - replace (lx_tok k =? TOK_SEMICOLON) with false by lia. fin S.
  - rewrite K. tokc. nx A. apply (IH _ _ _ _ _ _ _ H A0 N).
Qed.
Lemma Pss_nil et p : P_stmts et p p [] [].
Proof.
  intros He drop s t k rest a b S A K P. cbn [app] in A. aprev A. apply reach_parse. cbn [rule]. unfold parse_stmts. tkr. rewrite Tk, K, Z.eqb_refl, orb_true_r.
  destruct drop; [fin S|eb; fin H].
Qed.
Lemma Pss_cons et p q q1 ts1 ts2 ts3 s0 l : P_sp p q1 ts1 (hd_tok (ts2 ++ ts3) et) s0 ->
  hd_tok ts1 TOK_EOF <> TOK_EOF -> hd_tok ts1 et <> et ->
  Forall (fun t => lx_tok t = TOK_SEMICOLON) ts2 -> hd_tok ts3 et <> TOK_SEMICOLON -> (ts3 = [] \/ ~ In (last_tok (ts1 ++ ts2)) (TOK_DOT :: inc_toks)) ->
  P_stmts et q1 q ts3 l -> P_stmts et p q (ts1 ++ ts2 ++ ts3) (s0 :: l).
Proof.
  intros [NE H0] N1 N2 F N3 Hi IH He drop s t k rest a b S A K P. assert (P' : prev_ok (t_prev t)).
  { destruct P as [E|P]; [|exact P]. apply app_eq_nil in E. tauto. }
  ja A. apply reach_parse. cbn [rule]. unfold parse_stmts. tkr. pose proof A as A'. destruct (hd_split (ts2 ++ ts3) k rest) as (k1 & r1 & Ek & Hk1).
  rewrite <- app_assoc in Ek. rewrite Ek in A. rewrite (ahead_hd _ _ _ _ A).
  rewrite (hd_ne _ _ TOK_EOF N1). rewrite (hd_ne _ _ TOK_EOF N1) in N2.
  replace (hd_tok ts1 TOK_EOF =? TOK_EOF) with false by lia. replace (hd_tok ts1 TOK_EOF =? et) with false by lia. cbn [orb].
  assert (X : exists s1, (if drop then e_byte s OP_DROP else OK s) = OK s1 /\ st s1 t (a ++ if drop then [OP_DROP] else []) b p).
  { destruct drop; [apply (e_byte_st _ _ _ _ _ OP_DROP S); vm_compute; intuition congruence|]. exists s. split; [reflexivity|]. rewrite app_nil_r. exact S. }
  destruct X as (s1 & -> & S1). cbnb.
  eapply (reach_rec2 (fun f => parse f NStmt s1)); [apply (H0 _ _ _ _ _ _ S1 A); [rewrite Hk1, K; reflexivity|exact P']|].
  intros s2 S2; cbv beta iota in *. rewrite <- Ek in A. pose proof (ahead_adv _ _ _ A) as A1.
  destruct (hd_split ts3 k rest) as (k2 & r2 & Ek2 & Hk2). pose proof A1 as A1'. rewrite Ek2 in A1.
  eapply (reach_rec2 (fun f => parse f NSemis s2)); [apply (semis_gets _ F _ _ _ _ _ _ _ S2 A1); rewrite Hk2, K; exact N3|].
  intros s3 S3; cbv beta iota in *. change (E_OK =? E_OK) with true. cbv iota. pose proof (ahead_adv _ _ _ A1') as A2.
  eapply reach_weaken; [apply (IH He true _ _ _ _ _ _ S3 A2 K)|].
  - destruct Hi as [->|Hi]; [left; reflexivity|right].
    assert (Pv : t_prev (adv (adv t ts1) ts2) = last_tok (ts1 ++ ts2)).
    { rewrite <- adv_app. apply (adv_prev _ _ (ts3 ++ k :: rest)); [rewrite <- app_assoc; exact A'|]. intros E. apply app_eq_nil in E. tauto. }
    rewrite Pv. split; [intros E; apply Hi; left; symmetry; exact E|apply findtok_out; intros I; apply Hi; right; exact I].
  - intros s' H'; cbv beta iota in *. eapply st_eq; [exact H'|tadv| |reflexivity|reflexivity]. cbn [map]. destruct drop; [rewrite dropcode_cons|rewrite seqcode_cons]; lapp.
Qed.
