(** Parsing and running a program that is one expression. *)
From Verif Require Import Base BaseFacts Value_Model Value_Spec Str_Model Str_Spec Str_Proofs TokNum_Model Txt_Model Tok_Model Tok_Spec
  Obj_Model Obj_Spec Varint_Model Bcode_Model Bcode_Proofs Props_Bcode Vm_Model Vm_Spec Vm_Proofs Vm_Proofs4
  Parse_Model Expr_Spec Run_Spec Expr_Proofs Lit_Proofs Expr_Proofs1 Expr_Proofs2 Expr_Proofs3 Expr_Proofs4 Expr_Proofs5 Lex_Proofs.
Ltac Zify.zify_post_hook ::= Z.div_mod_to_equations.

(** Which tokens can start an expression. *)
Definition starters : list Z :=
  [TOK_NUM; TOK_STR; TOK_KEYWORD_TRUE; TOK_KEYWORD_FALSE; TOK_KEYWORD_NULL; TOK_KEYWORD_UNDEFINED; TOK_IDENT; TOK_OPEN_PAREN] ++ prefix_ops.
Lemma derive_start : (forall c d ts e, derive c d ts e -> exists t ts', ts = t :: ts' /\ In (lx_tok t) starters) /\
  (forall l d acc ts e, operands l d acc ts e -> True).
Proof.
  apply derive_operands_ind; try (intros; exact I).
  - intros d t e L. exists t, []. split; [reflexivity|]. unfold starters. apply in_or_app. left. destruct L as [? ? ? K|? ? ? ? ? K|? ? K|? K|? K|? K|? K|? K]; rewrite K; cbn [In]; tauto.
  - intros d lp ts rp e Kl Kr _ _. exists lp, (ts ++ [rp]). split; [reflexivity|]. rewrite Kl. unfold starters. cbn [app In]. tauto.
  - intros d t ts e Hin _ _. exists t, ts. split; [reflexivity|]. unfold starters. apply in_or_app. right. exact Hin.
  - intros l d ts0 ts e0 e _ _ (t & ts' & -> & Hin) _ _. exists t, (ts' ++ ts). split; [reflexivity|exact Hin].
  - intros d ts e _ H. exact H.
  - intros d ts1 t ts2 a b _ _ (t' & ts' & -> & Hin) _ _. eexists t', _. split; [reflexivity|exact Hin].
  - intros d ts e _ H. exact H.
  - intros d ts1 t ts2 a b _ _ (t' & ts' & -> & Hin) _ _. eexists t', _. split; [reflexivity|exact Hin].
  - intros d ts e _ H. exact H.
  - intros d ts1 q ts2 k ts3 c a b _ _ _ (t' & ts' & -> & Hin) _ _ _ _. eexists t', _. split; [reflexivity|exact Hin].
Qed.
Lemma hexd_range c : 0 <= hv c < 16.
Proof. unfold hv, hexd. repeat match goal with |- context [if ?b then _ else _] => destruct b eqn:? end; lia. Qed.
Lemma lits_bytes ls : Forall lit_ok ls -> bytes_ok (lits_val ls).
Proof.
  induction 1 as [|l ls H F IH]; [constructor|]. unfold lits_val in *. cbn [map concat]. apply Forall_app. split; [|exact IH].
  destruct l as [b|c|a b|a b c d|c]; cbn [lit_ok lit_val] in *.
  - constructor; [apply H|constructor].
  - destruct (simple_val c) as [v|] eqn:E; [|constructor]. constructor; [|constructor]. unfold is_byte.
    unfold simple_val in E. repeat match type of E with context [match ?x with _ => _ end] => destruct x; try discriminate E end; injection E as <-; lia.
  - pose proof (hexd_range a). pose proof (hexd_range b). constructor; [unfold is_byte; lia|constructor].
  - pose proof (hexd_range c). pose proof (hexd_range d). constructor; [unfold is_byte; lia|constructor].
  - constructor; [unfold is_byte; lia|]. constructor; [apply H|constructor].
Qed.
Lemma derive_wf : (forall c d ts e, derive c d ts e -> wf_expr e) /\
  (forall l d acc ts e, operands l d acc ts e -> (1 <= l <= 8)%nat -> wf_expr acc -> wf_expr e).
Proof.
  apply derive_operands_ind.
  - intros d t e L. destruct L as [t p n K D W V|t p s m x K D W NW|t ls K F X|t K|t K|t K|t K|t K]; cbn [wf_expr]; try exact I.
    + split; [exact (whole_nonneg _ _ _ D W)|exact V].
    + split; [exact D|]. intros q Q. exact (fraction_strtod _ _ _ _ _ q D W NW Q).
    + apply lits_bytes. exact F.
  - intros d lp ts rp e _ _ _ H. exact H.
  - intros d t ts e Hin _ H. split; [exact Hin|exact H].
  - intros l d ts0 ts e0 e Hl _ H _ HO. apply HO; assumption.
  - intros d ts e _ H. exact H.
  - intros d ts1 t ts2 a b _ _ H1 _ H2. split; assumption.
  - intros d ts e _ H. exact H.
  - intros d ts1 t ts2 a b _ _ H1 _ H2. split; assumption.
  - intros d ts e _ H. exact H.
  - intros d ts1 q ts2 k ts3 c a b _ _ _ H1 _ H2 _ H3. split; [assumption|split; assumption].
  - intros l d acc _ H. exact H.
  - intros l d acc t ts ts' b e Hp _ H1 _ H2 Hl Ha. apply H2; [exact Hl|]. cbn [wf_expr]. split; [lia|split; assumption].
Qed.

(** * The parser on one expression *)
Definition semi_tok (t : tokn) : Prop := lx_tok t = TOK_SEMICOLON.
Lemma semis_parsed semis : Forall semi_tok semis -> forall s t a b dp, st s t a b dp -> ahead t (semis ++ [eof_tok]) ->
  reach (fun f => parse f NSemis s) (done a b dp eof_tok []).
Proof.
  induction 1 as [|k semis K F IH]; intros s t a b dp S A; pose proof A as A0; cbn [app ahead] in A; destruct A as (Sh & t1 & N1 & P1 & A1);
    apply reach_parse; cbn [rule]; unfold parse_semis; rewrite (st_tk _ _ _ _ _ S); destruct Sh as (-> & Sh).
  - change (lx_tok eof_tok =? TOK_SEMICOLON) with false. cbv iota. apply reach_ok. exists t. split; [exact S|exact A0].
  - rewrite K. tokc. eb. apply (IH _ t1 a b dp H A1).
Qed.
Lemma starter_checks k : In k starters ->
  (k =? TOK_EOF) = false /\ (k =? TOK_SEMICOLON) = false /\ (k =? TOK_KEYWORD_LET) = false /\ (k =? TOK_OPEN_CURLY) = false /\
  (k =? TOK_KEYWORD_RETURN) = false /\ (k =? TOK_KEYWORD_FOR) = false /\ (k =? TOK_KEYWORD_WHILE) = false /\
  (k =? TOK_KEYWORD_BREAK) = false /\ (k =? TOK_KEYWORD_CONTINUE) = false /\ (k =? TOK_KEYWORD_IF) = false /\ findtok refused k = false.
Proof.
  assert (A : forallb (fun k => negb ((k =? TOK_EOF) || (k =? TOK_SEMICOLON) || (k =? TOK_KEYWORD_LET) || (k =? TOK_OPEN_CURLY) ||
    (k =? TOK_KEYWORD_RETURN) || (k =? TOK_KEYWORD_FOR) || (k =? TOK_KEYWORD_WHILE) || (k =? TOK_KEYWORD_BREAK) || (k =? TOK_KEYWORD_CONTINUE) ||
    (k =? TOK_KEYWORD_IF) || findtok refused k)) starters = true) by (vm_compute; reflexivity).
  intros H. rewrite forallb_forall in A. specialize (A _ H). apply negb_true_iff in A. repeat (apply orb_false_iff in A; destruct A as [A ?]).
  repeat split; assumption.
Qed.
(** An expression statement; [k] ends it. *)
Lemma stmt_parsed d ts e s t k rest a b dp : derive 11 d ts e -> st s t a b dp -> ahead t (ts ++ k :: rest) -> prev_ok (t_prev t) ->
  lx_tok k = TOK_SEMICOLON \/ lx_tok k = TOK_EOF -> dp + Z.of_nat d <= DEPTH_LIMIT ->
  reach (fun f => parse f NStmt s) (done (a ++ comp e) b dp k rest).
Proof.
  intros D S A P Hk Hd. pose proof (proj1 derive_start _ _ _ _ D) as (t0 & ts' & Ets & Hin).
  assert (T : tk s = lx_tok t0).
  { rewrite (st_tk _ _ _ _ _ S). rewrite Ets in A. cbn [app ahead] in A. apply A. }
  assert (R : (11 < rank (lx_tok k))%nat) by (destruct Hk as [-> | ->]; apply Nat.leb_le; vm_compute; reflexivity).
  apply reach_parse. cbn [rule]. unfold parse_statement. rewrite T.
  destruct (starter_checks _ Hin) as (_ & -> & -> & -> & -> & -> & -> & -> & -> & -> & ->).
  apply reach_parse. cbn [rule]. unfold parse_comma.
  eapply (reach_rec (fun f => parse f NAssign s) _ (done (a ++ comp e) b dp k rest)).
  - apply assign_of_ternary.
    + apply (proj1 parser_emits _ _ _ _ D s t k rest a b dp S A P R Hd).
    + intros s' DD. apply (done_rank _ _ _ _ _ _ DD). lia.
  - intros s' DD. pose proof DD as (t2 & S2 & A2). rewrite (st_tk _ _ _ _ _ S2). destruct A2 as ((-> & _) & _).
    replace (lx_tok k =? TOK_COMMA) with false by (destruct Hk as [-> | ->]; reflexivity). apply reach_ok. exact DD.
Qed.

(** The parser on a program of one expression. *)
Lemma program_parsed src ts semis d e a : c_text src -> source src (ts ++ semis) -> Forall semi_tok semis -> derive 11 d ts e ->
  (d <= nesting_limit)%nat -> forall s, p_t s = pinit src -> cursor (p_g s) a [] -> p_depth s = 0 ->
  reach (fun f => parse f (NStmtList TOK_EOF) s) (fun s' => cursor (p_g s') (a ++ comp e) []).
Proof.
  intros T Sr F D Hd s E1 C E2. pose proof (proj1 derive_start _ _ _ _ D) as (t0 & ts' & Ets & Hin).
  destruct (source_ahead _ _ Sr (pinit src) T eq_refl) as (t1 & N1 & P1 & A1).
  assert (S : st s (pinit src) a [] 0) by (split; [exact E1|split; [exact C|exact E2]]).
  apply reach_parse. cbn [rule]. unfold parse_statement_list. eb.
  apply reach_parse. cbn [rule]. unfold parse_stmts. rewrite (st_tk _ _ _ _ _ H).
  assert (T1 : t_tok t1 = lx_tok t0) by (rewrite Ets in A1; cbn [app ahead] in A1; apply A1).
  rewrite T1. destruct (starter_checks _ Hin) as (-> & _). cbn [orb]. cbv iota. cbnb.
  assert (X : exists k rest, semis ++ [eof_tok] = k :: rest /\ (lx_tok k = TOK_SEMICOLON \/ lx_tok k = TOK_EOF)).
  { destruct F as [|k semis K F]; [exists eof_tok, []; split; [reflexivity|right; reflexivity]|].
    exists k, (semis ++ [eof_tok]). split; [reflexivity|left; exact K]. }
  destruct X as (k & rest & Ek & Hk).
  rewrite <- app_assoc, Ek in A1.
  eapply reach_rec2.
  - apply (stmt_parsed d ts e s0 t1 k rest a [] 0 D H A1); [rewrite P1; split; [discriminate|reflexivity]|exact Hk|].
    unfold nesting_limit in Hd. unfold DEPTH_LIMIT. lia.
  - intros s' (t2 & S2 & A2). rewrite <- Ek in A2.
    eapply reach_rec2; [apply (semis_parsed semis F s' t2 _ _ _ S2 A2)|].
    intros s3 (t3 & S3 & A3). change (E_OK =? E_OK) with true. cbv iota.
    apply reach_parse. cbn [rule]. unfold parse_stmts. rewrite (st_tk _ _ _ _ _ S3). destruct A3 as ((-> & _) & _).
    change (lx_tok eof_tok =? TOK_EOF) with true. cbn [orb]. cbv iota. apply reach_ok. destruct S3 as (_ & C3 & _). exact C3.
Qed.

(** What mjs_parse makes of it. *)
Definition header (path : list Z) (a b c : list Z) : list Z := OP_BCODE_HEADER :: a ++ b ++ c ++ path ++ [0].
Lemma mjs_parse_emits path src ts semis d e : c_text src -> source src (ts ++ semis) -> Forall semi_tok semis -> derive 11 d ts e ->
  (d <= nesting_limit)%nat ->
  exists f a c tail, length a = 4%nat /\ length c = 4%nat /\
    forall f', (f <= f')%nat -> mjs_parse f' path src =
      OK (header path a (le32 (zlen path + 13)) c ++ comp e ++ OP_EXIT :: tail, E_OK).
Proof.
  intros T Sr F D Hd. set (pre := OP_BCODE_HEADER :: repeat 0 12 ++ path ++ [0]).
  set (g := {| g_code := pre; g_cur := zlen pre; g_start := zlen pre; g_map := []; g_last := 1 |}).
  destruct (program_parsed src ts semis d e pre T Sr F D Hd {| p_t := pinit src; p_g := g; p_depth := 0 |} eq_refl
    ltac:(split; [rewrite app_nil_r; reflexivity|reflexivity]) eq_refl) as (f & s & HR & C).
  assert (S : st s (p_t s) (pre ++ comp e) [] (p_depth s)) by (split; [reflexivity|split; [exact C|reflexivity]]).
  destruct (e_byte_st _ _ _ _ _ OP_EXIT S ltac:(vm_compute; intuition congruence)) as (s1 & E1 & (_ & (C1 & _) & _)).
  rewrite app_nil_r in C1.
  set (m := g_map (p_g s1)) in *. set (all := g_code (p_g s1) ++ varint (zlen m) ++ m) in *.
  exists f, (le32 (zlen all - 1)), (le32 (zlen (g_code (p_g s1)) - 1)), (varint (zlen m) ++ m).
  split; [reflexivity|]. split; [reflexivity|]. intros f' Hf. unfold mjs_parse. fold pre. fold g. rewrite HR by exact Hf. cbn [bind].
  rewrite E1. cbn [bind]. cbv zeta. fold m. fold all. do 2 f_equal.
  assert (Lp : zlen pre - 1 = zlen path + 13).
  { unfold pre. rewrite zlen_cons, !zlen_app. change (zlen (repeat 0 12)) with 12. change (zlen [0]) with 1. lia. }
  rewrite Lp. replace all with ([OP_BCODE_HEADER] ++ repeat 0 12 ++ (path ++ [0] ++ comp e ++ OP_EXIT :: varint (zlen m) ++ m)).
  2:{ unfold all. rewrite C1. unfold pre. cbn [app]. rewrite <- !app_assoc. reflexivity. }
  change 1 with (zlen [OP_BCODE_HEADER]) at 1. rewrite blit_app_mid by reflexivity.
  unfold header. cbn [app]. rewrite <- !app_assoc. reflexivity.
Qed.

(** * Running *)
Lemma steps_run w sv c c' : steps w sv c c' -> exists n, forall f start, run (n + f) w sv start c = run f w sv start c'.
Proof.
  induction 1 as [c|c c1 c2 H Hs (n & IH)]; [exists 0%nat; reflexivity|].
  exists (S n). intros f start. cbn [Nat.add run]. rewrite H. cbn [bind]. apply IH.
Qed.

Lemma committed_part m n d : code_ok m n -> zlen d <= n -> 0 < zlen d ->
  forall m', m_code m' = commit (m_code m) d ->
  the_part m' (c_len (m_code m)) = OK {| bp_start := c_len (m_code m); bp_data := d |}.
Proof.
  intros (ds & E & L) Hn Hd m' HM. unfold the_part. rewrite HM, E, <- commits_snoc, commits_len.
  pose proof (zlen_nonneg (concat ds)).
  destruct (part_containing_offset (ds ++ [d]) (zlen (concat ds)) ltac:(lia)) as [P _].
  destruct P as (i & d' & N & P & B). { rewrite concat_app, zlen_app. cbn [concat]. rewrite app_nil_r. lia. }
  assert (i = length ds).
  { apply (parts_do_not_overlap (ds ++ [d]) i (length ds) d' d (zlen (concat ds))); [exact N| |exact B|].
    - rewrite nth_error_app2, Nat.sub_diag by lia. reflexivity.
    - rewrite firstn_app, firstn_all, Nat.sub_diag, firstn_O, app_nil_r. lia. }
  subst i. rewrite nth_error_app2, Nat.sub_diag in N by lia. cbn [nth_error] in N. assert (d' = d) by congruence. subst d'.
  rewrite P. cbn [bind]. rewrite firstn_app, firstn_all, Nat.sub_diag, firstn_O, app_nil_r. reflexivity.
Qed.

Lemma sub_4 (x : list Z) a r : length a = 4%nat -> sub (x ++ a ++ r) (zlen x) 4 = a.
Proof. intros L. replace 4 with (zlen a) by (unfold zlen; rewrite L; reflexivity). apply sub_app_mid. Qed.

Lemma code_runs w m M env e a n path x y tail : wf_expr e -> value env e = Some (a, n) ->
  let code := header path x (le32 (zlen path + 13)) y ++ comp e ++ OP_EXIT :: tail in
  length x = 4%nat -> length y = 4%nat -> zlen code < 2 ^ 31 -> code_ok m (zlen code) -> env_ok m M env -> zlen (so (m_st m)) + n < 2 ^ 48 ->
  exists f m' v, (forall f', (f <= f')%nat -> exec_code f' w m code = OK (m', v)) /\ m_err m' = E_OK /\
    rep (m_st m') (m_ext m') v a /\ sk_live (m_stack m') = sk_live (m_stack m) /\ env_ok m' M env /\
    m_code m' = commit (m_code m) code /\ m_call m' = m_call m /\ m_arg m' = m_arg m /\ m_scopes m' = m_scopes m /\
    m_loops m' = m_loops m /\ m_this m' = m_this m /\ zlen (so (m_st m')) <= zlen (so (m_st m)) + n.
Proof.
  intros W V code Lx Ly Lc Co Ev Hs.
  assert (Hd : zlen (header path x (le32 (zlen path + 13)) y) = zlen path + 14).
  { unfold header. rewrite zlen_cons, !zlen_app. change (zlen [0]) with 1. replace (zlen x) with 4 by (unfold zlen; rewrite Lx; reflexivity). replace (zlen y) with 4 by (unfold zlen; rewrite Ly; reflexivity).
    change (zlen (le32 (zlen path + 13))) with 4. lia. }
  pose proof (zlen_nonneg path) as Pp. pose proof (zlen_nonneg (comp e)) as Pe. pose proof (zlen_nonneg tail) as Pt.
  assert (Lt : zlen code = zlen path + 14 + (zlen (comp e) + (1 + zlen tail))) by (unfold code; rewrite !zlen_app, zlen_cons; lia).
  set (m0 := set_code m (commit (m_code m) code)).
  set (start := c_len (m_code m)).
  set (bp := {| bp_start := start; bp_data := code |}).
  assert (P0 : the_part m0 start = OK bp) by (apply (committed_part m (zlen code) code Co ltac:(lia) ltac:(lia)); reflexivity).
  set (c0 := {| k_m := set_err m0 E_OK; k_bp := bp; k_i := u64 (start - start); k_op := OP_MAX |}).
  assert (E0 : enter m0 start = OK c0) by (unfold enter; rewrite P0; reflexivity).
  assert (I0 : k_i c0 = 0) by (cbn [c0 k_i]; rewrite Z.sub_diag; reflexivity).
  set (sv := save m0).
  (* the header *)
  assert (N0 : next_code c0 (OP_BCODE_HEADER :: x ++ le32 (zlen path + 13) ++ y ++ path ++ [0])).
  { exists [], (comp e ++ OP_EXIT :: tail). split; [reflexivity|exact I0]. }
  assert (R0 : read_u32 code 5 = OK (zlen path + 13)).
  { unfold read_u32. replace ((0 <=? 5) && (5 + 4 <=? zlen code)) with true by lia.
    replace code with ((OP_BCODE_HEADER :: x) ++ le32 (zlen path + 13) ++ (y ++ path ++ [0]) ++ comp e ++ OP_EXIT :: tail).
    2:{ unfold code, header. cbn [app]. rewrite <- !app_assoc. reflexivity. }
    replace 5 with (zlen (OP_BCODE_HEADER :: x)) at 1 by (rewrite zlen_cons; unfold zlen; rewrite Lx; reflexivity).
    rewrite sub_4 by reflexivity. unfold le32. rewrite le_val_bytes_small; [unfold u32; rewrite Z.mod_small by lia; reflexivity|].
    unfold u32. change (256 ^ Z.of_nat 4) with (2 ^ 32). apply Z.mod_pos_bound. lia. }
  assert (H0 : steps w sv c0 {| k_m := set_off (k_m c0) 0; k_bp := bp; k_i := 0 + (zlen path + 13) + 1; k_op := OP_BCODE_HEADER |}).
  { pose proof (one w sv c0 OP_BCODE_HEADER _ (set_off (k_m c0) 0) (u64 (0 + (zlen path + 13))) (zlen path + 13) N0) as O. rewrite I0 in O.
    apply O; [exact Lc|lia| |rewrite !u64_id; rewrite ?u64_id; lia|reflexivity]. intros exec k.
    change (instr w exec k (set_off (k_m c0) 0) (k_bp c0) 0 OP_BCODE_HEADER (k_op c0)) with
      (n <- read_u32 code 5 ;; OK (Go (set_off (k_m c0) 0) (k_bp c0) (u64 (0 + n)))). rewrite R0. reflexivity. }
  set (c1 := {| k_m := set_off (k_m c0) 0; k_bp := bp; k_i := 0 + (zlen path + 13) + 1; k_op := OP_BCODE_HEADER |}) in *.
  assert (N1 : follow c1 (comp e)).
  { exists (header path x (le32 (zlen path + 13)) y), (OP_EXIT :: tail). split; [reflexivity|]. split; [rewrite Hd; cbn [c1 k_i]; lia|].
    cbn [num_stop]. unfold ident_char, letter, OP_EXIT. lia. }
  destruct (comp_evals w sv e W env a n c1 M V N1 Lc eq_refl Ev Hs) as (c2 & St2 & (B2 & I2) & Ef2 & v & Ls2 & Rv2).
  (* the exit *)
  assert (N2 : next_code c2 [OP_EXIT]).
  { exists (header path x (le32 (zlen path + 13)) y ++ comp e), tail. rewrite B2. split; [cbn [c1 k_bp bp bp_data]; unfold code; rewrite <- app_assoc; reflexivity|].
    rewrite I2, zlen_app, Hd. cbn [c1 k_i]. lia. }
  assert (He2 : m_err (k_m c2) = E_OK) by (rewrite (effect_err _ _ _ Ef2); reflexivity).
  pose proof (next_len _ _ N2) as NL. change (zlen [OP_EXIT]) with 1 in NL. rewrite B2 in NL. change (bp_data (k_bp c1)) with code in NL.
  assert (H2 : steps w sv c2 {| k_m := set_off (k_m c2) (k_i c2); k_bp := k_bp c2; k_i := k_i c2 + (zlen code - k_i c2) + 1; k_op := OP_EXIT |}).
  { apply (one w sv c2 OP_EXIT [] (set_off (k_m c2) (k_i c2)) (zlen (bp_data (k_bp c2)))); [exact N2|rewrite B2; exact Lc|lia| |rewrite B2; change (bp_data (k_bp c1)) with code; rewrite u64_id; lia|exact He2].
    intros exec k. reflexivity. }
  set (c3 := {| k_m := set_off (k_m c2) (k_i c2); k_bp := k_bp c2; k_i := k_i c2 + (zlen code - k_i c2) + 1; k_op := OP_EXIT |}) in *.
  destruct (steps_run w sv c0 c3 (steps_app w sv _ _ _ H0 (steps_app w sv _ _ _ St2 H2))) as (nn & Run).
  assert (Cd : m_code (k_m c2) = commit (m_code m) code) by (destruct Ef2 as ((_ & _ & _ & _ & _ & _ & X & _) & _); exact X).
  set (m3 := set_res (k_m c3) ((start, m_err (k_m c3)) :: m_res (k_m c3))).
  destruct (pop_cons m3 v (sk_live (m_stack (k_m c1))) Ls2) as (s4 & P4 & L4).
  assert (Fin : finish (k_m c3) start = OK (set_stack m3 s4, v)).
  { pose proof (committed_part m (zlen code) code Co ltac:(lia) ltac:(lia) (k_m c3) Cd) as PP. fold start in PP.
    unfold finish. rewrite PP. cbn [bind bp_start]. fold m3.
    rewrite P4. reflexivity. }
  assert (Stop : forall f, run (S f) w sv start c3 = OK (set_stack m3 s4, v)).
  { intros f. cbn [run]. unfold step.
    replace (k_i c3 <? zlen (bp_data (k_bp c3))) with false.
    2:{ cbn [c3 k_i k_bp]. rewrite B2. change (bp_data (k_bp c1)) with code. lia. }
    cbn [negb bind]. exact Fin. }
  pose proof (env_effect _ _ _ _ _ Ef2 Ev) as Ev2.
  destruct Ef2 as (Fr & Hh & Gr & Rm). destruct Fr as (F1 & F2 & F3 & F4 & F5 & F6 & F7 & F8 & F9).
  exists (nn + 1)%nat, (set_stack m3 s4), v. split.
  { intros f' Hf. unfold exec_code, execute. fold m0. fold start. rewrite E0. cbn [bind]. fold sv.
    replace f' with (nn + S (f' - nn - 1))%nat by lia. rewrite Run. apply Stop. }
  split; [exact He2|]. split; [exact Rv2|]. split; [exact L4|]. split; [exact Ev2|]. split; [exact Cd|].
  split; [exact F1|]. split; [exact F2|]. split; [exact F3|]. split; [exact F4|]. split; [exact F6|exact Rm].
Qed.
