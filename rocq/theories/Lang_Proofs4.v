(** The parser emits the code of the tree: levels of operators, assignments, functions. *)
From Verif Require Import Base BaseFacts Value_Model Str_Model Str_Spec Ops_Model TokNum_Model Num_Model Txt_Model Tok_Spec Tok_Model
  Bcode_Model Bcode_Proofs Str_Proofs Parse_Model Parse_Proofs Expr_Spec Expr_Proofs Lit_Proofs Expr_Proofs1 Expr_Proofs2 Props_Str Str_Proofs3 Lang_Spec
  Lang_Proofs1 Lang_Proofs2 Lang_Proofs3.
Ltac Zify.zify_post_hook ::= Z.div_mod_to_equations.

Lemma limit : DEPTH_LIMIT = 512.
Proof. reflexivity. Qed.
(** One level down and up again. *)
Lemma level_in l s t a b p (Q : ps -> Prop) q a' t' : (1 <= l <= 10)%nat -> st s t a b p -> p + 1 <= 512 ->
  reach (fun f => andthen (parse f (nt_of (l - 1)) (with_depth s (p + 1))) (fun s => ltr_rest (parse f) (level_of l) s)) (fun s' => st s' t' a' b (q + 1)) ->
  reach (fun f => parse f (nt_of l) s) (fun s' => st s' t' a' b q).
Proof.
  intros Hl S D R.
  assert (X : reach (fun f => parse_ltr (parse f) (level_of l) TOK_EOF s) (fun s' => st s' t' a' b q)).
  { eapply reach_ext; [intros f; apply parse_ltr_eq|]. pose proof S as (_ & _ & Dp). rewrite Dp, limit.
    replace (512 <? p + 1) with false by lia. apply reach_undepth. rewrite lower_of by lia.
    eapply reach_weaken; [exact R|]. intros s' H'. cbv beta in *. pose proof H' as (_ & _ & Dq).
    eapply st_eq; [exact (st_depth _ _ _ _ _ (p_depth s' - 1) H')|reflexivity|reflexivity|reflexivity|lia]. }
  apply reach_parse. do 11 (destruct l as [|l]; [try lia; exact X|]). lia.
Qed.
Lemma hd_split (ts : list tokn) k rest : exists k1 r1, ts ++ k :: rest = k1 :: r1 /\ lx_tok k1 = hd_tok ts (lx_tok k).
Proof. destruct ts as [|x ts]; [exists k, rest|exists x, (ts ++ k :: rest)]; split; reflexivity. Qed.
Lemma ntx_of c : (c <= 11)%nat -> ntx c = nt_of c.
Proof. intros H. do 12 (destruct c as [|c]; [reflexivity|]). lia. Qed.
Lemma starts_app ts ts' : In (hd_tok ts TOK_EOF) xstarts -> In (hd_tok (ts ++ ts') TOK_EOF) xstarts.
Proof. intros H. destruct ts; [exfalso; revert H; nst|exact H]. Qed.
Lemma more_rank l ts k : (ts = [] \/ exists t ts', ts = t :: ts' /\ lrank (lx_tok t) = l) -> (l < lrank k)%nat -> (l <= lrank (hd_tok ts k))%nat.
Proof. intros [->|(t & ts' & -> & <-)] H; cbn [hd_tok]; lia. Qed.

Lemma Px_level l p q q1 ts0 ts e0 e : (1 <= l <= 8)%nat -> p + 1 <= 512 -> P_xp (l - 1) (p + 1) q1 ts0 e0 -> P_more l q1 (q + 1) e0 ts e ->
  P_xp l p q (ts0 ++ ts) e.
Proof.
  intros Hl D [Hs H0] HM. destruct (HM Hl) as [Hh Hm]. split; [apply starts_app; exact Hs|]. intros s t k rest a b S A P R.
  rewrite ntx_of by lia. rewrite <- app_assoc in A. destruct (hd_split ts k rest) as (k1 & r1 & Ek & Hk1). pose proof A as A'. rewrite Ek in A.
  eapply level_in; [exact (fun _ => True)|lia|exact S|lia|].
  eapply reach_rec.
  - rewrite <- ntx_of by lia. apply (H0 _ t k1 r1 a b (st_depth _ _ _ _ _ (p + 1) S) A P). rewrite Hk1. pose proof (more_rank _ _ _ Hh R). lia.
  - intros s1 S1; cbv beta in *. rewrite adv_app. apply (Hm s1 (adv t ts0) k rest a b S1); [apply ahead_adv; exact A'|exact R].
Qed.
Lemma Po_none l p acc : P_more l p p acc [] acc.
Proof.
  intros Hl. split; [left; reflexivity|]. intros s t k rest a b S A R. unfold ltr_rest. tkr. cbn [app] in A.
  destruct (ahead_next _ _ _ A) as (_ & _ & _ & -> & _). rewrite (lrank_stops l) by lia. apply reach_ok. exact S.
Qed.
Lemma Po_one l p q q1 acc t0 ts ts' b0 e : prec (lx_tok t0) = l -> p + 1 <= 512 -> P_xp (l - 1) (p + 1) q1 ts b0 ->
  P_more l q1 (q + 1) (XBin (lx_tok t0) acc b0) ts' e -> P_more l p q acc (t0 :: ts ++ ts') e.
Proof.
  intros Hp D [Hs H0] HM Hl. destruct (HM Hl) as [Hh Hm]. destruct (lrank_prec _ _ Hp Hl) as (Rk0 & Ft & Ob & So & Ne & Nd & Np).
  split; [right; eauto|]. intros s t k rest a b S A R. cbn [app] in A. aprev A.
  unfold ltr_rest. tkr. rewrite Tk, Ft, So. nx A.
  rewrite <- app_assoc in A0. destruct (hd_split ts' k rest) as (k1 & r1 & Ek & Hk1). pose proof A0 as A0'. rewrite Ek in A0.
  apply reach_parse. cbn [rule].
  eapply reach_ext; [intros f; apply parse_ltr_eq|]. pose proof H as (_ & _ & Dp). rewrite Dp, limit.
  replace (512 <? p + 1) with false by lia. apply reach_undepth. rewrite lower_of by lia.
  eapply reach_rec.
  - rewrite <- ntx_of by lia. apply (H0 _ _ k1 r1 _ b (st_depth _ _ _ _ _ (p + 1) H) A0); [rewrite Pv; split; assumption|].
    rewrite Hk1. pose proof (more_rank _ _ _ Hh R). lia.
  - intros s1 S1; cbv beta in *. unfold opt_op. rewrite Ne. eop.
    eapply reach_weaken; [apply (Hm s2 (adv (nxt t) ts) k rest a b)|].
    + eapply st_eq; [exact H1|reflexivity|cbn [cex]; lapp|reflexivity|reflexivity].
    + apply ahead_adv. exact A0'.
    + exact R.
    + intros s' H'; cbv beta in *. pose proof H' as (_ & _ & Dq).
      eapply st_eq; [exact (st_depth _ _ _ _ _ (p_depth s' - 1) H')|tadv|reflexivity|reflexivity|lia].
Qed.
Lemma Px_up c p q ts e : (c = 8 \/ c = 9)%nat -> p + 1 <= 512 -> P_xp c (p + 1) (q + 1) ts e -> P_xp (S c) p q ts e.
Proof.
  intros Hc D [Hs H0]. split; [exact Hs|]. intros s t k rest a b S A P R. rewrite ntx_of by lia.
  eapply level_in; [exact (fun _ => True)|lia|exact S|lia|]. cbn [Nat.sub]. rewrite Nat.sub_0_r.
  eapply reach_rec.
  - rewrite <- ntx_of by lia. apply (H0 _ t k rest a b (st_depth _ _ _ _ _ (p + 1) S) A P). lia.
  - intros s1 S1; cbv beta in *. unfold ltr_rest. rewrite (st_tk _ _ _ _ _ S1). pose proof (ahead_adv _ _ _ A) as A1.
    destruct (ahead_next _ _ _ A1) as (_ & _ & _ & -> & _). rewrite (lrank_stops (1 + c)) by lia. apply reach_ok. exact S1.
Qed.
Lemma Px_short c p q q1 ts1 k0 ts2 x y j e : (c = 9 \/ c = 10)%nat -> lrank (lx_tok k0) = c -> short_op (level_of c) = Some j -> 0 <= j < 256 ->
  findtok (ops_of (level_of c)) (lx_tok k0) = true -> prev_ok (lx_tok k0) -> p + 1 <= 512 ->
  P_xp (c - 1) (p + 1) q1 ts1 x -> P_xp c q1 (q + 1) ts2 y -> cex e = andcode j (cex x) (cex y) -> P_xp c p q (ts1 ++ k0 :: ts2) e.
Proof.
  intros Hc Rk So Hj Ft Po D [Hs Hx] [_ Hy] Ec. split; [apply starts_app; exact Hs|]. intros s t k rest a b S A P R. rewrite ntx_of by lia.
  rewrite <- app_assoc in A. cbn [app] in A. pose proof (ahead_adv _ _ _ A) as A1. destruct (ahead_next _ _ _ A1) as (_ & P1 & A2 & Tk1 & _).
  eapply level_in; [exact (fun _ => True)|lia|exact S|lia|].
  eapply reach_rec.
  - rewrite <- ntx_of by lia. apply (Hx _ t _ _ a b (st_depth _ _ _ _ _ (p + 1) S) A P). lia.
  - intros s1 S1; cbv beta in *. unfold ltr_rest. rewrite (st_tk _ _ _ _ _ S1), Tk1, Ft, So.
    destruct (e_byte_st _ _ _ _ _ j S1 Hj) as (s2 & E2 & S2). rewrite E2. cbnb. eb. eb. nx A1.
    assert (Nt : NBin (level_of c) TOK_EOF = ntx c) by (destruct Hc as [-> | ->]; reflexivity). rewrite Nt.
    rewrite <- (app_assoc _ [0] [OP_DROP]) in H1. cbn [app] in H1.
    eapply reach_rec; [apply (Hy _ _ k rest _ b H1 A2); [rewrite P1; exact Po|lia]|].
    intros s5 S5; cbv beta in *.
    rewrite <- (app_assoc _ [0; OP_DROP] (cex y)) in S5. cbn [app] in S5.
    destruct (ins_st _ _ _ _ _ _ _ (zlen ((a ++ cex x) ++ [j])) (cur s5 - zlen ((a ++ cex x) ++ [j]) - 1) S5 eq_refl) as (s6 & E6 & S6).
    rewrite E6. cbnb. apply reach_ok.
    assert (V : cur s5 - zlen ((a ++ cex x) ++ [j]) - 1 = 1 + zlen (cex y)).
    { rewrite (st_cur _ _ _ _ _ S5), !zlen_app, !zlen_cons. lia. }
    rewrite V in S6. eapply st_eq; [exact S6|tadv|rewrite Ec; unfold andcode; lapp|reflexivity|reflexivity].
Qed.

Lemma Px_cond1 p q ts e : P_xp 10 p q ts e -> P_xp 11 p q ts e.
Proof.
  intros [Hs IH]. split; [exact Hs|]. intros s t k rest a b S A P R. cbn [ntx nt_of]. apply reach_parse. cbn [rule]. unfold parse_ternary.
  eapply (reach_rec (fun f => parse f (NBin LLor TOK_EOF) s)); [apply (IH s t k rest a b S A P ltac:(lia))|]. intros s' S'; cbv beta in *.
  unfold opt_op. tokc. cbnb. rewrite (st_tk _ _ _ _ _ S'). pose proof (ahead_adv _ _ _ A) as A1. destruct (ahead_next _ _ _ A1) as (_ & _ & _ & -> & _).
  destruct (lx_tok k =? TOK_QUESTION) eqn:E; [apply Z.eqb_eq in E; rewrite E in R; vm_compute in R; lia|].
  apply reach_ok. exact S'.
Qed.
(** The code between the two jumps of a conditional, as the parser completes it. *)
Lemma cond_ins s t a b d c x y : st s t (a ++ c ++ [OP_JMP_FALSE; 0] ++ x ++ [OP_JMP; 0; OP_DROP] ++ y) b d ->
  forall o1 o2 e, o1 = zlen (a ++ c) + 1 -> o2 = o1 + 1 + zlen x + 1 -> e = o2 + 1 ->
  exists s1 s2 dd, ins s o2 (cur s - o2 - 1) = OK (s1, dd) /\ (exists dd', ins s1 o1 (e + dd - o1 - 1) = OK (s2, dd')) /\ st s2 t (a ++ condcode c x y) b d.
Proof.
  intros S o1 o2 e E1 E2 E3.
  assert (S0 : st s t ((a ++ c ++ [OP_JMP_FALSE; 0] ++ x ++ [OP_JMP]) ++ 0 :: OP_DROP :: y) b d).
  { eapply st_eq; [exact S|reflexivity|lapp|reflexivity|reflexivity]. }
  destruct (ins_st _ _ _ _ _ _ _ o2 (cur s - o2 - 1) S0) as (s1 & X1 & S1).
  { rewrite E2, E1, !zlen_app, !zlen_cons. change (zlen []) with 0. lia. }
  assert (V : cur s - o2 - 1 = 1 + zlen y).
  { rewrite (st_cur _ _ _ _ _ S), E2, E1, !zlen_app, !zlen_cons. change (zlen []) with 0. lia. }
  rewrite V in *.
  assert (S1' : st s1 t ((a ++ c ++ [OP_JMP_FALSE]) ++ 0 :: x ++ OP_JMP :: varint (1 + zlen y) ++ OP_DROP :: y) b d).
  { eapply st_eq; [exact S1|reflexivity|lapp|reflexivity|reflexivity]. }
  destruct (ins_st _ _ _ _ _ _ _ o1 (e + (zlen (varint (1 + zlen y)) - 1) - o1 - 1) S1') as (s2 & X2 & S2).
  { rewrite E1, !zlen_app, !zlen_cons. change (zlen []) with 0. lia. }
  exists s1, s2, (zlen (varint (1 + zlen y)) - 1). split; [exact X1|]. split; [eexists; exact X2|].
  replace (e + (zlen (varint (1 + zlen y)) - 1) - o1 - 1) with (zlen x + 1 + zlen (varint (1 + zlen y))) in S2 by lia.
  eapply st_eq; [exact S2|reflexivity|unfold condcode; lapp|reflexivity|reflexivity].
Qed.
Lemma Px_cond p q q1 q2 ts1 t0 ts2 u ts3 c x y : lx_tok t0 = TOK_QUESTION -> lx_tok u = TOK_COLON ->
  P_xp 10 p q1 ts1 c -> P_xp 11 q1 q2 ts2 x -> P_xp 11 q2 q ts3 y -> P_xp 11 p q (ts1 ++ t0 :: ts2 ++ u :: ts3) (XCond c x y).
Proof.
  intros Kq Kk [Hs IHc] [_ IHx] [_ IHy]. split; [apply starts_app; exact Hs|]. intros s t k rest a b S A P R. repeat (rewrite <- app_assoc in A; cbn [app] in A).
  cbn [ntx nt_of]. apply reach_parse. cbn [rule]. unfold parse_ternary.
  eapply (reach_rec (fun f => parse f (NBin LLor TOK_EOF) s)); [apply (IHc s t _ _ a b S A P); rk|].
  intros s1 S1; cbv beta in *. unfold opt_op. tokc. cbnb. pose proof (ahead_adv _ _ _ A) as A1. destruct (ahead_next _ _ _ A1) as (_ & P1 & A2 & Tk1 & _).
  rewrite (st_tk _ _ _ _ _ S1), Tk1, Kq. tokc. expt A1 Kq. eb. eb.
  eapply (reach_rec (fun f => parse f (NTernary TOK_EOF) s3)); [apply (IHx s3 _ _ _ _ b H1 A2); [pk P1 Kq|rk]|].
  intros s4 S4; cbv beta in *. pose proof (ahead_adv _ _ _ A2) as A3. destruct (ahead_next _ _ _ A3) as (_ & P3 & A4 & Tk3 & _).
  eb. eb. rewrite (st_cur _ _ _ _ _ H3). cbv zeta. eb. expt A3 Kk.
  eapply (reach_rec (fun f => parse f (NTernary TOK_EOF) s8)); [apply (IHy s8 _ _ _ _ b H5 A4); [pk P3 Kk|exact R]|].
  intros s9 S9; cbv beta in *.
  assert (S9' : st s9 (adv (nxt (adv (nxt (adv t ts1)) ts2)) ts3) (a ++ cex c ++ [OP_JMP_FALSE; 0] ++ cex x ++ [OP_JMP; 0; OP_DROP] ++ cex y) b q).
  { eapply st_eq; [exact S9|reflexivity|lapp|reflexivity|reflexivity]. }
  match goal with |- context [ins s9 ?o2 _] => match goal with |- context [ins _ ?o1 (?e + _ - ?o1 - 1)] =>
    destruct (cond_ins _ _ _ _ _ _ _ _ S9' o1 o2 e) as (s10 & s11 & dd & X1 & (dd' & X2) & S11) end end.
  1-3: rewrite !zlen_app, ?zlen_cons; change (zlen []) with 0; lia.
  rewrite X1. cbnb. rewrite X2. cbnb. fin S11.
Qed.

(** ** Assignments *)
Lemma Px_assign1 p q ts e : P_xp 11 p q ts e -> P_xp 12 p q ts e.
Proof.
  intros [Hs IH]. split; [exact Hs|]. intros s t k rest a b S A P R. cbn [ntx]. apply reach_parse. cbn [rule]. unfold parse_assignment.
  eapply (reach_rec (fun f => parse f (NTernary TOK_EOF) s)); [apply (IH s t k rest a b S A P ltac:(lia))|]. intros s' S'; cbv beta in *.
  rewrite (st_tk _ _ _ _ _ S'). pose proof (ahead_adv _ _ _ A) as A1. destruct (ahead_next _ _ _ A1) as (_ & _ & _ & -> & _).
  destruct (lrank_mem (lx_tok k) ltac:(lia)) as (-> & _). apply reach_ok. exact S'.
Qed.
Lemma assign_stops k l : In k assign_toks -> (1 <= l <= 10)%nat -> findtok (ops_of (level_of l)) k = false.
Proof.
  intros H Hl. unfold assign_toks in H. in_cases H; do 11 (destruct l as [|l]; [try lia; reflexivity|]); lia.
Qed.
Lemma lhs_levels k rest : In (lx_tok k) assign_toks -> forall c p q s t t' a a' b, (c <= 10)%nat -> st s t a b p -> p + Z.of_nat c <= 512 ->
  (forall s0, st s0 t a b (p + Z.of_nat c) -> reach (fun f => parse f NUnary s0) (fun s' => st s' t' a' b (q + Z.of_nat c))) -> ahead t' (k :: rest) ->
  reach (fun f => parse f (nt_of c) s) (fun s' => st s' t' a' b q).
Proof.
  intros Hk. induction c as [|c IH]; intros p q s t t' a a' b Hc S D HU A'.
  - cbn [nt_of]. replace (p + Z.of_nat 0) with p in HU by lia. replace (q + Z.of_nat 0) with q in HU by lia. apply HU. exact S.
  - eapply level_in; [exact (fun _ => True)|lia|exact S|lia|]. cbn [Nat.sub]. rewrite Nat.sub_0_r.
    eapply reach_rec.
    + apply (IH (p + 1) (q + 1) _ t t' a a' b ltac:(lia) (st_depth _ _ _ _ _ (p + 1) S) ltac:(lia)).
      * intros s0 S0. replace (q + 1 + Z.of_nat c) with (q + Z.of_nat (Datatypes.S c)) by lia. apply HU. replace (p + Z.of_nat (Datatypes.S c)) with (p + 1 + Z.of_nat c) by lia. exact S0.
      * exact A'.
    + intros s1 S1; cbv beta in *. unfold ltr_rest. rewrite (st_tk _ _ _ _ _ S1). destruct (ahead_next _ _ _ A') as (_ & _ & _ & -> & _).
      rewrite assign_stops by (auto; lia). apply reach_ok. exact S1.
Qed.
Lemma Px_assign p q q1 ts1 t0 ts2 r e : In (lx_tok t0) assign_toks -> p + 10 <= 512 ->
  P_mem true (p + 10) (q1 + 10) ts1 r -> P_xp 12 q1 q ts2 e -> P_xp 12 p q (ts1 ++ t0 :: ts2) (XAsg (lx_tok t0) r e).
Proof.
  intros Ha D [Hs Hm] [_ He]. split; [apply starts_app, prim_start; exact Hs|]. intros s t k rest a b S A P R. rewrite <- app_assoc in A. cbn [app] in A.
  pose proof (ahead_adv _ _ _ A) as A1. destruct (ahead_next _ _ _ A1) as (_ & P1 & A2 & Tk1 & _).
  assert (Fa : findtok s_assign_ops (lx_tok t0) = true) by (apply findtok_in; exact Ha).
  assert (L : is_lhs (lx_tok t0) = true) by (unfold is_lhs; rewrite Fa; reflexivity).
  cbn [ntx]. apply reach_parse. cbn [rule]. unfold parse_assignment.
  eapply (reach_rec (fun f => parse f (NTernary TOK_EOF) s) _ (fun s' => st s' (adv t ts1) (a ++ cref r) b q1)).
  - apply reach_parse. cbn [rule]. unfold parse_ternary.
    eapply (reach_rec (fun f => parse f (NBin LLor TOK_EOF) s) _ (fun s' => st s' (adv t ts1) (a ++ cref r) b q1)).
    + apply (lhs_levels t0 (ts2 ++ k :: rest) Ha 10 p q1 s t (adv t ts1) a (a ++ cref r) b ltac:(lia) S ltac:(lia)); [|exact A1].
      intros s0 S0. apply mem_unary.
      { rewrite (st_tk _ _ _ _ _ S0), (ahead_hd _ _ _ _ A). apply prims_hd. exact Hs. }
      apply reach_parse. cbn [rule]. unfold parse_postfix. eapply reach_rec; [apply (Hm _ _ _ _ _ _ S0 A P (mem_end_lhs _ L))|].
      intros s1 S1; cbv beta in *. rewrite (st_tk _ _ _ _ _ S1), Tk1. unfold cexk in S1. rewrite L in S1. cbn [andb] in S1.
      replace ((lx_tok t0 =? TOK_PLUS_PLUS) || (lx_tok t0 =? TOK_MINUS_MINUS)) with false.
      * apply reach_ok. exact S1.
      * symmetry. revert Ha. generalize (lx_tok t0). intros z Hz. unfold assign_toks in Hz. in_cases Hz; reflexivity.
    + intros s1 S1; cbv beta in *. unfold opt_op. tokc. cbnb. rewrite (st_tk _ _ _ _ _ S1), Tk1.
      replace (lx_tok t0 =? TOK_QUESTION) with false; [apply reach_ok; exact S1|].
      symmetry. revert Ha. generalize (lx_tok t0). intros z Hz. unfold assign_toks in Hz. in_cases Hz; reflexivity.
  - intros s1 S1; cbv beta in *. rewrite (st_tk _ _ _ _ _ S1), Tk1, Fa. nx A1.
    eapply (reach_rec (fun f => parse f NAssign s0)); [apply (He _ _ _ _ _ _ H A2); [rewrite P1; apply prev_assign; exact Ha|exact R]|].
    intros s2 S2; cbv beta in *. assert (Ob : 0 <= lx_tok t0 < 256).
    { revert Ha. generalize (lx_tok t0). intros z Hz. unfold assign_toks in Hz. in_cases Hz; vm_compute; intuition congruence. }
    eop. fin H0.
Qed.
