(** The parser emits the code of the tree: operands and operators. *)
From Verif Require Import Base BaseFacts Value_Model Str_Model Str_Spec Ops_Model TokNum_Model Num_Model Txt_Model Tok_Spec Tok_Model
  Bcode_Model Bcode_Proofs Str_Proofs Parse_Model Parse_Proofs Expr_Spec Expr_Proofs Lit_Proofs Expr_Proofs1 Expr_Proofs2 Props_Str Str_Proofs3 Lang_Spec
  Lang_Proofs1 Lang_Proofs2.
Ltac Zify.zify_post_hook ::= Z.div_mod_to_equations.

Ltac rk := match goal with K : lx_tok ?k = _ |- context [lrank (lx_tok ?k)] => rewrite K; apply Nat.leb_le; vm_compute; reflexivity end.
Ltac pk P K := rewrite P, K; apply prev_lit; cbn [In]; tauto.

(** ** Object and array literals *)
Lemma Pp_obj p q lc ts rc l : lx_tok lc = TOK_OPEN_CURLY -> lx_tok rc = TOK_CLOSE_CURLY -> P_props p q ts l -> P_prim false p q (lc :: ts ++ [rc]) (XObj l).
Proof.
  intros Kl Kr IH. split; [|split].
  - cbn [hd_tok]. rewrite Kl. unfold prims. cbn [In]. tauto.
  - change (lc :: ts ++ [rc]) with ((lc :: ts) ++ [rc]). rewrite last_snoc, Kr. cbn. intuition discriminate.
  - intros s t k rest a b S A P. cbn [app] in A. rewrite <- app_assoc in A. cbn [app] in A. aprev A.
    apply reach_parse. cbn [rule]. unfold parse_literal. tkr. rewrite Tk, Kl. tokc.
    eapply (reach_rec2 (fun f => parse f NObject s) _ (fun s' => st s' (adv (nxt t) ts) (a ++ cex (XObj l)) b q)).
    + apply reach_parse. cbn [rule]. unfold parse_object_literal. expt A Kl. eb.
      eapply reach_weaken; [apply (IH _ _ _ _ _ _ H0 A0 Kr)|]. intros s' H'. eapply st_eq; [exact H'|reflexivity|cbn [cex]; lapp|reflexivity|reflexivity].
    + intros s' H'. cbv beta iota. change (E_OK =? E_OK) with true. cbn [negb andb]. nx (ahead_adv _ _ _ A0). fin H.
Qed.
Lemma Pp_arr p q lb ts rb l : lx_tok lb = TOK_OPEN_BRACKET -> lx_tok rb = TOK_CLOSE_BRACKET -> P_args p q ts l -> P_prim false p q (lb :: ts ++ [rb]) (XArr l).
Proof.
  intros Kl Kr IH. split; [|split].
  - cbn [hd_tok]. rewrite Kl. unfold prims. cbn [In]. tauto.
  - change (lb :: ts ++ [rb]) with ((lb :: ts) ++ [rb]). rewrite last_snoc, Kr. cbn. intuition discriminate.
  - intros s t k rest a b S A P. cbn [app] in A. rewrite <- app_assoc in A. cbn [app] in A. aprev A.
    apply reach_parse. cbn [rule]. unfold parse_literal. tkr. rewrite Tk, Kl. tokc.
    eapply (reach_rec2 (fun f => parse f NArray s) _ (fun s' => st s' (adv (nxt t) ts) (a ++ cex (XArr l)) b q)).
    + apply reach_parse. cbn [rule]. unfold parse_array_literal. expt A Kl. eb.
      destruct (IH _ _ _ _ _ _ H0 A0 ltac:(right; pk Pv Kl)) as [_ X].
      eapply reach_weaken; [apply (X Kr)|]. intros s' H'. eapply st_eq; [exact H'|reflexivity|cbn [cex]; lapp|reflexivity|reflexivity].
    + intros s' H'. cbv beta iota. change (E_OK =? E_OK) with true. cbn [negb andb]. nx (ahead_adv _ _ _ A0). fin H.
Qed.
Lemma start_not k x : In k xstarts -> ~ In x xstarts -> (k =? x) = false.
Proof. intros I N. apply Z.eqb_neq. intros ->. contradiction. Qed.
Ltac nst := vm_compute; intuition discriminate.
Lemma hd_ne ts x y : hd_tok ts TOK_EOF <> TOK_EOF -> hd_tok ts x = hd_tok ts y.
Proof. destruct ts; [contradiction|reflexivity]. Qed.
Lemma start_hd ts x : In (hd_tok ts TOK_EOF) xstarts -> In (hd_tok ts x) xstarts.
Proof. intros H. rewrite (hd_ne ts x TOK_EOF); [exact H|]. intros E. rewrite E in H. revert H. nst. Qed.


Lemma Pa_nil p : P_args p p [] [].
Proof.
  intros s t k rest a b S A P. cbn [app] in A. aprev A.
  split; intros K; apply reach_parse; cbn [rule]; [unfold parse_args_loop|unfold parse_arr_loop]; tkr; rewrite Tk, K; tokc; fin S.
Qed.
Lemma Pa_one p q ts e : P_xp 12 p q ts e -> P_args p q ts [e].
Proof.
  intros [Hs He] s t k rest a b S A P. assert (P' : prev_ok (t_prev t)).
  { destruct P as [->|P]; [revert Hs; nst|exact P]. }
  pose proof (ahead_adv _ _ _ A) as A1. destruct (ahead_next _ _ _ A1) as (_ & _ & _ & Tk1 & _).
  pose proof (ahead_hd _ _ _ _ A) as T0. pose proof (start_hd _ (lx_tok k) Hs) as Hs1. rewrite <- T0 in Hs1.
  split; intros K; apply reach_parse; cbn [rule].
  - unfold parse_args_loop. tkr. rewrite (start_not _ TOK_CLOSE_PAREN Hs1 ltac:(nst)).
    eapply (reach_rec (fun f => parse f NAssign s)); [apply (He _ _ _ _ _ _ S A P'); rk|].
    intros s2 S2; cbv beta iota in *. rewrite (st_tk _ _ _ _ _ S2), Tk1, K. tokc. cbnb.
    apply reach_parse. cbn [rule]. unfold parse_args_loop. rewrite (st_tk _ _ _ _ _ S2), Tk1, K. tokc. fin S2.
   
  - unfold parse_arr_loop. tkr. rewrite (start_not _ TOK_CLOSE_BRACKET Hs1 ltac:(nst)). eb.
    eapply (reach_rec (fun f => parse f NAssign s0)); [apply (He _ _ _ _ _ _ H A P'); rk|].
    intros s2 S2; cbv beta iota in *. eb. rewrite (st_tk _ _ _ _ _ H0), Tk1, K. tokc. cbnb.
    apply reach_parse. cbn [rule]. unfold parse_arr_loop. rewrite (st_tk _ _ _ _ _ H0), Tk1, K. tokc. fin H0.
Qed.
Lemma Pa_more p q q1 ts c ts' e l : P_xp 12 p q1 ts e -> lx_tok c = TOK_COMMA -> P_args q1 q ts' l -> P_args p q (ts ++ c :: ts') (e :: l).
Proof.
  intros [Hs He] Kc Hl s t k rest a b S A P. assert (P' : prev_ok (t_prev t)).
  { destruct P as [E|P]; [apply app_eq_nil in E; destruct E; discriminate|exact P]. }
  rewrite <- app_assoc in A. cbn [app] in A.
  pose proof (ahead_adv _ _ _ A) as A1. destruct (ahead_next _ _ _ A1) as (_ & Pc & A2 & Tk1 & _).
  pose proof (ahead_hd _ _ _ _ A) as T0. pose proof (start_hd _ (lx_tok c) Hs) as Hs1. rewrite <- T0 in Hs1.
  assert (P2 : ts' = [] \/ prev_ok (t_prev (nxt (adv t ts)))) by (right; rewrite Pc, Kc; apply prev_lit; cbn [In]; tauto).
  split; intros K; apply reach_parse; cbn [rule].
  - unfold parse_args_loop. tkr. rewrite (start_not _ TOK_CLOSE_PAREN Hs1 ltac:(nst)).
    eapply (reach_rec (fun f => parse f NAssign s)); [apply (He _ _ _ _ _ _ S A P'); rk|].
    intros s2 S2; cbv beta iota in *. rewrite (st_tk _ _ _ _ _ S2), Tk1, Kc. tokc. nx A1.
    eapply reach_weaken; [apply (Hl _ _ _ _ _ _ H A2 P2); exact K|]. intros s' H'. eapply st_eq; [exact H'|tadv|cbn [flat_map]; lapp|reflexivity|reflexivity].
  - unfold parse_arr_loop. tkr. rewrite (start_not _ TOK_CLOSE_BRACKET Hs1 ltac:(nst)). eb.
    eapply (reach_rec (fun f => parse f NAssign s0)); [apply (He _ _ _ _ _ _ H A P'); rk|].
    intros s2 S2; cbv beta iota in *. eb. rewrite (st_tk _ _ _ _ _ H0), Tk1, Kc. tokc. nx A1.
    eapply reach_weaken; [apply (Hl _ _ _ _ _ _ H1 A2 P2); exact K|]. intros s' H'. eapply st_eq; [exact H'|tadv|cbn [flat_map]; lapp|reflexivity|reflexivity].
Qed.

Lemma Pr_nil p : P_props p p [] [].
Proof.
  intros s t k rest a b S A K. cbn [app] in A. aprev A. apply reach_parse. cbn [rule]. unfold parse_obj_loop. tkr. rewrite Tk, K. tokc. fin S.
 
Qed.
(** One property, up to what follows it. *)
Lemma prop_parsed p q n kc ts e s t k rest a b (K : nat -> ps -> pres) Q :
  lx_tok n = TOK_IDENT \/ lx_tok n = TOK_STR -> lx_tok kc = TOK_COLON -> P_xp 12 p q ts e ->
  st s t a b p -> ahead t (n :: kc :: ts ++ k :: rest) -> (12 < lrank (lx_tok k))%nat ->
  (forall s', st s' (adv (nxt (nxt t)) ts) (a ++ (OP_DUP :: OP_PUSH_STR :: strb (lx_text n) ++ OP_SWAP :: cex e ++ [OP_EXPR; TOK_ASSIGN; OP_DROP])) b q -> reach (fun f => K f s') Q) ->
  reach (fun f => (s <- e_bytes s [OP_DUP; OP_PUSH_STR] ;;
    s <- e_str s (tok_text (p_t s)) ;;
    s <- e_byte s OP_SWAP ;;
    s <- pnext1 s ;;
    s <-- expect s TOK_COLON ;;
    s <-- parse f NAssign s ;;
    s <- emit_op s TOK_ASSIGN ;;
    s <- e_byte s OP_DROP ;; K f s)) Q.
Proof.
  intros Kn Kk [Hs He] S A Rk HK. aprev A. aprev A0. cbn [e_bytes]. eb. eb. pose proof H0 as (E1 & _ & _). rewrite E1, Tx by (destruct Kn as [-> | ->]; discriminate).
  eb. eb. nx A. expt A0 Kk.
  eapply (reach_rec (fun f => parse f NAssign s5)).
  - apply (He _ _ _ _ _ _ H4 A1); [pk Pv0 Kk|exact Rk].
  - intros s6 S6; cbv beta iota in *. eop. eb. apply HK. eapply st_eq; [exact H6|reflexivity|lapp|reflexivity|reflexivity].
Qed.
Lemma prop_checks n : lx_tok n = TOK_IDENT \/ lx_tok n = TOK_STR ->
  (lx_tok n =? TOK_CLOSE_CURLY) = false /\ negb (lx_tok n =? TOK_IDENT) && negb (lx_tok n =? TOK_STR) = false.
Proof. intros [-> | ->]; split; reflexivity. Qed.
Lemma Pr_one p q n kc ts e : lx_tok n = TOK_IDENT \/ lx_tok n = TOK_STR -> lx_tok kc = TOK_COLON -> P_xp 12 p q ts e ->
  P_props p q (n :: kc :: ts) [(lx_text n, e)].
Proof.
  intros Kn Kk He s t k rest a b S A K. cbn [app] in A. apply reach_parse. cbn [rule]. unfold parse_obj_loop.
  aprev A. tkr. rewrite Tk. destruct (prop_checks _ Kn) as [-> ->].
  eapply prop_parsed; eauto; [rk|]. intros s' S'; cbv beta iota in *. pose proof (ahead_adv (n :: kc :: ts) _ _ A) as A1. cbn [adv] in A1.
  rewrite (st_tk _ _ _ _ _ S'). destruct (ahead_next _ _ _ A1) as (_ & _ & _ & Tk1 & _). rewrite Tk1, K. tokc. cbn [negb].
  apply reach_parse. cbn [rule]. unfold parse_obj_loop. rewrite (st_tk _ _ _ _ _ S'), Tk1, K. tokc. fin S'.
Qed.
Lemma Pr_more p q q1 n kc ts c ts' e l : lx_tok n = TOK_IDENT \/ lx_tok n = TOK_STR -> lx_tok kc = TOK_COLON -> P_xp 12 p q1 ts e ->
  lx_tok c = TOK_COMMA -> P_props q1 q ts' l -> P_props p q (n :: kc :: ts ++ c :: ts') ((lx_text n, e) :: l).
Proof.
  intros Kn Kk He Kc Hl s t k rest a b S A K. cbn [app] in A. rewrite <- app_assoc in A. cbn [app] in A. apply reach_parse. cbn [rule]. unfold parse_obj_loop.
  aprev A. tkr. rewrite Tk. destruct (prop_checks _ Kn) as [-> ->].
  eapply prop_parsed; eauto; [rk|]. intros s' S'; cbv beta iota in *. pose proof (ahead_adv (n :: kc :: ts) _ _ A) as A1. cbn [adv] in A1.
  rewrite (st_tk _ _ _ _ _ S'). destruct (ahead_next _ _ _ A1) as (_ & _ & A2 & Tk1 & _). rewrite Tk1, Kc. tokc. nx A1.
  eapply reach_weaken; [apply (Hl _ _ _ _ _ _ H A2 K)|]. intros s2 H2. eapply st_eq; [exact H2|tadv|cbn [flat_map fst snd]; lapp|reflexivity|reflexivity].
Qed.

(** ** Member accesses and calls *)
Lemma mem_stop s t a b d k rest : st s t a b d -> ahead t (k :: rest) -> mem_end (lx_tok k) -> reach (fun f => parse f NMemLoop s) (fun s' => st s' t a b d).
Proof.
  intros S A (N1 & N2 & N3). aprev A. apply reach_parse. cbn [rule]. unfold parse_mem_loop. tkr. rewrite Tk.
  replace (lx_tok k =? TOK_OPEN_BRACKET) with false by lia. replace (lx_tok k =? TOK_OPEN_PAREN) with false by lia. replace (lx_tok k =? TOK_DOT) with false by lia.
  apply reach_ok. exact S.
Qed.
Lemma Pt_none r p acc : P_tail r r p p acc [] acc.
Proof. intros s t k rest a b S A P E. cbn [app hd_tok] in *. exact (mem_stop _ _ _ _ _ _ _ S A E). Qed.
Lemma cexk_hd r e k : In k [TOK_DOT; TOK_OPEN_BRACKET; TOK_OPEN_PAREN] -> cexk r e k = cex e.
Proof. intros H. unfold cexk. in_cases H; rewrite andb_false_r; reflexivity. Qed.
Lemma Pt_dot r0 r p q acc t0 u ts e : lx_tok t0 = TOK_DOT -> lx_tok u = TOK_IDENT -> P_tail true r p q (XDot acc (lx_text u)) ts e ->
  P_tail r0 r p q acc (t0 :: u :: ts) e.
Proof.
  intros Kd Ku IH s t k rest a b S A P E. cbn [app] in A. cbn [hd_tok] in S. rewrite Kd, cexk_hd in S by (cbn [In]; tauto). aprev A. aprev A0.
  apply reach_parse. cbn [rule]. unfold parse_mem_loop. tkr. rewrite Tk, Kd. tokc. expt A Kd.
  set (k1 := hd k ts). set (r1 := List.tl (ts ++ k :: rest)). assert (Ek : ts ++ k :: rest = k1 :: r1) by (unfold k1, r1; destruct ts; reflexivity).
  assert (Hk1 : lx_tok k1 = hd_tok ts (lx_tok k)) by (unfold k1; destruct ts; reflexivity).
  pose proof A0 as A0'. rewrite Ek in A0.
  eapply (reach_rec (fun f => parse f NMem s0) _ (fun s' => st s' (adv t (t0 :: u :: ts)) (a ++ cexk r e (lx_tok k)) b q)).
  - apply reach_parse. cbn [rule]. unfold parse_call_dot_mem.
    eapply reach_rec.
    + apply (ident_parsed _ _ _ _ _ _ _ _ H A0 Ku). rewrite Pv, Kd. vm_compute. intuition discriminate.
    + intros s2 S2; cbv beta iota in *. cbn [adv] in S2. rewrite Pv, Kd in S2. change (TOK_DOT =? TOK_DOT) with true in S2. cbv iota in S2. cbn [adv].
      apply (IH s2 (nxt (nxt t)) k rest a b); [|exact A1| |exact E].
      * eapply st_eq; [exact S2|reflexivity| |reflexivity|reflexivity]. unfold cexk, cref. rewrite Hk1. cbn [andb refcode cex].
        destruct (is_lhs (hd_tok ts (lx_tok k))); lapp.
      * rewrite Pv0, Ku. vm_compute. intuition discriminate.
  - intros s2 S2; cbv beta iota in *. apply (mem_stop _ _ _ _ _ k rest S2); [|exact E]. cbn [adv]. apply ahead_adv. exact A1.
Qed.
Lemma Pt_idx r0 r p q q1 acc lb ts rb ts' k0 e : lx_tok lb = TOK_OPEN_BRACKET -> lx_tok rb = TOK_CLOSE_BRACKET ->
  P_xp 12 p q1 ts k0 -> P_tail true r q1 q (XIdx acc k0) ts' e -> P_tail r0 r p q acc (lb :: ts ++ rb :: ts') e.
Proof.
  intros Kl Kr [Hs He] IH s t k rest a b S A P E. cbn [app] in A. rewrite <- app_assoc in A. cbn [app] in A. cbn [hd_tok] in S.
  rewrite Kl, cexk_hd in S by (cbn [In]; tauto). aprev A.
  apply reach_parse. cbn [rule]. unfold parse_mem_loop. tkr. rewrite Tk, Kl. tokc. cbv zeta. expt A Kl.
  eapply (reach_rec (fun f => parse f NAssign s0)); [apply (He _ _ _ _ _ _ H A0); [pk Pv Kl|rk]|].
  intros s2 S2; cbv beta iota in *. eb. pose proof (ahead_adv _ _ _ A0) as A1. expt A1 Kr. pose proof S as (E1 & _ & _). rewrite E1.
  rewrite (wants_get_eq _ _ P). destruct (ahead_next _ _ _ A1) as (_ & P1 & A2 & _). rewrite (st_tk _ _ _ _ _ H1), (ahead_hd _ _ _ _ A2).
  assert (Fin : forall s4, st s4 (nxt (adv (nxt t) ts)) (a ++ cexk true (XIdx acc k0) (hd_tok ts' (lx_tok k))) b q1 ->
    gets NMemLoop s4 t (lb :: ts ++ rb :: ts') (a ++ cexk r e (lx_tok k)) b q).
  { intros s4 S4. cbn [adv]. rewrite adv_app. cbn [adv]. apply (IH s4 _ k rest a b S4 A2); [|exact E]. rewrite P1, Kr. vm_compute. intuition discriminate. }
  unfold cexk, cref in Fin. cbn [andb refcode cex] in Fin.
  destruct (is_lhs (hd_tok ts' (lx_tok k))); cbn [negb].
  - cbnb. apply Fin. eapply st_eq; [exact H1|reflexivity|lapp|reflexivity|reflexivity].
  - eb. apply Fin. eapply st_eq; [exact H2|reflexivity|lapp|reflexivity|reflexivity].
Qed.
Lemma Pt_call r0 r p q q1 acc lp ts rp ts' l e : lx_tok lp = TOK_OPEN_PAREN -> lx_tok rp = TOK_CLOSE_PAREN ->
  P_args p q1 ts l -> P_tail false r q1 q (XCall acc l) ts' e -> P_tail r0 r p q acc (lp :: ts ++ rp :: ts') e.
Proof.
  intros Kl Kr Hl IH s t k rest a b S A P E. cbn [app] in A. rewrite <- app_assoc in A. cbn [app] in A. cbn [hd_tok] in S.
  rewrite Kl, cexk_hd in S by (cbn [In]; tauto). aprev A.
  apply reach_parse. cbn [rule]. unfold parse_mem_loop. tkr. rewrite Tk, Kl. tokc. expt A Kl. eb.
  destruct (Hl _ _ _ _ _ _ H0 A0 ltac:(right; pk Pv Kl)) as [X _].
  eapply (reach_rec (fun f => parse f NArgsLoop s1)); [apply (X Kr)|].
  intros s2 S2; cbv beta iota in *. eb. pose proof (ahead_adv _ _ _ A0) as A1. expt A1 Kr. destruct (ahead_next _ _ _ A1) as (_ & P1 & A2 & _).
  cbn [adv]. rewrite adv_app. cbn [adv]. apply (IH _ _ k rest a b); [|exact A2| |exact E].
  - eapply st_eq; [exact H2|reflexivity|unfold cexk; cbn [andb cex]; lapp|reflexivity|reflexivity].
  - rewrite P1, Kr. vm_compute. intuition discriminate.
Qed.
Lemma Pm r0 r p q q1 ts1 ts2 e0 e : P_prim r0 p q1 ts1 e0 -> P_tail r0 r q1 q e0 ts2 e -> P_mem r p q (ts1 ++ ts2) e.
Proof.
  intros (Hs & Hl & Hp) Ht. assert (NE : ts1 <> []) by (intros ->; revert Hs; vm_compute; intuition discriminate). split.
  - destruct ts1; [contradiction|exact Hs].
  - intros s t k rest a b S A P E. rewrite <- app_assoc in A.
    set (k1 := hd k ts2). set (r1 := List.tl (ts2 ++ k :: rest)). assert (Ek : ts2 ++ k :: rest = k1 :: r1) by (unfold k1, r1; destruct ts2; reflexivity).
    assert (Hk1 : lx_tok k1 = hd_tok ts2 (lx_tok k)) by (unfold k1; destruct ts2; reflexivity).
    pose proof (ahead_adv _ _ _ A) as A1. pose proof (adv_prev _ _ _ A NE) as P1. rewrite Ek in A.
    apply reach_parse. cbn [rule]. unfold parse_call_dot_mem. eapply reach_rec; [apply (Hp _ _ _ _ _ _ S A P)|].
    intros s1 S1; cbv beta iota in *. rewrite Hk1 in S1. rewrite adv_app. apply (Ht _ _ _ _ _ _ S1 A1); [|exact E]. rewrite P1. exact Hl.
Qed.

(** ** Unary operators *)
Lemma prim_start k : In k prims -> In k xstarts.
Proof. intros H. unfold xstarts. rewrite in_app_iff. tauto. Qed.
Lemma mem_unary s : In (tk s) prims -> forall Q, reach (fun f => parse f NPostfix s) Q -> reach (fun f => parse f NUnary s) Q.
Proof. intros H Q R. apply postfix_to_unary; [apply prim_unary; exact H|exact R]. Qed.
Lemma prims_hd ts k : In (hd_tok ts TOK_EOF) prims -> In (hd_tok ts k) prims.
Proof. intros H. rewrite (hd_ne ts k TOK_EOF); [exact H|]. intros E. rewrite E in H. revert H. nst. Qed.
(** A variable or member about to be assigned, through the levels of operators. *)
Lemma Px_mem r p q ts e : P_mem r p q ts e -> P_xp 0 p q ts e.
Proof.
  intros [Hs Hm]. split; [apply prim_start; exact Hs|]. intros s t k rest a b S A P R. cbn [ntx nt_of]. apply mem_unary.
  { rewrite (st_tk _ _ _ _ _ S), (ahead_hd _ _ _ _ A). apply prims_hd. exact Hs. }
  apply reach_parse. cbn [rule]. unfold parse_postfix. eapply reach_rec; [apply (Hm _ _ _ _ _ _ S A P (mem_end_rank _ R))|].
  intros s1 S1; cbv beta iota in *. pose proof (ahead_adv _ _ _ A) as A1. rewrite (st_tk _ _ _ _ _ S1). destruct (ahead_next _ _ _ A1) as (_ & _ & _ & -> & _).
  destruct (lrank_mem _ R) as (_ & _ & _ & _ & _ & -> & ->). cbn [orb]. apply reach_ok. rewrite cexk_plain in S1 by exact R. exact S1.
Qed.
Lemma inc_cases z : In z inc_toks -> z = TOK_PLUS_PLUS \/ z = TOK_MINUS_MINUS.
Proof. intros H. unfold inc_toks in H. cbn [In] in H. intuition congruence. Qed.
Lemma Px_post p q ts u e : P_mem true p q ts e -> In (lx_tok u) inc_toks ->
  P_xp 0 p q (ts ++ [u]) (XInc (if lx_tok u =? TOK_PLUS_PLUS then TOK_POSTFIX_PLUS else TOK_POSTFIX_MINUS) e).
Proof.
  intros [Hs Hm] Hu. assert (NE : ts <> []) by (intros ->; revert Hs; nst). split; [apply prim_start; destruct ts; [contradiction|exact Hs]|].
  intros s t k rest a b S A P R. rewrite <- app_assoc in A. cbn [app] in A. cbn [ntx nt_of]. apply mem_unary.
  { rewrite (st_tk _ _ _ _ _ S), (ahead_hd _ _ _ _ A). apply prims_hd. exact Hs. }
  assert (L : is_lhs (lx_tok u) = true) by (destruct (inc_cases _ Hu) as [-> | ->]; reflexivity).
  apply reach_parse. cbn [rule]. unfold parse_postfix. eapply reach_rec; [apply (Hm _ _ _ _ _ _ S A P (mem_end_lhs _ L))|].
  intros s1 S1; cbv beta iota in *. pose proof (ahead_adv _ _ _ A) as A1. rewrite (st_tk _ _ _ _ _ S1). destruct (ahead_next _ _ _ A1) as (_ & _ & _ & -> & _).
  unfold cexk in S1. rewrite L in S1. cbn [andb] in S1. cbn [cex]. fold (cref e).
  destruct (inc_cases _ Hu) as [E | E]; rewrite E; tokc; cbn [orb]; cbv iota; eop; nx A1; fin H0.
Qed.
Lemma Px_pre p t0 u : In (lx_tok t0) inc_toks -> lx_tok u = TOK_IDENT -> P_xp 0 p p [t0; u] (XInc (lx_tok t0) (XVar (lx_text u))).
Proof.
  intros Ht Ku. split.
  { cbn [hd_tok]. unfold xstarts. rewrite !in_app_iff. tauto. }
  intros s t k rest a b S A P R. cbn [app] in A. aprev A. aprev A0. cbn [ntx nt_of]. apply reach_parse. cbn [rule]. unfold parse_unary. tkr. rewrite Tk.
  assert (F : findtok s_unary_ops (lx_tok t0) = true) by (destruct (inc_cases _ Ht) as [-> | ->]; reflexivity). rewrite F. nx A.
  rewrite (st_tk _ _ _ _ _ H), Tk0, Ku. change (findtok s_unary_ops TOK_IDENT) with false. cbv iota.
  assert (Uc : unary_code (lx_tok t0) = lx_tok t0) by (destruct (inc_cases _ Ht) as [-> | ->]; reflexivity).
  assert (Ub : 0 <= lx_tok t0 < 256) by (destruct (inc_cases _ Ht) as [-> | ->]; vm_compute; intuition congruence).
  destruct (ahead_next _ _ _ A1) as (_ & _ & _ & Tk1 & _).
  eapply (reach_rec (fun f => parse f NPostfix s0) _ (fun s' => st s' (nxt (nxt t)) (a ++ varcode (lx_text u)) b p)).
  - apply reach_parse. cbn [rule]. unfold parse_postfix.
    eapply (reach_rec (fun f => parse f NMem s0) _ (fun s' => st s' (nxt (nxt t)) (a ++ varcode (lx_text u)) b p)).
    + apply reach_parse. cbn [rule]. unfold parse_call_dot_mem.
      eapply (reach_rec (fun f => parse f NLiteral s0) _ (fun s' => st s' (nxt (nxt t)) (a ++ varcode (lx_text u)) b p)).
      * (* the name, with an increment before it *)
        pose proof (Tx0 ltac:(rewrite Ku; discriminate)) as TT. destruct (ahead_next _ _ _ A0) as (N1 & _).
        apply reach_parse. cbn [rule]. unfold parse_literal. tkr. rewrite Tk0, Ku. tokc. unfold ptest. pose proof H as (E1 & _ & _). rewrite E1, N1. cbnb. eb.
        pose proof H0 as (E1' & _ & _). rewrite E1', TT. eb. rewrite Pv. destruct (lx_tok t0 =? TOK_DOT) eqn:Ed; [exfalso; destruct (inc_cases _ Ht) as [X|X]; rewrite X in Ed; discriminate|].
        eb. assert (W : wants_get (t_tok (nxt (nxt t))) (lx_tok t0) = false).
        { unfold wants_get. replace (findtok s_postfix_ops (lx_tok t0)) with true by (symmetry; apply findtok_in; exact Ht). rewrite andb_false_r. reflexivity. }
        rewrite W. unfold pok. cbnb. change (E_OK =? E_OK) with true. cbn [negb andb]. nx A0. apply reach_ok. eapply st_eq; [exact H3|reflexivity|unfold varcode; lapp|reflexivity|reflexivity].
      * intros s1 S1; cbv beta iota in *. apply (mem_stop _ _ _ _ _ k rest S1 A1). apply mem_end_rank. exact R.
    + intros s1 S1; cbv beta iota in *. rewrite (st_tk _ _ _ _ _ S1), Tk1. destruct (lrank_mem _ R) as (_ & _ & _ & _ & _ & -> & ->). cbn [orb]. apply reach_ok. exact S1.
  - intros s1 S1; cbv beta iota in *. rewrite Uc. eop. fin H0.
Qed.
Lemma Px_prefix p q t0 ts e : In (lx_tok t0) prefix_ops -> P_xp 0 p q ts e -> P_xp 0 p q (t0 :: ts) (XUn (lx_tok t0) e).
Proof.
  intros Hin [Hs IH]. destruct (prefix_facts _ Hin) as (F & Po & Ub). split.
  { cbn [hd_tok]. unfold xstarts. rewrite !in_app_iff. tauto. }
  intros s t k rest a b S A P R. cbn [app] in A. aprev A. cbn [ntx nt_of]. apply reach_parse. cbn [rule]. unfold parse_unary. tkr. rewrite Tk, F. nx A.
  assert (RU : gets (if findtok s_unary_ops (tk s0) then NUnary else NPostfix) s0 (nxt t) ts (a ++ cex e) b q).
  { assert (X : gets NUnary s0 (nxt t) ts (a ++ cex e) b q) by (apply (IH s0 (nxt t) k rest a b H A0); [rewrite Pv; exact Po|exact R]).
    destruct (findtok s_unary_ops (tk s0)) eqn:Fu; [exact X|]. apply unary_to_postfix; assumption. }
  eapply reach_rec; [exact RU|]. intros s' S2; cbv beta iota in *. eop. fin H0.
Qed.
