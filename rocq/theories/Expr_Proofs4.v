(** Executing the operators. *)
From Verif Require Import Base BaseFacts Value_Model Value_Spec Value_Proofs Str_Model Str_Spec Str_Proofs Str_Proofs2 Float_Proofs
  Ops_Model Ops_Spec Ops_Proofs Ops_Proofs2 TokNum_Model Txt_Model Obj_Model Obj_Spec Obj_Proofs Conv_Model Vm_Model Vm_Spec Vm_Proofs Vm_Proofs4
  Parse_Model Expr_Spec Run_Spec Expr_Proofs1 Expr_Proofs3.
Ltac Zify.zify_post_hook ::= Z.div_mod_to_equations.

Lemma with_st_id h : with_st h (h_st h) = h. Proof. destruct h; reflexivity. Qed.
Lemma effect_same m m' : same_frame m m' -> m_heap m' = m_heap m -> effect m m' 0.
Proof.
  intros F H. split; [exact F|]. unfold m_st. rewrite H. split; [symmetry; apply with_st_id|]. split; [apply grows_refl|lia].
Qed.
Lemma effect_trans m1 m2 m3 n k : effect m1 m2 n -> effect m2 m3 k -> effect m1 m3 (n + k).
Proof.
  intros (F1 & H1 & G1 & L1) (F2 & H2 & G2 & L2). split; [eapply same_frame_trans; eassumption|].
  split; [rewrite H2, H1; reflexivity|]. split; [eapply grows_trans; eassumption|lia].
Qed.
Lemma effect_more m m' n k : effect m m' n -> n <= k -> effect m m' k.
Proof. intros (F & H & G & L) Hk. split; [exact F|]. split; [exact H|]. split; [exact G|lia]. Qed.
Lemma effect_st m st n : grows (m_st m) st -> zlen (so st) <= zlen (so (m_st m)) + n -> effect m (set_st m st) n.
Proof. intros G L. split; [repeat split|]. split; [reflexivity|]. split; [exact G|exact L]. Qed.
Lemma effect_err m m' n : effect m m' n -> m_err m' = m_err m.
Proof. intros ((_ & _ & _ & _ & E & _) & _). exact E. Qed.
Lemma same_frame_refl m : same_frame m m. Proof. repeat split. Qed.
Lemma effect_ext m m' n : effect m m' n -> m_ext m' = m_ext m.
Proof. intros ((_ & _ & _ & _ & _ & _ & _ & E & _) & _). unfold m_ext. rewrite E. reflexivity. Qed.

(** Popping, pushing. *)
Lemma effect_stack m s : effect m (set_stack m s) 0.
Proof. apply effect_same; [repeat split|reflexivity]. Qed.

Definition gives (m m' : vm) (l : list Z) (r : aval) : Prop :=
  exists w, sk_live (m_stack m') = w :: l /\ rep (m_st m') (m_ext m') w r /\ effect m m' (val_cost r).
Lemma gives_push m m1 l w r : sk_live (m_stack m1) = l -> rep (m_st m1) (m_ext m1) w r -> effect m m1 (val_cost r) -> gives m (push m1 w) l r.
Proof.
  intros L H E. exists w. split; [cbn [push set_stack m_stack sk_push sk_live]; rewrite L; reflexivity|]. split; [exact H|].
  replace (val_cost r) with (val_cost r + 0) by lia. eapply effect_trans; [exact E|]. apply effect_stack.
Qed.
Lemma u64_bool b : is_u64 (mk_boolean b). Proof. destruct b; unfold is_u64; vm_compute; intuition congruence. Qed.
Lemma rep_number st ext d : is_u64 d -> rep st ext (mk_number d) (ANum (mk_number d)).
Proof.
  intros U. split; [reflexivity|]. unfold mk_number. destruct (d_isnan d) eqn:E.
  - split; [unfold is_u64; vm_compute; intuition congruence|reflexivity].
  - split; [exact U|]. unfold is_number, get_double. rewrite E. apply orb_true_r.
Qed.
Lemma type_name_ok a : bytes_ok (type_name a) /\ zlen (type_name a) < 16.
Proof. destruct a; (split; [unfold bytes_ok; cbn; repeat (constructor; [unfold is_byte; lia|]); constructor|vm_compute; reflexivity]). Qed.

Lemma un_exec m op v a r l : In op prefix_ops -> un_val op a = Some r -> sk_live (m_stack m) = v :: l ->
  rep (m_st m) (m_ext m) v a -> zlen (so (m_st m)) < 2 ^ 48 ->
  exists m', exec_expr m (unary_code op) = OK m' /\ gives m m' l r.
Proof.
  intros Hin Hv L Hr Hs. destruct (pop_cons m v l L) as (s1 & Ep & L1).
  set (m1 := set_stack m s1) in *. assert (Ef : effect m m1 0) by apply effect_stack.
  change (m_st m) with (m_st m1) in Hr. change (m_ext m) with (m_ext m1) in Hr.
  unfold prefix_ops in Hin. cbn [In] in Hin.
  repeat match type of Hin with _ \/ _ => destruct Hin as [<-|Hin] | False => destruct Hin end.
  - (* not *)
    change (un_val TOK_NOT a) with (Some (ABool (negb (truthy a)))) in Hv.
    change (exec_expr m (unary_code TOK_NOT)) with (let '(a, m) := pop m in t <- is_truthy (m_st m) a ;; OK (push m (mk_boolean (negb t)))).
    rewrite Ep, (rep_truthy _ _ _ _ Hr). cbn [bind]. eexists. split; [reflexivity|].
    assert (r = ABool (negb (truthy a))) by congruence. subst r. apply gives_push; [exact L1|reflexivity|exact Ef].
  - (* tilda *)
    change (exec_expr m (unary_code TOK_TILDA)) with (let '(a, m) := pop m in v <- un_tilda a ;; OK (push m v)). rewrite Ep.
    destruct a as [p| | | |]; try discriminate Hv. destruct Hr as (-> & U & N).
    change (un_val TOK_TILDA (ANum p)) with (match int64_part p with Some n => Some (ANum (canon (of_int (- n - 1)))) | None => None end) in Hv.
    unfold un_tilda, get_double. rewrite i64_part. destruct (int64_part p) as [n|]; [|discriminate Hv]. cbn [bind].
    eexists. split; [reflexivity|]. rewrite canon_eq in Hv. assert (r = ANum (mk_number (d_of_Z (Z.lnot n)))).
    { unfold of_int in Hv. unfold d_of_Z. replace (Z.lnot n) with (- n - 1) by (unfold Z.lnot; lia). congruence. }
    subst r. apply gives_push; [exact L1|apply rep_number; apply d_of_Z_valid|exact Ef].
  - (* typeof *)
    change (un_val TOK_KEYWORD_TYPEOF a) with (Some (AStr (type_name a))) in Hv.
    change (exec_expr m (unary_code TOK_KEYWORD_TYPEOF)) with
      (let '(a, m) := pop m in t <- get_type a ;; '(st, v) <- mk_string (m_st m) (type_text t) ;; OK (push (set_st m st) v)).
    rewrite Ep. destruct (rep_type _ _ _ _ Hr) as (t & -> & Et). cbn [bind]. rewrite Et.
    destruct (type_name_ok a) as [B Lt].
    destruct (mk_string_holds (m_st m1) (m_ext m1) (type_name a) B Hs ltac:(lia)) as (st & w & Mk & Hh & _). rewrite Mk. cbn [bind].
    eexists. split; [reflexivity|]. assert (r = AStr (type_name a)) by congruence. subst r.
    apply gives_push; [exact L1|split; [exact Hh|exact B]|]. cbn [val_cost]. unfold str_cost.
    replace (zlen (type_name a) + 16) with (0 + (zlen (type_name a) + 16)) by lia. eapply effect_trans; [exact Ef|].
    apply effect_st; [apply (mk_string_grows _ _ _ _ Mk)|]. destruct (mk_string_room _ _ _ _ Mk ltac:(lia)). lia.
  - (* minus *)
    change (exec_expr m (unary_code TOK_MINUS)) with (let '(a, m) := pop m in OK (push m (un_minus a))). rewrite Ep.
    destruct a as [p| | | |]; try discriminate Hv. destruct Hr as (-> & U & N).
    change (un_val TOK_MINUS (ANum p)) with (Some (ANum (canon (flip p)))) in Hv. rewrite canon_eq, flip_eq in Hv.
    eexists. split; [reflexivity|]. assert (r = ANum (mk_number (d_neg p))) by congruence. subst r.
    apply gives_push; [exact L1| |exact Ef]. apply rep_number. unfold d_neg, d_sign, is_u64 in *. destruct (2 ^ 63 <=? p) eqn:E; lia.
  - (* plus *)
    change (exec_expr m (unary_code TOK_PLUS)) with (OK m).
    destruct a as [p| | | |]; try discriminate Hv. change (un_val TOK_PLUS (ANum p)) with (Some (ANum p)) in Hv.
    assert (r = ANum p) by congruence. subst r. exists m. split; [reflexivity|]. exists v. split; [exact L|]. split; [exact Hr|].
    apply effect_same; [apply same_frame_refl|reflexivity].
Qed.

Lemma prec_in op : (1 <= prec op <= 8)%nat -> In op [TOK_MUL; TOK_DIV; TOK_REM; TOK_PLUS; TOK_MINUS; TOK_LSHIFT; TOK_RSHIFT; TOK_URSHIFT;
  TOK_LT; TOK_LE; TOK_GT; TOK_GE; TOK_EQ; TOK_NE; TOK_EQ_EQ; TOK_NE_NE; TOK_AND; TOK_XOR; TOK_OR].
Proof.
  intros H. unfold prec in H.
  repeat match type of H with
  | context [existsb (Z.eqb op) ?l] =>
      let E := fresh in destruct (existsb (Z.eqb op) l) eqn:E;
      [apply existsb_in in E; cbn [In] in E |- *; intuition congruence|]
  | context [op =? ?x] =>
      let E := fresh in destruct (op =? x) eqn:E; [apply Z.eqb_eq in E; cbn [In]; rewrite E; intuition congruence|]
  end. lia.
Qed.
Lemma bin_val_arith op a b r : In op arith_ops -> bin_val op a b = Some r ->
  (exists p q z, a = ANum p /\ b = ANum q /\ num_bin op p q = Some z /\ r = ANum z) \/
  (exists s t, a = AStr s /\ b = AStr t /\ op = TOK_PLUS /\ r = AStr (s ++ t)).
Proof.
  intros Hin H. unfold bin_val in H. unfold arith_ops in Hin. cbn [In] in Hin.
  repeat match type of Hin with _ \/ _ => destruct Hin as [<-|Hin] | False => destruct Hin end;
  repeat match type of H with context [?x =? ?y] =>
    let v := eval vm_compute in (x =? y) in
    lazymatch v with true => change (x =? y) with true in H | false => change (x =? y) with false in H end end;
  cbv iota beta delta [orb] in H; destruct a, b; try discriminate H;
  first [left; destruct (num_bin _ p p0) as [z|] eqn:E; [|discriminate H]; exists p, p0, z; repeat split; try reflexivity; [exact E|congruence]
        |right; exists s, s0; repeat split; congruence].
Qed.
Lemma bin_exec m op v w a b r l : (1 <= prec op <= 8)%nat -> bin_val op a b = Some r ->
  sk_live (m_stack m) = w :: v :: l -> rep (m_st m) (m_ext m) v a -> rep (m_st m) (m_ext m) w b ->
  zlen (so (m_st m)) + val_cost r < 2 ^ 48 ->
  exists m', exec_expr m op = OK m' /\ gives m m' l r.
Proof.
  intros Hp Hv L Ha Hb Hs. pose proof (zlen_nonneg (so (m_st m))) as Ps.
  destruct (pop_cons m w (v :: l) L) as (s1 & Ep & L1).
  destruct (pop_cons (set_stack m s1) v l L1) as (s2 & Ep2 & L2).
  change (set_stack (set_stack m s1) s2) with (set_stack m s2) in Ep2.
  set (m2 := set_stack m s2) in *. assert (Ef : effect m m2 0) by apply effect_stack.
  change (m_st m) with (m_st m2) in Ha, Hb. change (m_ext m) with (m_ext m2) in Ha, Hb.
  apply prec_in in Hp.
  assert (Ar : In op arith_ops -> exists m', exec_expr m op = OK m' /\ gives m m' l r).
  { intros Hin. assert (X : in_list op arith_ops = true).
    { unfold in_list. apply existsb_exists. exists op. split; [exact Hin|apply Z.eqb_refl]. }
    unfold exec_expr. rewrite X, Ep, Ep2. unfold vm_op.
    destruct (bin_val_arith op a b r Hin Hv) as [(p & q & z & -> & -> & Hz & ->)|(s & t & -> & -> & -> & ->)].
    - destruct Ha as (-> & Ua & Na), Hb as (-> & Ub & Nb).
      destruct (kinds p Ua) as (_ & _ & A3 & _). destruct (kinds q Ub) as (_ & _ & B3 & _).
      assert (Ka : kind_of p = KNumber) by (apply (rep_kind (m_st m2) (m_ext m2) p (ANum p)); repeat split; assumption || apply Ua).
      assert (Kb : kind_of q = KNumber) by (apply (rep_kind (m_st m2) (m_ext m2) q (ANum q)); repeat split; assumption || apply Ub).
      destruct (num_bin_arith p q op z Hin Hz) as (o & Eo & Ez).
      unfold do_op. rewrite A3, B3, Ka, Kb, Na, Nb. cbn [kind_eqb orb andb xorb]. unfold get_double. rewrite Eo. cbn [bind].
      destruct o as [d|]; cbn [bind]; (eexists; split; [reflexivity|]).
      + change (set_st m2 (m_st m2)) with m2 || (replace (set_st m2 (m_st m2)) with m2 by (unfold set_st, m_st; rewrite with_st_id; destruct m2; reflexivity)).
        change (prepend m2 E_OK) with m2. subst z.
        apply gives_push; [exact L2| |exact Ef]. apply rep_number. exact (arith_number p q op d Ua Ub Eo).
      + replace (set_st m2 (m_st m2)) with m2 by (unfold set_st, m_st; rewrite with_st_id; destruct m2; reflexivity).
        change (prepend m2 E_OK) with m2. subst z.
        apply gives_push; [exact L2| |exact Ef]. split; [reflexivity|]. split; [unfold is_u64; vm_compute; intuition congruence|reflexivity].
    - destruct Ha as [Ha Ba], Hb as [Hb Bb]. cbn [val_cost] in Hs. unfold str_cost in Hs. rewrite zlen_app in Hs.
      pose proof (zlen_nonneg s). pose proof (zlen_nonneg t).
      change (m_st m) with (m_st m2) in Hs, Ps.
      destruct (do_op_strings (m_st m2) (m_ext m2) v w s t Ba Bb Ha Hb ltac:(lia) ltac:(lia)) as (st' & x & E & Hx & G). rewrite E. cbn [bind].
      eexists. split; [reflexivity|]. change (prepend (set_st m2 st') E_OK) with (set_st m2 st').
      apply gives_push; [exact L2|split; [exact Hx|apply Forall_app; split; assumption]|].
      cbn [val_cost]. unfold str_cost. rewrite zlen_app. replace (zlen s + zlen t + 16) with (0 + (zlen s + zlen t + 16)) by lia.
      eapply effect_trans; [exact Ef|]. apply effect_st; [exact G|].
      assert (Cc : s_concat (m_st m2) (m_ext m2) v w = OK (st', x)).
      { pose proof Ha as (Ua & Ka & _). pose proof Hb as (Ub & Kb & _).
        destruct (kinds v Ua) as (A1 & _ & A3 & A4 & _). destruct (kinds w Ub) as (B1 & _ & B3 & B4 & _).
        unfold do_op in E. rewrite A1, A3, A4, B1, B3, B4, Ka, Kb in E. cbn [kind_eqb orb andb] in E. change (TOK_PLUS =? TOK_PLUS) with true in E. cbv iota in E.
        apply bind_ok in E. destruct E as [[st1 x1] [E1 E2]]. rewrite E1. assert (st1 = st' /\ x1 = x) as [-> ->] by (split; congruence). reflexivity. }
      pose proof (concat_room _ _ _ _ _ _ _ _ Ha Hb ltac:(lia) Cc). lia. }
  assert (Eq : forall bb, exec_expr m op = (e <- check_equal (m_st m2) (m_ext m2) w v ;; OK (push m2 (mk_boolean (if bb : bool then e else negb e)))) ->
     r = ABool (if bb then same a b else negb (same a b)) -> exists m', exec_expr m op = OK m' /\ gives m m' l r).
  { intros bb -> ->. rewrite (rep_equal _ _ _ _ _ _ Hb Ha). cbn [bind]. eexists. split; [reflexivity|].
    rewrite (same_sym_ext b a). apply gives_push; [exact L2|reflexivity|exact Ef]. }
  assert (Rl : forall p q, a = ANum p -> b = ANum q -> In op [TOK_LT; TOK_GT; TOK_LE; TOK_GE] -> r = ABool (rel_op p q op) ->
     exec_expr m op = OK (push m2 (mk_boolean (rel_op (get_double v) (get_double w) op))) -> exists m', exec_expr m op = OK m' /\ gives m m' l r).
  { intros p q -> -> _ -> ->. eexists. split; [reflexivity|]. destruct Ha as (-> & _), Hb as (-> & _).
    apply gives_push; [exact L2|reflexivity|exact Ef]. }
  cbn [In] in Hp.
  repeat match type of Hp with _ \/ _ => destruct Hp as [<-|Hp] | False => destruct Hp end;
  first [apply Ar; unfold arith_ops; cbn [In]; intuition congruence | idtac].
  - destruct a as [p| | | |], b as [q| | | |]; try discriminate Hv. apply (Rl p q eq_refl eq_refl); [cbn [In]; tauto| |].
    + change (rel_op p q TOK_LT) with (SFltb (d_dec p) (d_dec q)). change (bin_val TOK_LT (ANum p) (ANum q)) with (Some (ABool (SFltb (d_dec p) (d_dec q)))) in Hv. congruence.
    + change (exec_expr m TOK_LT) with (let '(b, m) := pop m in let '(a, m) := pop m in OK (push m (mk_boolean (rel_op (get_double a) (get_double b) TOK_LT)))). rewrite Ep, Ep2. reflexivity.
  - destruct a as [p| | | |], b as [q| | | |]; try discriminate Hv. apply (Rl p q eq_refl eq_refl); [cbn [In]; tauto| |].
    + change (rel_op p q TOK_LE) with (SFleb (d_dec p) (d_dec q)). change (bin_val TOK_LE (ANum p) (ANum q)) with (Some (ABool (SFleb (d_dec p) (d_dec q)))) in Hv. congruence.
    + change (exec_expr m TOK_LE) with (let '(b, m) := pop m in let '(a, m) := pop m in OK (push m (mk_boolean (rel_op (get_double a) (get_double b) TOK_LE)))). rewrite Ep, Ep2. reflexivity.
  - destruct a as [p| | | |], b as [q| | | |]; try discriminate Hv. apply (Rl p q eq_refl eq_refl); [cbn [In]; tauto| |].
    + change (rel_op p q TOK_GT) with (SFltb (d_dec q) (d_dec p)). change (bin_val TOK_GT (ANum p) (ANum q)) with (Some (ABool (SFltb (d_dec q) (d_dec p)))) in Hv. congruence.
    + change (exec_expr m TOK_GT) with (let '(b, m) := pop m in let '(a, m) := pop m in OK (push m (mk_boolean (rel_op (get_double a) (get_double b) TOK_GT)))). rewrite Ep, Ep2. reflexivity.
  - destruct a as [p| | | |], b as [q| | | |]; try discriminate Hv. apply (Rl p q eq_refl eq_refl); [cbn [In]; tauto| |].
    + change (rel_op p q TOK_GE) with (SFleb (d_dec q) (d_dec p)). change (bin_val TOK_GE (ANum p) (ANum q)) with (Some (ABool (SFleb (d_dec q) (d_dec p)))) in Hv. congruence.
    + change (exec_expr m TOK_GE) with (let '(b, m) := pop m in let '(a, m) := pop m in OK (push m (mk_boolean (rel_op (get_double a) (get_double b) TOK_GE)))). rewrite Ep, Ep2. reflexivity.
  - exfalso. assert (N : bin_val TOK_EQ a b = None) by (destruct a, b; reflexivity). congruence.
  - exfalso. assert (N : bin_val TOK_NE a b = None) by (destruct a, b; reflexivity). congruence.
  - apply (Eq true); [|change (bin_val TOK_EQ_EQ a b) with (Some (ABool (same a b))) in Hv; congruence].
    change (exec_expr m TOK_EQ_EQ) with (let '(a, m) := pop m in let '(b, m) := pop m in e <- check_equal (m_st m) (m_ext m) a b ;; OK (push m (mk_boolean e))).
    rewrite Ep, Ep2. reflexivity.
  - apply (Eq false); [|change (bin_val TOK_NE_NE a b) with (Some (ABool (negb (same a b)))) in Hv; congruence].
    change (exec_expr m TOK_NE_NE) with (let '(a, m) := pop m in let '(b, m) := pop m in e <- check_equal (m_st m) (m_ext m) a b ;; OK (push m (mk_boolean (negb e)))).
    rewrite Ep, Ep2. reflexivity.
Qed.
