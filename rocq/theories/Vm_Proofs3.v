From Verif Require Import Base BaseFacts Value_Model Value_Spec Float_Proofs Str_Model Conv_Model Obj_Model Bcode_Model Bcode_Proofs Vm_Model Vm_Spec Vm_Proofs Vm_Proofs2.
From Coq Require Import ZifyBool.
Ltac Zify.zify_post_hook ::= Z.div_mod_to_equations.

(** What holds between a call and its return: the frames, loops and scopes of the body lie on
    top of the caller's, and record positions above the caller's. *)
Definition frame_above (ns nl : Z) (f : list Z) : Prop :=
  exists this off s l j ret, f = frame this off s l ret /\ ns <= s < 2 ^ 31 /\ 0 <= off < 2 ^ 31 - 1 /\
    l = nl + 3 * j /\ 0 <= j /\ l < 2 ^ 31.
Definition loop_above (ns : Z) (t : list Z) : Prop :=
  exists c b s, t = [c; b; vnum s] /\ ns <= s < 2 ^ 31.
Definition within (m0 : vm) (fr : list Z) (m : vm) : Prop :=
  exists fs ts ss,
    calls m = concat fs ++ fr ++ calls m0 /\ Forall (frame_above (zlen (chain m0)) (zlen (loops m0))) fs /\
    loops m = concat ts ++ loops m0 /\ Forall (loop_above (zlen (chain m0))) ts /\
    chain m = ss ++ chain m0.

Lemma frames_len ns nl fs : Forall (frame_above ns nl) fs -> zlen (concat fs) = 5 * zlen fs.
Proof.
  induction 1 as [|f fs (t & o & s & l & j & r & -> & _) _ IH]; [reflexivity|].
  cbn [concat]. rewrite zlen_app, IH. change (zlen (frame t o s l r)) with 5. rewrite zlen_cons. lia.
Qed.
Lemma loops_len ns ts : Forall (loop_above ns) ts -> zlen (concat ts) = 3 * zlen ts.
Proof.
  induction 1 as [|f fs (c & b & s & -> & _) _ IH]; [reflexivity|].
  cbn [concat]. rewrite zlen_app, IH. change (zlen [c; b; vnum s]) with 3. rewrite zlen_cons. lia.
Qed.
Lemma within_view m0 fr m m' : view m' = view m -> within m0 fr m -> within m0 fr m'.
Proof.
  unfold view, within. intros V (fs & ts & ss & H). exists fs, ts, ss.
  assert (calls m' = calls m) by congruence. assert (chain m' = chain m) by congruence.
  assert (loops m' = loops m) by congruence. repeat match goal with H : _ m' = _ m |- _ => rewrite H; clear H end. exact H.
Qed.
Lemma set_len_suffix s n s' ex base : sk_live s = ex ++ base -> zlen base <= n <= sk_size s ->
  sk_set_len s n = OK s' -> exists ex', sk_live s' = ex' ++ base.
Proof.
  intros Hl Hn H. apply (shrink_suffix s n s' ex base Hl); [lia|]. unfold sk_shrink.
  destruct (n <? sk_size s) eqn:E; [exact H|]. assert (n = sk_size s) by lia. subst n.
  unfold sk_size in H. rewrite (set_len_live s _ [] (sk_live s) eq_refl eq_refl) in H. apply ok_inj in H. rewrite <- H.
  cbn [rev app]. destruct s; reflexivity.
Qed.

Lemma skipn_concat3 ns ts j : Forall (loop_above ns) ts -> (j <= length ts)%nat ->
  exists e, concat ts = e ++ concat (skipn j ts).
Proof.
  revert j. induction ts as [|t ts IH]; intros j F L; [exists []; destruct j; reflexivity|].
  destruct j; [exists []; reflexivity|]. inversion F; subst. destruct (IH j H2 ltac:(cbn in L; lia)) as [e E].
  exists (t ++ e). cbn [concat skipn]. rewrite E, app_assoc. reflexivity.
Qed.
Lemma shrink_loops s n s' ns ts base j : sk_live s = concat ts ++ base -> Forall (loop_above ns) ts ->
  n = zlen base + 3 * j -> 0 <= j -> sk_shrink s n = OK s' ->
  exists ts', sk_live s' = concat ts' ++ base /\ Forall (loop_above ns) ts'.
Proof.
  intros Hl F Hn Hj. unfold sk_shrink. destruct (n <? sk_size s) eqn:E.
  - intros H. unfold sk_size in E. rewrite Hl, zlen_app, (loops_len ns) in E by exact F.
    destruct (skipn_concat3 ns ts (length ts - Z.to_nat j) F ltac:(lia)) as [e Q].
    assert (F' : Forall (loop_above ns) (skipn (length ts - Z.to_nat j) ts)).
    { rewrite <- (firstn_skipn (length ts - Z.to_nat j) ts) in F. apply Forall_app in F. apply F. }
    exists (skipn (length ts - Z.to_nat j) ts). split; [|exact F'].
    rewrite Q, <- app_assoc in Hl. erewrite set_len_live in H; [|exact Hl|].
    + apply ok_inj in H. subst s'. reflexivity.
    + rewrite zlen_app, (loops_len ns) by exact F'. unfold zlen in *. rewrite skipn_length. lia.
  - intros H. apply ok_inj in H. subst s'. exists ts. split; assumption.
Qed.

Lemma do_call_inv w exec k m bp i m' bp' i' : do_call w exec k m bp i = OK (Go m' bp' i') ->
  exists f, callee m = OK f /\
    (is_function f = true ->
      (exists a, sk_pop (m_arg m) = OK (sk_top (m_arg m), a) /\
      exists m1, push_frame (set_arg m a) (bp_start bp + i) (sk_top (m_arg m)) = OK m1 /\
      the_part m1 (u64 (get_func_addr f - 1)) = OK bp' /\ i' = u64 (u64 (get_func_addr f - 1) - bp_start bp') /\
      exists s, m' = set_stack m1 s)).
Proof.
  unfold do_call, callee. cbv zeta. intros H. bdestr H. bdestr H. destruct a0 as [x a1]. bdestr H.
  exists a0. split.
  { rewrite E. cbn [bind]. exact E1. }
  intros F. rewrite F in H. bdestr H. bdestr H. bdestr H.
  exists a1. split.
  { rewrite E0. unfold sk_pop in E0. destruct (sk_live (m_arg m)) eqn:L; [discriminate|].
    unfold sk_top. rewrite L. apply ok_pair in E0. destruct E0 as [<- _]. reflexivity. }
  exists a2. split; [exact E2|]. apply ok_inj in H.
  assert (bp' = a3) by congruence. subst a3. split; [exact E3|]. split; [congruence|]. exists a4. congruence.
Qed.

Lemma within_push_frame m0 fr m m' off ret : within m0 fr m -> 0 <= off < 2 ^ 31 - 1 ->
  zlen (chain m) < 2 ^ 31 -> zlen (loops m) < 2 ^ 31 -> push_frame m off ret = OK m' -> within m0 fr m'.
Proof.
  intros (fs & ts & ss & Hc & Ff & Hl & Ft & Hs) Ho Ls Ll H. apply push_frame_spec in H.
  destruct H as (H1 & H2 & H3 & _).
  exists (frame (m_this m) off (zlen (chain m)) (zlen (loops m)) ret :: fs), ts, ss.
  cbn [concat]. split; [rewrite <- app_assoc, <- Hc; exact H1|]. split.
  - constructor; [|exact Ff]. exists (m_this m), off, (zlen (chain m)), (zlen (loops m)), (zlen ts), ret.
    assert (zlen (loops m) = zlen (loops m0) + 3 * zlen ts).
    { rewrite Hl, zlen_app, (loops_len _ _ Ft). lia. }
    assert (zlen (chain m0) <= zlen (chain m)).
    { rewrite Hs, zlen_app. pose proof (zlen_pos ss). lia. }
    pose proof (zlen_pos ts). repeat split; try lia.
  - rewrite H2, H3. repeat split; assumption.
Qed.

Lemma instr_within w exec k m0 fr m bp i op prev m' bp' i' :
  within m0 fr m -> zlen fr = 5 ->
  zlen (chain m) < 2 ^ 31 -> zlen (loops m) < 2 ^ 31 -> 0 <= bp_start bp + i < 2 ^ 31 - 1 ->
  (op = OP_DEL_SCOPE -> zlen (chain m0) < zlen (chain m)) ->
  (op = OP_BREAK \/ op = OP_CONTINUE -> zlen (loops m0) + 3 <= zlen (loops m)) ->
  (op = OP_RETURN -> zlen (calls m0) + 5 < zlen (calls m)) ->
  (op = OP_CALL -> forall f, callee m = OK f -> is_function f = false -> view m' = view m) ->
  instr w exec k m bp i op prev = OK (Go m' bp' i') -> within m0 fr m'.
Proof.
  intros W Lf Ls Ll Lo Gd Gb Gr Gc H.
  destruct (frame_op op) eqn:F.
  2:{ apply instr_view in H; [|exact F]. apply (within_view m0 fr m); [apply H|exact W]. }
  assert (C : op = OP_CALL \/ op = OP_RETURN \/ op = OP_NEW_SCOPE \/ op = OP_DEL_SCOPE \/ op = OP_LOOP \/ op = OP_BREAK \/ op = OP_CONTINUE).
  { unfold frame_op, in_list in F. cbn [existsb] in F. rewrite !orb_true_iff, !Z.eqb_eq in F. intuition discriminate. }
  clear F. assert (W' := W). destruct W as (fs & ts & ss & Hc & Ff & Hl & Ft & Hs).
  destruct C as [-> | [-> | [-> | [-> | [-> | [-> | ->]]]]]].
  - change (do_call w exec k m bp i = OK (Go m' bp' i')) in H.
    destruct (do_call_inv _ _ _ _ _ _ _ _ _ H) as (f & Hf & J).
    destruct (is_function f) eqn:Fn.
    + destruct (J eq_refl) as (a & P & m1 & Q & _ & _ & s & ->).
      apply (within_view m0 fr m1); [reflexivity|].
      apply (within_push_frame m0 fr (set_arg m a) m1 _ _ W' Lo Ls Ll Q).
    + apply (within_view m0 fr m); [|exact W']. apply (Gc eq_refl f Hf Fn).
  - change (('(a, m) <- restore_frame m ;;
            (if a =? EXIT_ADDR then OK (Done m)
             else bp <- the_part m a ;; OK (Go m bp (u64 (a - bp_start bp))))) = OK (Go m' bp' i')) in H.
    specialize (Gr eq_refl). rewrite Hc, !zlen_app, (frames_len _ _ _ Ff), Lf in Gr.
    destruct fs as [|f fs]. { change (zlen (@nil (list Z))) with 0 in Gr. lia. }
    bdestr H. destruct a as [a m1]. inversion Ff; subst.
    destruct H2 as (this & off & s & l & j & ret & -> & Rs & Ro & Rl & Rj & Rl2).
    cbn [concat] in Hc. rewrite <- app_assoc in Hc.
    assert (0 <= zlen (chain m0)) by apply zlen_pos. assert (0 <= zlen (loops m0)) by apply zlen_pos.
    destruct (restore_frame_inv m a m1 this off s l ret _ Hc ltac:(lia) ltac:(lia) ltac:(lia) E)
      as (-> & _ & Q1 & _ & _ & _ & Q2 & Q3 & _).
    destruct (off =? EXIT_ADDR); [discriminate|]. bdestr H. assert (m' = m1) by congruence. subst m'.
    destruct (shrink_suffix _ _ _ _ _ Hs (proj1 Rs) Q2) as [ss' S'].
    destruct (shrink_loops _ _ _ _ _ _ j Hl Ft Rl Rj Q3) as (ts' & T' & Ft').
    exists fs, ts', ss'. repeat split; assumption.
  - change (('(h, v) <- mk_object (m_heap m) ;;
            OK (Go (set_scopes (set_heap m h) (sk_push (m_scopes m) v)) bp i)) = OK (Go m' bp' i')) in H.
    bdestr H. destruct a as [h v]. assert (m' = set_scopes (set_heap m h) (sk_push (m_scopes m) v)) by congruence. subst m'.
    exists fs, ts, (v :: ss). repeat split; try assumption.
    unfold chain in *. cbn [set_scopes m_scopes sk_push sk_live]. rewrite Hs. reflexivity.
  - change ((if 8 * sk_size (m_scopes m) <=? 1 then OK (Go (set_err m E_INTERNAL) bp i)
             else '(_, sc) <- sk_pop (m_scopes m) ;; OK (Go (set_scopes m sc) bp i)) = OK (Go m' bp' i')) in H.
    specialize (Gd eq_refl).
    destruct (_ <=? 1). { assert (m' = set_err m E_INTERNAL) by congruence. subst m'. exact W'. }
    bdestr H. destruct a as [x sc]. assert (m' = set_scopes m sc) by congruence. subst m'.
    unfold sk_pop in E. unfold chain in *. destruct (sk_live (m_scopes m)) as [|y r] eqn:L; [discriminate|].
    apply ok_pair in E. destruct E as [_ <-].
    destruct ss as [|z ss]. { cbn [app] in Hs. rewrite Hs in Gd. lia. }
    exists fs, ts, ss. repeat split; try assumption. unfold chain. cbn [set_scopes m_scopes sk_live].
    cbn [app] in Hs. congruence.
  - change (('(o1, l1) <- operand bp (i + 1) ;;
            '(o2, l2) <- operand bp (i + 1 + l1) ;;
            (let lp := sk_push (m_loops m) (vnum (sk_size (m_scopes m))) in
             let lp := sk_push lp (vnum (u64 (i + 1 + l1 + o1))) in
             let lp := sk_push lp (vnum (u64 (i + 1 + l1 + l2 + o2))) in
             OK (Go (set_loops m lp) bp (u64 (i + (l1 + l2)))))) = OK (Go m' bp' i')) in H.
    bdestr H. destruct a as [o1 l1]. bdestr H. destruct a as [o2 l2]. cbv zeta in H.
    match type of H with OK (Go ?x _ _) = _ => assert (m' = x) by congruence end. subst m'.
    exists fs, ([vnum (u64 (i + 1 + l1 + l2 + o2)); vnum (u64 (i + 1 + l1 + o1)); vnum (sk_size (m_scopes m))] :: ts), ss.
    repeat split; try assumption.
    + unfold loops in *. cbn [set_loops m_loops sk_push sk_live concat app]. rewrite Hl. reflexivity.
    + constructor; [|exact Ft]. eexists _, _, (sk_size (m_scopes m)). split; [reflexivity|].
      unfold chain in *. unfold sk_size. rewrite Hs in *. rewrite zlen_app in *. pose proof (zlen_pos ss). lia.
  - change (('(m, i) <- do_break m i ;; OK (Go m bp i)) = OK (Go m' bp' i')) in H.
    specialize (Gb (or_introl eq_refl)). rewrite Hl, zlen_app, (loops_len _ _ Ft) in Gb.
    destruct ts as [|t ts]. { change (zlen (@nil (list Z))) with 0 in Gb. lia. }
    inversion Ft; subst. destruct H2 as (cc & b & s & -> & Rs). assert (0 <= zlen (chain m0)) by apply zlen_pos.
    bdestr H. destruct a as [m1 i1]. assert (m' = m1) by congruence. subst m'.
    unfold do_break in E. destruct (3 <=? _) eqn:G3.
    2:{ unfold loops in Hl. unfold sk_size in G3. rewrite Hl in G3. cbn [concat app] in G3. rewrite !zlen_cons in G3.
        pose proof (zlen_pos (concat ts ++ sk_live (m_loops m0))). lia. }
    unfold loops in Hl. destruct (m_loops m) as [lv st cp]. cbn [sk_live concat app] in Hl. subst lv.
    cbn [sk_pop sk_live sk_stale sk_cap bind] in E. bdestr E. rewrite get_int_vnum in E by lia. cbn [bind] in E.
    rewrite size_of_int_id in E by lia. destruct (_ <? s) eqn:G4; [discriminate|]. bdestr E.
    assert (M1 : m1 = set_scopes (set_loops m {| sk_live := concat ts ++ sk_live (m_loops m0); sk_stale := vnum s :: b :: cc :: st; sk_cap := cp |}) a0) by congruence. subst m1.
    assert (RR : zlen (chain m0) <= s <= sk_size (m_scopes m)) by lia.
    destruct (set_len_suffix _ _ _ _ _ Hs RR E1) as [ss' S'].
    exists fs, ts, ss'. repeat split; assumption.
  - change (('(m, i) <- do_continue m i ;; OK (Go m bp i)) = OK (Go m' bp' i')) in H.
    specialize (Gb (or_intror eq_refl)). rewrite Hl, zlen_app, (loops_len _ _ Ft) in Gb.
    destruct ts as [|t ts]. { change (zlen (@nil (list Z))) with 0 in Gb. lia. }
    inversion Ft; subst. destruct H2 as (cc & b & s & -> & Rs). assert (0 <= zlen (chain m0)) by apply zlen_pos.
    bdestr H. destruct a as [m1 i1]. assert (m' = m1) by congruence. subst m'.
    unfold do_continue in E. destruct (3 <=? _) eqn:G3.
    2:{ unfold loops in Hl. unfold sk_size in G3. rewrite Hl in G3. cbn [concat app] in G3. rewrite !zlen_cons in G3.
        pose proof (zlen_pos (concat ts ++ sk_live (m_loops m0))). lia. }
    bdestr E.
    assert (a = vnum s).
    { unfold sk_get, vptr in E0. unfold loops in Hl. unfold sk_size in *. rewrite Hl in E0.
      cbn [concat app] in E0. rewrite !zlen_cons in E0. pose proof (zlen_pos (concat ts ++ sk_live (m_loops m0))).
      set (z := zlen (concat ts ++ sk_live (m_loops m0))) in *.
      replace (-3 <? 0) with true in E0 by lia.
      replace ((0 <=? 1 + (1 + (1 + z)) + -3) && (1 + (1 + (1 + z)) + -3 <? 1 + (1 + (1 + z)))) with true in E0 by lia.
      replace (Z.to_nat (1 + (1 + (1 + z)) - 1 - (1 + (1 + (1 + z)) + -3))) with 2%nat in E0 by lia.
      cbn [nth] in E0. congruence. }
    subst a. rewrite get_int_vnum in E by lia. cbn [bind] in E.
    rewrite size_of_int_id in E by lia. destruct (_ <? s) eqn:G4; [discriminate|]. bdestr E. bdestr E.
    assert (M1 : m1 = set_scopes m a) by congruence. subst m1.
    assert (RR : zlen (chain m0) <= s <= sk_size (m_scopes m)) by lia.
    destruct (set_len_suffix _ _ _ _ _ Hs RR E1) as [ss' S'].
    exists fs, ([cc; b; vnum s] :: ts), ss'. repeat split; assumption.
Qed.

Lemma step_go w exec k sv c c1 : step w exec k sv c = OK (inl c1) ->
  exists op i, op_at c = Some op /\
    instr w exec k (set_off (k_m c) (k_i c)) (k_bp c) (k_i c) op (k_op c) = OK (Go (k_m c1) (k_bp c1) i) /\
    k_i c1 = u64 (i + 1) /\ k_op c1 = op /\ m_err (k_m c1) = E_OK.
Proof.
  unfold step, op_at. destruct (negb (k_i c <? _)); [discriminate|]. destruct (nthz _ _) as [op|]; [|discriminate].
  intros H. bdestr H. destruct a as [m bp i|m]; [|discriminate].
  destruct (negb (m_err m =? E_OK)) eqn:Q; [bdestr H; discriminate|]. apply negb_false_iff in Q.
  assert (c1 = {| k_m := m; k_bp := bp; k_i := u64 (i + 1); k_op := op |}) by congruence. subst c1.
  exists op, i. cbn [k_m k_bp k_i k_op]. repeat split; try assumption. lia.
Qed.
Lemma callee_off m i : callee (set_off m i) = callee m.
Proof. reflexivity. Qed.
Lemma body_within w exec k sv m0 fr : zlen fr = 5 -> forall c c', body w exec k sv m0 c c' ->
  within m0 fr (k_m c) -> within m0 fr (k_m c').
Proof.
  intros Lf c c' H. induction H as [c|c c1 c2 Hs Ho Hb IH]; [auto|]. intros W. apply IH.
  destruct (step_go _ _ _ _ _ _ Hs) as (op & i & Hop & Hi & _). destruct Ho as (O1 & O2 & O3 & O4 & O5 & O6 & O7).
  rewrite Hop in *.
  apply (instr_within w exec k m0 fr (set_off (k_m c) (k_i c)) (k_bp c) (k_i c) op (k_op c) (k_m c1) (k_bp c1) i);
    try assumption.
  - intros ->. apply O4. reflexivity.
  - intros [-> | ->]; apply O5; [left|right]; reflexivity.
  - intros ->. apply O6. reflexivity.
  - intros -> f Hf Hn. rewrite callee_off in Hf. destruct (O7 eq_refl f Hf Hn) as (A & B & C). unfold view.
    rewrite A, B, C. reflexivity.
Qed.

Lemma call_then_return w exec k sv c0 c1 c2 c3 f :
  op_at c0 = Some OP_CALL -> callee (k_m c0) = OK f -> is_function f = true ->
  zlen (chain (k_m c0)) < 2 ^ 31 -> zlen (loops (k_m c0)) < 2 ^ 31 -> 0 <= bp_start (k_bp c0) + k_i c0 < 2 ^ 31 - 1 ->
  step w exec k sv c0 = OK (inl c1) ->
  body w exec k sv (k_m c0) c1 c2 ->
  op_at c2 = Some OP_RETURN -> zlen (calls (k_m c2)) = zlen (calls (k_m c0)) + 5 ->
  step w exec k sv c2 = OK (inl c3) ->
  chain (k_m c3) = chain (k_m c0) /\ loops (k_m c3) = loops (k_m c0) /\ calls (k_m c3) = calls (k_m c0) /\
  m_this (k_m c3) = m_this (k_m c0) /\
  the_part (k_m c2) (bp_start (k_bp c0) + k_i c0) = OK (k_bp c3) /\
  k_i c3 = u64 (u64 (bp_start (k_bp c0) + k_i c0 - bp_start (k_bp c3)) + 1) /\
  exists n, get_int (sk_top (m_arg (k_m c0))) = OK n /\ sk_size (m_stack (k_m c3)) = size_of_int n.
Proof.
  intros Hop Hf Fn Ls Ll Lo S0 B Hop2 Lc S2.
  destruct (step_go _ _ _ _ _ _ S0) as (op & i & Hop' & Hi & _).
  assert (op = OP_CALL) by congruence. subst op. clear Hop'.
  change (do_call w exec k (set_off (k_m c0) (k_i c0)) (k_bp c0) (k_i c0) = OK (Go (k_m c1) (k_bp c1) i)) in Hi.
  destruct (do_call_inv _ _ _ _ _ _ _ _ _ Hi) as (f' & Hf' & J). rewrite callee_off in Hf'.
  assert (f' = f) by congruence. subst f'. destruct (J Fn) as (a & P & m1 & Q & _ & _ & s & M1). clear J.
  cbn [set_off m_arg] in *. set (ret := sk_top (m_arg (k_m c0))) in *.
  destruct (push_frame_spec _ _ _ _ Q) as (F1 & F2 & F3 & _).
  set (fr := frame (m_this (k_m c0)) (bp_start (k_bp c0) + k_i c0) (zlen (chain (k_m c0))) (zlen (loops (k_m c0))) ret).
  assert (W : within (k_m c0) fr (k_m c1)).
  { rewrite M1. exists [], [], []. cbn [concat app]. repeat split; try constructor; assumption. }
  apply (body_within _ _ _ _ _ fr eq_refl _ _ B) in W.
  destruct W as (fs & ts & ss & Hc & Ff & Hl & Ft & Hs).
  assert (fs = []).
  { rewrite Hc, !zlen_app, (frames_len _ _ _ Ff) in Lc. change (zlen fr) with 5 in Lc.
    destruct fs as [|x fs]; [reflexivity|]. rewrite zlen_cons in Lc. pose proof (zlen_pos fs). lia. }
  subst fs. cbn [concat app] in Hc.
  destruct (step_go _ _ _ _ _ _ S2) as (op & i2 & Hop' & Hi2 & I3 & _).
  assert (op = OP_RETURN) by congruence. subst op. clear Hop'.
  change (('(a, m) <- restore_frame (set_off (k_m c2) (k_i c2)) ;;
            (if a =? EXIT_ADDR then OK (Done m)
             else bp <- the_part m a ;; OK (Go m bp (u64 (a - bp_start bp))))) = OK (Go (k_m c3) (k_bp c3) i2)) in Hi2.
  bdestr Hi2. destruct a0 as [a0 m3].
  pose proof (zlen_pos (chain (k_m c0))) as P1. pose proof (zlen_pos (loops (k_m c0))) as P2.
  assert (A1 : 0 <= bp_start (k_bp c0) + k_i c0 < 2 ^ 31) by lia.
  assert (A2 : 0 <= zlen (chain (k_m c0)) < 2 ^ 31) by lia.
  assert (A3 : 0 <= zlen (loops (k_m c0)) < 2 ^ 31) by lia.
  destruct (restore_frame_inv (set_off (k_m c2) (k_i c2)) a0 m3 _ _ _ _ ret (calls (k_m c0)) Hc A1 A2 A3 E)
    as (-> & T1 & T2 & T3 & T4 & T5 & T6 & T7 & n & T8 & T9).
  replace (_ =? EXIT_ADDR) with false in Hi2 by (unfold EXIT_ADDR; lia). bdestr Hi2.
  assert (k_m c3 = m3) by congruence. assert (k_bp c3 = a0) by congruence. subst a0 m3.
  assert (I2 : i2 = u64 (bp_start (k_bp c0) + k_i c0 - bp_start (k_bp c3))) by congruence.
  destruct (shrink_exact _ _ _ Hs) as (sc & X1 & X2). destruct (shrink_exact _ _ _ Hl) as (lp & Y1 & Y2).
  cbn [set_off m_scopes m_loops m_code] in *.
  assert (sc = m_scopes (k_m c3)) by congruence. assert (lp = m_loops (k_m c3)) by congruence. subst sc lp.
  repeat split; try assumption.
  - unfold the_part in *. rewrite T3 in E0. exact E0.
  - congruence.
  - exists n. split; assumption.
Qed.
