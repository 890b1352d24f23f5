From Verif Require Import Base BaseFacts Value_Model Value_Spec SUtil_Model SUtil_Spec NumText_Proofs Float_Proofs Str_Model Conv_Model Obj_Model Varint_Model Bcode_Spec TokNum_Model Txt_Model Bcode_Model Bcode_Proofs Props_Bcode Vm_Model Vm_Spec Vm_Proofs Vm_Proofs2 Vm_Proofs3 Trace_Model Trace_Spec.
From Coq Require Import ZifyBool.
Ltac Zify.zify_post_hook ::= idtac.

Lemma s32_small n : 0 <= n < 2 ^ 31 -> Trace_Model.s32 n = n.
Proof. intros H. unfold Trace_Model.s32. rewrite Z.mod_small by lia. replace (n <? 2 ^ 31) with true by lia. reflexivity. Qed.
Lemma part_bound (ds : list (list Z)) i d : nth_error ds i = Some d -> zlen (concat (firstn i ds)) + zlen d <= zlen (concat ds).
Proof.
  revert i. induction ds as [|x ds IH]; intros [|i] N; try discriminate; cbn [nth_error firstn concat] in *.
  - assert (x = d) by congruence. subst x. rewrite zlen_app. change (zlen (@nil Z)) with 0. pose proof (zlen_nonneg (concat ds)). lia.
  - rewrite !zlen_app. specialize (IH i N). lia.
Qed.
Lemma located_range ds off f n : located ds off f n -> 0 <= off < zlen (concat ds) /\ 0 <= n < 2 ^ 31.
Proof.
  intros [i hd total f' bc before after o N Z0 O -> F P1 P2].
  pose proof (part_bound _ _ _ N) as B. rewrite layout_zlen in B.
  pose proof (zlen_nonneg (concat (firstn i ds))). pose proof (zlen_nonneg f').
  pose proof (zlen_nonneg (map_bytes (before ++ after))). pose proof (zlen_nonneg (varint_bytes (zlen (map_bytes (before ++ after))))).
  assert (0 <= code_start f') by (unfold code_start; lia). split; [lia|].
  destruct after; [lia|]. unfold last_line. clear -F.
  apply Forall_app in F. destruct F as [F _]. induction before as [|e b IH]; [cbn; lia|].
  destruct b; [inversion F; subst; cbn [last]; destruct H1 as [_ H1]; exact H1|]. inversion F; subst. change (last (e :: p0 :: b) (0, 1)) with (last (p0 :: b) (0, 1)). apply IH. assumption.
Qed.

(** The line for an offset. *)
Lemma trace_line_ok ds off t : zlen (concat ds) < 2 ^ 31 -> off <> EXIT_ADDR -> line_of ds off t -> trace_line (commits ds) off = OK t.
Proof.
  intros L X (f & n & u & Q & U & ->). pose proof (located_range _ _ _ _ Q) as [R1 R2].
  unfold trace_line. replace (off =? EXIT_ADDR) with false by lia. rewrite s32_small by lia.
  destruct (signed_text_num n ltac:(lia)) as (u' & E & U'). rewrite (int_text_unique n u u' U U').
  destruct Q as [i hd total f' bc before after o N Z0 O -> F P1 P2].
  rewrite (lineno_is_last_entry_before ds i hd total f' bc before after o N L O F P1 P2).
  replace (zlen (concat (firstn i ds)) + code_start f' + o) with (zlen (concat (firstn i ds)) + (code_start f' + o)) by lia.
  rewrite (filename_reads_back ds i hd total f' bc (before ++ after) (code_start f' + o) N Z0 L).
  - cbn [bind]. rewrite E. reflexivity.
  - rewrite layout_zlen. pose proof (zlen_nonneg f'). pose proof (zlen_nonneg (map_bytes (before ++ after))).
    pose proof (zlen_nonneg (varint_bytes (zlen (map_bytes (before ++ after))))). unfold code_start. lia.
Qed.
Lemma u64_small n : 0 <= n < 2 ^ 31 -> u64 n = n.
Proof. intros H. unfold u64. apply Z.mod_small. lia. Qed.
Lemma frame_lines_ok ds calls offs t : zlen (concat ds) < 2 ^ 31 -> frames_at calls offs -> lines_of ds offs t -> frame_lines (commits ds) calls = OK t.
Proof.
  intros L F. revert t. induction F as [|r nl ns this a l s A B C F IH]; intros t (ts & H & ->).
  - cbn [filter] in H. inversion H. reflexivity.
  - cbn [frame_lines]. rewrite get_int_vnum by assumption. cbn [bind]. rewrite u64_small by assumption.
    cbn [filter] in H. destruct (a =? EXIT_ADDR) eqn:E; cbn [negb] in H.
    + unfold trace_line. rewrite E. cbn [bind]. rewrite (IH (concat ts)) by (exists ts; split; [exact H|reflexivity]). reflexivity.
    + inversion H as [|x t0 xs ts0 H1 H2]; subst. rewrite (trace_line_ok ds a t0 L ltac:(lia) H1). cbn [bind].
      rewrite (IH (concat ts0)) by (exists ts0; split; [exact H2|reflexivity]). reflexivity.
Qed.

(** C93. The trace generated at an offset is the line of the offset followed by one line for
    each call on the call stack, innermost first; calls from C have no line. *)
Theorem trace_is_one_line_per_call ds calls offs off t : zlen (concat ds) < 2 ^ 31 -> frames_at calls offs ->
  lines_of ds (off :: offs) t -> gen_stack_trace (commits ds) calls off = OK t.
Proof.
  intros L F (ts & H & ->). unfold gen_stack_trace. cbn [filter] in H. destruct (off =? EXIT_ADDR) eqn:E; cbn [negb] in H.
  - unfold trace_line. rewrite E. cbn [bind]. rewrite (frame_lines_ok ds calls offs (concat ts) L F) by (exists ts; split; [exact H|reflexivity]). reflexivity.
  - inversion H as [|x t0 xs ts0 H1 H2]; subst. rewrite (trace_line_ok ds off t0 L ltac:(lia) H1). cbn [bind].
    rewrite (frame_lines_ok ds calls offs (concat ts0) L F) by (exists ts0; split; [exact H2|reflexivity]). reflexivity.
Qed.
Print Assumptions trace_is_one_line_per_call.

(** The call stack follows the calls. *)
Lemma view_calls m m' : view m' = view m -> calls m' = calls m.
Proof. unfold view. congruence. Qed.
Lemma do_break_calls m i m' i' : do_break m i = OK (m', i') -> calls m' = calls m.
Proof. unfold do_break. intros H. inv H; reflexivity. Qed.
Lemma do_continue_calls m i m' i' : do_continue m i = OK (m', i') -> calls m' = calls m.
Proof. unfold do_continue. intros H. inv H; reflexivity. Qed.
Lemma instr_calls w exec k m bp i op prev m' bp' i' : op <> OP_CALL -> op <> OP_RETURN ->
  instr w exec k m bp i op prev = OK (Go m' bp' i') -> calls m' = calls m.
Proof.
  intros N1 N2 H. destruct (frame_op op) eqn:F; [|apply (instr_view _ _ _ _ _ _ _ _ _ _ _ F) in H; apply view_calls, H].
  unfold frame_op, in_list in F. cbn [existsb] in F.
  assert (G : forall x y z, OK (Go x y z) = OK (Go m' bp' i') -> x = m') by congruence.
  assert (K : op = OP_NEW_SCOPE \/ op = OP_DEL_SCOPE \/ op = OP_LOOP \/ op = OP_BREAK \/ op = OP_CONTINUE).
  { rewrite !orb_true_iff, !Z.eqb_eq in F. intuition discriminate. }
  clear F. destruct K as [-> | [-> | [-> | [-> | ->]]]].
  - change (('(h, v) <- mk_object (m_heap m) ;; OK (Go (set_scopes (set_heap m h) (sk_push (m_scopes m) v)) bp i)) = OK (Go m' bp' i')) in H.
    bdi H. apply G in H. subst m'. reflexivity.
  - change ((if 8 * sk_size (m_scopes m) <=? 1 then OK (Go (set_err m E_INTERNAL) bp i)
      else '(_, sc) <- sk_pop (m_scopes m) ;; OK (Go (set_scopes m sc) bp i)) = OK (Go m' bp' i')) in H.
    bdi H; apply G in H; subst m'; reflexivity.
  - unfold instr in H. cbv zeta in H. cbn [Z.eqb] in H.
    repeat (match type of H with (if ?b then _ else _) = _ => let v := eval vm_compute in b in change b with v in H; cbv iota in H end).
    bdi H. apply G in H. subst m'. reflexivity.
  - change (('(m, i) <- do_break m i ;; OK (Go m bp i)) = OK (Go m' bp' i')) in H. bdi H. apply do_break_calls in E. apply G in H. congruence.
  - change (('(m, i) <- do_continue m i ;; OK (Go m bp i)) = OK (Go m' bp' i')) in H. bdi H. apply do_continue_calls in E. apply G in H. congruence.
Qed.
Lemma active_frames w sv c l c2 l2 : active w sv c l c2 l2 -> frames_at (calls (k_m c)) l -> frames_at (calls (k_m c2)) l2.
Proof.
  induction 1 as [c l|c l c1 c2 l2 f exec k S0 Hop Hf Fn Lo Ls Ll _ IH|c a l c1 c2 l2 exec k S0 Hop _ IH|c l c1 c2 l2 f exec k S0 Hop Hf Fn Hc _ IH|c l c1 c2 l2 exec k S0 N1 N2 _ IH];
    intros F; [exact F| | | |]; apply IH; clear IH.
  - destruct (step_go _ _ _ _ _ _ S0) as (op & i & Hop' & Hi & _). assert (op = OP_CALL) by congruence. subst op. clear Hop'.
    change (do_call w exec k (set_off (k_m c) (k_i c)) (k_bp c) (k_i c) = OK (Go (k_m c1) (k_bp c1) i)) in Hi.
    destruct (do_call_inv _ _ _ _ _ _ _ _ _ Hi) as (f' & Hf' & J). rewrite callee_off in Hf'.
    assert (f' = f) by congruence. subst f'. destruct (J Fn) as (a & P & m1 & Q & _ & _ & s & M1). clear J.
    destruct (push_frame_spec _ _ _ _ Q) as (F1 & _). rewrite M1. change (calls (set_stack m1 s)) with (calls m1). rewrite F1.
    unfold frame. cbn [app]. pose proof (zlen_nonneg (chain (k_m c))). pose proof (zlen_nonneg (loops (k_m c))).
    change (site c) with (bp_start (k_bp c) + k_i c) in *.
    apply F_cons; [lia|split; assumption|split; assumption|exact F].
  - destruct (step_go _ _ _ _ _ _ S0) as (op & i & Hop' & Hi & _). assert (op = OP_RETURN) by congruence. subst op. clear Hop'.
    change (('(a, m) <- restore_frame (set_off (k_m c) (k_i c)) ;;
            (if a =? EXIT_ADDR then OK (Done m)
             else bp <- the_part m a ;; OK (Go m bp (u64 (a - bp_start bp))))) = OK (Go (k_m c1) (k_bp c1) i)) in Hi.
    bdestr Hi. destruct a0 as [a0 m3]. inversion F as [|r nl ns this a' l' s' A B C F' EQ]; subst.
    destruct (restore_frame_inv (set_off (k_m c) (k_i c)) a0 m3 this a ns nl r l' (eq_sym EQ) A C B E) as (_ & _ & T & _).
    destruct (a0 =? EXIT_ADDR); [discriminate|]. bdestr Hi. assert (k_m c1 = m3) by congruence. subst m3. rewrite T. exact F'.
  - rewrite Hc. exact F.
  - destruct (step_go _ _ _ _ _ _ S0) as (op & i & Hop' & Hi & _).
    assert (M1 : op <> OP_CALL) by (intros ->; contradiction). assert (M2 : op <> OP_RETURN) by (intros ->; contradiction).
    rewrite (instr_calls _ _ _ _ _ _ op _ _ _ _ M1 M2 Hi). exact F.
Qed.
Lemma restore_keeps_err m a m' : restore_frame m = OK (a, m') -> m_err m' = m_err m.
Proof. exact (restore_frame_err m a m'). Qed.
Lemma fails_calls w exec k c m bp i : m_err (k_m c) = E_OK -> fails w exec k c m bp i -> calls m = calls (k_m c).
Proof.
  intros Z0 (op & Hop & _ & Hi & Er & Cn).
  destruct (Z.eq_dec op OP_CALL) as [->|N1]; [|destruct (Z.eq_dec op OP_RETURN) as [->|N2]].
  - specialize (Cn eq_refl).
    change (do_call w exec k (set_off (k_m c) (k_i c)) (k_bp c) (k_i c) = OK (Go m bp i)) in Hi.
    destruct (do_call_inv _ _ _ _ _ _ _ _ _ Hi) as (f & Hf & J). rewrite callee_off in Hf. specialize (Cn f Hf).
    destruct (is_function f) eqn:Ff.
    + exfalso. destruct (J eq_refl) as (a & P & m1 & Q & _ & _ & s & ->). apply push_frame_spec in Q.
      destruct Q as (_ & _ & _ & _ & _ & _ & _ & Q). apply Er. cbn [set_stack set_arg set_off m_err] in *. congruence.
    + destruct (is_foreign f) eqn:F1; [apply Cn; auto|]. destruct (is_string f) eqn:F2; [apply Cn; auto|]. destruct (is_ffi_sig f) eqn:F3; [apply Cn; auto|].
      clear J. unfold do_call in Hi. cbv zeta in Hi. unfold callee in Hf. bdestr Hf. cbn [set_off m_arg] in Hi.
      rewrite E in Hi. cbn [bind] in Hi. bdestr Hi. destruct a0 as [x a1]. bdestr Hi. cbn [set_arg set_off m_stack] in *.
      assert (a0 = f) by congruence. subst a0. rewrite Ff, F1, F2, F3 in Hi. cbn [orb] in Hi.
      assert (Q : set_err (set_arg (set_off (k_m c) (k_i c)) a1) E_TYPE = m) by congruence. rewrite <- Q. reflexivity.
  - exfalso. change (('(a, m) <- restore_frame (set_off (k_m c) (k_i c)) ;;
            (if a =? EXIT_ADDR then OK (Done m)
             else bp <- the_part m a ;; OK (Go m bp (u64 (a - bp_start bp))))) = OK (Go m bp i)) in Hi.
    bdestr Hi. destruct a as [a0 m3]. destruct (a0 =? EXIT_ADDR); [discriminate|]. bdestr Hi. assert (m = m3) by congruence. subst m3.
    apply restore_frame_err in E. cbn [set_off m_err] in E. congruence.
  - exact (instr_calls _ _ _ _ _ _ op _ _ _ _ N1 N2 Hi).
Qed.

(** C93. When an instruction fails after any instructions of an execution, the trace names the
    place before the index where it stopped, then the places of the calls that have not returned,
    innermost first; [l0] are the calls already active when the execution began. *)
Theorem trace_names_active_calls w exec k sv c0 l0 c l m bp i ds t :
  frames_at (calls (k_m c0)) l0 -> active w sv c0 l0 c l -> m_err (k_m c) = E_OK -> fails w exec k c m bp i ->
  m_code m = commits ds -> zlen (concat ds) < 2 ^ 31 -> 0 < bp_start bp + i < 2 ^ 31 ->
  lines_of ds (bp_start bp + i - 1 :: l) t -> step_trace w exec k c = OK t.
Proof.
  intros F A Z0 Fl C L B T. pose proof (active_frames _ _ _ _ _ _ A F) as F2. rewrite <- (fails_calls _ _ _ _ _ _ _ Z0 Fl) in F2.
  destruct Fl as (op & Hop & Hlt & Hi & Er & _). unfold step_trace. replace (negb _) with false by lia. unfold op_at in Hop. rewrite Hop, Hi. cbn [bind].
  replace (negb (m_err m =? E_OK)) with true by lia. rewrite C, u64_small by lia. apply (trace_is_one_line_per_call ds _ l); assumption.
Qed.
Print Assumptions trace_names_active_calls.

(** C93. The trace of an execution by mjs_execute is that of the instruction at which it ended. *)
Theorem execution_trace w sv n c0 n1 c l0 l m bp i ds t :
  rounds w sv n c0 (S n1) c -> active w sv c0 l0 c l -> frames_at (calls (k_m c0)) l0 -> m_err (k_m c) = E_OK ->
  fails w (fun m off => c <- enter m off ;; run n1 w (save m) off c) n1 c m bp i -> (exists m', recover m sv = OK m') ->
  m_code m = commits ds -> zlen (concat ds) < 2 ^ 31 -> 0 < bp_start bp + i < 2 ^ 31 ->
  lines_of ds (bp_start bp + i - 1 :: l) t -> run_trace n w sv c0 = OK t.
Proof.
  intros Ro A F Z0 Fl [m' Rc] C L B T. remember (S n1) as n2 eqn:E2.
  assert (X : run_trace n2 w sv c = OK t).
  { subst n2. cbn [run_trace]. pose proof (trace_names_active_calls w _ n1 sv c0 l0 c l m bp i ds t F A Z0 Fl C L B T) as S1.
    destruct Fl as (op & Hop & Hlt & Hi & Er & _). unfold step at 1. replace (negb (k_i c <? _)) with false by lia. unfold op_at in Hop. rewrite Hop.
    rewrite Hi. cbn [bind]. replace (negb (m_err m =? E_OK)) with true by lia. rewrite Rc. cbn [bind]. exact S1. }
  clear -Ro X. induction Ro as [n c|n c c1 n2 c2 S1 Ro IH]; [exact X|]. cbn [run_trace]. rewrite S1. cbn [bind]. apply IH. exact X.
Qed.
Print Assumptions execution_trace.

(** C94. Offsets by number of call: 0 is the instruction being executed, 1 the innermost call, and
    so on; -1 beyond the outermost call and for negative numbers. *)
Lemma frames_at_len l s : frames_at l s -> zlen l = 5 * zlen s.
Proof. induction 1; [reflexivity|]. rewrite !zlen_cons. lia. Qed.
Lemma frames_nth l s n : frames_at l s -> (n < length s)%nat -> nth (5 * n + 3) l 0 = vnum (nth n s 0) /\ 0 <= nth n s 0 < 2 ^ 31.
Proof.
  intros F. revert n. induction F as [|r nl ns this a l s A B C F IH]; intros [|n] H; [inversion H|inversion H| |].
  - split; [reflexivity|exact A].
  - destruct (IH n ltac:(cbn [length] in H; lia)) as [E1 E2]. split; [|exact E2].
    replace (5 * S n + 3)%nat with (S (S (S (S (S (5 * n + 3)))))) by lia. exact E1.
Qed.
Theorem offset_by_call_number m offs n : frames_at (calls m) offs -> - 2 ^ 31 <= n < 2 ^ 31 -> 0 <= m_off m < 2 ^ 31 ->
  offset_by_frame m n = OK (if n =? 0 then m_off m else if (0 <? n) && (n <=? zlen offs) then nth (Z.to_nat (n - 1)) offs 0 else -1).
Proof.
  intros F B O. unfold offset_by_frame. destruct (n =? 0) eqn:E0; [rewrite s32_small by exact O; reflexivity|].
  pose proof (frames_at_len _ _ F) as Ll. unfold sk_size. change (sk_live (m_call m)) with (calls m). rewrite Ll.
  destruct (0 <? n) eqn:E1; cbn [andb]; [|reflexivity].
  replace (u64 (8 * 5 * n)) with (8 * 5 * n) by (unfold u64; rewrite Z.mod_small by lia; reflexivity).
  replace (8 * 5 * n <=? 8 * (5 * zlen offs)) with (n <=? zlen offs) by lia.
  destruct (n <=? zlen offs) eqn:E2; [|reflexivity].
  unfold sk_get, vptr. unfold sk_size. change (sk_live (m_call m)) with (calls m). rewrite Ll.
  replace (-1 - (3 + 5 * (n - 1)) <? 0) with true by lia.
  replace ((0 <=? 5 * zlen offs + (-1 - (3 + 5 * (n - 1)))) && (5 * zlen offs + (-1 - (3 + 5 * (n - 1))) <? 5 * zlen offs)) with true by lia.
  cbn [bind]. replace (Z.to_nat _) with (5 * Z.to_nat (n - 1) + 3)%nat by lia.
  destruct (frames_nth _ _ (Z.to_nat (n - 1)) F ltac:(unfold zlen in E2; lia)) as [-> R]. apply get_int_vnum, R.
Qed.
Print Assumptions offset_by_call_number.

(** A program of four lines that fails inside a function: the hypotheses of [execution_trace] are
    met, with one active call. *)
Fixpoint active_run (n fuel : nat) (w : host) (sv : saved) (c : conf) (l : list Z) : option (conf * list Z) :=
  match n, fuel with
  | O, _ => Some (c, l)
  | S n, S fuel =>
    match step w (fun m off => c <- enter m off ;; run fuel w (save m) off c) fuel sv c, op_at c with
    | OK (inl c1), Some op =>
      if op =? OP_CALL then
        match callee (k_m c) with
        | OK f => if is_function f && (0 <=? site c) && (site c <? 2 ^ 31 - 1) && (zlen (chain (k_m c)) <? 2 ^ 31) && (zlen (loops (k_m c)) <? 2 ^ 31)
                  then active_run n fuel w sv c1 (site c :: l) else None
        | _ => None
        end
      else if op =? OP_RETURN then match l with _ :: l => active_run n fuel w sv c1 l | [] => None end
      else active_run n fuel w sv c1 l
    | _, _ => None
    end
  | _, _ => None
  end.
Lemma active_run_ok w sv : forall n fuel c l c2 l2, active_run n fuel w sv c l = Some (c2, l2) ->
  active w sv c l c2 l2 /\ rounds w sv fuel c (fuel - n) c2.
Proof.
  induction n as [|n IH]; intros fuel c l c2 l2 H; cbn [active_run] in H.
  - assert (c2 = c) by congruence. assert (l2 = l) by congruence. subst. split; [constructor|]. rewrite Nat.sub_0_r. constructor.
  - destruct fuel as [|fuel]; [discriminate|]. destruct (step _ _ _ _ _) as [[c1|]| | |] eqn:S1; try discriminate.
    destruct (op_at c) as [op|] eqn:O; [|discriminate]. change (S fuel - S n)%nat with (fuel - n)%nat.
    destruct (op =? OP_CALL) eqn:E1; [|destruct (op =? OP_RETURN) eqn:E2].
    + apply Z.eqb_eq in E1. subst op. destruct (callee (k_m c)) as [f| | |] eqn:Cf; try discriminate.
      destruct (_ && _) eqn:B in H; [|discriminate]. apply IH in H. destruct H as [H1 H2].
      rewrite !andb_true_iff in B. destruct B as [[[[B1 B2] B3] B4] B5].
      split; [|eapply R_next; eassumption]. eapply A_call; try eassumption; lia.
    + apply Z.eqb_eq in E2. subst op. destruct l as [|a l]; [discriminate|]. apply IH in H. destruct H as [H1 H2].
      split; [|eapply R_next; eassumption]. eapply A_return; eassumption.
    + apply IH in H. destruct H as [H1 H2]. split; [|eapply R_next; eassumption].
      eapply A_other; try eassumption; rewrite O; intros Q; injection Q as ->; discriminate.
Qed.
