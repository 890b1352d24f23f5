(** Properties of the virtual machine: C36, C37, C38, C49, C51. *)
From Verif Require Import Base BaseFacts Mbuf_Model Value_Model Value_Spec Str_Model Str_Spec Conv_Model Obj_Model Obj_Spec Obj_Proofs2 TokNum_Model
  Bcode_Model Txt_Model Vm_Model Vm_Spec Vm_Proofs Vm_Proofs2 Vm_Proofs3 Vm_Proofs4.
From Coq Require Import ZifyBool.
Ltac Zify.zify_post_hook ::= Z.div_mod_to_equations.

(** A host with one C function, which returns 7, for the examples. *)
Definition w0 : host := {| h_cfunc := fun p m => return_v m (vnum 7); h_ffi := fun m => OK m |}.
Definition no_exec (m : vm) (off : Z) : R (vm * Z) := NoFuel.
Definition pstr s := OP_PUSH_STR :: zlen (bs s) :: bs s.

(** ** C36. A failed execution restores the lengths of all five stacks, and its value is
    undefined. The one exception: the code ends without error but leaves the data stack empty,
    so that taking the result fails (the recorded result of the part is then OK). *)
Theorem failed_execution_restores fuel w m off m' v :
  execute fuel w m off = OK (m', v) -> m_err m' <> E_OK ->
  v = V_UNDEFINED /\
  (lengths m' = lengths m \/
   (m_err m' = E_INTERNAL /\ sk_live (m_stack m') = [] /\ exists s, hd_error (m_res m') = Some (s, E_OK))).
Proof.
  unfold execute, enter. intros H Hn. bdestr H. bdestr E. apply ok_inj in E. subst a.
  split; [eapply run_value; [|exact H|exact Hn]; reflexivity|].
  pose proof (fun He => Vm_Proofs.run_spec w fuel _ _ _ m' v He H Hn) as S.
  destruct (S eq_refl) as [(S0 & S1 & S2 & S3 & S4 & S5)|(S1 & _ & S3 & S4)].
  - left. unfold lengths. unfold sk_size, save in *. cbn [v_stack v_call v_arg v_scopes v_loops] in *. unfold zlen in *.
    unfold sk_size, zlen in *. do 5 (apply (f_equal2 cons); [lia|]). reflexivity.
  - right. repeat split; assumption.
Qed.
Print Assumptions failed_execution_restores.
(** A scope, a loop, a call frame and values are on the stacks when the error happens. *)
Definition ex_fail : list Z :=
  [OP_NEW_SCOPE; OP_LOOP; 1; 2; OP_PUSH_INT; 5; OP_ARGS; OP_PUSH_NULL; OP_PUSH_TRUE; OP_GET].
Definition out_lengths (r : R (vm * Z)) : R (Z * list nat) := '(m, _) <- r ;; OK (m_err m, lengths m).
Example failed_execution_ex :
  (m <- create ;; out_lengths (exec_code 100 w0 m ex_fail)) = OK (E_TYPE, [0; 0; 0; 1; 0]%nat) /\
  (m <- create ;; OK (lengths m)) = OK [0; 0; 0; 1; 0]%nat.
Proof. split; vm_compute; reflexivity. Qed.

(** The exception happens: the scope stays. *)
Theorem failed_execution_restores_refuted :
  exists fuel w m off m' v, execute fuel w m off = OK (m', v) /\ m_err m' <> E_OK /\ lengths m' <> lengths m.
Proof.
  destruct create as [m| | |] eqn:C; [|vm_compute in C; discriminate..].
  exists 10%nat, w0, (set_code m (commit (m_code m) [OP_NEW_SCOPE])), 0.
  vm_compute in C. assert (m = m) by reflexivity. revert C. intros C. apply ok_inj in C. subst m.
  eexists. eexists. split; [vm_compute; reflexivity|]. split; vm_compute; discriminate.
Qed.
Print Assumptions failed_execution_restores_refuted.

(** And [this] is not restored: an error inside a called method leaves the method's object. *)
Definition ex_this : list Z :=
  [OP_JMP; 1; OP_GET;                      (* the body of the function: fails *)
   OP_PUSH_OBJ; OP_DUP] ++ pstr "f" ++ [OP_SWAP; OP_PUSH_FUNC; 7; OP_EXPR; TOK_ASSIGN; OP_DROP] ++
  pstr "f" ++ [OP_SWAP; OP_GET; OP_ARGS; OP_CALL].
Theorem failed_execution_restores_this_refuted :
  exists fuel w m off m' v, execute fuel w m off = OK (m', v) /\ m_err m' <> E_OK /\ lengths m' = lengths m /\
    m_this m = V_UNDEFINED /\ is_object (m_this m') = true.
Proof.
  destruct create as [m| | |] eqn:C; [|vm_compute in C; discriminate..].
  exists 40%nat, w0, (set_code m (commit (m_code m) ex_this)), 0.
  vm_compute in C. apply ok_inj in C. subst m.
  eexists. eexists. split; [vm_compute; reflexivity|]. split; [vm_compute; discriminate|].
  repeat split; vm_compute; reflexivity.
Qed.
Print Assumptions failed_execution_restores_this_refuted.

(** ** C37. A frame that is pushed and restored at once gives everything back; the data stack
    is cut to the given position. *)
Theorem frame_round_trip m off ret m1 a m2 :
  push_frame m off ret = OK m1 -> restore_frame m1 = OK (a, m2) ->
  0 <= off < 2 ^ 31 -> zlen (chain m) < 2 ^ 31 -> zlen (loops m) < 2 ^ 31 ->
  a = off /\ calls m2 = calls m /\ chain m2 = chain m /\ loops m2 = loops m /\ m_this m2 = m_this m /\
  m_err m2 = m_err m /\ m_heap m2 = m_heap m.
Proof.
  intros P Rf Ho Hc Hl. destruct (push_frame_spec _ _ _ _ P) as (F1 & F2 & F3 & F4 & F5 & F6 & F7 & F8).
  pose proof (zlen_nonneg (chain m)) as Pc. pose proof (zlen_nonneg (loops m)) as Pl.
  destruct (restore_frame_inv m1 a m2 (m_this m) off (zlen (chain m)) (zlen (loops m)) ret (calls m) F1
    ltac:(lia) ltac:(lia) ltac:(lia) Rf) as (-> & T1 & T2 & T3 & T4 & T5 & T6 & T7 & _).
  destruct (shrink_exact (m_scopes m1) [] (chain m) F2) as (sc & X1 & X2).
  destruct (shrink_exact (m_loops m1) [] (loops m) F3) as (lp & Y1 & Y2).
  assert (sc = m_scopes m2) by congruence. assert (lp = m_loops m2) by congruence. subst sc lp.
  pose proof (restore_frame_err _ _ _ Rf) as Re. repeat split; try assumption; congruence.
Qed.
Print Assumptions frame_round_trip.

(** After a call of a JS function returns, the caller's scope chain, loop stack, call stack and
    [this] are what they were, the data stack is cut to the position of the callee, and
    execution goes on after the call instruction. The body may do anything, nested calls
    included, except end loops or scopes of its caller. *)
Theorem call_returns_to_caller w exec k sv c0 c1 c2 c3 f :
  op_at c0 = Some OP_CALL -> callee (k_m c0) = OK f -> is_function f = true ->
  zlen (chain (k_m c0)) < 2 ^ 31 -> zlen (loops (k_m c0)) < 2 ^ 31 -> 0 <= bp_start (k_bp c0) + k_i c0 < 2 ^ 31 - 1 ->
  step w exec k sv c0 = OK (inl c1) ->
  body w exec k sv (k_m c0) c1 c2 ->
  op_at c2 = Some OP_RETURN -> zlen (calls (k_m c2)) = zlen (calls (k_m c0)) + 5 ->
  step w exec k sv c2 = OK (inl c3) ->
  chain (k_m c3) = chain (k_m c0) /\ loops (k_m c3) = loops (k_m c0) /\ calls (k_m c3) = calls (k_m c0) /\
  m_this (k_m c3) = m_this (k_m c0) /\
  the_part (k_m c2) (bp_start (k_bp c0) + k_i c0) = OK (k_bp c3) /\
  k_i c3 = u64 (u64 (bp_start (k_bp c0) + k_i c0 - bp_start (k_bp c3)) + 1) /\
  exists n, get_int (sk_top (m_arg (k_m c0))) = OK n /\ sk_size (m_stack (k_m c3)) = size_of_int n.
Proof. apply call_then_return. Qed.
Print Assumptions call_returns_to_caller.

(** A decision procedure for bodies, to show that the hypotheses can be met. *)
Definition own_check (m0 : vm) (c c' : conf) : bool :=
  let is op := match op_at c with Some x => x =? op | None => false end in
  (zlen (chain (k_m c)) <? 2 ^ 31) && (zlen (loops (k_m c)) <? 2 ^ 31) &&
  (0 <=? bp_start (k_bp c) + k_i c) && (bp_start (k_bp c) + k_i c <? 2 ^ 31 - 1) &&
  (negb (is OP_DEL_SCOPE) || (zlen (chain m0) <? zlen (chain (k_m c)))) &&
  (negb (is OP_BREAK || is OP_CONTINUE) || (zlen (loops m0) + 3 <=? zlen (loops (k_m c)))) &&
  (negb (is OP_RETURN) || (zlen (calls m0) + 5 <? zlen (calls (k_m c)))) &&
  (negb (is OP_CALL) || match callee (k_m c) with
                        | OK f => is_function f || (bytes_eqb (calls (k_m c')) (calls (k_m c)) &&
                                   bytes_eqb (chain (k_m c')) (chain (k_m c)) && bytes_eqb (loops (k_m c')) (loops (k_m c)))
                        | _ => true
                        end).
Lemma own_check_ok m0 c c' : own_check m0 c c' = true -> own_business m0 c c'.
Proof.
  unfold own_check, own_business. cbv zeta. rewrite !andb_true_iff. intros [[[[[[[A1 A2] A3] A4] A5] A6] A7] A8].
  do 3 (split; [lia|]). destruct (op_at c) as [op|].
  2:{ repeat split; try discriminate. intros [Q|Q]; discriminate. }
  split; [|split; [|split]].
  - intros Q. assert (op = OP_DEL_SCOPE) by congruence. subst op. change (OP_DEL_SCOPE =? OP_DEL_SCOPE) with true in A5. cbn [negb orb] in A5. lia.
  - intros [Q|Q]; [assert (op = OP_BREAK) by congruence|assert (op = OP_CONTINUE) by congruence]; subst op; vm_compute (negb _) in A6; cbn [orb] in A6; lia.
  - intros Q. assert (op = OP_RETURN) by congruence. subst op. vm_compute (negb _) in A7. cbn [orb] in A7. lia.
  - intros Q f Hf Fn. assert (op = OP_CALL) by congruence. subst op. vm_compute (negb _) in A8. cbn [orb] in A8.
    rewrite Hf, Fn in A8. cbn [orb] in A8. rewrite !andb_true_iff in A8. destruct A8 as [[B1 B2] B3].
    apply bytes_eqb_eq in B1, B2, B3. repeat split; assumption.
Qed.
Fixpoint body_run (w : host) (exec : vm -> Z -> R (vm * Z)) (k : nat) (sv : saved) (m0 : vm) (n : nat) (c : conf) : option conf :=
  match n with
  | O => Some c
  | S n => match step w exec k sv c with
           | OK (inl c1) => if own_check m0 c c1 then body_run w exec k sv m0 n c1 else None
           | _ => None
           end
  end.
Lemma body_run_ok w exec k sv m0 : forall n c c', body_run w exec k sv m0 n c = Some c' -> body w exec k sv m0 c c'.
Proof.
  induction n as [|n IH]; intros c c' H; cbn [body_run] in H.
  - assert (c = c') by congruence. subst c'. apply body_end.
  - destruct (step w exec k sv c) as [[c1|]| | |] eqn:E; try discriminate.
    destruct (own_check m0 c c1) eqn:Q; [|discriminate].
    eapply body_step; [exact E|apply own_check_ok; exact Q|apply IH; exact H].
Qed.
Fixpoint stepn (n : nat) (c : conf) : option conf :=
  match n with
  | O => Some c
  | S n => match step w0 no_exec 5 (save (k_m c)) c with OK (inl c1) => stepn n c1 | _ => None end
  end.
(** let f = a function with a scope and a loop of its own that calls another function;
    null; f() *)
Definition ex_call : list Z :=
  [OP_JMP; 21;
   (* 2: g *) OP_PUSH_INT; 3; OP_SETRETVAL; OP_RETURN;
   (* 6: f *) OP_NEW_SCOPE; OP_LOOP; 0; 0; OP_NEW_SCOPE; OP_PUSH_FUNC; 9; OP_ARGS; OP_CALL; OP_SETRETVAL; OP_DEL_SCOPE; OP_PUSH_NULL; OP_DROP; OP_NOP; OP_NOP; OP_NOP; OP_RETURN;
   (* 23 *) OP_PUSH_NULL; OP_PUSH_FUNC; 18; OP_ARGS; OP_CALL; OP_NOP; OP_EXIT].
Definition ex_m : vm := match create with OK m => set_code m (commit (m_code m) ex_call) | _ => {| m_heap := heap_init; m_mem := fun _ => None; m_stack := sk_empty; m_call := sk_empty; m_arg := sk_empty; m_scopes := sk_empty; m_loops := sk_empty; m_err := 0; m_this := 0; m_last := 0; m_code := no_code; m_off := 0; m_res := [] |} end.
Definition ex_start (m : vm) (d : list Z) : conf := {| k_m := m; k_bp := {| bp_start := 0; bp_data := d |}; k_i := 0; k_op := OP_MAX |}.
Definition ex_c0 : conf := match stepn 4 (ex_start ex_m ex_call) with Some c => c | None => ex_start ex_m ex_call end.
Definition ex_c1 : conf := match stepn 1 ex_c0 with Some c => c | None => ex_c0 end.
Definition ex_c2 : conf := match body_run w0 no_exec 5 (save (k_m ex_c0)) (k_m ex_c0) 16 ex_c1 with Some c => c | None => ex_c0 end.
Definition ex_c3 : conf := match step w0 no_exec 5 (save (k_m ex_c0)) ex_c2 with OK (inl c) => c | _ => ex_c0 end.
Example call_returns_ex :
  op_at ex_c0 = Some OP_CALL /\ step w0 no_exec 5 (save (k_m ex_c0)) ex_c0 = OK (inl ex_c1) /\
  body w0 no_exec 5 (save (k_m ex_c0)) (k_m ex_c0) ex_c1 ex_c2 /\
  op_at ex_c2 = Some OP_RETURN /\ zlen (calls (k_m ex_c2)) = zlen (calls (k_m ex_c0)) + 5 /\
  step w0 no_exec 5 (save (k_m ex_c0)) ex_c2 = OK (inl ex_c3) /\ k_i ex_c3 = 28 /\
  sk_live (m_stack (k_m ex_c3)) = [vnum 3; V_NULL].
Proof.
  split; [vm_compute; reflexivity|]. split; [vm_compute; reflexivity|].
  split; [apply (body_run_ok w0 no_exec 5 _ _ 16); vm_compute; reflexivity|].
  do 4 (split; [vm_compute; reflexivity|]). vm_compute; reflexivity.
Qed.

(** A function that executes break without a loop of its own ends the loop of its caller: the
    call never returns, execution goes on after that loop, and the call frame stays. *)
Definition ex_break : list Z :=
  [OP_JMP; 3; (* 2: f *) OP_BREAK; OP_NOP; OP_RETURN;
   (* 5 *) OP_LOOP; 9; 8; (* 8 *) OP_PUSH_NULL; OP_PUSH_FUNC; 7; OP_ARGS; (* 12 *) OP_CALL; OP_NOP; OP_NOP; OP_NOP; (* 16 *) OP_NOP; OP_NOP; OP_EXIT].
Definition ex_break_m : vm := set_code ex_m (commit no_code ex_break).
Definition ex_b0 : conf := match stepn 5 (ex_start ex_break_m ex_break) with Some c => c | None => ex_start ex_break_m ex_break end.
Definition ex_b1 : conf := match step w0 no_exec 5 (save (k_m ex_b0)) ex_b0 with OK (inl c) => c | _ => ex_b0 end.
Definition ex_b2 : conf := match step w0 no_exec 5 (save (k_m ex_b0)) ex_b1 with OK (inl c) => c | _ => ex_b0 end.
Theorem call_keeps_caller_loops_refuted :
  exists c0 c1 c2, op_at c0 = Some OP_CALL /\ (exists f, callee (k_m c0) = OK f /\ is_function f = true) /\
    step w0 no_exec 5 (save (k_m c0)) c0 = OK (inl c1) /\ op_at c1 = Some OP_BREAK /\
    step w0 no_exec 5 (save (k_m c0)) c1 = OK (inl c2) /\
    zlen (loops (k_m c0)) = 3 /\ loops (k_m c2) = [] /\ k_i c2 = 16 /\
    zlen (calls (k_m c2)) = zlen (calls (k_m c0)) + 5.
Proof.
  exists ex_b0, ex_b1, ex_b2. split; [vm_compute; reflexivity|].
  split; [exists (match callee (k_m ex_b0) with OK f => f | _ => 0 end); split; vm_compute; reflexivity|].
  do 2 (split; [vm_compute; reflexivity|]). split; [vm_compute; reflexivity|].
  do 3 (split; [vm_compute; reflexivity|]). vm_compute. reflexivity.
Qed.
Print Assumptions call_keeps_caller_loops_refuted.

(** ** C38. A name resolves to the innermost scope that has it. *)
Theorem lookup_innermost_first m M key n s x :
  hrep (m_heap m) (m_ext m) M -> holds (m_st m) (m_ext m) key n -> bytes_ok n -> zlen n < 2 ^ 31 ->
  zlen (so (m_st m)) < 2 ^ 48 ->
  resolves M n (chain m) s x -> find_scope m key = OK (m, s).
Proof. intros H1 H2 H3 H4 H5. apply (find_scope_resolves m M key n H1 H2 H3 H4 H5). Qed.
Print Assumptions lookup_innermost_first.
(** A name that no scope has is a reference error. *)
Theorem undeclared_is_reference_error m M key n :
  hrep (m_heap m) (m_ext m) M -> holds (m_st m) (m_ext m) key n -> bytes_ok n -> zlen n < 2 ^ 31 ->
  zlen (so (m_st m)) < 2 ^ 48 ->
  Forall (lacks_var M n) (chain m) -> exists m', find_scope m key = OK (m', V_UNDEFINED) /\ m_err m' = E_REFERENCE.
Proof.
  intros H1 H2 H3 H4 H5 F. eexists. split; [apply (find_scope_undeclared m M key n H1 H2 H3 H4 H5 F)|reflexivity].
Qed.
Print Assumptions undeclared_is_reference_error.
(** The code the parser emits for a variable pushes its value and changes nothing else. *)
Theorem variable_read w sv c M n s x :
  next_code c (var_code n) -> zlen (bp_data (k_bp c)) < 2 ^ 31 -> m_err (k_m c) = E_OK ->
  hrep (m_heap (k_m c)) (m_ext (k_m c)) M -> zlen (so (m_st (k_m c))) + zlen n + 16 < 2 ^ 48 ->
  name_ok n -> n <> apply_name ->
  resolves M n (chain (k_m c)) s x -> s / 2 ^ 48 = 65521 ->
  exists c', steps w sv c c' /\ after_code c c' (var_code n) /\ same_frame (k_m c) (k_m c') /\
    sk_live (m_stack (k_m c')) = x :: sk_live (m_stack (k_m c)) /\
    hrep (m_heap (k_m c')) (m_ext (k_m c')) M /\ k_op c' = OP_GET.
Proof.
  intros H1 H2 H3 H4 H5 H6 H7 H8 H9.
  destruct (variable_read_steps w sv c M n s x H1 H2 H3 H4 H5 H6 H7 H8 H9) as (c' & A1 & A2 & A3 & A4 & A5 & A6 & _).
  exists c'. split; [exact A1|]. split; [exact A2|]. split; [exact A3|]. split; [exact A4|]. split; [exact A5|exact A6].
Qed.
Print Assumptions variable_read.
(** let x = 5; block with its own x = 6; in a further block without x: x is 6; then 5 *)
Definition let_code (s : string) (v : Z) : list Z :=
  pstr s ++ [OP_PUSH_SCOPE; OP_CREATE] ++ pstr s ++ [OP_FIND_SCOPE; OP_PUSH_INT; v; OP_EXPR; TOK_ASSIGN; OP_DROP].
Definition ex_vars : list Z :=
  let_code "x" 5 ++ [OP_NEW_SCOPE] ++ let_code "x" 6 ++ [OP_NEW_SCOPE] ++ var_code (bs "x") ++
  [OP_DEL_SCOPE; OP_DEL_SCOPE] ++ var_code (bs "x") ++ [OP_EXPR; TOK_MINUS; OP_EXIT].
Definition out (r : R (vm * Z)) : R (Z * Z) := '(m, v) <- r ;; OK (m_err m, v).
Example variable_read_ex :
  (m <- create ;; out (exec_code 100 w0 m ex_vars)) = OK (E_OK, vnum 1) /\
  (m <- create ;; out (exec_code 100 w0 m (let_code "x" 5 ++ var_code (bs "y")))) = OK (E_REFERENCE, V_UNDEFINED).
Proof. split; vm_compute; reflexivity. Qed.
(** A variable called apply cannot be read: the value is the built-in function instead. *)
Theorem variable_read_any_name_refuted :
  exists d fuel w m m' v, m_err m = E_OK /\ d = let_code "apply" 5 ++ var_code (bs "apply") ++ [OP_EXIT] /\
    exec_code fuel w m d = OK (m', v) /\ m_err m' = E_OK /\ v <> vnum 5.
Proof.
  exists (let_code "apply" 5 ++ var_code (bs "apply") ++ [OP_EXIT]), 100%nat, w0, ex_m. eexists. eexists.
  split; [reflexivity|]. split; [reflexivity|]. split; [vm_compute; reflexivity|]. split; [vm_compute; reflexivity|].
  vm_compute. discriminate.
Qed.
Print Assumptions variable_read_any_name_refuted.

(** ** C49. mjs_apply of a C function that succeeds leaves the five values of its call frame on
    the call stack, whatever the function does, as long as it keeps the call stack itself. *)
Theorem apply_of_c_function_leaks call ffi exec m r0 func this vs m' r :
  is_foreign func = true ->
  (forall p m1 m2, call p m1 = OK m2 -> calls m2 = calls m1) ->
  apply_with call ffi exec m r0 func this vs = OK (m', r) -> m_err m' = E_OK ->
  zlen (calls m') = zlen (calls m) + 5.
Proof. apply apply_foreign_frames. Qed.
Print Assumptions apply_of_c_function_leaks.
Definition roomy (m : vm) : vm :=
  set_stack m {| sk_live := sk_live (m_stack m); sk_stale := sk_stale (m_stack m); sk_cap := 800 |}.
Definition ex_apply : R (list nat * Z) :=
  '(m, r) <- apply 10 w0 (roomy ex_m) (foreign_fn 100) V_NULL [V_NULL; vnum 4] ;; OK (lengths m, r).
Example apply_leaks_ex : ex_apply = OK ([1; 5; 0; 1; 0]%nat, vnum 7) /\ lengths ex_m = [0; 0; 0; 1; 0]%nat.
Proof. split; vm_compute; reflexivity. Qed.
Theorem apply_restores_refuted :
  exists m func this vs m' r, is_foreign func = true /\ apply 10 w0 m func this vs = OK (m', r) /\
    m_err m' = E_OK /\ lengths m' <> lengths m.
Proof.
  exists ex_m, (foreign_fn 100), V_NULL, []. eexists. eexists.
  split; [vm_compute; reflexivity|]. split; [vm_compute; reflexivity|]. split; [vm_compute; reflexivity|]. vm_compute. discriminate.
Qed.
Print Assumptions apply_restores_refuted.

(** ** C51. mjs_apply keeps a pointer to the slot of the result while the arguments are pushed;
    whenever that makes the data stack grow its buffer, the result is read through a dangling
    pointer: no call of a C function with such arguments has a defined result. *)
Lemma grow_ge n : 0 <= n -> n <= grow_size n.
Proof. intros H. unfold grow_size, headroom. cbv zeta. destruct (_ >? _) eqn:Q; lia. Qed.
Lemma cap_push m v : sk_cap (m_stack m) <= sk_cap (m_stack (push m v)) /\ 8 * (sk_size (m_stack m) + 1) <= sk_cap (m_stack (push m v)) /\ sk_size (m_stack (push m v)) = sk_size (m_stack m) + 1.
Proof.
  assert (S : sk_size (m_stack (push m v)) = sk_size (m_stack m) + 1).
  { change (sk_size (m_stack (push m v))) with (zlen (v :: sk_live (m_stack m))). rewrite zlen_cons. unfold sk_size. lia. }
  rewrite S. cbn [push set_stack m_stack sk_push sk_cap]. unfold cap_after_insert, sk_size.
  pose proof (zlen_nonneg (sk_live (m_stack m))) as P.
  pose proof (grow_ge (8 * zlen (sk_live (m_stack m)) + 8)) as G.
  destruct (8 * zlen (sk_live (m_stack m)) + 8 <=? sk_cap (m_stack m)) eqn:Q; lia.
Qed.
Lemma cap_push_all vs : forall m, sk_cap (m_stack m) <= sk_cap (m_stack (push_all_vals m vs)) /\ (vs <> [] -> 8 * (sk_size (m_stack m) + zlen vs) <= sk_cap (m_stack (push_all_vals m vs))).
Proof.
  induction vs as [|v r IH]; intros m; [split; [cbn [push_all_vals]; lia|congruence]|].
  cbn [push_all_vals]. destruct (IH (push m v)) as [A B]. destruct (cap_push m v) as (C1 & C2 & C3).
  split; [lia|]. intros _. rewrite zlen_cons. destruct r as [|x r].
  - change (zlen (@nil Z)) with 0. cbn [push_all_vals] in *. lia.
  - specialize (B ltac:(discriminate)). lia.
Qed.
Theorem apply_result_pointer_dangles call ffi exec m r0 func this vs :
  is_foreign func = true -> vs <> [] ->
  sk_cap (m_stack (push m func)) < 8 * (sk_size (m_stack m) + 1 + zlen vs) ->
  (forall p m1 m2, call p m1 = OK m2 -> sk_cap (m_stack m1) <= sk_cap (m_stack m2)) ->
  forall m' r, apply_with call ffi exec m r0 func this vs <> OK (m', r).
Proof.
  intros F Nv Cap C m' r H. unfold apply_with in H. rewrite F in H. rewrite andb_false_r in H. cbn [andb orb negb] in H. cbv zeta in H.
  bdestr H. cbn [orb] in H. apply bind_ok in H. destruct H as [[m2 r2] [H1 _]]. bdestr H1.
  destruct (sk_cap (m_stack a0) =? _) eqn:Q; [|discriminate].
  pose proof (C _ _ _ E0) as C1. destruct (push_frame_spec _ _ _ _ E) as (_ & _ & _ & F4 & _). rewrite F4 in C1.
  cbn [set_arg m_stack] in C1. destruct (cap_push_all vs (push m func)) as [_ B]. specialize (B Nv).
  destruct (cap_push m func) as (_ & _ & C3). lia.
Qed.
Print Assumptions apply_result_pointer_dangles.
(** In a fresh engine one argument is enough. *)
Example apply_dangles_ex :
  sk_cap (m_stack (push ex_m (foreign_fn 100))) = 12 /\ sk_size (m_stack ex_m) = 0 /\ apply 10 w0 ex_m (foreign_fn 100) V_NULL [V_NULL] = UB.
Proof. split; [|split]; vm_compute; reflexivity. Qed.
Theorem apply_is_defined_refuted :
  exists m func this vs, is_foreign func = true /\ vs = [V_NULL] /\ apply 10 w0 m func this vs = UB.
Proof. exists ex_m, (foreign_fn 100), V_NULL, [V_NULL]. split; [|split]; vm_compute; reflexivity. Qed.
Print Assumptions apply_is_defined_refuted.
