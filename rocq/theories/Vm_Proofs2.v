From Verif Require Import Base BaseFacts Value_Model Value_Spec Float_Proofs Str_Model Conv_Model Obj_Model Bcode_Model Bcode_Proofs Vm_Model Vm_Spec Vm_Proofs.
From Coq Require Import ZifyBool.
Ltac Zify.zify_post_hook ::= Z.div_mod_to_equations.

(** Most instructions leave the call, scope and loop stacks alone. *)
Definition view (m : vm) : list Z * list Z * list Z := (calls m, chain m, loops m).

Ltac inv H := bdi H;
  lazymatch type of H with
  | OK (_, _) = OK (_, _) => apply ok_pair in H; let H1 := fresh in let H2 := fresh in destruct H as [H1 H2]; subst
  | OK _ = OK _ => apply ok_inj in H; subst
  | _ => idtac
  end.

Lemma pop_view m v m' : pop m = (v, m') -> view m' = view m.
Proof. unfold pop. destruct (sk_live _); intros H; injection H as <- <-; reflexivity. Qed.
Lemma push_view m v : view (push m v) = view m.
Proof. reflexivity. Qed.
Lemma prepend_view m e : view (prepend m e) = view m.
Proof. unfold prepend. destruct (_ =? _); [|destruct (_ =? _)]; reflexivity. Qed.
Lemma set_st_view m s : view (set_st m s) = view m.
Proof. reflexivity. Qed.
Lemma set_stack_view m s : view (set_stack m s) = view m.
Proof. reflexivity. Qed.
Lemma set_heap_view m s : view (set_heap m s) = view m.
Proof. reflexivity. Qed.
Lemma set_mem_view m s : view (set_mem m s) = view m.
Proof. reflexivity. Qed.
Lemma set_err_view m s : view (set_err m s) = view m.
Proof. reflexivity. Qed.
Lemma set_arg_view m s : view (set_arg m s) = view m.
Proof. reflexivity. Qed.
Lemma set_last_view m x : view (set_last m x) = view m.
Proof. reflexivity. Qed.
Lemma own_v_view m o k m' p : own_v m o k = OK (m', p) -> view m' = view m.
Proof. unfold own_v. intros H. inv H. destruct b; reflexivity. Qed.
Lemma set_v_view m o k v m' : set_v m o k v = OK m' -> view m' = view m.
Proof. unfold set_v. intros H. bd H. apply ok_inj in H. subst. destruct a; reflexivity. Qed.
Lemma get_v_view m o k m' v : get_v m o k = OK (m', v) -> view m' = view m.
Proof. unfold get_v. intros H. bd H. apply ok_pair in H. destruct H as [<- <-]. destruct a; reflexivity. Qed.
Lemma find_in_view : forall ss m k m' v, find_in m ss k = OK (m', v) -> view m' = view m.
Proof.
  induction ss as [|s ss IH]; intros m k m' v H; cbn [find_in] in H.
  - inv H. reflexivity.
  - bd H. destruct (negb _).
    + inv H. eapply own_v_view; eassumption.
    + apply IH in H. rewrite H. eapply own_v_view; eassumption.
Qed.
Lemma vm_op_view m a b op m' v : vm_op m a b op = OK (m', v) -> view m' = view m.
Proof. unfold vm_op. intros H. bd H. apply ok_pair in H. destruct H as [<- <-]. rewrite prepend_view. reflexivity. Qed.

Ltac views :=
  repeat match goal with
  | H : pop _ = (_, _) |- _ => apply pop_view in H
  | H : own_v _ _ _ = OK (_, _) |- _ => apply own_v_view in H
  | H : set_v _ _ _ _ = OK _ |- _ => apply set_v_view in H
  | H : get_v _ _ _ = OK (_, _) |- _ => apply get_v_view in H
  | H : find_scope _ _ = OK (_, _) |- _ => unfold find_scope in H; apply find_in_view in H
  | H : vm_op _ _ _ _ = OK (_, _) |- _ => apply vm_op_view in H
  end;
  rewrite ?push_view, ?prepend_view, ?set_st_view, ?set_stack_view, ?set_heap_view, ?set_mem_view, ?set_err_view, ?set_arg_view, ?set_last_view in *; try congruence.

Lemma op_assign_view m op m' : op_assign m op = OK m' -> view m' = view m.
Proof. unfold op_assign. intros H. inv H; views. Qed.
Lemma incdec_view m op p m' : incdec m op p = OK m' -> view m' = view m.
Proof. unfold incdec. intros H. inv H; views. Qed.
Lemma assign_view m m' : assign m = OK m' -> view m' = view m.
Proof. unfold assign. intros H. inv H; views. Qed.
Lemma exec_expr_view m op m' : exec_expr m op = OK m' -> view m' = view m.
Proof.
  unfold exec_expr. intros H.
  repeat (match type of H with (if ?b then _ else _) = _ => destruct b end);
    try (apply assign_view in H; exact H); try (apply incdec_view in H; exact H);
    try (inv H; views; reflexivity); try (inv H; views).
  eapply op_assign_view; eassumption.
Qed.
Lemma getprop_foreign_view m v t n m' r : getprop_foreign m v t n = OK (m', r) -> view m' = view m.
Proof. unfold getprop_foreign. intros H. inv H; views; reflexivity. Qed.
Lemma getprop_builtin_view m v n m' r : getprop_builtin m v n = OK (m', r) -> view m' = view m.
Proof.
  unfold getprop_builtin. intros H. bdestr H. destruct a as [[txt k]|]; [|inv H; reflexivity].
  destruct (is_string v). { bd H. apply ok_pair in H. destruct H as [<- _]. reflexivity. }
  inv H; try reflexivity. eapply getprop_foreign_view; eassumption.
Qed.
Lemma do_get_view m prev m' : do_get m prev = OK m' -> view m' = view m.
Proof.
  unfold do_get. intros H. destruct (pop m) as [obj m1] eqn:E1. destruct (pop m1) as [key m2] eqn:E2.
  bd H. apply ok_inj in H. subst m'. rewrite set_last_view, push_view. apply getprop_builtin_view in E. views.
  destruct o as [x|].
  - apply ok_pair in E0. destruct E0 as [<- <-]. congruence.
  - destruct (is_object obj); bd E0; apply ok_pair in E0; destruct E0 as [<- <-].
    + destruct a; change (view (set_err v E_TYPE)) with (view v); congruence.
    + rewrite prepend_view. congruence.
Qed.
Lemma for_in_next_view m m' : for_in_next m = OK m' -> view m' = view m.
Proof.
  unfold for_in_next. intros H. inv H; views; try reflexivity.
Qed.
Lemma set_retval_view m m' : set_retval m = OK m' -> view m' = view m.
Proof.
  unfold set_retval. intros H. inv H; views; try reflexivity.
Qed.
Lemma code_str_view m bp i n m' v : code_str m bp i n = OK (m', v) -> view m' = view m.
Proof. unfold code_str. intros H. inv H. reflexivity. Qed.

Definition frame_op (op : Z) : bool :=
  in_list op [OP_CALL; OP_RETURN; OP_NEW_SCOPE; OP_DEL_SCOPE; OP_LOOP; OP_BREAK; OP_CONTINUE].
Lemma instr_view w exec k m bp i op prev m' bp' i' : frame_op op = false ->
  instr w exec k m bp i op prev = OK (Go m' bp' i') -> view m' = view m /\ bp' = bp.
Proof.
  unfold instr. cbv zeta. intros F H.
  assert (G : forall x y z, OK (Go x y z) = OK (Go m' bp' i') -> x = m' /\ y = bp').
  { intros x y z Q. split; congruence. }
  repeat (match type of H with (if ?b then _ else _) = _ => let E := fresh "E" in destruct b eqn:E end);
  try (apply G in H; destruct H as [<- <-]; split; reflexivity);
  try (exfalso; match goal with E : (op =? _) = true |- _ => apply Z.eqb_eq in E; subst op; discriminate F end);
  bdi H;
  repeat match goal with
  | E : do_get _ _ = OK _ |- _ => apply do_get_view in E
  | E : for_in_next _ = OK _ |- _ => apply for_in_next_view in E
  | E : set_retval _ = OK _ |- _ => apply set_retval_view in E
  | E : exec_expr _ _ = OK _ |- _ => apply exec_expr_view in E
  | E : code_str _ _ _ _ = OK (_, _) |- _ => apply code_str_view in E
  end;
  try (apply G in H; destruct H as [<- <-]; split; [views; try reflexivity|reflexivity]).
  - destruct (negb _); rewrite ?set_err_view, set_heap_view; congruence.
  - destruct (prev =? OP_GET); reflexivity.
  - destruct (pop m) as [v m1] eqn:Q. apply pop_view in Q. exact Q.
Qed.

(** Numbers kept on the stacks read back. *)
Lemma get_int_vnum n : 0 <= n < 2 ^ 31 -> get_int (vnum n) = OK n.
Proof. intros H. unfold vnum. rewrite int_round_trip by lia. unfold s32. rewrite Z.mod_small by lia. replace (n <? 2 ^ 31) with true by lia. reflexivity. Qed.
Lemma size_of_int_id n : 0 <= n < 2 ^ 31 -> size_of_int n = n.
Proof. intros H. unfold size_of_int, u64. apply Z.mod_small. lia. Qed.

Lemma zlen_pos {A} (l : list A) : 0 <= zlen l.
Proof. unfold zlen. lia. Qed.
Lemma shrink_suffix s n s' ex base : sk_live s = ex ++ base -> zlen base <= n ->
  sk_shrink s n = OK s' -> exists ex', sk_live s' = ex' ++ base.
Proof.
  intros Hl Hn. unfold sk_shrink. destruct (n <? sk_size s) eqn:E.
  - intros H. unfold sk_size in E. rewrite Hl, zlen_app in E.
    pose proof (zlen_pos base).
    assert (D : exists e1 e2, ex = e1 ++ e2 /\ zlen (e2 ++ base) = n).
    { exists (firstn (Z.to_nat (zlen ex + zlen base - n)) ex), (skipn (Z.to_nat (zlen ex + zlen base - n)) ex).
      split; [symmetry; apply firstn_skipn|]. rewrite zlen_app. unfold zlen in *. rewrite skipn_length. lia. }
    destruct D as (e1 & e2 & -> & D). rewrite <- app_assoc in Hl.
    rewrite (set_len_live s n e1 (e2 ++ base) Hl D) in H. apply ok_inj in H. subst s'. exists e2. reflexivity.
  - intros H. apply ok_inj in H. subst s'. exists ex. exact Hl.
Qed.
Lemma shrink_exact s ex base : sk_live s = ex ++ base ->
  exists s', sk_shrink s (zlen base) = OK s' /\ sk_live s' = base.
Proof.
  intros Hl. unfold sk_shrink. destruct (_ <? _) eqn:E.
  - rewrite (set_len_live s _ ex base Hl eq_refl). eexists. split; reflexivity.
  - exists s. split; [reflexivity|]. unfold sk_size in E. rewrite Hl, zlen_app in E.
    destruct ex; [exact Hl|]. rewrite zlen_cons in E. pose proof (zlen_pos ex). lia.
Qed.

(** A frame on the call stack, innermost value first. *)
Definition frame (this off ns nl ret : Z) : list Z := [ret; vnum nl; vnum ns; vnum off; this].
Lemma push_frame_spec m off ret m' : push_frame m off ret = OK m' ->
  calls m' = frame (m_this m) off (zlen (chain m)) (zlen (loops m)) ret ++ calls m /\
  chain m' = chain m /\ loops m' = loops m /\ m_stack m' = m_stack m /\
  sk_live (m_arg m) = m_this m' :: sk_live (m_arg m') /\ m_code m' = m_code m /\ m_heap m' = m_heap m /\ m_err m' = m_err m.
Proof.
  unfold push_frame, sk_pop. destruct (sk_live (m_arg m)) as [|t r] eqn:L; [discriminate|].
  cbn [bind]. intros H. apply ok_inj in H. subst m'. repeat split; assumption || reflexivity.
Qed.
Lemma restore_frame_inv m a m' this off ns nl ret rest : calls m = frame this off ns nl ret ++ rest ->
  0 <= off < 2 ^ 31 -> 0 <= ns < 2 ^ 31 -> 0 <= nl < 2 ^ 31 ->
  restore_frame m = OK (a, m') ->
  a = off /\ m_this m' = this /\ calls m' = rest /\ m_code m' = m_code m /\ m_arg m' = m_arg m /\ m_heap m' = m_heap m /\
  sk_shrink (m_scopes m) ns = OK (m_scopes m') /\ sk_shrink (m_loops m) nl = OK (m_loops m') /\
  exists n, get_int ret = OK n /\ sk_size (m_stack m') = size_of_int n.
Proof.
  intros Hc Ho Hs Hl. unfold restore_frame. destruct (_ <? 5); [discriminate|].
  unfold calls in Hc. destruct (m_call m) as [live stale cap]. cbn [sk_live] in Hc. subst live.
  unfold frame. cbn [app sk_pop sk_live sk_stale sk_cap].
  cbn [bind]. intros H. bdestr H. cbn [sk_pop sk_live sk_stale sk_cap bind] in H.
  rewrite get_int_vnum in H by assumption. cbn [bind sk_pop sk_live sk_stale sk_cap] in H.
  rewrite get_int_vnum in H by assumption. cbn [bind sk_pop sk_live sk_stale sk_cap] in H.
  rewrite get_int_vnum in H by assumption. cbn [bind sk_pop sk_live sk_stale sk_cap] in H.
  rewrite !size_of_int_id in H by assumption. do 3 bdestr H.
  apply ok_pair in H. destruct H as [<- <-]. apply set_len_size in E2.
  split; [apply size_of_int_id; assumption|].
  do 7 (split; [try assumption; reflexivity|]). exists a0. split; assumption.
Qed.
