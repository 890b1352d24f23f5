(** Proofs about calls of C functions by scripts and about memory reached through pointers. *)
From Verif Require Import Base BaseFacts Value_Model Value_Spec Value_Proofs Float_Proofs Str_Model Str_Spec Str_Proofs Str_Proofs2 Conv_Model Obj_Model Arr_Model.
From Verif Require Import SUtil_Spec NumText_Spec NumText_Proofs Arr_Proofs Ops_Spec Ops_Proofs Ops_Proofs2 TokNum_Model Data_Model Bcode_Model Txt_Model Vm_Model Vm_Spec Vm_Proofs Vm_Proofs2.
Ltac Zify.zify_post_hook ::= idtac.

Lemma vnum_number n : is_number (vnum n) = true.
Proof. unfold vnum. destruct (d_of_Z_valid n) as (_ & H & ->). exact H. Qed.

(** The state inside a C function: its arguments are above the function on the data stack, and
    the top of the call stack has the index. *)
Definition inside (m : vm) (vs : list Z) (f : Z) (base : list Z) : Prop :=
  sk_live (m_stack m) = rev vs ++ f :: base /\ (exists C, sk_live (m_call m) = vnum (zlen base + 1) :: C) /\ zlen base + 1 < 2 ^ 31.

Lemma inside_pos m vs f base : inside m vs f base -> getretvalpos m = OK (zlen base).
Proof.
  intros (S & (C & HC) & B). unfold getretvalpos, vptr, sk_get. pose proof (zlen_nonneg base). pose proof (zlen_nonneg C).
  change (-1 <? 0) with true. cbv iota. unfold vptr, sk_size. rewrite HC, zlen_cons. change (-1 <? 0) with true. cbv iota.
  replace ((0 <=? 1 + zlen C + -1) && (1 + zlen C + -1 <? 1 + zlen C)) with true by lia.
  replace (Z.to_nat (1 + zlen C - 1 - (1 + zlen C + -1))) with 0%nat by lia. cbn [nth bind].
  rewrite vnum_number. cbn [negb]. rewrite get_int_vnum by lia. cbn [bind].
  rewrite S, zlen_app, zlen_cons. pose proof (zlen_nonneg (rev vs)).
  replace (zlen base + 1 - 1 <? zlen (rev vs) + (1 + zlen base)) with true by lia. f_equal. lia.
Qed.
Lemma zlen_rev {A} (l : list A) : zlen (rev l) = zlen l.
Proof. unfold zlen. rewrite rev_length. reflexivity. Qed.

Lemma inside_nargs m vs f base : inside m vs f base -> nargs m = OK (zlen vs).
Proof.
  intros I. unfold nargs. rewrite (inside_pos _ _ _ _ I). cbn [bind]. cbv zeta. destruct I as (S & _ & _).
  unfold sk_size. rewrite S, zlen_app, zlen_cons, zlen_rev. pose proof (zlen_nonneg base). pose proof (zlen_nonneg vs).
  replace (0 <? zlen base + 1) with true by lia. cbn [andb]. destruct (zlen base + 1 <? zlen vs + (1 + zlen base)) eqn:E; f_equal; lia.
Qed.
Lemma inside_arg m vs f base i : inside m vs f base -> 0 <= i -> arg m i = OK (nth (Z.to_nat i) vs V_UNDEFINED).
Proof.
  intros I Hi. unfold arg. rewrite (inside_pos _ _ _ _ I). cbn [bind]. cbv zeta. destruct I as (S & _ & _).
  unfold sk_get, vptr, sk_size. rewrite S, zlen_app, zlen_cons, zlen_rev. pose proof (zlen_nonneg base). pose proof (zlen_nonneg vs).
  replace (0 <? zlen base + 1) with true by lia. cbn [andb]. destruct (zlen base + 1 + i <? zlen vs + (1 + zlen base)) eqn:E.
  - replace (zlen base + 1 + i <? 0) with false by lia.
    replace ((0 <=? zlen base + 1 + i) && (zlen base + 1 + i <? zlen vs + (1 + zlen base))) with true by lia. f_equal.
    assert (L : (Z.to_nat i < length vs)%nat) by (unfold zlen in *; lia).
    rewrite app_nth1 by (rewrite rev_length; unfold zlen in *; lia).
    rewrite rev_nth by (unfold zlen in *; lia). rewrite (nth_indep vs V_UNDEFINED 0 L). f_equal. unfold zlen in *. lia.
  - f_equal. symmetry. apply nth_overflow. unfold zlen in *. lia.
Qed.
Lemma inside_args m vs f base : inside m vs f base -> args m = OK vs.
Proof.
  intros I. unfold args. rewrite (inside_nargs _ _ _ _ I). cbn [bind].
  assert (G : forall k i, (i + k = length vs)%nat -> args_from m k (Z.of_nat i) = OK (skipn i vs)).
  { induction k as [|k IH]; intros i Hk.
    - cbn [args_from]. rewrite skipn_all2 by lia. reflexivity.
    - cbn [args_from]. rewrite (inside_arg _ _ _ _ _ I) by lia. cbn [bind]. replace (Z.of_nat i + 1) with (Z.of_nat (S i)) by lia.
      rewrite IH by lia. cbn [bind]. f_equal. rewrite Nat2Z.id. clear IH I m.
      revert i Hk. induction vs as [|v vs IH]; intros i Hk; [cbn in Hk; lia|]. destruct i as [|i]; [reflexivity|].
      cbn [skipn nth]. rewrite <- (IH i) by (cbn in Hk; lia). reflexivity. }
  unfold zlen. rewrite Nat2Z.id. apply (G (length vs) 0%nat). lia.
Qed.
Lemma inside_return m vs f base v : inside m vs f base ->
  exists m', return_v m v = OK m' /\ sk_live (m_stack m') = v :: base /\ m_call m' = m_call m /\ m_arg m' = m_arg m /\
    m_scopes m' = m_scopes m /\ m_loops m' = m_loops m /\ m_heap m' = m_heap m /\ m_err m' = m_err m /\ m_this m' = m_this m /\ m_mem m' = m_mem m.
Proof.
  intros I. unfold return_v. rewrite (inside_pos _ _ _ _ I). cbn [bind]. destruct I as (S & _ & B). pose proof (zlen_nonneg base).
  rewrite size_of_int_id by lia.
  rewrite (set_len_live (m_stack m) (zlen base) (rev vs ++ [f]) base) by (try reflexivity; rewrite <- app_assoc; exact S).
  cbn [bind]. eexists. split; [reflexivity|]. repeat split.
Qed.

(** Leaving a frame. *)
Lemma leave_frame m this off ns nl rest v base : sk_live (m_call m) = frame this off (zlen ns) (zlen nl) (vnum (zlen base + 1)) ++ rest ->
  sk_live (m_scopes m) = ns -> sk_live (m_loops m) = nl -> sk_live (m_stack m) = v :: base ->
  0 <= off < 2 ^ 31 -> zlen ns < 2 ^ 31 -> zlen nl < 2 ^ 31 -> zlen base + 1 < 2 ^ 31 ->
  exists m', restore_frame m = OK (off, m') /\ sk_live (m_call m') = rest /\ sk_live (m_scopes m') = ns /\ sk_live (m_loops m') = nl /\
    sk_live (m_stack m') = v :: base /\ m_this m' = this /\ m_arg m' = m_arg m /\ m_heap m' = m_heap m /\ m_err m' = m_err m /\ m_mem m' = m_mem m.
Proof.
  intros HC HS HL HT Ho Hs Hl Hb. unfold restore_frame. destruct (m_call m) as [live stale cap] eqn:EC. cbn [sk_live] in HC. subst live.
  pose proof (zlen_nonneg ns). pose proof (zlen_nonneg nl). pose proof (zlen_nonneg base). pose proof (zlen_nonneg rest).
  unfold sk_size. cbn [sk_live]. unfold frame. cbn [app]. rewrite !zlen_cons.
  replace (1 + (1 + (1 + (1 + (1 + zlen rest)))) <? 5) with false by lia.
  cbn [sk_pop sk_live sk_stale sk_cap bind]. rewrite get_int_vnum by lia. cbn [sk_pop sk_live sk_stale sk_cap bind].
  rewrite get_int_vnum by lia. cbn [sk_pop sk_live sk_stale sk_cap bind]. rewrite get_int_vnum by lia. cbn [sk_pop sk_live sk_stale sk_cap bind].
  rewrite get_int_vnum by lia. cbn [sk_pop sk_live sk_stale sk_cap bind]. rewrite !size_of_int_id by lia.
  destruct (shrink_exact (m_scopes m) [] ns HS) as (sc & -> & Sc). destruct (shrink_exact (m_loops m) [] nl HL) as (lp & -> & Lp). cbn [bind].
  rewrite (set_len_live (m_stack m) (zlen base + 1) [] (v :: base)) by (try exact HT; rewrite zlen_cons; lia). cbn [bind].
  eexists. split; [reflexivity|]. repeat split; assumption.
Qed.

Definition at_call (m : vm) (func this : Z) (vs base A : list Z) : Prop :=
  sk_live (m_stack m) = rev vs ++ func :: base /\ sk_live (m_arg m) = vnum (zlen base + 1) :: this :: A /\
  zlen base + 1 < 2 ^ 31 /\ zlen (sk_live (m_scopes m)) < 2 ^ 31 /\ zlen (sk_live (m_loops m)) < 2 ^ 31.

Lemma foreign_only f : is_foreign f = true -> is_function f = false /\ is_string f = false /\ is_ffi_sig f = false.
Proof.
  unfold is_foreign, is_function, is_string, is_ffi_sig. intros H. apply Z.eqb_eq in H. rewrite H.
  vm_compute. auto.
Qed.

Lemma c_call w exec k m bp i func this vs base A : is_foreign func = true -> at_call m func this vs base A ->
  0 <= bp_start bp + i < 2 ^ 31 ->
  exists m1, inside m1 vs func base /\ m_this m1 = this /\ m_heap m1 = m_heap m /\ m_err m1 = m_err m /\ m_mem m1 = m_mem m /\
    m_scopes m1 = m_scopes m /\
    forall v h mem e, call_native w exec k (get_ptr func) m1 = return_v (set_err (set_mem (set_heap m1 h) mem) e) v ->
      exists m2, do_call w exec k m bp i = OK (Go m2 bp i) /\ sk_live (m_stack m2) = v :: base /\
        sk_live (m_call m2) = sk_live (m_call m) /\ sk_live (m_scopes m2) = sk_live (m_scopes m) /\
        sk_live (m_loops m2) = sk_live (m_loops m) /\ sk_live (m_arg m2) = A /\ m_this m2 = m_this m /\
        m_heap m2 = h /\ m_mem m2 = mem /\ m_err m2 = e.
Proof.
  intros Hf (S & HA & B & Bs & Bl) Hi. destruct (foreign_only func Hf) as (N1 & N2 & N3). pose proof (zlen_nonneg base). pose proof (zlen_nonneg vs).
  destruct (m_arg m) as [live stale cap] eqn:EA. cbn [sk_live] in HA. subst live.
  set (a1 := {| sk_live := this :: A; sk_stale := vnum (zlen base + 1) :: stale; sk_cap := cap |}).
  set (a2 := {| sk_live := A; sk_stale := this :: vnum (zlen base + 1) :: stale; sk_cap := cap |}).
  assert (P : exists m1, push_frame (set_arg m a1) (bp_start bp + i) (vnum (zlen base + 1)) = OK m1 /\
     m_stack m1 = m_stack m /\ m_arg m1 = a2 /\ m_scopes m1 = m_scopes m /\ m_loops m1 = m_loops m /\ m_this m1 = this /\
     sk_live (m_call m1) = frame (m_this m) (bp_start bp + i) (zlen (sk_live (m_scopes m))) (zlen (sk_live (m_loops m))) (vnum (zlen base + 1)) ++ sk_live (m_call m) /\
     m_heap m1 = m_heap m /\ m_err m1 = m_err m /\ m_mem m1 = m_mem m).
  { eexists. split; [reflexivity|]. repeat split. }
  destruct P as (m1 & P & P1 & P2 & P3 & P4 & P5 & P6 & P7 & P8 & P9). exists m1.
  assert (In1 : inside m1 vs func base).
  { split; [rewrite P1; exact S|]. split; [|exact B]. eexists. rewrite P6. unfold frame. cbn [app]. reflexivity. }
  do 6 (split; [assumption|]). intros v h mem e Hc.
  assert (In2 : inside (set_err (set_mem (set_heap m1 h) mem) e) vs func base) by exact In1.
  destruct (inside_return _ _ _ _ v In2) as (m2 & R & R1 & R2 & R3 & R4 & R5 & R6 & R7 & R8 & R9).
  cbn [m_call m_arg m_scopes m_loops m_heap m_err m_this m_mem set_err set_mem set_heap] in R2, R3, R4, R5, R6, R7, R8, R9.
  destruct (leave_frame m2 (m_this m) (bp_start bp + i) (sk_live (m_scopes m)) (sk_live (m_loops m)) (sk_live (m_call m)) v base)
    as (m3 & L & L1 & L2 & L3 & L4 & L5 & L6 & L7 & L8 & L9); try assumption; try congruence.
  exists m3. split; [|repeat split; congruence || (rewrite L6, R3, P2; reflexivity)].
  unfold do_call. rewrite EA. unfold sk_top. cbn [sk_live]. rewrite get_int_vnum by lia. cbn [bind sk_pop sk_live sk_stale sk_cap].
  fold a1. assert (G : sk_get (m_stack (set_arg m a1)) (zlen base + 1 - 1) = OK func).
  { cbn [m_stack set_arg]. unfold sk_get, vptr, sk_size. rewrite S, zlen_app, zlen_cons, zlen_rev.
    replace (zlen base + 1 - 1 <? 0) with false by lia.
    replace ((0 <=? zlen base + 1 - 1) && (zlen base + 1 - 1 <? zlen vs + (1 + zlen base))) with true by lia. f_equal.
    rewrite app_nth2 by (rewrite rev_length; unfold zlen in *; lia). rewrite rev_length.
    replace (Z.to_nat _ - length vs)%nat with 0%nat by (unfold zlen; lia). reflexivity. }
  rewrite G. cbn [bind]. rewrite N1, N2, N3, Hf. cbn [orb]. rewrite P. cbn [bind]. rewrite Hc, R. cbn [bind]. rewrite L. reflexivity.
Qed.

(** ** Memory through pointers *)
Lemma int_whole v n : int_value v n -> - 2 ^ 53 < n < 2 ^ 53 -> whole v n.
Proof.
  intros I Hn. destruct (int_value_dec v n I Hn) as (_ & _ & D). destruct n as [|p|p]; cbn [sf_int] in D.
  - destruct D as (s & D). eapply W_zero. exact D.
  - destruct (canon_facts p ltac:(lia)) as (_ & F2 & F3 & F4).
    destruct (Z.eq_dec (ce p) 0) as [E|E]; [|exact (W_down v false (cm p) (ce p) (Z.pos p) D ltac:(lia) ltac:(lia))].
    refine (W_up v false (cm p) (ce p) (Z.pos p) D ltac:(lia) _). rewrite E in *. cbn [Z.opp Z.pow] in *. lia.
  - destruct (canon_facts p ltac:(lia)) as (_ & F2 & F3 & F4).
    destruct (Z.eq_dec (ce p) 0) as [E|E]; [|exact (W_down v true (cm p) (ce p) (Z.pos p) D ltac:(lia) ltac:(lia))].
    refine (W_up v true (cm p) (ce p) (Z.pos p) D ltac:(lia) _). rewrite E in *. cbn [Z.opp Z.pow] in *. lia.
Qed.
Lemma int_to_string st ext v n : int_value v n -> 0 <= n < 2 ^ 53 -> exists t, to_string st ext v = OK (Some t) /\ numeral 10 n t.
Proof.
  intros I Hn. destruct (int_value_dec v n I ltac:(lia)) as (U & _ & _). destruct (int_value_number v n I ltac:(lia)) as (_ & N & _).
  destruct (dec_text_num n ltac:(lia)) as (t & _ & T). exists t. split; [|exact T].
  assert (S : num_shows v t).
  { eapply NS_whole; [apply int_whole; [exact I|lia]|lia|]. exists t. rewrite Z.abs_eq by lia. split; [exact T|].
    replace (n <? 0) with false by lia. reflexivity. }
  assert (NS : is_string v = false).
  { destruct (preds_kind v U) as (P3 & _ & _ & _ & P4 & _). rewrite P4. rewrite P3 in N. destruct (kind_of v); cbn in *; congruence. }
  unfold to_string. rewrite NS, N, (num_text_shows v t U S). cbn [bind]. do 2 f_equal. apply firstn_all2.
  destruct (numeral_name n t T ltac:(lia)) as [_ L]. unfold zlen in L. lia.
Qed.
