(** A new engine with the built-in names. *)
From Verif Require Import Base BaseFacts Value_Model Value_Spec Value_Proofs Data_Model Str_Model Str_Spec Str_Proofs Str_Proofs2 Float_Proofs Lit_Proofs
  Ops_Model Ops_Spec Ops_Proofs Ops_Proofs2 TokNum_Model Txt_Model Obj_Model Obj_Spec Obj_Proofs Obj_Proofs2 Conv_Model Num_Model Varint_Model Varint_Proofs Bcode_Model Bcode_Proofs
  Vm_Model Vm_Spec Vm_Proofs Vm_Proofs2 Vm_Proofs4 Tok_Spec Parse_Model Expr_Spec Run_Spec Expr_Proofs1 Expr_Proofs3 Expr_Proofs4 Expr_Proofs5 Lang_Spec Lang_Code Lang_Spec2 Lang_Exec1 Lang_Key Lang_Exec2 Lang_Exec3 Lang_Exec4 Lang_Exec5 Lang_Native Lang_Exec6 Lang_Exec7 Lang_Exec8 Lang_Exec9 Props_Bcode Run_Model Lex_Proofs Expr_Proofs6 Lang_Proofs7 Lang_Exec10 Lang_Spec5 Lang_Fail1 Lang_Fail2 Lang_Fail3 Lang_Fail4 Lang_Spec3 Lang_Spec4 Lang_Spec6 Lang_Apply Props_Lang Props_Lang2 Init_Model Init_Spec.
From Coq Require Import ZifyBool.
Ltac Zify.zify_post_hook ::= idtac.

Lemma host_rep cd ext W p : 0 <= p < 2 ^ 48 -> Lang_Spec2.vrep cd ext W (fst (mk_foreign p)) (host_fn p).
Proof.
  intros H. destruct (foreign_round_trip p ltac:(unfold is_u64; lia)) as [F _]. specialize (F ltac:(lia)).
  assert (U : is_u64 (fst (mk_foreign p))).
  { unfold mk_foreign, pointer_to_value. cbn [fst]. rewrite untag_mod, Z.mod_small by lia. unfold TAG_FOREIGN. rewrite lor_tag by lia. apply tag_u64; lia. }
  unfold host_fn. cbn [Lang_Spec2.vrep]. destruct (mk_foreign p) as [v e]. cbn [fst] in *. split; [reflexivity|]. split; [exact U|apply F].
Qed.
Section Put.
Context (cd : code) (ext : extmem).
Notation vrep := (Lang_Spec2.vrep cd ext). Notation rel := (Lang_Spec2.rel cd ext).
(** The state after setting a property. *)
Definition with_own (s : state) (i : nat) (n : list Z) (a : val) : state :=
  {| Lang_Spec.objs := upd (Lang_Spec.objs s) i (Lang_Spec.put (nth i (Lang_Spec.objs s) []) n a); left := left s - (zlen n + 40) |}.
Lemma put_v_ok W s i n v a : rel W s -> vrep W v a -> name_ok n -> (i < length (Lang_Spec.objs s))%nat -> zlen n + 40 <= left s ->
  exists W', put_v (w_heap W) ext (obj_at W i) n v = OK (w_heap W') /\ rel W' (with_own s i n a) /\ later W W'.
Proof.
  intros Rl V Nn Hi Hl. assert (E : set_own s i n a = Some (with_own s i n a)).
  { unfold set_own, with_own. rewrite (nth_error_nth' (Lang_Spec.objs s) ([] : cell) Hi). unfold take. pose proof (zlen_nonneg n). cbn [left Lang_Spec.objs]. replace ((0 <=? zlen n + 40) && (zlen n + 40 <=? left s)) with true by lia. reflexivity. }
  destruct (set_core cd ext W s _ i n None (obj_at W i) v a Rl V ltac:(discriminate) Nn (or_introl eq_refl) E) as (h & mp & Es & Rl' & L').
  eexists. split; [|split; [exact Rl'|exact L']]. unfold put_v, obj_set. rewrite Es. reflexivity.
Qed.
Fixpoint with_funcs (s : state) (i : nat) (l : list (list Z * Z)) : state :=
  match l with [] => s | (n, p) :: l => with_funcs (with_own s i n (host_fn p)) i l end.
Definition funcs_cost (l : list (list Z * Z)) : Z := fold_right (fun x c => zlen (fst x) + 40 + c) 0 l.
Lemma upd_length {A} (l : list A) i x : length (upd l i x) = length l.
Proof. revert i. induction l as [|y l IH]; intros [|i]; cbn [upd length]; try reflexivity. rewrite IH. reflexivity. Qed.
Lemma funcs_cost_pos l : 0 <= funcs_cost l.
Proof. induction l as [|[n p] l IH]; cbn [funcs_cost fold_right fst]; [lia|]. pose proof (zlen_nonneg n). unfold funcs_cost in IH. lia. Qed.
Lemma put_funcs_ok i l : Forall (fun x => name_ok (fst x) /\ 0 <= snd x < 2 ^ 48) l -> forall W s, rel W s -> (i < length (Lang_Spec.objs s))%nat -> funcs_cost l <= left s ->
  exists W', put_funcs (w_heap W) ext (obj_at W i) l = OK (w_heap W') /\ rel W' (with_funcs s i l) /\ later W W'.
Proof.
  intros F. induction F as [|[n p] l [Hn Hp] F IH]; intros W s Rl Hi Hl; cbn [put_funcs with_funcs].
  - exists W. split; [reflexivity|]. split; [exact Rl|apply later_refl].
  - cbn [funcs_cost fold_right fst snd] in *. fold (funcs_cost l) in Hl. pose proof (funcs_cost_pos l).
    destruct (put_v_ok W s i n _ _ Rl (host_rep cd ext W p Hp) Hn Hi ltac:(lia)) as (W1 & E1 & R1 & L1). rewrite E1. cbn [bind].
    assert (Hw : (i < length (w_addr W))%nat) by (rewrite (rel_len cd ext W s Rl); exact Hi).
    destruct (obj_later W W1 i L1 Hw) as [Eo _]. rewrite <- Eo.
    destruct (IH W1 _ R1) as (W2 & E2 & R2 & L2).
    { unfold with_own. cbn [Lang_Spec.objs]. rewrite upd_length. exact Hi. }
    { unfold with_own. cbn [left]. lia. }
    exists W2. split; [exact E2|]. split; [exact R2|]. eapply later_trans; eassumption.
Qed.
Lemma new_ok W s : rel W s -> 16 <= left s ->
  exists W', mk_object (w_heap W) = OK (w_heap W', obj_at W' (length (Lang_Spec.objs s))) /\ rel W' {| Lang_Spec.objs := Lang_Spec.objs s ++ [[]]; left := left s - 16 |} /\ later W W'.
Proof.
  intros Rl Hl. assert (E : new_cell s = Some (length (Lang_Spec.objs s), {| Lang_Spec.objs := Lang_Spec.objs s ++ [[]]; left := left s - 16 |})).
  { unfold new_cell, take. replace ((0 <=? 16) && (16 <=? left s)) with true by lia. reflexivity. }
  destruct (new_cell_ok cd ext W s _ _ Rl E) as (h & Mk & R1 & L1 & Ej & Hj). exists (new_world W h). split; [exact Mk|]. split; assumption.
Qed.
End Put.

Ltac nm := split; [apply Forall_forall; intros c Hc; vm_compute in Hc; repeat destruct Hc as [<-|Hc]; try contradiction; unfold is_byte; lia|];
  split; [apply Forall_forall; intros c Hc; vm_compute in Hc; repeat destruct Hc as [<-|Hc]; try contradiction; lia|vm_compute; reflexivity].
Lemma wo_len s i n a : length (Lang_Spec.objs (with_own s i n a)) = length (Lang_Spec.objs s).
Proof. apply upd_length. Qed.
Lemma wf_len l : forall s i, length (Lang_Spec.objs (with_funcs s i l)) = length (Lang_Spec.objs s).
Proof. induction l as [|[n p] l IH]; intros s i; cbn [with_funcs]; [reflexivity|]. rewrite IH. apply wo_len. Qed.
Lemma wo_left s i n a : left (with_own s i n a) = left s - (zlen n + 40).
Proof. reflexivity. Qed.
Lemma wf_left l : forall s i, left (with_funcs s i l) = left s - funcs_cost l.
Proof. induction l as [|[n p] l IH]; intros s i; cbn [with_funcs funcs_cost fold_right fst]; [lia|]. rewrite IH, wo_left. fold (funcs_cost l). lia. Qed.
Lemma ap_len l c n : length (Lang_Spec.objs {| Lang_Spec.objs := l ++ [c]; left := n |}) = S (length l).
Proof. cbn [Lang_Spec.objs]. rewrite app_length. cbn [length]. lia. Qed.
Lemma ap_left l n : left {| Lang_Spec.objs := l; left := n |} = n.
Proof. reflexivity. Qed.
Ltac lens := rewrite ?wf_len, ?wo_len, ?ap_len, ?wf_len, ?wo_len, ?ap_len, ?wf_len, ?wo_len, ?ap_len, ?wf_len, ?wo_len, ?ap_len, ?wf_len, ?wo_len, ?ap_len, ?wf_len, ?wo_len, ?ap_len; cbn [Lang_Spec.objs length]; lia.
Ltac sizes := repeat match goal with
  | |- context[zlen (bs ?s)] => let k := eval vm_compute in (zlen (bs s)) in change (zlen (bs s)) with k
  | |- context[funcs_cost ?l] => let k := eval vm_compute in (funcs_cost l) in change (funcs_cost l) with k end.
Ltac cost := repeat (rewrite wf_left || rewrite wo_left || rewrite ap_left); sizes; lia.

(** C83. mjs_create gives an engine whose global object has exactly the built-in names, and that
    is otherwise in the state the other theorems about programs start from: all of them hold for
    programs run in it. *)
Theorem created_with_names p n : addresses_ok p -> 0 <= n < 2 ^ 45 -> exists m W, create_all p = OK m /\ in_state m W (new_state p n) [0%nat] undef /\
  sk_live (m_stack m) = [] /\ sk_live (m_call m) = [] /\ sk_live (m_arg m) = [] /\ sk_live (m_loops m) = [] /\ zlen (sk_live (m_scopes m)) = 1 /\ m_err m = E_OK /\ m_code m = commits [].
Proof.
  intros Ha Hn. unfold addresses_ok in Ha.
  destruct (created_engine (n + 841) ltac:(lia)) as (m & W & E & (Hh & Rl & [Esc Fsc] & Vt) & S1 & S2 & S3 & C).
  assert (X : sk_live (m_call m) = [] /\ sk_live (m_arg m) = [] /\ m_err m = E_OK).
  { unfold create in E. destruct (mk_object heap_init) as [[h g]| | |]; cbn [bind] in E; try discriminate E. injection E as <-. repeat split; reflexivity. }
  destruct X as (S4 & S5 & S6).
  unfold create_all. rewrite E. cbn [bind]. unfold sk_top. fold (chain m). rewrite Esc. cbn [map]. rewrite Hh.
  set (cd := m_code m) in *. set (ext := m_ext m) in *.
  assert (Ln : length (w_addr W) = 1%nat) by (rewrite (rel_len cd ext W _ Rl); reflexivity).
  repeat match goal with H : Forall _ (_ :: _) |- _ => let A := fresh "A" in pose proof (Forall_inv H) as A; apply Forall_inv_tail in H; cbv beta in A end.
  unfold init_builtin.
  destruct (put_v_ok cd ext W _ 0 (bs "global") (obj_at W 0) (VObj 0) Rl ltac:(split; [lia|reflexivity]) ltac:(nm) ltac:(lens) ltac:(cost)) as (W1 & E1 & R1 & L1).
  rewrite E1. cbn [bind].
  destruct (obj_later W W1 0 L1 ltac:(lia)) as [Q1 B1]. rewrite <- Q1.
  destruct (put_funcs_ok cd ext 0 [(bs "load", n_load p); (bs "print", n_print p); (bs "ffi", n_ffi p); (bs "ffi_cb_free", n_cb_free p);
     (bs "mkstr", n_mkstr p); (bs "getMJS", n_get_mjs p); (bs "die", n_die p); (bs "gc", n_gc p);
     (bs "chr", n_chr p); (bs "s2o", n_s2o p)]) with (W := W1) (2 := R1) as (W2 & E2 & R2 & L2);
    [repeat (apply Forall_cons; [split; [cbn [fst]; nm|assumption]|]); apply Forall_nil|lens|cost|].
  rewrite E2. cbn [bind]. destruct (obj_later W1 W2 0 L2 B1) as [Q2 B2]. rewrite <- Q2.
  destruct (new_ok cd ext W2 _ R2 ltac:(cost)) as (W3 & E3 & R3 & L3). rewrite E3. cbn [bind].
  match goal with |- context[length (Lang_Spec.objs ?s)] => replace (length (Lang_Spec.objs s)) with 1%nat by lens end.
  destruct (obj_later W2 W3 0 L3 B2) as [Q3 B3]. rewrite <- Q3.
  assert (H3 : (1 < length (w_addr W3))%nat) by (rewrite (rel_len cd ext W3 _ R3); lens).
  destruct (put_funcs_ok cd ext 1 [(bs "stringify", n_stringify p); (bs "parse", n_parse p)]) with (W := W3) (2 := R3) as (W4 & E4 & R4 & L4);
    [repeat (apply Forall_cons; [split; [cbn [fst]; nm|assumption]|]); apply Forall_nil|lens|cost|].
  rewrite E4. cbn [bind]. destruct (obj_later W3 W4 0 L4 B3) as [Q4 B4]. rewrite <- Q4.
  destruct (obj_later W3 W4 1 L4 H3) as [P4 H4]. rewrite <- P4.
  destruct (put_v_ok cd ext W4 _ 0 (bs "JSON") (obj_at W4 1) (VObj 1) R4 ltac:(split; [exact H4|reflexivity]) ltac:(nm) ltac:(lens) ltac:(cost)) as (W5 & E5 & R5 & L5).
  rewrite E5. cbn [bind]. destruct (obj_later W4 W5 0 L5 B4) as [Q5 B5]. rewrite <- Q5.
  destruct (new_ok cd ext W5 _ R5 ltac:(cost)) as (W6 & E6 & R6 & L6). rewrite E6. cbn [bind].
  match goal with |- context[length (Lang_Spec.objs ?s)] => replace (length (Lang_Spec.objs s)) with 2%nat by lens end.
  destruct (obj_later W5 W6 0 L6 B5) as [Q6 B6]. rewrite <- Q6.
  assert (H6 : (2 < length (w_addr W6))%nat) by (rewrite (rel_len cd ext W6 _ R6); lens).
  destruct (put_funcs_ok cd ext 2 [(bs "create", n_create p)]) with (W := W6) (2 := R6) as (W7 & E7 & R7 & L7);
    [repeat (apply Forall_cons; [split; [cbn [fst]; nm|assumption]|]); apply Forall_nil|lens|cost|].
  rewrite E7. cbn [bind]. destruct (obj_later W6 W7 0 L7 B6) as [Q7 B7]. rewrite <- Q7.
  destruct (obj_later W6 W7 2 L7 H6) as [P7 H7]. rewrite <- P7.
  destruct (put_v_ok cd ext W7 _ 0 (bs "Object") (obj_at W7 2) (VObj 2) R7 ltac:(split; [exact H7|reflexivity]) ltac:(nm) ltac:(lens) ltac:(cost)) as (W8 & E8 & R8 & L8).
  rewrite E8. cbn [bind]. destruct (obj_later W7 W8 0 L8 B7) as [Q8 B8]. rewrite <- Q8.
  destruct (put_v_ok cd ext W8 _ 0 (bs "NaN") TAG_NAN (VPrim (ANum TAG_NAN)) R8 ltac:(vm_compute; repeat split; discriminate) ltac:(nm) ltac:(lens) ltac:(cost)) as (W9 & E9 & R9 & L9).
  rewrite E9. cbn [bind]. destruct (obj_later W8 W9 0 L9 B8) as [Q9 B9]. rewrite <- Q9.
  destruct (put_funcs_ok cd ext 0 [(bs "isNaN", n_isnan p)]) with (W := W9) (2 := R9) as (W10 & E10 & R10 & L10);
    [repeat (apply Forall_cons; [split; [cbn [fst]; nm|assumption]|]); apply Forall_nil|lens|cost|].
  rewrite E10. cbn [bind]. destruct (obj_later W9 W10 0 L10 B9) as [Q10 B10].
  eexists _, W10. split; [reflexivity|]. split.
  - split; [reflexivity|]. split; [|split].
    + match type of R10 with Lang_Spec2.rel _ _ _ ?s => replace (new_state p n) with s; [exact R10|] end.
      match goal with |- ?s = _ => destruct s as [os l] eqn:Es end. unfold new_state. f_equal.
      * match type of Es with ?s = _ => transitivity (Lang_Spec.objs s); [rewrite Es; reflexivity|] end. clear. cbv -[host_fn mk_foreign Z.add Z.sub]. reflexivity.
      * match type of Es with ?s = _ => transitivity (left s); [rewrite Es; reflexivity|] end. cost.
    + change (chain (set_heap m (w_heap W10))) with (chain m). split; [rewrite Esc; cbn [map]; rewrite Q10, Q9, Q8, Q7, Q6, Q5, Q4, Q3, Q2, Q1; reflexivity|]. constructor; [exact B10|constructor].
    + change (m_this (set_heap m (w_heap W10))) with (m_this m). exact Vt.
  - cbn [set_heap m_stack m_call m_arg m_loops m_scopes m_err m_code]. repeat split; assumption.
Qed.
Print Assumptions created_with_names.
