(** f.apply(t, [...]) in scripts. *)
From Verif Require Import Base BaseFacts Value_Model Value_Spec Value_Proofs Data_Model Str_Model Str_Spec Str_Proofs SUtil_Spec SUtil_Proofs Arr_Model Arr_Proofs
  TokNum_Model Txt_Model Obj_Model Obj_Spec Obj_Proofs Obj_Proofs2 Bcode_Model Vm_Model Vm_Spec Expr_Spec Lang_Spec Lang_Code Lang_Spec2 Lang_Exec1 Lang_Key Lang_Exec2 Lang_Exec10
  Lang_Spec3 Lang_Spec4 Lang_Spec5 Lang_Spec6 Lang_Apply Lang_Native Lang_Fail1 Lang_Fail5 Load_Spec Load_Proofs2 Props_Apply Print_Proofs Meth_Spec.
From Coq Require Import ZifyBool.
Ltac Zify.zify_post_hook ::= idtac.

(** ** Reading the array *)
Lemma element_rep cd ext W s i j t : rel cd ext W s -> (i < length (w_addr W))%nat -> 0 <= j < 2 ^ 63 -> numeral 10 j t ->
  exists x, array_get (w_heap W) ext (arr_at W i) j = OK x /\ vrep cd ext W x (match own s i t with Some a => a | None => undef end).
Proof.
  intros Rl Hi Hj Ht. unfold own. destruct (nth_error (objs s) i) as [c|] eqn:Ec.
  2:{ apply nth_error_None in Ec. rewrite <- (rel_len _ _ _ _ Rl) in Ec. lia. }
  destruct (cell_of _ _ W s i c Rl Ec) as (_ & mp & Em & Fe). destruct (obj_refers cd ext W s i Rl Hi) as (_ & R2 & _).
  pose proof (lookup_find _ _ W mp c t Fe) as Q.
  pose proof Rl as (Hr & _ & _ & L0 & _ & _ & Hs). unfold w_st in Hs.
  unfold array_get, array_get2. destruct (refers_object _ _ R2) as (I1 & _). rewrite I1.
  destruct (idx_name_spec j Hj) as (t' & -> & Ht'). cbn [bind]. rewrite (numeral_unique 10 j t' t ltac:(lia) Ht' Ht).
  destruct (numeral_name j t Ht Hj) as ((N1 & N2 & N3) & _).
  destruct (own_property_spec' (w_heap W) ext (w_store W) (arr_at W i) _ mp t Hr Em R2 N1 N3 ltac:(lia)) as (a & -> & P). cbn [bind].
  destruct (find_name c t) as [v|].
  - destruct Q as (x & El & Hv). rewrite El in P. destruct P as (P1 & pc & P2 & P3). replace (a =? 0) with false by lia. rewrite P2. cbn [bind]. exists x. split; [congruence|exact Hv].
  - rewrite Q in P. subst a. exists V_UNDEFINED. split; [reflexivity|]. reflexivity.
Qed.

Lemma items_rep m W s i vs : rel (m_code m) (m_ext m) W s -> m_heap m = w_heap W -> (i < length (w_addr W))%nat -> zlen vs < 2 ^ 31 -> forall k j,
  (forall n v, nth_error vs n = Some v -> exists t, numeral 10 (j + Z.of_nat n) t /\ v = match own s i t with Some a => a | None => undef end) ->
  k = length vs -> 0 <= j -> j + zlen vs < 2 ^ 32 ->
  exists xs, items m (arr_at W i) k j = OK xs /\ Forall2 (vrep (m_code m) (m_ext m) W) xs vs.
Proof.
  intros Rl Hh Hi _ k. revert vs. induction k as [|k IH]; intros vs j Hv Hk Hj Hb; destruct vs as [|v vs]; try discriminate Hk.
  - exists []. split; [reflexivity|constructor].
  - destruct (Hv O v eq_refl) as (t & Ht & ->). rewrite Z.add_0_r in Ht. rewrite zlen_cons in Hb. pose proof (zlen_nonneg vs).
    destruct (element_rep _ _ W s i j t Rl Hi ltac:(lia) Ht) as (x & Ex & Vx).
    destruct (IH vs (j + 1)) as (xs & Es & Vs); [|cbn [length] in Hk; lia|lia|lia|].
    { intros n v Hn. destruct (Hv (S n) v Hn) as (t' & Ht' & ->). exists t'. split; [|reflexivity]. replace (j + 1 + Z.of_nat n) with (j + Z.of_nat (S n)) by lia. exact Ht'. }
    exists (x :: xs). split; [|constructor; assumption]. cbn [items]. rewrite Hh. unfold u64. rewrite Z.mod_small by lia. rewrite Ex. cbn [bind]. rewrite Es. reflexivity.
Qed.

Section METHOD.
  Context (w : host) (m : vm) (W : world) (s : state) (sc : list nat) (fv : val) (xs : list Z) (us vs : list val) (f0 : Z) (base C : list Z) (rounds depth : nat).
  Context (Hc : called m xs f0 base C) (St : in_state m W s sc fv) (Hx : Forall2 (vrep (m_code m) (m_ext m) W) xs us)
          (Sp : spread s us vs) (Hd : (length vs <= depth)%nat) (Sr : stack_room m (S depth)).

  Lemma few_args : zlen vs < 2 ^ 31.
  Proof. destruct Sr as (H & _). pose proof (zlen_nonneg (sk_live (m_stack m))). unfold zlen at 1. cbv zeta in H. nia. Qed.
  Lemma arg_rep n : 0 <= n -> vrep (m_code m) (m_ext m) W (nth (Z.to_nat n) xs V_UNDEFINED) (nth (Z.to_nat n) us undef).
  Proof.
    intros _. revert Hx. generalize (Z.to_nat n). clear. intros k H. revert k. induction H as [|x u xs us Hx H IH]; intros [|k]; cbn [nth]; try reflexivity; [exact Hx|apply IH].
  Qed.
  Lemma spread_args : exists ys, Forall2 (vrep (m_code m) (m_ext m) W) ys vs /\
    (if is_array (nth 1 xs V_UNDEFINED) then n <- array_length (m_heap m) (m_ext m) (nth 1 xs V_UNDEFINED) ;; items m (nth 1 xs V_UNDEFINED) (Z.to_nat (s32 n)) 0 else OK []) = OK ys.
  Proof.
    pose proof few_args as Fw. pose proof St as (Hh & Rl & _ & _). pose proof (arg_rep 1 ltac:(lia)) as V1. change (Z.to_nat 1) with 1%nat in V1. unfold spread in Sp.
    destruct (kind_facts _ _ _ _ _ _ Rl V1) as (_ & _ & _ & _ & _ & _ & A & _). rewrite A.
    assert (N : nth 1 us undef = match nth_error us 1 with Some u => u | None => undef end).
    { destruct us as [|u0 [|u1 us']]; reflexivity. }
    rewrite N in *. destruct (nth_error us 1) as [u|]; [|exists []; subst vs; split; [constructor|reflexivity]].
    destruct u as [p|i|i|ps b|p]; try (exists []; subst vs; split; [constructor|reflexivity]).
    destruct Sp as (L & El). destruct V1 as (Hi & Ha). rewrite Ha. rewrite Hh.
    destruct (arr_len_ok _ _ W s i (arr_at W i) _ Rl (or_intror eq_refl) L) as (E & _). rewrite E. cbn [bind].
    pose proof (zlen_nonneg vs). replace (s32 (zlen vs)) with (zlen vs) by (unfold s32; rewrite Z.mod_small by lia; cbv zeta; replace (zlen vs <? 2 ^ 31) with true by lia; reflexivity).
    destruct (items_rep m W s i vs Rl Hh Hi Fw (Z.to_nat (zlen vs)) 0 El) as (ys & Ey & Vy); [unfold zlen; lia|lia|lia|]. exists ys. split; [exact Vy|exact Ey].
  Qed.

  (** mjs_apply does not use C functions for functions made by scripts. *)
  Lemma apply_any k fu T ys : (match fv with VHost _ => False | _ => True end) ->
    apply_with (call_native w (execute fu w) k) (h_ffi w) (execute fu w) m V_UNDEFINED (m_this m) T ys = apply fu w m (m_this m) T ys.
  Proof.
    intros Hf. pose proof St as (_ & Rl & _ & Vt). destruct (kind_facts _ _ _ _ _ _ Rl Vt) as (_ & _ & _ & _ & I1 & _ & _ & I2).
    unfold apply, apply_with. rewrite I1, I2. destruct fv; try contradiction; reflexivity.
  Qed.

  Lemma meth_ends fu m2 r W' s' : (match fv with VHost _ => False | _ => True end) ->
    forall ys, Forall2 (vrep (m_code m) (m_ext m) W) ys vs ->
    (if is_array (nth 1 xs V_UNDEFINED) then n <- array_length (m_heap m) (m_ext m) (nth 1 xs V_UNDEFINED) ;; items m (nth 1 xs V_UNDEFINED) (Z.to_nat (s32 n)) 0 else OK []) = OK ys ->
    (forall fu', (fu <= fu')%nat -> apply fu' w m (m_this m) (nth 0 xs V_UNDEFINED) ys = OK (m2, r)) -> in_state m2 W' s' sc fv -> same_stacks m m2 ->
    exists m', (forall fu' k, (fu <= fu')%nat -> call_native w (execute fu' w) (S k) F_APPLY m = OK m') /\ m_err m' = m_err m2 /\ gave m m' base r /\
      in_state m' W' s' sc fv /\ m_code m' = m_code m2 /\ m_ext m' = m_ext m2.
  Proof.
    intros Hf ys Vy Ey Ha St2 Ss. destruct Ss as (S1 & S2 & S3 & S4 & S5 & S6 & S7).
    assert (Hc2 : called m2 xs f0 base C) by (destruct Hc as (H1 & H2 & H3); split; [rewrite S1; exact H1|split; [rewrite S2; exact H2|exact H3]]).
    destruct (called_return m2 xs f0 base C r Hc2) as (st & Ls & Er).
    exists (push (set_stack m2 st) r). split.
    - intros fu' k Hk. change (call_native w (execute fu' w) (S k) F_APPLY m) with (apply_builtin (apply_with (call_native w (execute fu' w) k) (h_ffi w) (execute fu' w)) m).
      unfold apply_builtin. cbv zeta. rewrite (called_arg _ _ _ _ _ 1 Hc ltac:(lia)). cbn [bind]. change (Z.to_nat 1) with 1%nat. rewrite Ey. cbn [bind].
      rewrite (called_arg _ _ _ _ _ 0 Hc ltac:(lia)). cbn [bind]. change (Z.to_nat 0) with 0%nat. rewrite (apply_any k fu' _ _ Hf), (Ha fu' Hk). cbn [bind]. exact Er.
    - split; [reflexivity|]. split; [|split; [exact St2|split; reflexivity]]. unfold gave. cbn. rewrite Ls, S2, S3, S4, S5, S7. repeat split; reflexivity.
  Qed.
End METHOD.

(** C92. A script calls f.apply(t, l): the call gives what a call of [f] by the host gives, with
    [this] being t and the arguments the elements of [l]; afterwards [this] is as before. *)
Theorem method_apply w m W s sc fv xs us vs f0 base C rounds depth v s' : called m xs f0 base C -> in_state m W s sc fv ->
  Forall2 (vrep (m_code m) (m_ext m) W) xs us -> spread s us vs -> (length vs <= depth)%nat -> stack_room m (S depth) ->
  host_call rounds depth sc fv (nth 0 us undef) vs s = Some (v, s') ->
  exists fu m' r W', (forall fu' k, (fu <= fu')%nat -> call_native w (execute fu' w) (S k) F_APPLY m = OK m') /\ m_err m' = E_OK /\
    gave m m' base r /\ vrep (m_code m') (m_ext m') W' r v /\ in_state m' W' s' sc fv /\ later W W' /\ m_code m' = m_code m.
Proof.
  intros Hc St Hx Sp Hd Sr Hr. destruct (spread_args m W s sc fv xs us vs depth St Hx Sp Hd Sr) as (ys & Vy & Ey).
  pose proof (arg_rep m W xs us Hx 0 ltac:(lia)) as V0. change (Z.to_nat 0) with 0%nat in V0.
  destruct (apply_result w m W s sc fv (m_this m) fv (nth 0 xs V_UNDEFINED) (nth 0 us undef) ys vs rounds depth v s' Hr Hd Sr St (proj2 (proj2 (proj2 St))) V0 Vy)
    as (fu & m2 & r & W' & Ha & Er & St2 & L2 & Vr & Ss & Cm).
  assert (Hf : match fv with VHost _ => False | _ => True end) by (unfold host_call in Hr; destruct fv; try discriminate Hr; exact I).
  destruct (meth_ends w m W s sc fv xs vs f0 base C depth Hc St Hd fu m2 r W' s' Hf ys Vy Ey Ha St2 Ss) as (m' & E & G1 & G2 & G3 & G4 & G5).
  exists fu, m', r, W'. split; [exact E|]. split; [congruence|]. split; [exact G2|]. split; [rewrite G4, G5; exact Vr|]. split; [exact G3|]. split; [exact L2|congruence].
Qed.
Print Assumptions method_apply.
(** If the function fails, so does the call, with the same error. *)
Theorem method_apply_fails w m W s sc fv xs us vs f0 base C rounds depth c s' : called m xs f0 base C -> in_state m W s sc fv ->
  Forall2 (vrep (m_code m) (m_ext m) W) xs us -> spread s us vs -> (length vs <= depth)%nat -> stack_room m (S depth) ->
  fail_host rounds depth sc fv (nth 0 us undef) vs s = Some (c, s') ->
  exists fu m' W', (forall fu' k, (fu <= fu')%nat -> call_native w (execute fu' w) (S k) F_APPLY m = OK m') /\ m_err m' = c /\ c <> E_OK /\
    gave m m' base V_UNDEFINED /\ in_state m' W' s' sc fv /\ later W W' /\ m_code m' = m_code m.
Proof.
  intros Hc St Hx Sp Hd Sr Hr. destruct (spread_args m W s sc fv xs us vs depth St Hx Sp Hd Sr) as (ys & Vy & Ey).
  pose proof (arg_rep m W xs us Hx 0 ltac:(lia)) as V0. change (Z.to_nat 0) with 0%nat in V0.
  destruct (apply_stops w m W s sc fv (m_this m) fv (nth 0 xs V_UNDEFINED) (nth 0 us undef) ys vs rounds depth c s' Hr Hd Sr St (proj2 (proj2 (proj2 St))) V0 Vy)
    as (fu & m2 & W' & Ha & Er & Ne & St2 & L2 & Ss & Cm).
  assert (Hf : match fv with VHost _ => False | _ => True end) by (unfold fail_host in Hr; destruct fv; try discriminate Hr; exact I).
  destruct (meth_ends w m W s sc fv xs vs f0 base C depth Hc St Hd fu m2 V_UNDEFINED W' s' Hf ys Vy Ey Ha St2 Ss) as (m' & E & G1 & G2 & G3 & G4 & G5).
  exists fu, m', W'. split; [exact E|]. split; [congruence|]. split; [exact Ne|]. split; [exact G2|]. split; [exact G3|]. split; [exact L2|congruence].
Qed.
Print Assumptions method_apply_fails.
