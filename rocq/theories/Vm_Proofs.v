From Verif Require Import Base BaseFacts Value_Model Value_Spec Float_Proofs Str_Model Obj_Model Bcode_Model Bcode_Proofs Vm_Model Vm_Spec.
From Coq Require Import ZifyBool.
Ltac Zify.zify_post_hook ::= Z.div_mod_to_equations.

Lemma bind_ok {A B} (x : R A) (k : A -> R B) y : bind x k = OK y -> exists a, x = OK a /\ k a = OK y.
Proof. destruct x; cbn [bind]; intros H; try discriminate. eauto. Qed.

(** Stacks *)
Lemma set_len_size s n s' : sk_set_len s n = OK s' -> sk_size s' = n.
Proof.
  unfold sk_set_len. destruct (_ && _) eqn:E; [|discriminate]. intros H. apply andb_true_iff in E. destruct E as [E1 E2].
  assert (s' = {| sk_live := rev (firstn (Z.to_nat n) (sk_all s)); sk_stale := skipn (Z.to_nat n) (sk_all s); sk_cap := sk_cap s |}) by congruence.
  subst s'. unfold sk_size, zlen in *. cbn [sk_live]. rewrite rev_length, firstn_length. lia.
Qed.
Lemma set_len_live s n ex base : sk_live s = ex ++ base -> zlen base = n ->
  sk_set_len s n = OK {| sk_live := base; sk_stale := rev ex ++ sk_stale s; sk_cap := sk_cap s |}.
Proof.
  intros Hl Hn. unfold sk_set_len, sk_all. rewrite Hl, rev_app_distr, <- app_assoc.
  assert (L : Z.to_nat n = length (rev base)) by (rewrite rev_length; unfold zlen in Hn; lia).
  replace ((0 <=? n) && _) with true.
  - rewrite L, firstn_app, Nat.sub_diag, firstn_all, firstn_O, app_nil_r, rev_involutive.
    rewrite skipn_app, Nat.sub_diag, skipn_all, skipn_O. reflexivity.
  - symmetry. rewrite !zlen_app. unfold zlen in *. rewrite !rev_length. lia.
Qed.
Lemma pop_push_size m v : sk_size (m_stack (snd (pop (push m v)))) = sk_size (m_stack m).
Proof. reflexivity. Qed.

Lemma bind_eq {A B} (x : R A) (k : A -> R B) a y : x = OK a -> k a = y -> bind x k = y.
Proof. intros -> H. exact H. Qed.

(** Splitting a hypothesis that a sequence of binds succeeds. *)
Ltac bdestr H :=
  let a := fresh "a" in let E := fresh "E" in
  apply bind_ok in H; destruct H as (a & E & H); cbn beta in H.

Ltac bd H :=
  repeat (cbn beta iota in H;
    match type of H with
    | bind _ _ = _ => bdestr H
    | (let '(_, _) := ?x in _) = _ => destruct x
    end).
Ltac bdi H :=
  repeat (cbn beta iota zeta in H; try discriminate H;
    match type of H with
    | bind _ _ = _ => bdestr H
    | (let '(_, _) := ?x in _) = _ => let E := fresh "E" in destruct x eqn:E
    | (if ?b then _ else _) = _ => let E := fresh "E" in destruct b eqn:E
    | OK (if ?b then _ else _) = _ => let E := fresh "E" in destruct b eqn:E
    | (match ?x with _ => _ end) = _ => let E := fresh "E" in destruct x eqn:E
    end).
Lemma ok_pair {A B} (a c : A) (b d : B) : OK (a, b) = OK (c, d) -> a = c /\ b = d.
Proof. intros H. split; congruence. Qed.
Lemma ok_inj {A} (a b : A) : OK a = OK b -> a = b.
Proof. congruence. Qed.

(** Only a return instruction ends a run, without touching the error code. *)
Lemma restore_frame_err m a m' : restore_frame m = OK (a, m') -> m_err m' = m_err m.
Proof.
  unfold restore_frame. destruct (_ <? 5); [discriminate|]. intros H. bd H.
  apply ok_pair in H. destruct H as [_ <-]. reflexivity.
Qed.
Lemma do_call_go w exec k m bp i m' : do_call w exec k m bp i = OK (Done m') -> False.
Proof.
  unfold do_call. intros H. bd H.
  repeat (match type of H with (if ?b then _ else _) = _ => destruct b end; bd H); congruence.
Qed.
Lemma instr_done w exec k m bp i op prev m' : instr w exec k m bp i op prev = OK (Done m') -> m_err m' = m_err m.
Proof.
  unfold instr. cbv zeta. intros H.
  repeat (match type of H with (if ?b then _ else _) = _ => destruct b end);
    try discriminate;
    try (exfalso; apply do_call_go in H; exact H);
    bdi H; try discriminate.
  assert (E2 : v = m') by congruence. subst v. eapply restore_frame_err; eassumption.
Qed.

(** One round either goes on without an error, or ends without one, or restores the sizes. *)
Definition sizes (m : vm) (sv : saved) (extra : Z) : Prop :=
  0 <= v_stack sv /\ sk_size (m_stack m) = v_stack sv + extra /\ sk_size (m_call m) = v_call sv /\
  sk_size (m_arg m) = v_arg sv /\ sk_size (m_scopes m) = v_scopes sv /\ sk_size (m_loops m) = v_loops sv.
Lemma recover_sizes m sv m' : recover m sv = OK m' ->
  sizes m' sv 1 /\ m_err m' = m_err m /\ sk_top (m_stack m') = V_UNDEFINED.
Proof.
  unfold recover. intros H. bd H. apply ok_inj in H. subst m'.
  apply set_len_size in E0, E1, E2, E3, E4. unfold sizes.
  cbn [push set_stack set_call set_arg set_scopes set_loops m_stack m_call m_arg m_scopes m_loops m_err].
  pose proof (zlen_nonneg (sk_live a0)). unfold sk_size in E0.
  repeat split; try assumption; [lia|].
  unfold sk_push, sk_size in *. cbn [sk_live]. rewrite zlen_cons. lia.
Qed.
Lemma step_spec w exec k sv c r : m_err (k_m c) = E_OK -> step w exec k sv c = OK r ->
  match r with
  | inl c' => m_err (k_m c') = E_OK
  | inr m => m_err m = E_OK \/ sizes m sv 1
  end.
Proof.
  intros He. unfold step. destruct (negb (k_i c <? _)).
  { intros H. apply ok_inj in H. subst r. left. exact He. }
  destruct (nthz _ _); [|discriminate]. intros H. bd H. destruct a as [m bp i|m].
  - destruct (negb (m_err m =? E_OK)) eqn:Q.
    + bd H. apply ok_inj in H. subst r. right. apply (recover_sizes m sv a E0).
    + apply ok_inj in H. subst r. cbn [k_m]. apply negb_false_iff in Q. lia.
  - apply ok_inj in H. subst r. left. rewrite (instr_done _ _ _ _ _ _ _ _ _ E). exact He.
Qed.

Lemma finish_spec m start m' v : finish m start = OK (m', v) ->
  (m_err m' = m_err m /\ forall sv, sizes m sv 1 -> sizes m' sv 0) \/
  (m_err m' = E_INTERNAL /\ sk_live (m_stack m) = [] /\ v = V_UNDEFINED /\
   m_call m' = m_call m /\ m_arg m' = m_arg m /\ m_scopes m' = m_scopes m /\ m_loops m' = m_loops m /\
   sk_live (m_stack m') = [] /\ exists s, hd_error (m_res m') = Some (s, m_err m)).
Proof.
  unfold finish. intros H. bdestr H. cbv zeta in H. unfold pop in H.
  destruct (sk_live (m_stack (set_res m ((bp_start a, m_err m) :: m_res m)))) as [|x l] eqn:L; apply ok_pair in H; destruct H as [<- <-].
  - right. cbn [set_res m_stack] in L. unfold set_err, set_res.
    cbn [m_err m_call m_arg m_scopes m_loops m_res m_stack hd_error]. do 8 (split; [try assumption; try reflexivity|]). eexists; reflexivity.
  - left. split; [reflexivity|]. intros sv (H0 & H1 & H2 & H3 & H4 & H5). unfold sizes.
    unfold set_stack, set_res. cbn [m_err m_call m_arg m_scopes m_loops m_res m_stack].
    repeat split; try assumption. unfold sk_size in *. cbn [sk_live]. cbn [set_res m_stack] in L. rewrite L, zlen_cons in H1. lia.
Qed.

Lemma run_spec w : forall fuel sv start c m' v, m_err (k_m c) = E_OK -> run fuel w sv start c = OK (m', v) ->
  m_err m' <> E_OK -> sizes m' sv 0 \/
  (m_err m' = E_INTERNAL /\ v = V_UNDEFINED /\ sk_live (m_stack m') = [] /\
   exists s, hd_error (m_res m') = Some (s, E_OK)).
Proof.
  induction fuel as [|f IH]; intros sv start c m' v He H Hn; [discriminate|].
  cbn [run] in H. bd H. pose proof (step_spec _ _ _ _ _ _ He E) as S. destruct a as [c'|m].
  - exact (IH sv start c' m' v S H Hn).
  - destruct (finish_spec _ _ _ _ H) as [[H1 H2]|(H1 & H2 & H3 & H4 & H5 & H6 & H7 & H8 & s & H9)].
    + destruct S as [S|S]; [congruence|]. left. apply H2, S.
    + destruct S as [S|S].
      * right. rewrite S in H9. repeat (split; [assumption|]). exists s. exact H9.
      * exfalso. destruct S as (S0 & S & _). unfold sk_size in S. rewrite H2 in S.
        change (zlen (@nil Z)) with 0 in S. lia.
Qed.
