(** Proofs about FFI signatures: validation, and the reading of well-formed declarations. *)
From Verif Require Import Base BaseFacts Value_Model Str_Model Txt_Model Ffi_Model Ffi_Spec.

(** * Validation *)
Definition okarg (k : sig_type) (t : Z) : Prop :=
  data_type t \/ t = T_USERDATA \/ (t = T_CALLBACK /\ k = SigFunc).

Lemma in_list_spec l x : in_list l x = true <-> In x l.
Proof.
  unfold in_list. rewrite existsb_exists. split; [intros (y & H & E); apply Z.eqb_eq in E; subst; auto | intros H; exists x; split; [auto | apply Z.eqb_refl]].
Qed.
Lemma data_type_iff t : in_list [T_INT; T_BOOL; T_VOID_PTR; T_CHAR_PTR; T_MG_STR_PTR; T_DOUBLE; T_FLOAT] t = true <-> data_type t.
Proof. rewrite in_list_spec. unfold data_type. cbn [In]. intuition congruence. Qed.
Lemma okarg_dec k t : {okarg k t} + {~ okarg k t}.
Proof.
  unfold okarg. destruct (in_list [T_INT; T_BOOL; T_VOID_PTR; T_CHAR_PTR; T_MG_STR_PTR; T_DOUBLE; T_FLOAT] t) eqn:E.
  - left. left. apply data_type_iff, E.
  - assert (N : ~ data_type t) by (intros D; apply data_type_iff in D; congruence).
    destruct (Z.eq_dec t T_USERDATA); [left; tauto |]. destruct (Z.eq_dec t T_CALLBACK); [| right; tauto].
    destruct k; [left; tauto | right; intros [? | [? | [_ ?]]]; [tauto | tauto | discriminate]].
Qed.
Lemma count_cons x y l : count x (y :: l) = ((if (y =? x)%Z then 1 else 0) + count x l)%nat.
Proof. unfold count. cbn [filter]. rewrite (Z.eqb_sym x y). destruct (y =? x); reflexivity. Qed.
Lemma count_In x l : (0 < count x l)%nat <-> In x l.
Proof.
  induction l as [| y l IH]; [cbn; lia |]. rewrite count_cons. cbn [In]. destruct (Z.eqb_spec y x); [subst; split; intros; [auto | lia] |].
  rewrite <- IH. split; [intros; right; lia | intros [? | ?]; [congruence | lia]].
Qed.

(** what the loop finds *)
Lemma check_args_spec k tys : forall i cb ud n, 0 < i -> 0 <= cb -> 0 <= ud ->
  let a := upto_void tys in
  (Forall (okarg k) a /\ ((if (ud =? 0)%Z then 0 else 1) + count T_USERDATA a <= 1)%nat ->
   exists cb' ud', check_args k tys i cb ud n = inl (cb', ud', n + zlen a) /\ 0 <= cb' /\ 0 <= ud' /\
     (0 < cb' <-> 0 < cb \/ In T_CALLBACK a) /\ (0 < ud' <-> 0 < ud \/ In T_USERDATA a)) /\
  (~ (Forall (okarg k) a /\ ((if (ud =? 0)%Z then 0 else 1) + count T_USERDATA a <= 1)%nat) ->
   exists e n', check_args k tys i cb ud n = inr (e, n') /\ e <> E_OK).
Proof.
  induction tys as [| t tys IH]; intros i cb ud n Hi Hcb Hud a.
  - subst a. cbn [upto_void check_args]. split.
    + intros _. exists cb, ud. change (zlen []) with 0. rewrite Z.add_0_r. cbn [In]. repeat split; intros; tauto || lia.
    + intros H. exfalso. apply H. split; [constructor | cbn; destruct (ud =? 0); lia].
  - cbn [check_args]. subst a. cbn [upto_void].
    assert (Hz : forall l, n + zlen (t :: l) = n + 1 + zlen l) by (intros; unfold zlen; cbn [length]; lia).
    destruct (t =? T_USERDATA) eqn:E1.
    { apply Z.eqb_eq in E1. subst t. change (T_USERDATA =? T_NONE) with false. cbv iota.
      rewrite count_cons, Z.eqb_refl. destruct (ud =? 0) eqn:E0; cbn [negb].
      - destruct (IH (i + 1) cb i (n + 1)) as [A B]; try lia. replace (i =? 0) with false in A, B by lia.
        split.
        + intros [F C]. inversion F; subst. destruct A as (cb' & ud' & Q & ? & ? & X & Y); [split; [assumption | lia] |].
          exists cb', ud'. rewrite Q, Hz. cbn [In]. repeat split; try assumption.
          * intros h. apply X in h. tauto.
          * intros [h | [h | h]]; [apply X; auto | discriminate | apply X; auto].
          * intros _. auto.
          * intros _. apply Y. left. lia.
        + intros H. apply B. intros [F C]. apply H. split; [constructor; [right; left; reflexivity | assumption] | lia].
      - split; [intros [_ C]; lia | intros _; exists E_TYPE, n; split; [reflexivity | discriminate]]. }
    destruct (t =? T_CALLBACK) eqn:E2.
    { apply Z.eqb_eq in E2. subst t. change (T_CALLBACK =? T_NONE) with false. cbv iota.
      rewrite count_cons. change (T_CALLBACK =? T_USERDATA) with false. cbv iota. rewrite Nat.add_0_l.
      destruct k.
      - destruct (IH (i + 1) i ud (n + 1)) as [A B]; try lia. split.
        + intros [F C]. inversion F; subst. destruct A as (cb' & ud' & Q & ? & ? & X & Y); [split; assumption |].
          exists cb', ud'. rewrite Q, Hz. cbn [In]. repeat split; try assumption.
          * intros _. auto.
          * intros _. apply X. left. lia.
          * intros h. apply Y in h. tauto.
          * intros [h | [h | h]]; [apply Y; auto | discriminate | apply Y; auto].
        + intros H. apply B. intros [F C]. apply H. split; [constructor; [right; right; auto | assumption] | lia].
      - split; [| intros _; exists E_TYPE, n; split; [reflexivity | discriminate]].
        intros [F _]. inversion F as [| ? ? O]; subst. unfold okarg, data_type in O. exfalso. intuition discriminate. }
    destruct (in_list _ t) eqn:E3.
    { apply data_type_iff in E3. replace (t =? T_NONE) with false by (unfold data_type in E3; intuition (subst t; reflexivity)).
      rewrite count_cons, E1, Nat.add_0_l. destruct (IH (i + 1) cb ud (n + 1)) as [A B]; try lia. split.
      - intros [F C]. inversion F; subst. destruct A as (cb' & ud' & Q & ? & ? & X & Y); [split; assumption |].
        exists cb', ud'. rewrite Q, Hz. cbn [In]. apply Z.eqb_neq in E1, E2. repeat split; try assumption.
        + intros h. apply X in h. tauto.
        + intros [h | [h | h]]; [apply X; auto | congruence | apply X; auto].
        + intros h. apply Y in h. tauto.
        + intros [h | [h | h]]; [apply Y; auto | congruence | apply Y; auto].
      - intros H. apply B. intros [F C]. apply H. split; [constructor; [left; assumption | assumption] | lia]. }
    destruct (t =? T_NONE) eqn:E4.
    { split.
      - intros _. exists cb, ud. change (zlen []) with 0. rewrite Z.add_0_r. cbn [In]. repeat split; intros; tauto || lia.
      - intros H. exfalso. apply H. split; [constructor | cbn; destruct (ud =? 0); lia]. }
    split; [| intros _; exists E_INTERNAL, n; split; [reflexivity | discriminate]].
    intros [F _]. inversion F as [| ? ? O]; subst. apply Z.eqb_neq in E1, E2.
    destruct O as [O | [O | [O _]]]; [apply data_type_iff in O; congruence | congruence | congruence].
Qed.

Lemma ret_ok_func t : ret_ok SigFunc t = true <-> In t [T_NONE; T_INT; T_BOOL; T_DOUBLE; T_FLOAT; T_VOID_PTR; T_CHAR_PTR].
Proof. apply in_list_spec. Qed.
Lemma ret_ok_cb t : ret_ok SigCallback t = true <-> In t [T_NONE; T_INT; T_BOOL; T_DOUBLE; T_FLOAT; T_VOID_PTR].
Proof. apply in_list_spec. Qed.

Lemma report_bad err e : e <> E_OK -> report err e <> E_OK.
Proof. unfold report. destruct (Z.eqb_spec err E_OK); auto. Qed.

Lemma good_types_split k ret a :
  good_types k ret a <->
  ret_ok k ret = true /\ Forall (okarg k) a /\ (count T_USERDATA a <= 1)%nat /\
  match k with SigFunc => In T_CALLBACK a <-> In T_USERDATA a | SigCallback => In T_USERDATA a end.
Proof.
  destruct k; cbn [good_types].
  - rewrite ret_ok_func. split; intros (A & B & C); (split; [exact A |]); (split; [| exact C]);
      eapply Forall_impl; try exact B; cbv beta; unfold okarg; intuition.
  - rewrite ret_ok_cb. split.
    + intros (A & B & C). split; [exact A |]. split; [eapply Forall_impl; [| exact B]; cbv beta; unfold okarg; intuition |].
      split; [lia | apply count_In; lia].
    + intros (A & B & C & D). split; [exact A |]. split; [eapply Forall_impl; [| exact B]; cbv beta; unfold okarg; intuition discriminate |].
      apply count_In in D. lia.
Qed.

Lemma validate_good k g err : good_sig k g ->
  validate g k err = (set_valid g (s_cnt g + zlen (arg_types g)) true, err).
Proof.
  intros H. apply good_types_split in H. destruct H as (A & B & C & D). unfold validate. rewrite A. cbn [negb].
  destruct (check_args_spec k (tl (s_types g)) 1 0 0 (s_cnt g)) as [P _]; try lia. cbv zeta in P. fold (arg_types g) in P.
  destruct P as (cb & ud & Q & ? & ? & X & Y); [split; [exact B | cbn; lia] |]. rewrite Q.
  assert (X' : 0 < cb <-> In T_CALLBACK (arg_types g)) by (rewrite X; intuition lia).
  assert (Y' : 0 < ud <-> In T_USERDATA (arg_types g)) by (rewrite Y; intuition lia).
  destruct k.
  - replace ((0 <? cb) && (0 <? ud) || (cb =? 0) && (ud =? 0)) with true; [reflexivity |].
    symmetry. rewrite orb_true_iff, !andb_true_iff, !Z.ltb_lt, !Z.eqb_eq.
    destruct (Z_lt_le_dec 0 cb) as [l | l]; [left; split; [exact l | apply Y', D, X', l] | right].
    split; [lia |]. destruct (Z_lt_le_dec 0 ud) as [m | m]; [| lia]. apply Y' in m. apply D in m. apply X' in m. lia.
  - apply Y' in D. replace (ud =? 0) with false by lia. reflexivity.
Qed.

Lemma validate_bad k g err : ~ good_sig k g ->
  exists n e, validate g k err = (set_valid g n false, e) /\ e <> E_OK.
Proof.
  intros H. unfold validate. destruct (ret_ok k (hd 0 (s_types g))) eqn:A; cbn [negb].
  2: { eexists _, _. split; [reflexivity | apply report_bad; discriminate]. }
  destruct (check_args_spec k (tl (s_types g)) 1 0 0 (s_cnt g)) as [P Q]; try lia. cbv zeta in P, Q. fold (arg_types g) in P, Q.
  assert (Dec : (Forall (okarg k) (arg_types g) /\ ((if (0 =? 0)%Z then 0 else 1) + count T_USERDATA (arg_types g) <= 1)%nat) \/
                ~ (Forall (okarg k) (arg_types g) /\ ((if (0 =? 0)%Z then 0 else 1) + count T_USERDATA (arg_types g) <= 1)%nat)).
  { assert (D1 : {Forall (okarg k) (arg_types g)} + {~ Forall (okarg k) (arg_types g)}).
    { apply Forall_dec. apply okarg_dec. }
    destruct D1; [| right; tauto]. destruct (le_dec ((if (0 =? 0)%Z then 0 else 1) + count T_USERDATA (arg_types g)) 1); [left; tauto | right; tauto]. }
  destruct Dec as [Y | N].
  2: { destruct (Q N) as (e & n' & E & Ne). rewrite E. eexists _, _. split; [reflexivity | apply report_bad; exact Ne]. }
  destruct (P Y) as (cb & ud & E & ? & ? & X1 & X2). rewrite E. destruct Y as [Y1 Y2]. cbn in Y2.
  assert (X' : 0 < cb <-> In T_CALLBACK (arg_types g)) by (rewrite X1; intuition lia).
  assert (Y' : 0 < ud <-> In T_USERDATA (arg_types g)) by (rewrite X2; intuition lia).
  destruct k.
  - destruct ((0 <? cb) && (0 <? ud) || (cb =? 0) && (ud =? 0)) eqn:F; [| eexists _, _; split; [reflexivity | apply report_bad; discriminate]].
    exfalso. apply H. apply good_types_split. repeat split; try assumption; intros K.
    + apply X' in K. apply Y'. lia.
    + apply Y' in K. apply X'. lia.
  - destruct (ud =? 0) eqn:F; [eexists _, _; split; [reflexivity | apply report_bad; discriminate] |].
    exfalso. apply H. apply good_types_split. repeat split; try assumption. apply Y'. lia.
Qed.

(** * The implementation of a callback *)
Lemma cb_scan_zeros k : forall i d f u, cb_scan (repeat T_NONE k) i d f u = OK (d, f, u).
Proof. induction k; intros; cbn [repeat cb_scan]; [reflexivity |]. cbn [Z.eqb T_NONE T_DOUBLE T_FLOAT T_USERDATA]. apply IHk. Qed.
Lemma cb_scan_spec args k : forall i d f u, 0 < i ->
  ((if (u =? 0)%Z then 0 else 1) + count T_USERDATA args <= 1)%nat ->
  cb_scan (args ++ repeat T_NONE k) i d f u =
  OK (d + Z.of_nat (count T_DOUBLE args), f + Z.of_nat (count T_FLOAT args), if u =? 0 then position T_USERDATA args i else u).
Proof.
  induction args as [| t args IH]; intros i d f u Hi Hc.
  - cbn [app count filter length position]. rewrite cb_scan_zeros. do 3 f_equal; try (cbn; lia). destruct (Z.eqb_spec u 0); congruence.
  - cbn [app cb_scan position]. rewrite !count_cons in *.
    destruct (Z.eqb_spec t T_DOUBLE); [subst t; cbn [Z.eqb T_DOUBLE T_FLOAT T_USERDATA] in *; cbv iota in *; rewrite IH by lia; do 3 f_equal; lia |].
    destruct (Z.eqb_spec t T_FLOAT); [subst t; cbn [Z.eqb T_DOUBLE T_FLOAT T_USERDATA] in *; cbv iota in *; rewrite IH by lia; do 3 f_equal; lia |].
    destruct (Z.eqb_spec t T_USERDATA).
    + destruct (Z.eqb_spec u 0); [| lia]. rewrite IH; [| lia | replace (i =? 0) with false by lia; lia].
      replace (i =? 0) with false by lia. do 3 f_equal; lia.
    + rewrite IH by lia. do 3 f_equal; lia.
Qed.
Lemma position_range x l : forall i, 0 < i -> In x l -> i <= position x l i < i + zlen l.
Proof.
  induction l as [| y l IH]; intros i Hi H; [destruct H |]. cbn [position]. assert (zlen (y :: l) = 1 + zlen l) by (unfold zlen; cbn [length]; lia).
  assert (0 <= zlen l) by (unfold zlen; lia). destruct (Z.eqb_spec y x); [lia |]. destruct H as [? | H]; [congruence |]. specialize (IH (i + 1) ltac:(lia) H). lia.
Qed.
Lemma in_list_6 u : 1 <= u <= 6 -> in_list [1; 2; 3; 4; 5; 6] u = true.
Proof. intros H. apply in_list_spec. cbn [In]. lia. Qed.

Lemma cb_impl_spec g ret args k :
  s_valid g = true -> s_types g = ret :: args ++ repeat T_NONE k -> s_cnt g <= 6 -> zlen args <= 6 ->
  count T_USERDATA args = 1%nat ->
  cb_impl_for g = OK (impl_of ret args).
Proof.
  intros V T N L C. unfold cb_impl_for. rewrite V, T. cbn [negb tl hd].
  assert (Hu : In T_USERDATA args) by (apply count_In; lia).
  pose proof (position_range T_USERDATA args 1 ltac:(lia) Hu) as P.
  rewrite cb_scan_spec; [| lia | cbn; lia]. cbn [bind Z.eqb]. unfold impl_of.
  destruct (in_dec Z.eq_dec T_FLOAT args) as [F | F].
  - apply count_In in F. replace (0 <? 0 + Z.of_nat (count T_FLOAT args)) with true by lia. reflexivity.
  - assert (count T_FLOAT args = 0%nat) by (destruct (count T_FLOAT args) eqn:E; [reflexivity | exfalso; apply F, count_In; lia]).
    replace (0 <? 0 + Z.of_nat (count T_FLOAT args)) with false by lia.
    replace (0 <? position T_USERDATA args 1) with true by lia. cbn [negb]. unfold CB_ARGS_MAX.
    replace (s_cnt g <=? 6) with true by lia. cbn [andb].
    assert (W : word_or_void ret = true <-> In ret [T_NONE; T_INT; T_BOOL]) by apply in_list_spec.
    destruct (in_dec Z.eq_dec ret [T_NONE; T_INT; T_BOOL]) as [I | I].
    + rewrite (proj2 W I). destruct (count T_DOUBLE args) as [| [| n]].
      * change (0 + Z.of_nat 0 =? 0) with true. cbv iota. rewrite in_list_6 by lia. reflexivity.
      * change (0 + Z.of_nat 1 =? 0) with false. change (0 + Z.of_nat 1 =? 1) with true. cbv iota.
        assert (U : position T_USERDATA args 1 = 1 \/ position T_USERDATA args 1 = 2 \/ position T_USERDATA args 1 = 3 \/ position T_USERDATA args 1 = 4 \/
          position T_USERDATA args 1 = 5 \/ position T_USERDATA args 1 = 6) by lia.
        destruct U as [U | [U | [U | [U | [U | U]]]]]; rewrite U; reflexivity.
      * replace (0 + Z.of_nat (S (S n)) =? 0) with false by lia. replace (0 + Z.of_nat (S (S n)) =? 1) with false by lia. reflexivity.
    + destruct (word_or_void ret); [exfalso; apply I, W; reflexivity | reflexivity].
Qed.

(** * Positions in the text *)
Definition At (t : list Z) (i : Z) (l : list Z) : Prop := exists A, t = A ++ l /\ zlen A = i.
Lemma zlen_app' {A} (a b : list A) : zlen (a ++ b) = zlen a + zlen b.
Proof. unfold zlen. rewrite app_length. lia. Qed.
Lemma zlen_cons' {A} (a : A) b : zlen (a :: b) = 1 + zlen b.
Proof. unfold zlen. cbn [length]. lia. Qed.
Lemma At_rd t i c l : At t i (c :: l) -> rd t i = OK c.
Proof.
  intros (A & -> & <-). unfold rd, nthz, zlen. replace (Z.of_nat (length A) <? 0) with false by lia.
  rewrite Nat2Z.id, nth_error_app2 by lia. rewrite Nat.sub_diag. reflexivity.
Qed.
Lemma At_app t i a l : At t i (a ++ l) -> At t (i + zlen a) l.
Proof. intros (A & -> & <-). exists (A ++ a). rewrite app_assoc, zlen_app'. auto. Qed.
Lemma At_next t i c l : At t i (c :: l) -> At t (i + 1) l.
Proof. intros H. apply (At_app t i [c]) in H. exact H. Qed.
Lemma At_len t i l : At t i l -> zlen t = i + zlen l /\ 0 <= i.
Proof. intros (A & -> & <-). rewrite zlen_app'. unfold zlen. lia. Qed.
Lemma At_sub t i a l : At t i (a ++ l) -> sub t i (zlen a) = a.
Proof.
  intros (A & -> & <-). unfold sub, zlen. rewrite !Nat2Z.id, skipn_app, skipn_all, Nat.sub_diag. cbn [skipn app].
  rewrite firstn_app, firstn_all, Nat.sub_diag. cbn [firstn]. apply app_nil_r.
Qed.
Lemma dist_len {A} i (a : list A) : dist i (i + zlen a) = length a.
Proof. unfold dist, zlen. lia. Qed.

Lemma skip_sp_spec sp : spaces sp -> forall n t i l, At t i (sp ++ l) -> (length sp <= n)%nat ->
  (n = length sp \/ exists c r, l = c :: r /\ is_space c = false) -> skip_sp n t i = OK (i + zlen sp).
Proof.
  induction 1 as [| c sp Hc Hs IH]; intros n t i l HA Hn HL; cbn [length app] in *.
  - change (zlen []) with 0. rewrite Z.add_0_r. destruct HL as [-> | (c & r & -> & Hc)]; [reflexivity |].
    destruct n; [reflexivity |]. cbn [skip_sp]. rewrite (At_rd _ _ _ _ HA). cbn [bind]. rewrite Hc. reflexivity.
  - destruct n; [lia |]. cbn [skip_sp]. rewrite (At_rd _ _ _ _ HA). cbn [bind]. rewrite Hc.
    rewrite (IH n t (i + 1) l); [rewrite zlen_cons'; f_equal; lia | apply (At_next _ _ c); exact HA | lia | destruct HL; [left; lia | right; assumption]].
Qed.
Lemma find_paren_some a : Forall (fun c => c <> 40) a -> forall n t i l, At t i (a ++ 40 :: l) -> (length a < n)%nat ->
  find_paren n t i = OK (Some (i + zlen a)).
Proof.
  induction 1 as [| c a Hc Ha IH]; intros n t i l HA Hn; (destruct n; [lia |]); cbn [find_paren app length] in *; rewrite (At_rd _ _ _ _ HA); cbn [bind].
  - cbn. f_equal. f_equal. lia.
  - replace (c =? 40) with false by lia. rewrite (IH n t (i + 1) l); [rewrite zlen_cons'; do 2 f_equal; lia | apply (At_next _ _ c); exact HA | lia].
Qed.
Lemma find_paren_none a : Forall (fun c => c <> 40) a -> forall t i l, At t i (a ++ l) ->
  find_paren (length a) t i = OK None.
Proof.
  induction 1 as [| c a Hc Ha IH]; intros t i l HA; cbn [find_paren app length] in *; [reflexivity |]. rewrite (At_rd _ _ _ _ HA); cbn [bind].
  replace (c =? 40) with false by lia. apply (IH t (i + 1) l), (At_next _ _ c), HA.
Qed.
(** balanced texts are passed over by find_closing *)
Definition bal (x : list Z) : Prop := forall n t i l k, 1 <= k -> At t i (x ++ l) -> (length x <= n)%nat ->
  find_closing n t i k = find_closing (n - length x) t (i + zlen x) k.
Lemma bal_nil : bal [].
Proof. intros n t i l k _ _ _. cbn [length]. rewrite Nat.sub_0_r. f_equal. change (zlen []) with 0. lia. Qed.
Lemma bal_app x y : bal x -> bal y -> bal (x ++ y).
Proof.
  intros X Y n t i l k Hk HA Hn. rewrite app_length in *. rewrite <- app_assoc in HA. rewrite (X n t i (y ++ l)) by (assumption || lia).
  apply At_app in HA. rewrite (Y _ t _ l) by (assumption || lia). f_equal; [lia | rewrite zlen_app'; lia].
Qed.
Lemma bal_char c : c <> 40 -> c <> 41 -> bal [c].
Proof.
  intros H1 H2 n t i l k Hk HA Hn. cbn [length app] in *. destruct n; [lia |]. cbn [find_closing]. rewrite (At_rd _ _ _ _ HA). cbn [bind].
  replace (c =? 40) with false by lia. replace (c =? 41) with false by lia. f_equal. lia.
Qed.
Lemma bal_plain x : Forall (fun c => c <> 40 /\ c <> 41) x -> bal x.
Proof. induction 1 as [| c x [? ?] _ IH]; [apply bal_nil | apply (bal_app [c]); [apply bal_char; assumption | exact IH]]. Qed.
Lemma bal_paren x : bal x -> bal ([40] ++ x ++ [41]).
Proof.
  intros X n t i l k Hk HA Hn. assert (HL : length ([40] ++ x ++ [41]) = (length x + 2)%nat) by (rewrite !app_length; cbn [length]; lia).
  rewrite HL in *. destruct n; [lia |]. cbn [find_closing]. cbn [app] in *. rewrite (At_rd _ _ _ _ HA). cbn [bind Z.eqb]. change (40 =? 40) with true. cbv iota.
  apply At_next in HA. rewrite <- app_assoc in HA. rewrite (X n t (i + 1) ([41] ++ l)) by (assumption || lia). apply At_app in HA. cbn [app] in HA.
  replace (n - length x)%nat with (S (n - length x - 1)) by lia. cbn [find_closing]. rewrite (At_rd _ _ _ _ HA). cbn [bind].
  change (41 =? 40) with false. change (41 =? 41) with true. cbv iota. replace (k + 1 - 1 =? 0) with false by lia.
  replace (S n - (length x + 2))%nat with (n - length x - 1)%nat by lia. replace (k + 1 - 1) with k by lia.
  replace (i + zlen (40 :: x ++ [41])) with (i + 1 + zlen x + 1) by (rewrite zlen_cons', zlen_app'; change (zlen [41]) with 1; lia). reflexivity.
Qed.
Lemma bal_closing x n t i l : bal x -> At t i (x ++ 41 :: l) -> (length x < n)%nat -> find_closing n t i 1 = OK (Some (i + zlen x)).
Proof.
  intros X HA Hn. rewrite (X n t i (41 :: l)) by (assumption || lia). apply At_app in HA.
  replace (n - length x)%nat with (S (n - length x - 1)) by lia. cbn [find_closing]. rewrite (At_rd _ _ _ _ HA). reflexivity.
Qed.

(** * Names of types *)
Lemma names_shape n t : names_type n t ->
  assoc type_names n T_INVALID = t /\ t <> T_INVALID /\ (exists c r, n = c :: r /\ is_space c = false) /\
  (exists r c, n = r ++ [c] /\ is_space c = false) /\ Forall (fun c => c <> 0 /\ c <> 40 /\ c <> 41 /\ c <> 44) n /\ (3 <= length n)%nat.
Proof.
  assert (G : forall n, (exists r c, n = r ++ [c] /\ is_space c = false) <-> match rev n with c :: _ => is_space c = false | [] => False end).
  { intros m. split.
    - intros (r & c & -> & H). rewrite rev_app_distr. exact H.
    - destruct (rev m) as [| c r] eqn:E; [intros [] |]. intros H. exists (rev r), c. split; [| exact H].
      rewrite <- (rev_involutive m), E. reflexivity. }
  unfold names_type. intros H. rewrite G. clear G.
  repeat match type of H with _ \/ _ => destruct H as [H | H] end; destruct H as [-> ->];
  (split; [vm_compute; reflexivity |]; split; [discriminate |]; split; [eexists _, _; split; [vm_compute; reflexivity | reflexivity] |]; split; [vm_compute; reflexivity |]; split;
  [match goal with |- Forall _ ?l => let l' := eval vm_compute in l in change l with l' end; repeat constructor; lia | vm_compute; lia]).
Qed.

Lemma trim_end_spec sp : spaces sp -> forall n A c B, is_space c = false -> (length sp <= n)%nat ->
  trim_end n (A ++ [c] ++ sp ++ B) (zlen (A ++ [c] ++ sp)) = OK (zlen (A ++ [c])).
Proof.
  intros Hs. induction sp as [| s sp IH] using rev_ind; intros n A c B Hc Hn.
  - rewrite app_nil_r. destruct n; [reflexivity |]. cbn [trim_end].
    assert (HA : At (A ++ [c] ++ [] ++ B) (zlen (A ++ [c]) - 1) (c :: B)) by (exists A; split; [reflexivity | rewrite zlen_app'; change (zlen [c]) with 1; lia]).
    rewrite (At_rd _ _ _ _ HA). cbn [bind]. rewrite Hc. reflexivity.
  - apply Forall_app in Hs. destruct Hs as [Hs Hl]. inversion Hl as [| ? ? Hsp _]; subst. rewrite app_length in Hn. cbn [length] in Hn.
    destruct n; [lia |]. cbn [trim_end].
    replace (A ++ [c] ++ (sp ++ [s]) ++ B) with (A ++ [c] ++ sp ++ s :: B) by (rewrite <- !app_assoc; reflexivity).
    assert (E : zlen (A ++ [c] ++ sp ++ [s]) - 1 = zlen (A ++ [c] ++ sp)) by (rewrite !zlen_app'; change (zlen [s]) with 1; lia).
    rewrite E. assert (HA : At (A ++ [c] ++ sp ++ s :: B) (zlen (A ++ [c] ++ sp)) (s :: B)) by (exists (A ++ [c] ++ sp); split; [rewrite <- !app_assoc; reflexivity | reflexivity]).
    rewrite (At_rd _ _ _ _ HA). cbn [bind]. rewrite Hsp. apply IH; [exact Hs | exact Hc | lia].
Qed.

Lemma type_parsed p t s l err : piece_ok p -> At t s (ptext p ++ l) ->
  parse_cval_type t s (s + zlen (ptext p)) err = OK (p_type p, err).
Proof.
  intros (Hpre & Hpost & Hn) HA. destruct (names_shape _ _ Hn) as (A1 & A2 & (c & r & En & Hc) & (r' & c' & En' & Hc') & A5 & A6).
  unfold parse_cval_type, ptext in *. rewrite <- !app_assoc in HA.
  rewrite (skip_sp_spec _ Hpre _ t s (p_name p ++ p_post p ++ l)); [| assumption | rewrite dist_len, app_length; lia | right; exists c, (r ++ p_post p ++ l); rewrite En; split; [reflexivity | exact Hc]].
  cbn [bind]. assert (HB : At t (s + zlen (p_pre p)) (p_name p ++ p_post p ++ l)) by (apply At_app, HA).
  assert (T : trim_end (dist (s + zlen (p_pre p)) (s + zlen (p_pre p ++ p_name p ++ p_post p))) t (s + zlen (p_pre p ++ p_name p ++ p_post p)) = OK (s + zlen (p_pre p) + zlen (p_name p))).
  { destruct HA as (A & Et & Es). rewrite Et, En'. 
    replace (A ++ p_pre p ++ (r' ++ [c']) ++ p_post p ++ l) with ((A ++ p_pre p ++ r') ++ [c'] ++ p_post p ++ l) by (rewrite <- !app_assoc; reflexivity).
    replace (s + zlen (p_pre p ++ (r' ++ [c']) ++ p_post p)) with (zlen ((A ++ p_pre p ++ r') ++ [c'] ++ p_post p)) by (rewrite <- Es, !zlen_app'; lia).
    rewrite trim_end_spec; [f_equal; rewrite <- Es, !zlen_app'; lia | exact Hpost | exact Hc' |].
    unfold dist. rewrite <- Es, !zlen_app'. unfold zlen. lia. }
  rewrite T. cbn [bind]. replace (s + zlen (p_pre p) + zlen (p_name p) - (s + zlen (p_pre p))) with (zlen (p_name p)) by lia.
  rewrite (At_sub _ _ _ _ HB), A1. replace (p_type p =? T_INVALID) with false by lia. reflexivity.
Qed.
