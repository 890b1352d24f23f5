(** Callbacks: the arguments that reach the JS function; the list of callbacks. *)
From Verif Require Import Base BaseFacts Value_Model Value_Spec Value_Proofs Float_Proofs Str_Model Str_Spec Str_Proofs Obj_Proofs Ffi_Model Ffi_Spec Ffi_Proofs Ffi_Call_Spec Ffi_Call_Proofs.

Definition held (st : strs) (ext : extmem) (u : Z) (x : cval) (v : Z) : Prop :=
  match x with
  | XText None => holds st ext v []
  | XText (Some s) => holds st ext v s
  | XMg s => holds st ext v s
  | _ => arrives st ext u x v
  end.
Lemma holds_bytes st ext v d : holds st ext v d -> str_bytes st ext v = OK d.
Proof. intros (_ & _ & l & G & _ & R). unfold str_bytes. rewrite G. exact R. Qed.
Lemma held_arrives st ext u x v : held st ext u x v -> arrives st ext u x v.
Proof. destruct x as [n | b | [s |] | p | s | d |]; cbn [held]; intros H; try exact H; constructor; apply holds_bytes, H. Qed.
Lemma held_grows st st' ext u x v : grows st st' -> held st ext u x v -> held st' ext u x v.
Proof.
  intros G. destruct x as [n | b | [s |] | p | s | d |]; cbn [held]; intros H.
  - inversion H; subst. apply av_int. assumption.
  - inversion H; subst. apply av_bool.
  - apply (holds_grows st st'); assumption.
  - apply (holds_grows st st'); assumption.
  - inversion H; subst. apply av_ptr; auto.
  - apply (holds_grows st st'); assumption.
  - inversion H; subst. apply av_double.
  - inversion H; subst. apply av_userdata.
Qed.

(** the slot that holds an argument *)
Definition in_slot (id t : Z) (x : cval) (s : slot) : Prop :=
  (exists w, s = SW w /\ in_reg id t x w) \/ (exists d, is_u64 d /\ ~ ieee_nan d /\ t = T_DOUBLE /\ x = XDouble d /\ s = SD d).

Lemma js_arg_ok st ext e id t x s : in_slot id t x s -> (forall n, x = XInt n -> 0 <= n) ->
  zlen (so st) < 2 ^ 48 -> text_len x < 2 ^ 63 ->
  exists st' v, js_arg st e t s = OK (st', v) /\ held st' ext (ce_userdata e) x v /\ grows st st' /\ zlen (so st') <= zlen (so st) + text_len x + 11.
Proof.
  intros H Hn Hs Ht.
  assert (Str : forall d, bytes_ok d -> zlen d < 2 ^ 63 -> exists st' v, mk_string st d = OK (st', v) /\ holds st' ext v d /\ grows st st' /\ zlen (so st') <= zlen (so st) + zlen d + 11).
  { intros d B L. destruct (mk_string_holds st ext d B Hs ltac:(lia)) as (st' & v & M & Hh & _). exists st', v. split; [exact M |]. split; [exact Hh |].
    split; [apply (mk_string_grows _ _ _ _ M) | apply (mk_string_room _ _ _ _ M L)]. }
  assert (Same : forall v, js_arg st e t s = OK (st, v) -> held st ext (ce_userdata e) x v -> text_len x = 0 -> exists st' v, js_arg st e t s = OK (st', v) /\ held st' ext (ce_userdata e) x v /\ grows st st' /\ zlen (so st') <= zlen (so st) + text_len x + 11).
  { intros v E Hv Z0. exists st, v. split; [exact E |]. split; [exact Hv |]. split; [apply grows_refl | lia]. }
  destruct H as [(w & -> & H) | (d & U & N & -> & -> & ->)].
  - destruct H.
    + apply (Same (mk_number (d_of_Z n))); [| cbn; constructor; apply Hn; reflexivity | reflexivity]. cbn. specialize (Hn n eq_refl).
      replace (cw_bits w) with n; [reflexivity |]. destruct H0 as [-> | ->]; rewrite Z.mod_small; lia.
    + apply (Same (mk_boolean b)); [| cbn; constructor | reflexivity]. cbn. rewrite H. destruct b; reflexivity.
    + destruct (Str [] (Forall_nil _)) as (st' & v & M & R); [cbn; lia |]. exists st', v. split; [| exact R]. cbn. rewrite H. exact M.
    + destruct (Str (cw_text w) H0) as (st' & v & M & R); [cbn in Ht; lia |]. exists st', v. split; [| exact R]. cbn. replace (cw_bits w =? 0) with false by lia. exact M.
    + apply (Same (fst (mk_foreign (cw_bits w)))); [reflexivity | | reflexivity]. cbn [held].
      destruct (foreign_round_trip (cw_bits w)) as [F _]; [unfold is_u64; lia |]. specialize (F ltac:(lia)). destruct (mk_foreign (cw_bits w)) as [v er]. destruct F as (_ & F1 & F2). cbn [fst]. apply av_ptr; assumption.
    + destruct (Str (cw_mgtext w) H0) as (st' & v & M & R); [cbn in Ht; lia |]. exists st', v. split; [| exact R]. cbn. replace (cw_bits w =? 0) with false by lia. exact M.
    + apply (Same (ce_userdata e)); [reflexivity | cbn; constructor | reflexivity].
  - apply (Same d); [| cbn; constructor | reflexivity]. cbn. destruct (num_kind d U N) as [-> _]. reflexivity.
Qed.

Lemma texts_nonneg xs : 0 <= texts_len xs.
Proof. induction xs as [| x xs IH]; cbn [texts_len]; [lia |]. assert (0 <= text_len x) by (destruct x as [| | [s |] | | s | |]; cbn; try lia; apply zlen_nonneg). lia. Qed.

Lemma js_args_ok ext e id ts : forall xs ss rest st, length xs = length ts -> length ss = length ts ->
  (forall i t x s, nth_error ts i = Some t -> nth_error xs i = Some x -> nth_error ss i = Some s -> in_slot id t x s) ->
  no_negative xs -> zlen (so st) + texts_len xs < 2 ^ 48 ->
  exists st' vs, js_args st e ts (ss ++ rest) = OK (st', vs) /\ Forall2 (held st' ext (ce_userdata e)) xs vs /\ grows st st'.
Proof.
  induction ts as [| t ts IH]; intros xs ss rest st L1 L2 H Hn Hs.
  - destruct xs; [| discriminate]. exists st, []. split; [reflexivity |]. split; [constructor | apply grows_refl].
  - destruct xs as [| x xs]; [discriminate |]. destruct ss as [| s ss]; [discriminate |]. cbn [texts_len] in Hs. pose proof (texts_nonneg xs). pose proof (zlen_nonneg (so st)).
    assert (0 <= text_len x) by (destruct x as [| | [q |] | | q | |]; cbn; try lia; apply zlen_nonneg).
    destruct (js_arg_ok st ext e id t x s) as (st1 & v & E & Hv & G & R); [apply (H 0%nat); reflexivity | intros n ->; apply Hn; left; reflexivity | lia | lia |].
    destruct (IH xs ss rest st1) as (st2 & vs & E2 & Hvs & G2); [cbn in L1; lia | cbn in L2; lia | intros i; apply (H (S i)) | intros n X; apply Hn; right; exact X | lia |].
    exists st2, (v :: vs). split; [| split].
    + cbn [app js_args]. rewrite E. cbn [bind]. rewrite E2. reflexivity.
    + constructor; [apply (held_grows st1 st2); assumption | exact Hvs].
    + eapply grows_trans; eassumption.
Qed.

(** registers and slots *)
Lemma loads_len id ts xs ws ds : loads id ts xs ws ds -> length xs = length ts.
Proof. induction 1; cbn; congruence. Qed.
Lemma loads_words id ts xs ws ds : loads id ts xs ws ds -> count T_DOUBLE ts = 0%nat ->
  forall i t x, nth_error ts i = Some t -> nth_error xs i = Some x -> in_reg id t x (reg ws i).
Proof.
  induction 1 as [| t x w ts xs ws ds H _ IH | d ts xs ws ds _ _ _ _]; intros C i t' x' E1 E2.
  - destruct i; discriminate.
  - rewrite count_cons in C. destruct i as [| i]; cbn [nth_error reg nth] in *; [congruence |]. apply (IH ltac:(destruct (t =? T_DOUBLE)%Z; lia) i); assumption.
  - rewrite count_cons in C. cbn in C. lia.
Qed.
Lemma position_nth x l : forall i, In x l -> exists k, position x l i = i + Z.of_nat k /\ nth_error l k = Some x.
Proof.
  induction l as [| y l IH]; intros i H; [destruct H |]. cbn [position]. destruct (Z.eqb_spec y x) as [-> |]; [exists 0%nat; split; [lia | reflexivity] |].
  destruct H as [-> | H]; [congruence |]. destruct (IH (i + 1) H) as (k & E & N). exists (S k). split; [lia | exact N].
Qed.
Lemma user_reg id t x w : in_reg id t x w -> t = T_USERDATA -> cw_cb w = Some id.
Proof. destruct 1; intros Q; try discriminate Q. assumption. Qed.

Definition knows (cbs : cblist) (e : centry) : Prop := find (fun c => ce_id c =? ce_id e) (cl_list cbs) = Some e.

Lemma slots_ok i ts xs ws ds id ret : (length ts <= 6)%nat -> good_types SigCallback ret ts -> impl_of ret ts = Some i ->
  (In T_DOUBLE ts -> length ts = 2%nat) -> loads id ts xs ws ds ->
  exists ss rest u, cb_slots i ws ds = (ss ++ rest, u) /\ cw_cb u = Some id /\ length ss = length ts /\
    forall j t x s, nth_error ts j = Some t -> nth_error xs j = Some x -> nth_error ss j = Some s -> in_slot id t x s.
Proof.
  intros L6 G I H2 Ld. assert (IU : In T_USERDATA ts) by (destruct G as (_ & _ & G); apply count_In; lia). unfold impl_of in I.
  destruct (in_dec Z.eq_dec T_FLOAT ts); [discriminate |]. destruct (in_dec Z.eq_dec ret [T_NONE; T_INT; T_BOOL]); [| discriminate].
  destruct (count T_DOUBLE ts) as [| [| c]] eqn:Ec; [| | discriminate].
  - injection I as <-. destruct (position_nth T_USERDATA ts 1 IU) as (k & P & N). rewrite P. cbn [cb_slots].
    exists (map (fun j => SW (reg ws j)) (seq 0 (length ts))), (map (fun j => SW (reg ws j)) (seq (length ts) (6 - length ts))), (reg ws k).
    assert (K : (k < length ts)%nat) by (apply nth_error_Some; congruence). split; [| split; [| split]].
    + rewrite <- map_app, <- seq_app. replace (length ts + (6 - length ts))%nat with 6%nat by lia. replace (Z.to_nat (1 + Z.of_nat k - 1)) with k by lia. reflexivity.
    + pose proof (loads_len _ _ _ _ _ Ld) as Lx. destruct (nth_error xs k) as [x |] eqn:Ex; [| apply nth_error_None in Ex; lia].
      apply (user_reg id T_USERDATA x); [apply (loads_words _ _ _ _ _ Ld Ec k); assumption | reflexivity].
    + rewrite map_length, seq_length. reflexivity.
    + intros j t x s E1 E2 E3. assert (Hj : (j < length ts)%nat) by (apply nth_error_Some; congruence).
      rewrite nth_error_map in E3. replace (nth_error (seq 0 (length ts)) j) with (Some j) in E3.
      2: { symmetry. rewrite (nth_error_nth' _ 0%nat) by (rewrite seq_length; exact Hj). rewrite seq_nth by exact Hj. reflexivity. }
      injection E3 as <-. left. eexists. split; [reflexivity |]. apply (loads_words _ _ _ _ _ Ld Ec j); assumption.
  - assert (ID : In T_DOUBLE ts) by (apply count_In; lia). specialize (H2 ID). destruct ts as [| t1 [| t2 [| t3 ts]]]; try discriminate.
    rewrite !count_cons in Ec. destruct (Z.eqb_spec t1 T_DOUBLE) as [-> | N1].
    + destruct (Z.eqb_spec t2 T_DOUBLE) as [-> | N2]; [cbn in Ec; lia |].
      assert (t2 = T_USERDATA) as -> by (destruct IU as [Q | [Q | []]]; [discriminate | congruence]). cbn in I. injection I as <-.
      inversion Ld as [| ? ? ? ? ? ? ? Q | d ? ? ? ? D1 D2 Ld']; subst; [inversion Q |]. inversion Ld' as [| ? x w ? xs' ws' ? Q L'' |]; subst. inversion L''; subst.
      exists [SD d; SW w], [SZ; SZ; SZ; SZ], w. split; [reflexivity |]. split; [apply (user_reg id T_USERDATA x w Q eq_refl) |]. split; [reflexivity |].
      intros [| [| j]] t x0 s E1 E2 E3; cbn in E1, E2, E3; [| | destruct j; discriminate]; injection E1 as <-; injection E2 as <-; injection E3 as <-.
      * right. exists d. auto.
      * left. exists w. auto.
    + destruct (Z.eqb_spec t2 T_DOUBLE) as [-> | N2]; [| cbn in Ec; lia].
      assert (t1 = T_USERDATA) as -> by (destruct IU as [Q | [Q | []]]; [congruence | discriminate]). cbn in I. injection I as <-.
      inversion Ld as [| ? x w ? ? ws' ? Q Ld' |]; subst. inversion Ld' as [| ? ? ? ? ? ? ? Q' | d ? ? ? ds' D1 D2 L'']; subst; [inversion Q' |]. inversion L''; subst.
      exists [SW w; SD d], [SZ; SZ; SZ; SZ], w. split; [reflexivity |]. split; [apply (user_reg id T_USERDATA x w Q eq_refl) |]. split; [reflexivity |].
      intros [| [| j]] t x0 s E1 E2 E3; cbn in E1, E2, E3; [| | destruct j; discriminate]; injection E1 as <-; injection E2 as <-; injection E3 as <-.
      * left. exists w. auto.
      * right. exists d. auto.
Qed.

Lemma cb_delivers st ext cbs e i xs ws ds : let cs := ce_sig e in let ts := arg_types cs in
  good_sig SigCallback cs -> s_cnt cs = zlen ts -> length (s_types cs) = 7%nat -> impl_of (hd 0 (s_types cs)) ts = Some i ->
  (In T_DOUBLE ts -> length ts = 2%nat) -> knows cbs e -> loads (ce_id e) ts xs ws ds -> no_negative xs -> zlen (so st) + texts_len xs < 2 ^ 48 ->
  exists st' vs, cb_enter st cbs i ws ds = OK (st', ce_func e, vs) /\ Forall2 (arrives st' ext (ce_userdata e)) xs vs.
Proof.
  intros cs ts G Cn L I H2 K Ld Hn Hs.
  assert (L6 : (length ts <= 6)%nat) by (unfold ts, arg_types; pose proof (upto_short (tl (s_types cs))); destruct (s_types cs); cbn [tl length] in *; lia).
  destruct (slots_ok i ts xs ws ds (ce_id e) _ L6 G I H2 Ld) as (ss & rest & u & E & U & Ls & Hin). unfold cb_enter. rewrite E, U. rewrite K. fold cs.
  assert (IU : In T_USERDATA ts) by (destruct G as (_ & _ & G); apply count_In; fold ts in G; lia).
  assert (0 < zlen ts) by (unfold zlen; destruct ts; [destruct IU | cbn; lia]). rewrite Cn. replace (0 <? zlen ts) with true by lia.
  assert (Hf : firstn (Z.to_nat (zlen ts)) (tl (s_types cs)) = ts).
  { destruct (upto_prefix (tl (s_types cs))) as [r Er]. fold (arg_types cs) in Er. fold ts in Er. rewrite Er. unfold zlen. rewrite Nat2Z.id, firstn_app, firstn_all, Nat.sub_diag. cbn. apply app_nil_r. }
  rewrite Hf. destruct (js_args_ok ext e (ce_id e) ts xs ss rest st) as (st' & vs & Ev & Hvs & _); [apply (loads_len _ _ _ _ _ Ld) | exact Ls | exact Hin | exact Hn | exact Hs |].
  exists st', vs. rewrite Ev. split; [reflexivity |]. clear - Hvs. induction Hvs; constructor; [apply held_arrives; assumption | assumption].
Qed.

(** A negative int never arrives as itself. *)
Lemma reg_not_negative id n w : in_reg id T_INT (XInt n) w -> n < 0 -> cw_bits w = n + 2 ^ 32 \/ cw_bits w = n + 2 ^ 64.
Proof. intros H Hn. inversion H as [n' w' B H0 | | | | | |]; subst. destruct H0 as [-> | ->]; [left | right]; lia. Qed.

(** * The list of callbacks *)
Lemma remove_first_app p a x b : (forall y, In y a -> p y = false) -> p x = true -> remove_first p (a ++ x :: b) = Some (a ++ b).
Proof.
  induction a as [| y a IH]; intros H Hx; cbn [app remove_first]; [rewrite Hx; reflexivity |].
  rewrite (H y (or_introl eq_refl)), IH; [reflexivity | intros z Hz; apply H; right; exact Hz | exact Hx].
Qed.
Lemma remove_first_none p l : (forall y, In y l -> p y = false) -> remove_first p l = None.
Proof. induction l as [| y l IH]; intros H; [reflexivity |]. cbn [remove_first]. rewrite (H y (or_introl eq_refl)), IH; [reflexivity | intros z Hz; apply H; right; exact Hz]. Qed.
