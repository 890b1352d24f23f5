(** Reading any text as a declaration: no access outside the text, no endless loop, and
    what an accepted signature is like. *)
From Verif Require Import Base BaseFacts Value_Model Str_Model Txt_Model Ffi_Model Ffi_Spec Ffi_Proofs Ffi_Proofs2 Ffi_Proofs3 Ffi_Proofs4.

Section Safe.
  Context (txt : list Z).
  Let t := txt ++ [0].
  Let L := zlen txt.

  Lemma L_pos : 0 <= L. Proof. unfold L, zlen. lia. Qed.
  Lemma rd_in i : 0 <= i <= L -> exists c, rd t i = OK c.
  Proof.
    intros H. unfold rd, nthz. replace (i <? 0) with false by lia. destruct (nth_error t (Z.to_nat i)) eqn:E; [eauto |].
    apply nth_error_None in E. unfold t in E. rewrite app_length in E. cbn [length] in E. unfold L, zlen in H. lia.
  Qed.
  Lemma rd_end c : rd t L = OK c -> c = 0.
  Proof.
    unfold rd, nthz, L, zlen. replace (Z.of_nat (length txt) <? 0) with false by lia. rewrite Nat2Z.id. unfold t.
    rewrite nth_error_app2, Nat.sub_diag by lia. cbn. congruence.
  Qed.
  Lemma tlen : length t = S (length txt).
  Proof. unfold t. rewrite app_length. cbn [length]. lia. Qed.
  Lemma Llen : L = Z.of_nat (length txt). Proof. reflexivity. Qed.

  Ltac rdok i := let c := fresh "c" in let E := fresh "Erd" in destruct (rd_in i) as [c E]; [lia | rewrite E; cbn [bind]].

  Lemma skip_sp_safe n : forall i, 0 <= i -> i + Z.of_nat n <= L + 1 -> exists j, skip_sp n t i = OK j /\ i <= j <= i + Z.of_nat n.
  Proof.
    induction n as [| n IH]; intros i Hi Hn; cbn [skip_sp]; [exists i; split; [reflexivity | lia] |]. rdok i. destruct (is_space c).
    - destruct (IH (i + 1)) as (j & E & ?); [lia | lia |]. exists j. split; [exact E | lia].
    - exists i. split; [reflexivity | lia].
  Qed.
  Lemma trim_end_safe n : forall i, 0 <= i - Z.of_nat n -> i <= L + 1 -> exists j, trim_end n t i = OK j /\ i - Z.of_nat n <= j <= i.
  Proof.
    induction n as [| n IH]; intros i Hi Hn; cbn [trim_end]; [exists i; split; [reflexivity | lia] |]. rdok (i - 1). destruct (is_space c).
    - destruct (IH (i - 1)) as (j & E & ?); [lia | lia |]. exists j. split; [exact E | lia].
    - exists i. split; [reflexivity | lia].
  Qed.
  Lemma find_paren_safe n : forall i, 0 <= i -> i + Z.of_nat n <= L + 1 -> exists o, find_paren n t i = OK o /\ match o with Some p => i <= p < i + Z.of_nat n | None => True end.
  Proof.
    induction n as [| n IH]; intros i Hi Hn; cbn [find_paren]; [exists None; auto |]. rdok i. destruct (c =? 40).
    - exists (Some i). split; [reflexivity | lia].
    - destruct (IH (i + 1)) as (o & E & ?); [lia | lia |]. exists o. split; [exact E |]. destruct o; [lia | exact I].
  Qed.
  Lemma find_closing_safe n : forall i k, 0 <= i -> i + Z.of_nat n <= L + 1 -> exists o, find_closing n t i k = OK o /\ match o with Some p => i <= p < i + Z.of_nat n | None => True end.
  Proof.
    induction n as [| n IH]; intros i k Hi Hn; cbn [find_closing]; [exists None; auto |]. rdok i.
    assert (G : forall k, exists o, find_closing n t (i + 1) k = OK o /\ match o with Some p => i <= p < i + Z.of_nat (S n) | None => True end).
    { intros k'. destruct (IH (i + 1) k') as (o & E & ?); [lia | lia |]. exists o. split; [exact E |]. destruct o; [lia | exact I]. }
    destruct (c =? 40); [apply G |]. destruct (c =? 41); [| apply G]. destruct (k - 1 =? 0); [| apply G]. exists (Some i). split; [reflexivity | lia].
  Qed.
  Lemma back_spaces_safe n : forall i, 0 <= i - Z.of_nat n -> i <= L -> exists m j, back_spaces n t i = OK (m, j) /\ j - Z.of_nat m = i - Z.of_nat n /\ (m <= n)%nat.
  Proof.
    induction n as [| n IH]; intros i Hi Hn; cbn [back_spaces]; [exists O, i; split; [reflexivity | lia] |]. rdok i. destruct (is_space c).
    - destruct (IH (i - 1)) as (m & j & E & ? & ?); [lia | lia |]. exists m, j. split; [exact E | lia].
    - exists (S n), i. split; [reflexivity | lia].
  Qed.
  Lemma back_name_safe n : forall i l, 0 <= i - Z.of_nat n -> i <= L -> exists j l', back_name n t i l = OK (j, l') /\ i - Z.of_nat n <= j <= i.
  Proof.
    induction n as [| n IH]; intros i l Hi Hn; cbn [back_name]; [exists i, l; split; [reflexivity | lia] |]. rdok i. destruct (_ || _).
    - destruct (IH (i - 1) (l + 1)) as (j & l' & E & ?); [lia | lia |]. exists j, l'. split; [exact E | lia].
    - exists i, l. split; [reflexivity | lia].
  Qed.
  Lemma cval_safe s e err : 0 <= s <= e -> e <= L + 1 -> exists ty err', parse_cval_type t s e err = OK (ty, err') /\
    (err' = err \/ err' <> E_OK) /\ (ty = T_INVALID -> err' <> E_OK) /\ ty <> T_CALLBACK.
  Proof.
    intros Hs He. unfold parse_cval_type. destruct (skip_sp_safe (dist s e) s) as (s' & E & ?); [lia | unfold dist; lia |]. rewrite E. cbn [bind].
    destruct (trim_end_safe (dist s' e) e) as (e' & E' & ?); [unfold dist in *; lia | lia |]. rewrite E'. cbn [bind].
    eexists _, _. split; [reflexivity |]. set (ty := assoc _ _ _). assert (ty <> T_CALLBACK).
    { unfold ty, type_names. cbn [map assoc]. repeat match goal with |- context [list_eq_dec ?a ?b ?c] => destruct (list_eq_dec a b c); [discriminate |] end. discriminate. }
    destruct (Z.eqb_spec ty T_INVALID).
    - repeat split; try assumption; [right |]; [| intros _]; apply report_bad; discriminate.
    - repeat split; try assumption; [left; reflexivity | congruence].
  Qed.
  Lemma scan_safe n : forall i level fp, 0 <= i <= L -> L - i < Z.of_nat n -> exists j fp', scan_arg n t i level fp = OK (j, fp') /\ i <= j <= L.
  Proof.
    induction n as [| n IH]; intros i level fp Hi Hn; [lia |]. cbn [scan_arg]. destruct (rd_in i Hi) as [c E]. rewrite E. cbn [bind].
    destruct (c =? 0) eqn:E0; [exists i, fp; split; [reflexivity | lia] |].
    assert (i < L) by (destruct (Z.eq_dec i L); [subst i; apply rd_end in E; lia | lia]).
    assert (G : forall level fp, exists j fp', scan_arg n t (i + 1) level fp = OK (j, fp') /\ i <= j <= L).
    { intros lv f. destruct (IH (i + 1) lv f) as (j & f' & Ej & ?); [lia | lia |]. exists j, f'. split; [exact Ej | lia]. }
    destruct (_ || _); [| exists i, fp; split; [reflexivity | lia]]. destruct (c =? 40); [apply G |]. destruct (c =? 41); apply G.
  Qed.
  Lemma skip_blanks_safe n : forall i, 0 <= i <= L -> L - i < Z.of_nat n -> exists j, skip_blanks n t i = OK j /\ i <= j <= L.
  Proof.
    induction n as [| n IH]; intros i Hi Hn; [lia |]. cbn [skip_blanks]. destruct (rd_in i Hi) as [c E]. rewrite E. cbn [bind].
    destruct (Z.eqb_spec c 32); [| exists i; split; [reflexivity | lia]].
    assert (i < L) by (destruct (Z.eq_dec i L); [subst i; apply rd_end in E; lia | lia]).
    destruct (IH (i + 1)) as (j & Ej & ?); [lia | lia |]. exists j. split; [exact Ej | lia].
  Qed.

  (** what is known of an accepted signature *)
  Definition cb_count (cb : option sig) : nat := match cb with Some _ => 1 | None => 0 end.
  Definition cb_fits (cb : option sig) : Prop := match cb with Some c => s_valid c = true /\ good_sig SigCallback c /\ s_fn c <> FnNull | None => True end.
  Definition accepted (k : sig_type) (g : sig) : Prop :=
    s_valid g = true /\ good_sig k g /\ s_cnt g = zlen (arg_types g) /\ length (s_types g) = 7%nat /\ s_fn g <> FnNull /\
    count T_CALLBACK (tl (s_types g)) = cb_count (s_cb g) /\ cb_fits (s_cb g).
  Definition safe (k : sig_type) (err : Z) (x : sres) : Prop :=
    x = Abort \/ exists g r e, x = OK (g, r, e) /\
      ((r = E_OK /\ e = err /\ accepted k g) \/ (r <> E_OK /\ e <> E_OK /\ s_valid g = false)).

  (** the signature while the arguments are read *)
  Definition reading (pfx : list Z) (g : sig) : Prop :=
    s_types g = padded pfx /\ (1 <= length pfx <= 7)%nat /\ count T_CALLBACK (tl pfx) = cb_count (s_cb g) /\ cb_fits (s_cb g) /\ s_cnt g = 0 /\
    (s_callback g = false -> s_fn g <> FnNull).

  Lemma count_app x a b : count x (a ++ b) = (count x a + count x b)%nat.
  Proof. unfold count. rewrite filter_app, app_length. reflexivity. Qed.

  Lemma reading_put pfx g ty : reading pfx g -> ty <> T_CALLBACK ->
    match set_val_type g (zlen pfx) ty with Some g' => reading (pfx ++ [ty]) g' | None => True end.
  Proof.
    intros (A & B & C & D & E) Hty. unfold set_val_type. destruct (zlen pfx <? 7) eqn:Ez; [| exact I].
    assert (length pfx < 7)%nat by (unfold zlen in Ez; lia). rewrite A, blit_padded by assumption. unfold reading. cbn [set_types s_types s_cb s_cnt s_callback s_fn].
    rewrite app_length. cbn [length]. repeat split; try assumption; try lia; try apply E.
    destruct pfx as [| p pfx]; [cbn in B; lia |]. cbn [app tl] in *. rewrite count_app, C, count_cons. replace (ty =? T_CALLBACK) with false by lia. cbn. lia.
  Qed.
  Lemma reading_cb pfx g c : reading pfx g -> s_cb g = None -> s_valid c = true -> good_sig SigCallback c -> s_fn c <> FnNull ->
    match set_val_type (set_cb g (Some c)) (zlen pfx) T_CALLBACK with Some g' => reading (pfx ++ [T_CALLBACK]) g' | None => True end.
  Proof.
    intros (A & B & C & D & E) Hn Hv Hg Hf. unfold set_val_type. destruct (zlen pfx <? 7) eqn:Ez; [| exact I].
    assert (length pfx < 7)%nat by (unfold zlen in Ez; lia). cbn [set_cb s_types]. rewrite A, blit_padded by assumption. unfold reading. cbn [set_types set_cb s_types s_cb s_cnt s_callback s_fn].
    rewrite app_length. cbn [length].
    assert (Q : cb_fits (Some c)) by (cbn [cb_fits]; auto). destruct E as [E E'].
    split; [reflexivity |]. split; [lia |]. split; [| split; [exact Q | split; [exact E | exact E']]].
    destruct pfx as [| p pfx]; [cbn in B; lia |]. cbn [app tl] in *. rewrite count_app, C, count_cons, Hn. reflexivity.
  Qed.

  Lemma args_loop_safe rec ab al err0 n : forall cur tmp_e pfx g,
    (forall s len, ab <= s -> 0 <= len -> s + len <= L -> safe SigCallback err0 (rec s len err0)) ->
    0 <= ab <= cur -> cur <= L -> L - cur < Z.of_nat n -> reading pfx g -> zlen pfx >= 1 ->
    args_loop rec n t ab al cur tmp_e (zlen pfx) g err0 = Abort \/
    exists g' r e, args_loop rec n t ab al cur tmp_e (zlen pfx) g err0 = OK (g', r, e) /\
      ((r = E_OK /\ e = err0 /\ exists pfx', reading pfx' g') \/ (r <> E_OK /\ e <> E_OK)).
  Proof.
    induction n as [| n IH]; intros cur tmp_e pfx g Hrec Hab Hcur Hn Hg Hp; [lia |]. cbn [args_loop].
    destruct (tmp_e - ab <? al); cbn [negb]; [| right; eexists _, _, _; split; [reflexivity | left; repeat split; eauto]].
    destruct (scan_safe (length t) cur 0 false) as (te & fp & Es & Hte); [lia | rewrite tlen; rewrite Llen in *; lia |]. rewrite Es. cbn [bind].
    destruct (Z.eqb_spec te cur) as [-> | Hne]; [right; eexists _, _, _; split; [reflexivity | left; repeat split; eauto] |].
    assert (Cont : forall g1 ty, match set_val_type g1 (zlen pfx) ty with Some g' => reading (pfx ++ [ty]) g' | None => True end ->
      let x := match set_val_type g1 (zlen pfx) ty with
        | Some g2 => c <- rd t te ;; if c =? 44 then cur0 <- skip_blanks (length t) t (te + 1) ;; args_loop rec n t ab al cur0 te (zlen pfx + 1) g2 err0 else OK (g2, E_OK, err0)
        | None => OK (g1, E_TYPE, report err0 E_TYPE) end in
      x = Abort \/ exists g' r e, x = OK (g', r, e) /\ ((r = E_OK /\ e = err0 /\ exists pfx', reading pfx' g') \/ (r <> E_OK /\ e <> E_OK))).
    { intros g1 ty H. cbv zeta. destruct (set_val_type g1 (zlen pfx) ty) as [g2 |].
      2: { right. eexists _, _, _. split; [reflexivity |]. right. split; [discriminate | apply report_bad; discriminate]. }
      destruct (rd_in te ltac:(lia)) as [c Ec]. rewrite Ec. cbn [bind]. destruct (Z.eqb_spec c 44) as [-> | Hc].
      - assert (te < L) by (destruct (Z.eq_dec te L); [subst te; apply rd_end in Ec; lia | lia]).
        destruct (skip_blanks_safe (length t) (te + 1)) as (j & Ej & Hj); [lia | rewrite tlen; rewrite Llen in *; lia |]. rewrite Ej. cbn [bind].
        replace (zlen pfx + 1) with (zlen (pfx ++ [ty])) by (rewrite zlen_app'; reflexivity).
        apply IH; [exact Hrec | lia | lia | lia | exact H | rewrite zlen_app'; change (zlen [ty]) with 1; lia].
      - right. eexists _, _, _. split; [reflexivity |]. left. repeat split. eauto. }
    destruct fp.
    - destruct (s_cb g) eqn:Ecb; [right; eexists _, _, _; split; [reflexivity | right; split; [discriminate | apply report_bad; discriminate]] |].
      destruct (Hrec cur (te - cur)) as [Ea | (c & r & e & Ea & Hc)]; [lia | lia | lia | rewrite Ea; left; reflexivity |]. rewrite Ea. cbn [bind].
      destruct Hc as [(-> & -> & Hc) | (Hr & He & _)].
      + change (E_OK =? E_OK) with true. cbn [negb]. apply Cont. destruct Hc as (V & G & _ & _ & F & _). apply reading_cb; assumption.
      + replace (r =? E_OK) with false by lia. cbn [negb]. right. eexists _, _, _. split; [reflexivity | right; auto].
    - destruct (cval_safe cur te err0) as (ty & e & Ec & H1 & H2 & H3); [lia | lia |]. rewrite Ec. cbn [bind]. destruct (Z.eqb_spec ty T_INVALID) as [Hi | Hi].
      + right. eexists _, _, _. split; [reflexivity | right; split; [discriminate | auto]].
      + assert (e = err0) as ->.
        { clear - Ec Hi. unfold parse_cval_type in Ec. destruct (skip_sp _ _ _) as [s' | | |]; try discriminate. cbn [bind] in Ec.
          destruct (trim_end _ _ _) as [e' | | |]; try discriminate. cbn [bind] in Ec. injection Ec as E1 E2. rewrite E1 in E2. replace (ty =? T_INVALID) with false in E2 by lia. congruence. }
        apply Cont, reading_put; assumption.
  Qed.

  Lemma report_not err r : r <> E_OK -> report err r <> E_OK.
  Proof. apply report_bad. Qed.

  Lemma clean_bad k err g r e : r <> E_OK ->
    safe k err (if negb (r =? E_OK) then OK (set_valid g (s_cnt g) false, r, report e r) else OK (g, r, e)).
  Proof. intros H. replace (r =? E_OK) with false by lia. cbn [negb]. right. eexists _, _, _. split; [reflexivity |]. right. repeat split; [exact H | apply report_bad, H]. Qed.

  Lemma reading_types pfx g : reading pfx g -> length (s_types g) = 7%nat /\ count T_CALLBACK (tl (s_types g)) = cb_count (s_cb g).
  Proof.
    intros (A & B & C & _). rewrite A. unfold padded. rewrite app_length, repeat_length. split; [lia |]. destruct pfx as [| p pfx]; [cbn in B; lia |]. cbn [app tl] in *.
    rewrite count_app, C. replace (count T_CALLBACK (repeat T_NONE (7 - length (p :: pfx)))) with 0%nat; [lia |].
    generalize (7 - length (p :: pfx))%nat. induction n as [| n IH]; [reflexivity |]. cbn [repeat]. rewrite count_cons, <- IH. reflexivity.
  Qed.

  Lemma parse_sig_safe dl fuel : forall k s len err, 0 <= s -> 0 <= len -> s + len <= L -> L - s < Z.of_nat fuel ->
    safe k err (parse_sig fuel dl t k s len err).
  Proof.
    induction fuel as [| fuel IH]; intros k s len err Hs Hlen HL Hf; [lia |]. cbn [parse_sig].
    destruct (skip_sp_safe (dist s (s + len)) s) as (cur & E & Hcur); [lia | unfold dist; lia |]. rewrite E. cbn [bind]. clear E.
    assert (Hcur' : s <= cur <= s + len) by (unfold dist in *; lia). clear Hcur.
    destruct (find_paren_safe (dist cur (s + len)) cur) as (o1 & E & Ho1); [lia | unfold dist; lia |]. rewrite E. cbn [bind]. clear E.
    destruct o1 as [p1 |]; [| cbn [bind]; apply clean_bad; discriminate].
    assert (Hp1 : cur <= p1 < s + len) by (unfold dist in *; lia). clear Ho1.
    destruct (p1 - s <? 2) eqn:E2; [cbn [bind]; apply clean_bad; discriminate |].
    destruct (find_closing_safe (dist (p1 + 1) (s + len)) (p1 + 1) 1) as (o2 & E & Ho2); [lia | unfold dist; lia |]. rewrite E. cbn [bind]. clear E.
    destruct o2 as [c1 |]; [| cbn [bind]; apply clean_bad; discriminate].
    assert (Hc1 : p1 + 1 <= c1 < s + len) by (unfold dist in *; lia). clear Ho2.
    destruct (find_paren_safe (dist (c1 + 1) (s + len)) (c1 + 1)) as (o3 & E & Ho3); [lia | unfold dist; lia |]. rewrite E. cbn [bind]. clear E.
    match goal with |- context [bind (match o3 with Some _ => _ | None => _ end)] => idtac end.
    assert (Hlay : exists lay, match o3 with
        | Some p2 => c2 <- find_closing (dist (p2 + 1) (s + len)) t (p2 + 1) 1 ;; OK (match c2 with Some c2 => Some (p1, None, p2 + 1, c2 - (p2 + 1)) | None => None end)
        | None => '(n, i) <- back_spaces (dist cur (p1 - 1)) t (p1 - 1) ;; '(i, l) <- back_name n t i 0 ;; OK (Some (i + 1, Some (sub t (i + 1) l), p1 + 1, c1 - (p1 + 1)))
        end = OK lay /\ match lay with Some (re, name, ab, al) => cur <= re <= L /\ s + 2 < ab <= L | None => True end).
    { destruct o3 as [p2 |].
      - assert (Hp2 : c1 + 1 <= p2 < s + len) by (unfold dist in *; lia).
        destruct (find_closing_safe (dist (p2 + 1) (s + len)) (p2 + 1) 1) as (o4 & E & Ho4); [lia | unfold dist; lia |]. rewrite E. cbn [bind].
        eexists. split; [reflexivity |]. destruct o4; [lia | exact I].
      - destruct (back_spaces_safe (dist cur (p1 - 1)) (p1 - 1)) as (m & i & E & Hi & Hm); [unfold dist; lia | lia |]. rewrite E. cbn [bind].
        destruct (back_name_safe m i 0) as (j & l & E' & Hj); [unfold dist in *; lia | unfold dist in *; lia |]. rewrite E'. cbn [bind].
        eexists. split; [reflexivity |]. unfold dist in *. lia. }
    destruct Hlay as (lay & E & Hlay). rewrite E. cbn [bind]. clear E Ho3 o3.
    destruct lay as [[[[re name] ab] al] |]; [| cbn [bind]; apply clean_bad; discriminate].
    destruct (cval_safe cur re err) as (ty & e & Ec & H1 & H2 & H3); [lia | lia |]. rewrite Ec. cbn [bind]. destruct (Z.eqb_spec ty T_INVALID) as [Hi | Hi].
    { cbn [bind]. apply clean_bad. auto. }
    assert (e = err) as ->.
    { clear - Ec Hi. unfold parse_cval_type in Ec. destruct (skip_sp _ _ _) as [s' | | |]; try discriminate. cbn [bind] in Ec.
      destruct (trim_end _ _ _) as [e' | | |]; try discriminate. cbn [bind] in Ec. injection Ec as E1 E2. rewrite E1 in E2. replace (ty =? T_INVALID) with false in E2 by lia. congruence. }
    set (g0 := set_types _ _). set (nm := match name with Some n => _ | None => _ end).
    assert (Hnm : exists g1 r e, nm = OK (g1, r, e) /\ ((r = E_OK /\ e = err /\ reading [ty] g1) \/ r <> E_OK)).
    { assert (Hg0 : s_types g0 = padded [ty] /\ s_cb g0 = None /\ s_cnt g0 = 0 /\ (name = None <-> s_callback g0 = true)).
      { unfold g0. destruct name; cbn; repeat split; congruence. }
      destruct Hg0 as (G1 & G2 & G3 & G4).
      assert (Rd : forall g1, s_types g1 = s_types g0 -> s_cb g1 = s_cb g0 -> s_cnt g1 = s_cnt g0 -> (s_callback g1 = false -> s_fn g1 <> FnNull) -> reading [ty] g1).
      { intros g1 A B C D. unfold reading. rewrite A, B, C, G1, G2, G3. cbn. repeat split; try lia; auto. }
      unfold nm. destruct name as [n |].
      - destruct dl as [f |]; [| eexists _, _, _; split; [reflexivity | right; discriminate]].
        destruct (_ =? 0); [eexists _, _, _; split; [reflexivity | right; discriminate] |]. eexists _, _, _. split; [reflexivity |]. left.
        repeat split; try (apply Rd; try reflexivity; discriminate); cbn; lia || auto.
      - destruct (existsb _ _); [| eexists _, _, _; split; [reflexivity | right; discriminate]]. eexists _, _, _. split; [reflexivity |]. left.
        split; [reflexivity |]. split; [reflexivity |]. apply Rd; try reflexivity. intros Q. destruct G4 as [G4 _]. rewrite G4 in Q by reflexivity. discriminate. }
    destruct Hnm as (g1 & r & e & Enm & Hnm). rewrite Enm. cbn [bind]. clear Enm. destruct Hnm as [(-> & -> & Hg1) | Hr].
    2: { replace (r =? E_OK) with false by lia. cbn [negb bind]. apply clean_bad. exact Hr. }
    change (E_OK =? E_OK) with true. cbn [negb].
    destruct (args_loop_safe (parse_sig fuel dl t SigCallback) ab al err (S (length t)) ab ab [ty] g1) as [Ea | (g2 & r & e & Ea & Hl)].
    { intros s' len' A B C. apply IH; lia. }
    { lia. } { lia. } { rewrite tlen. rewrite Llen in *. lia. } { exact Hg1. } { cbn. lia. }
    { change (zlen [ty]) with 1 in Ea. rewrite Ea. left. reflexivity. }
    change (zlen [ty]) with 1 in Ea. rewrite Ea. cbn [bind]. destruct Hl as [(-> & -> & pfx & Hl) | (Hr & _)].
    2: { replace (r =? E_OK) with false by lia. cbn [negb bind]. apply clean_bad. exact Hr. }
    change (E_OK =? E_OK) with true. cbn [negb].
    destruct (reading_types pfx g2 Hl) as [T1 T2]. destruct Hl as (_ & _ & _ & T3 & T4 & T5).
    destruct (good_dec k g2) as [G | G].
    2: { destruct (validate_bad k g2 err G) as (n & e & Ev & _). rewrite Ev. cbn [set_valid s_valid negb bind]. apply clean_bad. discriminate. }
    rewrite (validate_good k g2 err G). rewrite T4, Z.add_0_l. set (g3 := set_valid g2 _ true). change (s_valid g3) with true. cbn [negb].
    assert (Acc : forall f, f <> FnNull -> accepted k (set_fn g3 f)) by (intros f Hf'; unfold accepted; cbn; repeat split; assumption).
    destruct (s_callback g3) eqn:Ecb.
    - destruct (cb_impl_for g3) as [[i |] | | |] eqn:Ei; cbn [bind].
      + right. eexists _, _, _. split; [reflexivity |]. left. repeat split; try (apply Acc; discriminate).
      + apply clean_bad. discriminate.
      + exfalso. clear - Ei. unfold cb_impl_for in Ei. destruct (negb (s_valid g3)); [discriminate |].
        assert (S0 : forall l i d f u, cb_scan l i d f u <> UB) by (induction l as [| x l IHl]; intros; cbn [cb_scan]; [discriminate | repeat match goal with |- (if ?b then _ else _) <> _ => destruct b end; try apply IHl; discriminate]).
        destruct (cb_scan _ _ _ _ _) as [[[d f] u] | | |] eqn:Es; cbn [bind] in Ei; [| apply S0 in Es; exact Es | discriminate | discriminate].
        repeat match type of Ei with (if ?b then _ else _) = _ => destruct b end; discriminate.
      + left. reflexivity.
      + exfalso. clear - Ei. unfold cb_impl_for in Ei. destruct (negb (s_valid g3)); [discriminate |].
        assert (S0 : forall l i d f u, cb_scan l i d f u <> NoFuel) by (induction l as [| x l IHl]; intros; cbn [cb_scan]; [discriminate | repeat match goal with |- (if ?b then _ else _) <> _ => destruct b end; try apply IHl; discriminate]).
        destruct (cb_scan _ _ _ _ _) as [[[d f] u] | | |] eqn:Es; cbn [bind] in Ei; [| discriminate | discriminate | apply S0 in Es; exact Es].
        repeat match type of Ei with (if ?b then _ else _) = _ => destruct b end; discriminate.
    - cbn [bind]. right. eexists _, _, _. split; [reflexivity |]. left. split; [reflexivity |]. split; [reflexivity |].
      replace g3 with (set_fn g3 (s_fn g3)) by (destruct g2; reflexivity). apply Acc. apply T5. exact Ecb.
  Qed.
End Safe.

Lemma ffi_parse_safe dl txt err : safe SigFunc err (ffi_parse dl txt err).
Proof. unfold ffi_parse. apply parse_sig_safe; unfold zlen; lia. Qed.
