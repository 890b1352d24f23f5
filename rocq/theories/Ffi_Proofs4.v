(** Well-formed declarations are read as written: whole declarations. *)
From Verif Require Import Base BaseFacts Value_Model Str_Model Txt_Model Ffi_Model Ffi_Spec Ffi_Proofs Ffi_Proofs2 Ffi_Proofs3.

Lemma acs_callbacks l : acs (map aval_of l) = map (fun c => (p_type (c_ret c), cb_types c)) (callbacks l).
Proof. unfold acs, callbacks. induction l as [| [p | c] l IH]; [reflexivity | exact IH |]. cbn [map aval_of flat_map app]. f_equal. exact IH. Qed.
Lemma map_aty l : map aty (map aval_of l) = map atype l.
Proof. rewrite map_map. apply map_ext. intros [p | c]; reflexivity. Qed.

Lemma back_spaces_spec sp : spaces sp -> forall n A c B, is_space c = false -> (length sp <= n)%nat ->
  back_spaces n (A ++ [c] ++ sp ++ B) (zlen A + zlen sp) = OK ((n - length sp)%nat, zlen A).
Proof.
  intros Hs. induction sp as [| s sp IH] using rev_ind; intros n A c B Hc Hn.
  - change (zlen []) with 0. rewrite Z.add_0_r. cbn [length]. rewrite Nat.sub_0_r. destruct n; [reflexivity |]. cbn [back_spaces].
    assert (HA : At (A ++ [c] ++ [] ++ B) (zlen A) (c :: B)) by (exists A; split; reflexivity).
    rewrite (At_rd _ _ _ _ HA). cbn [bind]. rewrite Hc. reflexivity.
  - apply Forall_app in Hs. destruct Hs as [Hs Hl]. inversion Hl as [| ? ? Hsp _]; subst. rewrite app_length in *. cbn [length] in *.
    destruct n; [lia |]. cbn [back_spaces].
    replace (A ++ [c] ++ (sp ++ [s]) ++ B) with (A ++ [c] ++ sp ++ s :: B) by (rewrite <- !app_assoc; reflexivity).
    replace (zlen A + zlen (sp ++ [s])) with (zlen A + 1 + zlen sp) by (rewrite zlen_app'; change (zlen [s]) with 1; lia).
    assert (HA : At (A ++ [c] ++ sp ++ s :: B) (zlen A + 1 + zlen sp) (s :: B)) by (exists (A ++ [c] ++ sp); split; [rewrite <- !app_assoc; reflexivity | rewrite !zlen_app'; change (zlen [c]) with 1; lia]).
    rewrite (At_rd _ _ _ _ HA). cbn [bind]. rewrite Hsp. replace (zlen A + 1 + zlen sp - 1) with (zlen A + zlen sp) by lia.
    rewrite IH; [do 2 f_equal; lia | exact Hs | exact Hc | lia].
Qed.
Lemma name_char_test c : name_char c <-> is_alnum c || (c =? 95) = true.
Proof. unfold name_char, is_alnum, is_digit. lia. Qed.
Lemma back_name_spec nm : Forall name_char nm -> forall n A c B len, ~ name_char c -> (length nm <= n)%nat ->
  back_name n (A ++ [c] ++ nm ++ B) (zlen A + zlen nm) len = OK (zlen A, len + zlen nm).
Proof.
  intros Hs. induction nm as [| s nm IH] using rev_ind; intros n A c B len Hc Hn.
  - change (zlen []) with 0. rewrite !Z.add_0_r. destruct n; [reflexivity |]. cbn [back_name].
    assert (HA : At (A ++ [c] ++ [] ++ B) (zlen A) (c :: B)) by (exists A; split; reflexivity).
    rewrite (At_rd _ _ _ _ HA). cbn [bind]. rewrite name_char_test in Hc. destruct (is_alnum c || (c =? 95)); [exfalso; auto | reflexivity].
  - apply Forall_app in Hs. destruct Hs as [Hs Hl]. inversion Hl as [| ? ? Hsp _]; subst. rewrite app_length in *. cbn [length] in *.
    destruct n; [lia |]. cbn [back_name].
    replace (A ++ [c] ++ (nm ++ [s]) ++ B) with (A ++ [c] ++ nm ++ s :: B) by (rewrite <- !app_assoc; reflexivity).
    replace (zlen A + zlen (nm ++ [s])) with (zlen A + 1 + zlen nm) by (rewrite zlen_app'; change (zlen [s]) with 1; lia).
    assert (HA : At (A ++ [c] ++ nm ++ s :: B) (zlen A + 1 + zlen nm) (s :: B)) by (exists (A ++ [c] ++ nm); split; [rewrite <- !app_assoc; reflexivity | rewrite !zlen_app'; change (zlen [c]) with 1; lia]).
    rewrite (At_rd _ _ _ _ HA). cbn [bind]. rewrite (proj1 (name_char_test s) Hsp). replace (zlen A + 1 + zlen nm - 1) with (zlen A + zlen nm) by lia.
    rewrite IH; [rewrite zlen_app'; change (zlen [s]) with 1; do 2 f_equal; lia | exact Hs | exact Hc | lia].
Qed.

Lemma bal_quiet x : Forall quiet x -> bal x.
Proof. intros H. apply bal_plain. eapply Forall_2; [| exact H]. intros c (? & ? & ? & ?). auto. Qed.
Lemma bal_arg a : arg_ok a -> bal (atext a).
Proof.
  destruct a as [p | c]; cbn [arg_ok atext]; intros H; [apply bal_quiet, ptext_quiet, H |].
  pose proof (args_chars c H) as Hargs. destruct H as (Hr & Hi & Hg & Ht & Ha & _). unfold ctext.
  apply bal_app; [apply bal_quiet, ptext_quiet, Hr |].
  change (bal ([40] ++ (c_in c ++ [41] ++ c_gap c ++ [40] ++ commas (map ptext (c_args c)) ++ [41] ++ c_tail c))).
  replace ([40] ++ c_in c ++ [41] ++ c_gap c ++ [40] ++ commas (map ptext (c_args c)) ++ [41] ++ c_tail c)
    with (([40] ++ c_in c ++ [41]) ++ c_gap c ++ ([40] ++ commas (map ptext (c_args c)) ++ [41]) ++ c_tail c) by (rewrite <- !app_assoc; reflexivity).
  apply bal_app; [| apply bal_app; [| apply bal_app]].
  - apply bal_paren, bal_plain. eapply Forall_2; [| exact Hi]. intros d (? & ? & ?). auto.
  - apply bal_quiet, spaces_quiet, Hg.
  - apply bal_paren, bal_plain. eapply Forall_2; [| exact Hargs]. intros d (? & ? & ?). auto.
  - apply bal_quiet, spaces_quiet, Ht.
Qed.
Lemma bal_commas l : Forall bal l -> bal (commas l).
Proof.
  induction 1 as [| x l Hx Hl IH]; [apply bal_nil |]. destruct l as [| y l]; [exact Hx |].
  change (commas (x :: y :: l)) with (x ++ [44] ++ commas (y :: l)). apply bal_app; [exact Hx |]. apply bal_app; [apply bal_char; lia | exact IH].
Qed.
Lemma c_str_id l : Forall (fun c => c <> 0) l -> c_str l = l.
Proof. induction 1 as [| c l Hc _ IH]; [reflexivity |]. cbn [c_str]. replace (c =? 0) with false by lia. f_equal. exact IH. Qed.

Lemma last_not_name p : piece_ok p -> p_post p <> [] \/ last (p_name p) 0 = 42 ->
  exists r c, ptext (core p) = r ++ [c] /\ ~ name_char c.
Proof.
  destruct p as [pre name post ty]. unfold piece_ok, ptext, core. cbn [p_pre p_name p_post p_type app]. intros (_ & Hp & Hn) Hsep.
  destruct post as [| x post _] using rev_ind.
  - destruct Hsep as [Hsep | Hsep]; [congruence |]. destruct (names_shape _ _ Hn) as (_ & _ & _ & (r & c & En & _) & _).
    exists r, c. rewrite app_nil_r, En in *. rewrite last_last in Hsep. split; [reflexivity |]. subst c. unfold name_char. lia.
  - exists (name ++ post), x. rewrite app_assoc. split; [reflexivity |]. apply Forall_app in Hp. destruct Hp as [_ Hp]. inversion Hp; subst.
    unfold is_space, name_char in *. lia.
Qed.
Lemma good_dec k g : good_sig k g \/ ~ good_sig k g.
Proof.
  unfold good_sig. rewrite good_types_split. destruct (ret_ok k (hd 0 (s_types g))); [| right; intros [? _]; discriminate].
  destruct (Forall_dec _ (okarg_dec k) (arg_types g)); [| right; tauto].
  destruct (le_dec (count T_USERDATA (arg_types g)) 1); [| right; tauto].
  destruct (in_dec Z.eq_dec T_USERDATA (arg_types g)), (in_dec Z.eq_dec T_CALLBACK (arg_types g)), k; tauto.
Qed.

(** the outcome of reading an acceptable or unacceptable declaration *)
Definition verdict (resolve : list Z -> Z) (d : decl) (g : sig) (r e : Z) : Prop :=
  (means resolve d g /\ r = E_OK /\ e = E_OK) \/
  ((forall h, ~ means resolve d h) /\ r <> E_OK /\ e <> E_OK /\ s_valid g = false).

Lemma bad_verdict resolve d (g : sig) r e : (forall h, ~ means resolve d h) -> r <> E_OK ->
  exists g' r' e', (if negb (r =? E_OK) then OK (set_valid g (s_cnt g) false, r, report e r) else OK (g, r, e)) = OK (g', r', e') /\ verdict resolve d g' r' e'.
Proof.
  intros H Hr. replace (r =? E_OK) with false by lia. cbn [negb]. eexists _, _, _. split; [reflexivity |]. right. repeat split; try assumption.
  apply report_bad. exact Hr.
Qed.

Lemma decl_parsed resolve d : decl_ok d ->
  exists g r e, ffi_parse (Some resolve) (dtext d) E_OK = OK (g, r, e) /\ verdict resolve d g r e.
Proof.
  intros (Hr & Hsep & Hnn & Hnm & Hg & Ha & Hv & Ht). unfold ffi_parse. set (t := dtext d ++ [0]).
  set (e := 0 + zlen (dtext d)). assert (He : e = 0 + zlen (dtext d)) by reflexivity.
  set (args := commas (map atext (d_args d))) in *.
  assert (HA : At t 0 (ptext (d_ret d) ++ d_name d ++ d_gap d ++ [40] ++ args ++ [41] ++ d_tail d ++ [0])).
  { exists []. split; [| reflexivity]. unfold t, dtext. rewrite <- !app_assoc. reflexivity. }
  assert (HT : zlen t = e + 1) by (unfold t; rewrite zlen_app'; change (zlen [0]) with 1; lia).
  assert (Hft : exists f, length (dtext d) = S f).
  { destruct (length (dtext d)) eqn:E; [| eauto]. unfold dtext in E. rewrite !app_length in E. pose proof (ptext_long _ Hr). lia. }
  destruct Hft as (f & Hft). rewrite Hft. cbn -[parse_sig]. set (fuel := S f). cbn [parse_sig]. fold e.
  unfold dtext in He. fold args in He. rewrite !zlen_app' in He. change (zlen [40]) with 1 in *. change (zlen [41]) with 1 in *.
  assert (Pos : forall (l : list Z), 0 <= zlen l) by (intros; unfold zlen; lia).
  pose proof (Pos (ptext (d_ret d))). pose proof (Pos (d_name d)). pose proof (Pos (d_gap d)). pose proof (Pos args). pose proof (Pos (d_tail d)).
  assert (Hpl : (3 <= length (ptext (d_ret d)))%nat) by (apply ptext_long, Hr).
  assert (Hcl : (3 <= length (ptext (core (d_ret d))))%nat) by (apply ptext_long, core_ok, Hr).
  assert (Hpz : zlen (ptext (d_ret d)) = zlen (p_pre (d_ret d)) + zlen (ptext (core (d_ret d)))) by (rewrite core_text, zlen_app'; reflexivity).
  pose proof (Pos (p_pre (d_ret d))). pose proof (Pos (ptext (core (d_ret d)))).
  assert (Hd : forall i j (m : list Z), i + zlen m <= j -> (length m <= dist i j)%nat) by (intros; unfold dist, zlen in *; lia).
  assert (Hd' : forall i j (m : list Z), i + zlen m < j -> (length m < dist i j)%nat) by (intros; unfold dist, zlen in *; lia).
  destruct (skip_piece (dist 0 e) (d_ret d) t 0 _ Hr HA) as [Sk HB]; [apply Hd; lia |]. rewrite Sk. cbn [bind].
  set (cur := 0 + zlen (p_pre (d_ret d))) in *. assert (Ecur : cur = 0 + zlen (p_pre (d_ret d))) by reflexivity.
  set (ct := ptext (core (d_ret d))) in *.
  assert (HB1 : At t cur ((ct ++ d_name d ++ d_gap d) ++ 40 :: args ++ [41] ++ d_tail d ++ [0])) by (rewrite <- !app_assoc; exact HB).
  assert (H40 : Forall (fun c => c <> 40) (ct ++ d_name d ++ d_gap d)).
  { rewrite !Forall_app. repeat split; [apply quiet_no40, ptext_quiet, core_ok, Hr | | apply quiet_no40, spaces_quiet, Hg].
    eapply Forall_2; [| exact Hnm]. unfold name_char. intros; lia. }
  rewrite (find_paren_some _ H40 _ t cur _ HB1) by (apply Hd'; rewrite !zlen_app'; lia). cbn [bind].
  set (p1 := cur + zlen (ct ++ d_name d ++ d_gap d)) in *. assert (Ep1 : p1 = cur + zlen ct + zlen (d_name d) + zlen (d_gap d)) by (unfold p1; rewrite !zlen_app'; lia).
  replace (p1 - 0 <? 2) with false by (unfold zlen in *; lia).
  pose proof (At_next _ _ _ _ (At_app _ _ _ _ HB1)) as HC. fold p1 in HC.
  assert (Hbal : bal args) by (apply bal_commas; rewrite Forall_map; eapply Forall_2; [| exact Ha]; intros a; apply bal_arg).
  rewrite (bal_closing args _ t (p1 + 1) _ Hbal HC) by (apply Hd'; lia). cbn [bind].
  pose proof (At_next _ _ _ _ (At_app _ _ _ _ HC)) as HD. set (c1 := p1 + 1 + zlen args) in *. assert (Ec1 : c1 = p1 + 1 + zlen args) by reflexivity.
  replace (dist (c1 + 1) e) with (length (d_tail d)) by (unfold dist, zlen in *; lia).
  rewrite (find_paren_none (d_tail d) (Forall_2 _ _ _ (fun x H => proj1 H) Ht) t (c1 + 1) _ HD). cbn [bind].
  (* the name *)
  destruct HB as (A0 & Et & EA0).
  destruct (last_not_name _ Hr Hsep) as (rr & cc & Ec & Hcc). fold ct in Ec.
  assert (Hname : exists nr nc, d_name d = nr ++ [nc]) by (destruct (exists_last Hnn) as (nr & nc & En); eauto). destruct Hname as (nr & nc & En).
  assert (Hns : is_space nc = false).
  { rewrite En in Hnm. apply Forall_app in Hnm. destruct Hnm as [_ Hnm]. inversion Hnm; subst. unfold name_char, is_space in *. lia. }
  assert (E1 : t = (A0 ++ ct ++ nr) ++ [nc] ++ d_gap d ++ [40] ++ args ++ [41] ++ d_tail d ++ [0]) by (rewrite Et, En, <- !app_assoc; reflexivity).
  assert (P1 : p1 - 1 = zlen (A0 ++ ct ++ nr) + zlen (d_gap d)) by (rewrite !zlen_app', Ep1, En, zlen_app'; change (zlen [nc]) with 1; lia).
  assert (Hlg : (length (d_gap d) <= dist cur (p1 - 1))%nat) by (apply Hd; unfold zlen in *; rewrite En, app_length in *; cbn [length] in *; lia).
  assert (BS : back_spaces (dist cur (p1 - 1)) t (p1 - 1) = OK ((dist cur (p1 - 1) - length (d_gap d))%nat, zlen (A0 ++ ct ++ nr))).
  { rewrite P1 at 2. rewrite E1. apply back_spaces_spec; assumption. }
  rewrite BS. cbn [bind].
  assert (E2 : t = (A0 ++ rr) ++ [cc] ++ d_name d ++ d_gap d ++ [40] ++ args ++ [41] ++ d_tail d ++ [0]) by (rewrite Et, Ec, <- !app_assoc; reflexivity).
  assert (P2 : zlen (A0 ++ ct ++ nr) = zlen (A0 ++ rr) + zlen (d_name d)) by (rewrite Ec, En, !zlen_app'; change (zlen [cc]) with 1; change (zlen [nc]) with 1; lia).
  assert (BN : back_name (dist cur (p1 - 1) - length (d_gap d)) t (zlen (A0 ++ ct ++ nr)) 0 = OK (zlen (A0 ++ rr), 0 + zlen (d_name d))).
  { rewrite P2, E2. apply back_name_spec; try assumption. unfold dist, zlen in *. lia. }
  rewrite BN. cbn [bind].
  assert (P3 : zlen (A0 ++ rr) + 1 = cur + zlen ct) by (rewrite Ec, !zlen_app'; change (zlen [cc]) with 1; lia).
  rewrite P3, Z.add_0_l.
  assert (HE : At t (cur + zlen ct) (d_name d ++ d_gap d ++ [40] ++ args ++ [41] ++ d_tail d ++ [0])) by (apply At_app; exists A0; split; assumption).
  rewrite (At_sub _ _ _ _ HE).
  pose proof (type_parsed (core (d_ret d)) t cur (d_name d ++ d_gap d ++ [40] ++ args ++ [41] ++ d_tail d ++ [0]) E_OK (core_ok _ Hr) (ex_intro _ A0 (conj Et EA0))) as Hty. fold ct in Hty. rewrite Hty.
  cbn [bind]. change (p_type (core (d_ret d))) with (p_type (d_ret d)). rewrite (piece_type _ Hr).
  rewrite (c_str_id (d_name d)) by (eapply Forall_2; [| exact Hnm]; unfold name_char; intros; lia).
  destruct (Z.eqb_spec (resolve (firstn 99 (d_name d))) 0) as [Ez | Ez].
  { cbn [bind]. change (E_TYPE =? E_OK) with false. cbn [negb bind]. apply bad_verdict; [| discriminate]. intros h M. inversion M; subst. congruence. }
  cbn [bind]. change (E_OK =? E_OK) with true. cbn [negb].
  set (g0 := set_fn _ _).
  destruct (args_loop_all t (parse_sig fuel (Some resolve) t SigCallback) (d_args d) (S (length t)) (p1 + 1) (c1 - (p1 + 1)) g0 (d_tail d ++ [0]))
    as (g & q & e' & X1 & X2).
  { eapply Forall_2; [| exact Ha]. intros a Hok. split; [exact Hok |]. destruct a; [exact I | apply cb_parsed]. }
  { exact HC. }
  { fold args. lia. }
  { assert (length (d_args d) <= length args)%nat.
    { unfold args. rewrite <- (map_length atext). apply commas_len. rewrite Forall_map. eapply Forall_2; [| exact Ha]. intros a Hok. pose proof (atext_long a Hok). lia. }
    unfold zlen in *. lia. }
  { lia. }
  rewrite X1. cbn [bind].
  change 1 with (zlen [p_type (d_ret d)]) in X2. change (s_types g0) with (padded [p_type (d_ret d)]) in X2. change (s_cb g0) with (@None sig) in X2.
  assert (CB : forall cb, cbrel None (map aval_of (d_args d)) cb <->
     match callbacks (d_args d) with [] => cb = None | [c] => exists i, good_cb c i /\ cb = Some (cb_sig c i) | _ => False end).
  { intros cb. unfold cbrel. rewrite acs_callbacks. destruct (callbacks (d_args d)) as [| c [| c2 l]] eqn:EC; cbn [map]; [reflexivity | | reflexivity].
    assert (Hcv : void_alone (cb_types c)).
    { assert (Hin : In c (callbacks (d_args d))) by (rewrite EC; left; reflexivity). unfold callbacks in Hin. apply in_flat_map in Hin.
      destruct Hin as (a & Hin & Hc). destruct a as [p | c']; [destruct Hc |]. destruct Hc as [-> | []]. rewrite Forall_forall in Ha. apply Ha in Hin. apply Hin. }
    destruct (cbsem_spec c Hcv) as [(i & G & E) | (E & G)]; rewrite E.
    - split; [intros (_ & s & [= <-] & ->); eauto | intros (i' & G' & ->); split; [reflexivity |]; exists (cb_sig c i); split; [reflexivity |]].
      destruct G as (_ & _ & G). destruct G' as (_ & _ & G'). congruence.
    - split; [intros (_ & s & [=] & _) | intros (i & G' & _); exfalso; exact (G i G')]. }
  destruct (fill _ _ _ _) as [[cb tys] |] eqn:Ef.
  2: { replace (q =? E_OK) with false by lia. cbn [negb bind]. apply bad_verdict; [| exact X2]. intros h M. inversion M as [cb M1 M2 M3 M4]; subst.
       assert (Fs : fill (map aval_of (d_args d)) (zlen [p_type (d_ret d)]) None (padded [p_type (d_ret d)]) = Some (cb, padded ([p_type (d_ret d)] ++ map aty (map aval_of (d_args d))))).
       { apply fill_spec; [cbn; lia |]. rewrite map_length. cbn [length]. split; [lia |]. split; [reflexivity |]. apply CB, M4. }
       rewrite Ef in Fs. discriminate. }
  destruct X2 as (-> & -> & ->). apply fill_spec in Ef; [| cbn; lia]. rewrite map_aty, map_length in Ef. destruct Ef as (F1 & -> & F3). apply CB in F3. cbn [app length] in F1 |- *.
  change (E_OK =? E_OK) with true. cbn [negb]. set (g1 := set_types (set_cb g0 cb) _).
  assert (Hat : arg_types g1 = real_args (map atype (d_args d))) by apply upto_pad.
  assert (Hgs : good_sig SigFunc g1 <-> good_types SigFunc (p_type (d_ret d)) (real_args (map atype (d_args d)))) by (unfold good_sig; rewrite Hat; reflexivity).
  destruct (validate g1 SigFunc E_OK) as [gv ev] eqn:Ev.
  destruct (s_valid gv) eqn:Vv; cbn [negb].
  - assert (Hgood : good_sig SigFunc g1).
    { destruct (good_dec SigFunc g1) as [G | G]; [exact G |]. destruct (validate_bad SigFunc g1 E_OK G) as (n & e0 & EE & _). rewrite Ev in EE. apply pair_equal_spec in EE. destruct EE as [-> _]. discriminate. }
    pose proof (validate_good SigFunc g1 E_OK Hgood) as VV. rewrite Ev, Hat in VV. apply pair_equal_spec in VV. destruct VV as [-> ->].
    change (s_callback _) with false. cbn [bind]. change (E_OK =? E_OK) with true. cbn [negb]. eexists _, _, _. split; [reflexivity |]. left.
    split; [| split; reflexivity]. apply (means_intro resolve d cb); [lia | exact Ez | apply Hgs, Hgood | exact F3].
  - cbn [bind]. apply bad_verdict; [| discriminate]. intros h M. inversion M as [cb' M1 M2 M3 M4]; subst. apply Hgs in M3.
    rewrite (validate_good SigFunc g1 E_OK M3) in Ev. apply pair_equal_spec in Ev. destruct Ev as [<- _]. discriminate.
Qed.
