(** Well-formed declarations are read as written: callbacks and whole declarations. *)
From Verif Require Import Base BaseFacts Value_Model Str_Model Txt_Model Ffi_Model Ffi_Spec Ffi_Proofs Ffi_Proofs2.

(** * The types that the loop leaves *)
Definition aty (a : aval) : Z := match a with AT t => t | AC _ _ => T_CALLBACK end.
Definition acs (l : list aval) : list (Z * list Z) := flat_map (fun a => match a with AT _ => [] | AC r ts => [(r, ts)] end) l.
Definition cbrel (cb : option sig) (l : list aval) (cb' : option sig) : Prop :=
  match acs l with
  | [] => cb' = cb
  | [(r, ts)] => cb = None /\ exists s, cbsem r ts = Some s /\ cb' = Some s
  | _ => False
  end.
Lemma blit_padded pfx t : (length pfx < 7)%nat -> blit (padded pfx) (zlen pfx) [t] = padded (pfx ++ [t]).
Proof.
  intros H. unfold blit, padded, zlen. rewrite Nat2Z.id, firstn_app, firstn_all, Nat.sub_diag. cbn [firstn length]. rewrite app_nil_r, <- app_assoc. f_equal. cbn [app]. f_equal.
  rewrite skipn_app, skipn_all2 by lia. cbn [app]. replace (length pfx + 1 - length pfx)%nat with 1%nat by lia.
  rewrite app_length. cbn [length]. replace (7 - length pfx)%nat with (S (7 - (length pfx + 1))) by lia. reflexivity.
Qed.
Lemma fill_spec l : forall pfx cb cb' tys, (length pfx <= 7)%nat ->
  (fill l (zlen pfx) cb (padded pfx) = Some (cb', tys) <->
   (length pfx + length l <= 7)%nat /\ tys = padded (pfx ++ map aty l) /\ cbrel cb l cb').
Proof.
  induction l as [| a l IH]; intros pfx cb cb' tys Hp.
  - cbn [fill map length]. rewrite app_nil_r. unfold cbrel. cbn. split; [intros [= -> ->]; repeat split; lia | intros (_ & -> & ->); reflexivity].
  - assert (Hz : zlen pfx + 1 = zlen (pfx ++ [aty a])) by (rewrite zlen_app'; reflexivity).
    assert (Hm : pfx ++ map aty (a :: l) = (pfx ++ [aty a]) ++ map aty l) by (rewrite <- app_assoc; reflexivity).
    assert (Hlen : length (pfx ++ [aty a]) = (length pfx + 1)%nat) by (rewrite app_length; reflexivity).
    rewrite Hm. cbn [fill]. destruct a as [t | r ts]; cbn [aty] in *.
    + destruct (zlen pfx <? 7) eqn:E.
      * assert (length pfx < 7)%nat by (unfold zlen in E; lia). rewrite blit_padded, Hz, IH by lia. rewrite Hlen. cbn [length].
        unfold cbrel. cbn [acs flat_map app]. fold (acs l). split; intros (? & ? & ?); (split; [lia | auto]).
      * split; [discriminate | intros (? & _); cbn [length] in *; unfold zlen in E; lia].
    + assert (HC : forall cb0, cbrel cb0 (AC r ts :: l) cb' <-> cb0 = None /\ exists s, cbsem r ts = Some s /\ cbrel (Some s) l cb').
      { intros cb0. unfold cbrel. cbn [acs flat_map app]. fold (acs l). destruct (acs l) as [| [r2 ts2] q].
        - split; intros (A & s & B & C); (split; [exact A |]); exists s; auto.
        - split; [intros [] |]. intros (_ & s & _ & C). destruct q; [destruct C as [C _]; discriminate | exact C]. }
      rewrite HC. destruct cb as [cb |]; [split; [discriminate | intros (_ & _ & ? & _); discriminate] |].
      destruct (cbsem r ts) as [s |]; [| split; [discriminate | intros (_ & _ & _ & ? & ? & _); discriminate]].
      destruct (zlen pfx <? 7) eqn:E.
      * assert (length pfx < 7)%nat by (unfold zlen in E; lia). rewrite blit_padded, Hz, IH by lia. rewrite Hlen. cbn [length].
        split; [intros (? & ? & ?); repeat split; [lia | assumption | exists s; auto] | intros (? & ? & _ & s0 & [= <-] & ?); repeat split; [lia | assumption | assumption]].
      * split; [discriminate | intros (? & _); cbn [length] in *; unfold zlen in E; lia].
Qed.

Lemma upto_pad l k : upto_void (l ++ repeat T_NONE k) = upto_void l.
Proof. induction l as [| a l IH]; cbn [app upto_void]; [destruct k; reflexivity |]. destruct (a =? T_NONE); [reflexivity | f_equal; exact IH]. Qed.
Lemma upto_id l : ~ In T_NONE l -> upto_void l = l.
Proof. induction l as [| a l IH]; intros H; [reflexivity |]. cbn [upto_void]. destruct (Z.eqb_spec a T_NONE); [exfalso; apply H; left; auto |]. f_equal. apply IH. intros K. apply H. right. exact K. Qed.
Lemma upto_len l : (length (upto_void l) <= length l)%nat.
Proof. induction l as [| a l IH]; cbn [upto_void]; [lia |]. destruct (a =? T_NONE); cbn [length]; lia. Qed.

(** * Callbacks *)
Lemma cbsem_spec c : void_alone (cb_types c) ->
  (exists i, good_cb c i /\ cbsem (p_type (c_ret c)) (cb_types c) = Some (cb_sig c i)) \/
  (cbsem (p_type (c_ret c)) (cb_types c) = None /\ forall i, ~ good_cb c i).
Proof.
  intros Hv. unfold cbsem. assert (Hl : length (cb_types c) = length (c_args c)) by apply map_length.
  destruct (Nat.leb_spec (length (cb_types c)) 6) as [L | L]; [| right; split; [reflexivity | intros i (? & _); lia]].
  set (ret := p_type (c_ret c)) in *. set (g0 := cb_start ret (cb_types c)).
  assert (Ha : arg_types g0 = real_args (cb_types c)) by apply upto_pad.
  assert (Hg : good_sig SigCallback g0 <-> good_types SigCallback ret (real_args (cb_types c))) by (unfold good_sig; rewrite Ha; reflexivity).
  assert (D : good_types SigCallback ret (real_args (cb_types c)) \/ ~ good_types SigCallback ret (real_args (cb_types c))).
  { rewrite good_types_split. destruct (ret_ok SigCallback ret); [| right; intros [? _]; discriminate].
    destruct (Forall_dec _ (okarg_dec SigCallback) (real_args (cb_types c))); [| right; tauto].
    destruct (le_dec (count T_USERDATA (real_args (cb_types c))) 1); [| right; tauto].
    destruct (in_dec Z.eq_dec T_USERDATA (real_args (cb_types c))); [left; tauto | right; tauto]. }
  destruct D as [D | D].
  2: { right. destruct (validate_bad SigCallback g0 E_OK) as (n & e & E & _); [rewrite Hg; exact D |]. rewrite E. cbn [fst set_valid s_valid].
       split; [reflexivity |]. intros i (_ & Q & _). exact (D Q). }
  assert (N : ~ In T_NONE (cb_types c)).
  { destruct Hv as [E | N]; [| exact N]. rewrite E in D. cbn in D. destruct D as (_ & _ & D). discriminate. }
  assert (Hra : real_args (cb_types c) = cb_types c) by (apply upto_id, N).
  rewrite (validate_good SigCallback g0 E_OK) by (apply Hg, D). cbn [fst]. rewrite Ha. unfold real_args in *. rewrite Hra in *.
  set (g1 := set_valid g0 _ true). change (s_valid g1) with true. cbv iota.
  rewrite (cb_impl_spec g1 ret (cb_types c) (6 - length (cb_types c))).
  2: reflexivity. 2: reflexivity.
  2: { cbn. unfold zlen. lia. }
  2: { unfold zlen; lia. }
  2: { destruct D as (_ & _ & D). exact D. }
  unfold good_cb. unfold real_args. rewrite Hra. fold ret. destruct (impl_of ret (cb_types c)) as [i |] eqn:Ei.
  - left. exists i. split; [repeat split; try apply D; lia |]. unfold cb_sig, real_args. rewrite Hra. reflexivity.
  - right. split; [reflexivity |]. intros i (_ & _ & Q). discriminate.
Qed.

Lemma skipn_At t i l : At t i l -> skipn (Z.to_nat i) t = l.
Proof. intros (A & -> & <-). unfold zlen. rewrite Nat2Z.id, skipn_app, skipn_all, Nat.sub_diag. reflexivity. Qed.
Lemma c_str_has x a l : Forall (fun c => c <> 0) a -> x <> 0 -> existsb (Z.eqb x) (c_str (a ++ x :: l)) = true.
Proof.
  induction 1 as [| c a Hc Ha IH]; intros Hx; cbn [app c_str].
  - replace (x =? 0) with false by lia. cbn [existsb]. rewrite Z.eqb_refl. reflexivity.
  - replace (c =? 0) with false by lia. cbn [existsb]. rewrite IH by exact Hx. apply orb_true_r.
Qed.
Lemma Forall_2 {A} (P Q : A -> Prop) l : (forall x, P x -> Q x) -> Forall P l -> Forall Q l.
Proof. intros H. apply Forall_impl. exact H. Qed.
Lemma commas_len (l : list (list Z)) : Forall (fun x => (1 <= length x)%nat) l -> (length l <= length (commas l))%nat.
Proof.
  induction 1 as [| x l Hx Hl IH]; [cbn; lia |]. destruct l as [| y l]; [cbn [commas length]; lia |].
  change (commas (x :: y :: l)) with (x ++ 44 :: commas (y :: l)). rewrite app_length. cbn [length] in *. lia.
Qed.
(** the blanks before a type are skipped, the rest is a type without blanks before it *)
Definition core (p : piece) : piece := {| p_pre := []; p_name := p_name p; p_post := p_post p; p_type := p_type p |}.
Lemma core_ok p : piece_ok p -> piece_ok (core p).
Proof. intros (A & B & C). repeat split; [constructor | exact B | exact C]. Qed.
Lemma core_text p : ptext p = p_pre p ++ ptext (core p).
Proof. reflexivity. Qed.
Lemma skip_piece n p t s l : piece_ok p -> At t s (ptext p ++ l) -> (length (ptext p) <= n)%nat ->
  skip_sp n t s = OK (s + zlen (p_pre p)) /\ At t (s + zlen (p_pre p)) (ptext (core p) ++ l).
Proof.
  intros (A & B & C) HA Hn. rewrite core_text, <- app_assoc in HA. split; [| apply At_app, HA].
  destruct (names_shape _ _ C) as (_ & _ & (c & r & En & Hc) & _).
  unfold ptext in *. rewrite !app_length in Hn. cbn [core p_pre p_name p_post app] in HA. rewrite <- app_assoc in HA.
  eapply (skip_sp_spec _ A); [exact HA | lia | right; exists c, (r ++ p_post p ++ l); rewrite En; auto].
Qed.
Lemma piece_type p : piece_ok p -> p_type p =? T_INVALID = false.
Proof. intros (_ & _ & C). destruct (names_shape _ _ C) as (_ & H & _). lia. Qed.
Lemma quiet_no40 l : Forall quiet l -> Forall (fun c => c <> 40) l.
Proof. apply Forall_2. intros c (? & ? & ? & ?). assumption. Qed.

(** the loop started at the first argument *)
Lemma args_loop_all t rec args n ab al g l :
  Forall (loop_arg t rec) args -> At t ab (commas (map atext args) ++ 41 :: l) -> al = zlen (commas (map atext args)) ->
  (length args <= n)%nat -> (0 < n)%nat ->
  exists g' q e, args_loop rec n t ab al ab ab 1 g E_OK = OK (g', q, e) /\
    match fill (map aval_of args) 1 (s_cb g) (s_types g) with
    | Some (cb, tys) => q = E_OK /\ e = E_OK /\ g' = set_types (set_cb g cb) tys
    | None => q <> E_OK
    end.
Proof.
  intros HF HA -> Hn Hn0. destruct args as [| a r].
  - destruct n; [lia |]. cbn [args_loop map commas]. change (zlen []) with 0. rewrite Z.sub_diag. change (0 <? 0) with false. cbn [negb].
    eexists _, _, _. split; [reflexivity |]. cbn [map fill]. repeat split. destruct g; reflexivity.
  - eapply args_loop_spec; try eassumption; try lia; cbn [length] in *; lia.
Qed.

Lemma plains (t : list Z) rec l : Forall piece_ok l -> Forall (loop_arg t rec) (map Plain l).
Proof. induction 1; constructor; [split; [assumption | exact I] | assumption]. Qed.
Lemma no_acs l : acs (map aval_of (map Plain l)) = [].
Proof. induction l; [reflexivity | exact IHl]. Qed.
Lemma map_plain l : map atext (map Plain l) = map ptext l.
Proof. rewrite map_map. reflexivity. Qed.
Lemma map_plain_ty l : map aty (map aval_of (map Plain l)) = map p_type l.
Proof. rewrite !map_map. reflexivity. Qed.

Lemma cb_parsed fuel dl t : rec_good t (parse_sig (S fuel) dl t SigCallback).
Proof.
  intros c s x l Hok Hx HA. pose proof (args_chars c Hok) as Hargs. pose proof Hok as (Hr & Hi & Hg & Ht & Ha & Hv).
  pose proof (At_len _ _ _ HA) as [HL HL0]. rewrite zlen_app' in HL.
  set (e := s + zlen (ctext c)).
  assert (He : e = s + zlen (ctext c)) by reflexivity.
  set (args := commas (map ptext (c_args c))) in *.
  cbn [parse_sig]. fold e. unfold ctext in HA, HL, He. fold args in HA, HL, He. rewrite !zlen_app' in He, HL. change (zlen [40]) with 1 in *. change (zlen [41]) with 1 in *.
  rewrite <- !app_assoc in HA.
  assert (Pos : forall (l : list Z), 0 <= zlen l) by (intros; unfold zlen; lia).
  pose proof (Pos (ptext (c_ret c))). pose proof (Pos (c_in c)). pose proof (Pos (c_gap c)). pose proof (Pos args). pose proof (Pos (c_tail c)). pose proof (Pos (x :: l)).
  assert (Hpl : (3 <= length (ptext (c_ret c)))%nat) by (apply ptext_long, Hr).
  assert (Hpz : zlen (ptext (c_ret c)) = zlen (p_pre (c_ret c)) + zlen (ptext (core (c_ret c)))) by (rewrite core_text, zlen_app'; reflexivity).
  pose proof (Pos (p_pre (c_ret c))). pose proof (Pos (ptext (core (c_ret c)))).
  assert (Hd : forall i j (m : list Z), i + zlen m <= j -> (length m <= dist i j)%nat) by (intros; unfold dist, zlen in *; lia).
  assert (Hd' : forall i j (m : list Z), i + zlen m < j -> (length m < dist i j)%nat) by (intros; unfold dist, zlen in *; lia).
  destruct (skip_piece (dist s e) (c_ret c) t s _ Hr HA) as [Sk HB]; [apply Hd; lia |]. rewrite Sk. cbn [bind].
  set (cur := s + zlen (p_pre (c_ret c))) in *. assert (Ecur : cur = s + zlen (p_pre (c_ret c))) by reflexivity.
  rewrite (find_paren_some (ptext (core (c_ret c))) (quiet_no40 _ (ptext_quiet _ (core_ok _ Hr))) _ t cur _ HB) by (apply Hd'; lia). cbn [bind].
  set (p1 := cur + zlen (ptext (core (c_ret c)))) in *. assert (Ep1 : p1 = cur + zlen (ptext (core (c_ret c)))) by reflexivity.
  replace (p1 - s <? 2) with false by (unfold zlen in *; lia).
  pose proof (At_app _ _ _ _ HB) as HC. fold p1 in HC. pose proof HC as HC0. cbn [app] in HC. apply At_next in HC.
  rewrite (bal_closing (c_in c) _ t (p1 + 1) _ (bal_plain _ (Forall_2 _ _ _ (fun x H => proj2 H) Hi)) HC) by (apply Hd'; lia). cbn [bind].
  apply At_app in HC. apply At_next in HC. set (c1 := p1 + 1 + zlen (c_in c)) in *. assert (Ec1 : c1 = p1 + 1 + zlen (c_in c)) by reflexivity.
  rewrite (find_paren_some (c_gap c) (quiet_no40 _ (spaces_quiet _ Hg)) _ t (c1 + 1) _ HC) by (apply Hd'; lia). cbn [bind].
  apply At_app in HC. apply At_next in HC. set (p2 := c1 + 1 + zlen (c_gap c)) in *. assert (Ep2 : p2 = c1 + 1 + zlen (c_gap c)) by reflexivity.
  rewrite (bal_closing args _ t (p2 + 1) _ (bal_plain _ (Forall_2 _ _ _ (fun x H => proj2 H) Hargs)) HC) by (apply Hd'; lia). cbn [bind].
  pose proof (type_parsed (core (c_ret c)) t cur _ E_OK (core_ok _ Hr) HB) as Hty. fold p1 in Hty. rewrite Hty. cbn [bind]. change (p_type (core (c_ret c))) with (p_type (c_ret c)).
  rewrite (piece_type _ Hr). rewrite (skipn_At _ _ _ HC0). cbn [app].
  change (40 :: c_in c ++ 41 :: c_gap c ++ 40 :: args ++ 41 :: c_tail c ++ x :: l) with ((40 :: c_in c) ++ 41 :: c_gap c ++ 40 :: args ++ 41 :: c_tail c ++ x :: l).
  rewrite c_str_has; [| constructor; [lia | eapply Forall_2; [| exact Hi]; intros ? (? & ? & ?); assumption] | lia]. cbn [bind]. change (E_OK =? E_OK) with true. cbn [negb].
  set (g0 := set_types (set_callback sig_init) _).
  destruct (args_loop_all t (parse_sig fuel dl t SigCallback) (map Plain (c_args c)) (S (length t)) (p2 + 1) (p2 + 1 + zlen args - (p2 + 1)) g0 (c_tail c ++ x :: l))
    as (g & q & e' & E1 & E2).
  { apply plains, Ha. }
  { rewrite map_plain. exact HC. }
  { rewrite map_plain. fold args. lia. }
  { rewrite map_length. assert (length (c_args c) <= length args)%nat.
    { unfold args. rewrite <- (map_length ptext). apply commas_len. clear - Ha. induction Ha; constructor; [pose proof (ptext_long _ H); lia | assumption]. }
    unfold zlen in *. lia. }
  { lia. }
  rewrite E1. cbn [bind].
  change 1 with (zlen [p_type (c_ret c)]) in E2. change (s_types g0) with (padded [p_type (c_ret c)]) in E2. change (s_cb g0) with (@None sig) in E2.
  destruct (fill _ _ _ _) as [[cb tys] |] eqn:Ef.
  - destruct E2 as (-> & -> & ->). apply fill_spec in Ef; [| cbn; lia]. rewrite map_plain_ty, !map_length in Ef. unfold cbrel in Ef. rewrite no_acs in Ef. destruct Ef as (F1 & -> & ->).
    change (E_OK =? E_OK) with true. cbn [negb]. cbn [app length] in *. unfold cbsem.
    assert (Hl : length (cb_types c) = length (c_args c)) by apply map_length. rewrite Hl. replace (Nat.leb (length (c_args c)) 6) with true by (symmetry; apply Nat.leb_le; lia).
    change (set_types (set_cb g0 None) (padded (p_type (c_ret c) :: map p_type (c_args c)))) with (cb_start (p_type (c_ret c)) (cb_types c)).
    destruct (cbsem_spec c Hv) as [(i & G & E) | (E & G)]; unfold cbsem in E; rewrite Hl in E; replace (Nat.leb (length (c_args c)) 6) with true in E by (symmetry; apply Nat.leb_le; lia).
    + rewrite E. destruct (validate _ _ _) as [gv ev] eqn:Ev. cbn [fst] in E. destruct (s_valid gv) eqn:Vv; [| discriminate]. cbn [negb].
      assert (Hgood : good_sig SigCallback (cb_start (p_type (c_ret c)) (cb_types c))).
      { destruct G as (_ & G & _). unfold good_sig. replace (arg_types _) with (real_args (cb_types c)) by (symmetry; apply upto_pad). exact G. }
      pose proof (validate_good _ _ E_OK Hgood) as VV. rewrite Ev in VV. apply pair_equal_spec in VV. destruct VV as [VV ->]. replace (s_callback gv) with true by (rewrite VV; reflexivity). cbv iota.
      destruct (cb_impl_for gv) as [[i' |] | | |]; try discriminate. cbn [bind]. change (E_OK =? E_OK) with true. cbn [negb]. assert (E' : set_fn gv (FnImpl i') = cb_sig c i) by congruence. eexists _, _, _. split; [reflexivity |]. auto.
    + assert (Hbad : good_sig SigCallback (cb_start (p_type (c_ret c)) (cb_types c)) <-> good_types SigCallback (p_type (c_ret c)) (real_args (cb_types c))).
      { unfold good_sig. replace (arg_types _) with (real_args (cb_types c)) by (symmetry; apply upto_pad). reflexivity. }
      rewrite E. destruct (validate _ _ _) as [gv ev] eqn:Ev. cbn [fst] in E. destruct (s_valid gv) eqn:Vv; cbn [negb].
      2: { cbn [bind]. change (E_TYPE =? E_OK) with false. cbn [negb]. eexists _, _, _. split; [reflexivity | discriminate]. }
      assert (Hc : s_callback gv = true).
      { clear - Ev. unfold validate in Ev. repeat match type of Ev with (if ?b then _ else _) = _ => destruct b | (match ?b with _ => _ end) = _ => destruct b end; apply pair_equal_spec in Ev; destruct Ev as [<- _]; reflexivity. }
      rewrite Hc.
      assert (Hgt : good_types SigCallback (p_type (c_ret c)) (real_args (cb_types c))).
      { rewrite good_types_split. pose proof (proj1 (good_types_split SigCallback (p_type (c_ret c)) (real_args (cb_types c)))) as _.
        destruct (ret_ok SigCallback (p_type (c_ret c))) eqn:D1, (Forall_dec _ (okarg_dec SigCallback) (real_args (cb_types c))) as [D2 | D2], (le_dec (count T_USERDATA (real_args (cb_types c))) 1) as [D3 | D3], (in_dec Z.eq_dec T_USERDATA (real_args (cb_types c))) as [D4 | D4]; try (repeat split; assumption);
        exfalso; (destruct (validate_bad SigCallback (cb_start (p_type (c_ret c)) (cb_types c)) E_OK) as (n0 & e0 & EE & _); [rewrite Hbad, good_types_split, ?D1; try tauto; intros [? _]; discriminate | rewrite Ev in EE; apply pair_equal_spec in EE; destruct EE as [-> _]; discriminate]). }
      assert (N : ~ In T_NONE (cb_types c)).
      { destruct Hv as [Q | N]; [| exact N]. unfold cb_types in Hgt. rewrite Q in Hgt. cbn in Hgt. destruct Hgt as (_ & _ & D). discriminate. }
      pose proof (validate_good SigCallback _ E_OK (proj2 Hbad Hgt)) as VV. rewrite Ev in VV. apply pair_equal_spec in VV. destruct VV as [VV _].
      assert (CI : cb_impl_for gv = OK (impl_of (p_type (c_ret c)) (cb_types c))).
      { apply (cb_impl_spec gv (p_type (c_ret c)) (cb_types c) (6 - length (cb_types c))); try assumption; try (rewrite VV; reflexivity).
        - rewrite VV. cbn. unfold arg_types, cb_start. cbn [s_types padded tl app]. rewrite upto_pad. pose proof (upto_len (cb_types c)). unfold zlen. lia.
        - unfold zlen. lia.
        - destruct Hgt as (_ & _ & D). unfold real_args in D. rewrite upto_id in D by exact N. exact D. }
      rewrite CI in E |- *. cbn [bind]. destruct (impl_of _ _) eqn:Ei; [discriminate |]. cbn [bind]. change (E_TYPE =? E_OK) with false. cbn [negb]. eexists _, _, _. split; [reflexivity | discriminate].
  - replace (q =? E_OK) with false by lia. cbn [negb bind]. replace (q =? E_OK) with false by lia. cbn [negb].
    assert (Hn : cbsem (p_type (c_ret c)) (cb_types c) = None).
    { unfold cbsem. destruct (Nat.leb_spec (length (cb_types c)) 6) as [L | L]; [| reflexivity]. exfalso.
      assert (Fs : fill (map aval_of (map Plain (c_args c))) (zlen [p_type (c_ret c)]) None (padded [p_type (c_ret c)]) = Some (None, padded ([p_type (c_ret c)] ++ map aty (map aval_of (map Plain (c_args c)))))).
      { apply fill_spec; [cbn; lia |]. unfold cbrel. rewrite no_acs, !map_length. unfold cb_types in L. rewrite map_length in L. cbn [length]. repeat split. lia. }
      rewrite Ef in Fs. discriminate. }
    rewrite Hn. eexists _, _, _. split; [reflexivity | exact E2].
Qed.
