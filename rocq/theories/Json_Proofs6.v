(** JSON.stringify writes the text of the value: the traversal. *)
From Verif Require Import Base BaseFacts Value_Model Value_Spec Value_Proofs Str_Model Str_Spec Str_Proofs SUtil_Model SUtil_Spec SUtil_Proofs
  Num_Model Conv_Model Obj_Model Obj_Spec Obj_Proofs Obj_Proofs2 Arr_Model Arr_Spec Arr_Proofs Arr_Proofs2 NumText_Spec NumText_Proofs
  Json_Model Json_Spec Json_Proofs JsonOut_Spec Json_Proofs5.
Ltac Zify.zify_post_hook ::= Z.div_mod_to_equations.

(** * Kinds *)

Lemma obj_ref_facts v o : is_obj_ref v o -> refers v o /\ is_u64 v /\ kind_of v = KObject.
Proof.
  intros (Ho & ->). split; [split; [assumption|left; reflexivity]|]. split; [unfold is_u64; lia|].
  replace (65521 * 2 ^ 48 + o) with (o + 65521 * 2 ^ 48) by lia. rewrite kind_tagged by lia. reflexivity.
Qed.
Lemma arr_ref_facts v o : is_arr_ref v o -> refers v o /\ is_u64 v /\ kind_of v = KArray.
Proof.
  intros (Ho & ->). split; [split; [assumption|right; reflexivity]|]. split; [unfold is_u64; lia|].
  replace (65532 * 2 ^ 48 + o) with (o + 65532 * 2 ^ 48) by lia. rewrite kind_tagged by lia. reflexivity.
Qed.
Lemma skip_true v : skipped v -> skip_for_json v = OK true.
Proof.
  intros (U & [K|[K|K]]); unfold skip_for_json;
    [rewrite (get_type_agrees v TyUndefined U K)|rewrite (get_type_agrees v TyFunction U K)|rewrite (get_type_agrees v TyForeign U K)]; reflexivity.
Qed.
Definition shown_type (t : mtype) : bool :=
  match t with TyNull | TyBoolean | TyNumber | TyString | TyObject | TyArray => true | _ => false end.
Lemma skip_false v t : get_type v = OK t -> shown_type t = true -> skip_for_json v = OK false.
Proof. intros E S. unfold skip_for_json. rewrite E. destruct t; try discriminate; reflexivity. Qed.
Lemma skip_false_kind v t : is_u64 v -> kind_of v = type_kind t -> shown_type t = true -> skip_for_json v = OK false.
Proof. intros U K. apply skip_false, get_type_agrees; assumption. Qed.
Lemma not_skipped v t : kind_of v = type_kind t -> shown_type t = true -> ~ skipped v.
Proof. intros K S (_ & [Q|[Q|Q]]); rewrite K in Q; destruct t; discriminate. Qed.

Scheme shows_min := Minimality for shows Sort Prop
  with mshows_min := Minimality for mshows Sort Prop
  with ashows_min := Minimality for ashows Sort Prop.
Combined Scheme shows_mut from shows_min, mshows_min, ashows_min.

Section Text.
Context (h : heap) (ext : extmem) (M : store) (Hrep : hrep h ext M) (Hst : zlen (so (h_st h)) < 2 ^ 48).

Lemma shows_skip vis w t : shows (h_st h) ext M vis w t -> ~ skipped w -> skip_for_json w = OK false.
Proof.
  intros S N. destruct S as [vis v K|vis v I (o & [R|R])|vis|vis|vis|vis v t U K S|vis v s Hs Hb Hl|vis v o m l R|vis v o m L l R].
  - contradiction.
  - destruct (obj_ref_facts _ _ R) as (_ & U & K). eapply (skip_false_kind v TyObject); auto.
  - destruct (arr_ref_facts _ _ R) as (_ & U & K). eapply (skip_false_kind v TyArray); auto.
  - reflexivity.
  - reflexivity.
  - reflexivity.
  - apply (skip_false_kind v TyNumber); auto.
  - destruct Hs as (U & K & _). apply (skip_false_kind v TyString); auto.
  - destruct (obj_ref_facts _ _ R) as (_ & U & K). eapply (skip_false_kind v TyObject); auto.
  - destruct (arr_ref_facts _ _ R) as (_ & U & K). eapply (skip_false_kind v TyArray); auto.
Qed.

(** * Containers being visited *)

Definition container (v : Z) : Prop := exists o, (is_obj_ref v o \/ is_arr_ref v o) /\ M o <> None.
Definition okvis (vis : list Z) : Prop := NoDup vis /\ Forall container vis.
Lemma vis_bound vis : okvis vis -> (length vis <= 2 * length (h_objs h))%nat.
Proof.
  intros [N F]. destruct Hrep as (C & A1 & _).
  set (all := map (fun x => 65521 * 2 ^ 48 + fst x) (h_objs h) ++ map (fun x => 65532 * 2 ^ 48 + fst x) (h_objs h)).
  replace (2 * length (h_objs h))%nat with (length all) by (subst all; rewrite app_length, !map_length; lia).
  apply NoDup_incl_length; [assumption|]. intros v Hv. rewrite Forall_forall in F. destruct (F v Hv) as (o & R & Mo).
  assert (G : exists p, aget (h_objs h) o = Some p).
  { destruct (aget (h_objs h) o) eqn:E; [eauto|]. exfalso. apply Mo. apply A1. exact E. }
  destruct G as [p G]. apply aget_in in G. apply in_map_iff in G. destruct G as (x & <- & Hx).
  subst all. apply in_app_iff. destruct R as [(_ & ->)|(_ & ->)]; [left|right]; apply in_map_iff; exists x; auto.
Qed.
Lemma vis_not_in vis v : okvis vis -> kind_of v <> KObject -> kind_of v <> KArray -> existsb (fun x => x =? v) (rev vis) = false.
Proof.
  intros [_ F] N1 N2. destruct (existsb _ _) eqn:E; [|reflexivity]. exfalso. apply existsb_exists in E. destruct E as (x & I & Q).
  assert (x = v) by lia. subst x. apply in_rev in I. rewrite Forall_forall in F. destruct (F v I) as (o & [R|R] & _);
    [destruct (obj_ref_facts _ _ R) as (_ & _ & K)|destruct (arr_ref_facts _ _ R) as (_ & _ & K)]; contradiction.
Qed.
Lemma vis_in vis v : In v vis -> existsb (fun x => x =? v) (rev vis) = true.
Proof. intros I. apply existsb_exists. exists v. split; [apply -> in_rev; exact I|lia]. Qed.
Lemma vis_out vis v : ~ In v vis -> existsb (fun x => x =? v) (rev vis) = false.
Proof.
  intros I. destruct (existsb _ _) eqn:E; [|reflexivity]. exfalso. apply existsb_exists in E. destruct E as (x & J & Q).
  assert (x = v) by lia. subst x. apply in_rev in J. contradiction.
Qed.
Lemma okvis_cons vis v o m : okvis vis -> (is_obj_ref v o \/ is_arr_ref v o) -> M o = Some m -> ~ In v vis -> okvis (v :: vis).
Proof.
  intros [N F] R E I. split; [constructor; assumption|]. constructor; [|assumption]. exists o. split; [assumption|congruence].
Qed.
(** Enough fuel inside [vis]. *)
Definition deep (vis : list Z) (fuel : nat) : Prop := okvis vis /\ (2 * length (h_objs h) < fuel + length vis)%nat.

Lemma commas_cons t l : commas (t :: l) = t ++ (match l with [] => [] | _ => 44 :: commas l end).
Proof. destruct l; cbn [commas]; [rewrite app_nil_r|]; reflexivity. Qed.
Lemma ashows_length vis m i n l : ashows (h_st h) ext M vis m i n l -> length l = n.
Proof. revert i l. induction n as [|n IH]; intros i l A; inversion A; subst; cbn [length]; [reflexivity|f_equal; eauto..]. Qed.

(** Simple values: printed through to_string. *)
Lemma to_json_plain f B off vis v ty s : 0 <= off -> zlen B < 2 ^ 31 -> okvis vis -> is_u64 v ->
  kind_of v = type_kind ty -> (ty = TyNull \/ ty = TyBoolean \/ ty = TyNumber) ->
  to_string (h_st h) ext v = OK (Some s) -> Forall (fun c => c <> 0) s -> zlen s < 2 ^ 31 ->
  exists B', to_json (S f) h ext B off (rev vis) v = OK (B', zlen s, rev vis, E_OK) /\ wrote B off s B'.
Proof.
  intros H L V U K T E F Ls. destruct (first_nul B off H) as (B1 & E1 & W1).
  assert (St : shown_type ty = true) by (destruct T as [->|[->| ->]]; reflexivity).
  cbn [to_json]. rewrite E1. cbn [bind]. rewrite (skip_false_kind v ty U K St). cbn [bind].
  rewrite vis_not_in by (assumption || (rewrite K; destruct T as [->|[->| ->]]; discriminate)).
  rewrite (get_type_agrees v ty U K). cbn [bind].
  destruct (printf_str B1 (off + zlen (@nil Z)) s) as (B2 & E2 & W2); [unfold zlen; cbn; lia|rewrite (wrote_len _ _ _ _ W1); assumption|assumption|assumption|].
  exists B2. split; [|apply (wrote_app B off [] B1 s B2 H W1 W2)].
  change (zlen []) with 0 in E2. rewrite Z.add_0_r in E2.
  destruct T as [->|[->| ->]]; rewrite E; cbn [bind]; rewrite E2; reflexivity.
Qed.

Lemma to_json_text :
  (forall vis v t, shows (h_st h) ext M vis v t -> forall fuel B off, deep vis fuel -> 0 <= off -> zlen B < 2 ^ 31 ->
     exists B', to_json fuel h ext B off (rev vis) v = OK (B', zlen t, rev vis, E_OK) /\ wrote B off t B') /\
  (forall vis m l, mshows (h_st h) ext M vis m l -> forall f pf cs p B off start, deep vis f -> 0 <= start < off -> zlen B < 2 ^ 31 -> wrote B off [] B ->
     cells h p cs -> Forall2 (entry_rep (h_st h) ext) cs m -> Forall (fun e => name_ok (fst e)) m -> (length cs <= pf)%nat ->
     let u := if off - start =? 1 then commas l else match l with [] => [] | _ => 44 :: commas l end in
     exists B', props_loop (to_json f h ext) pf h ext start p B off (rev vis) = OK (B', off + zlen u, rev vis, E_OK) /\ wrote B off u B') /\
  (forall vis m i n l, ashows (h_st h) ext M vis m i n l -> forall f v o B off alen, deep vis f -> 0 <= off -> zlen B < 2 ^ 31 -> wrote B off [] B ->
     is_arr_ref v o -> M o = Some m -> i + Z.of_nat n = alen -> 0 <= i -> alen < 2 ^ 63 ->
     exists B', elems_loop (to_json f h ext) n h ext v alen i B off (rev vis) = OK (B', off + zlen (commas l), rev vis, E_OK) /\
       wrote B off (commas l) B').
Proof.
  apply shows_mut.
  - (* skipped *)
    intros vis v K fuel B off [V D] H L. pose proof (vis_bound vis V). destruct fuel as [|f]; [lia|].
    destruct (first_nul B off H) as (B1 & E1 & W1). exists B1. split; [|exact W1].
    cbn [to_json]. rewrite E1. cbn [bind]. rewrite (skip_true v K). reflexivity.
  - (* visited *)
    intros vis v I (o & R) fuel B off [V D] H L. pose proof (vis_bound vis V). destruct fuel as [|f]; [lia|].
    destruct (first_nul B off H) as (B1 & E1 & W1).
    destruct (strncpy_wrote B1 (off + zlen (@nil Z)) circular_txt) as (B2 & E2 & W2); [change (zlen []) with 0; lia|discriminate|].
    exists B2. split; [|apply (wrote_app B off [] B1 _ B2 H W1 W2)]. change (zlen []) with 0 in E2. rewrite Z.add_0_r in E2.
    cbn [to_json]. rewrite E1. cbn [bind].
    assert (SK : skip_for_json v = OK false).
    { destruct R as [R|R]; [destruct (obj_ref_facts _ _ R) as (_ & U & K); apply (skip_false_kind v TyObject)|
                            destruct (arr_ref_facts _ _ R) as (_ & U & K); apply (skip_false_kind v TyArray)]; auto. }
    rewrite SK. cbn [bind]. rewrite (vis_in vis v I), E2. reflexivity.
  - (* null *)
    intros vis fuel B off [V D] H L. pose proof (vis_bound vis V). destruct fuel as [|f]; [lia|].
    apply (to_json_plain f B off vis V_NULL TyNull); auto; [vm_compute; split; [discriminate|reflexivity]|repeat constructor; discriminate|reflexivity].
  - intros vis fuel B off [V D] H L. pose proof (vis_bound vis V). destruct fuel as [|f]; [lia|].
    apply (to_json_plain f B off vis (mk_boolean true) TyBoolean); auto; [vm_compute; split; [discriminate|reflexivity]|repeat constructor; discriminate|reflexivity].
  - intros vis fuel B off [V D] H L. pose proof (vis_bound vis V). destruct fuel as [|f]; [lia|].
    apply (to_json_plain f B off vis (mk_boolean false) TyBoolean); auto; [vm_compute; split; [discriminate|reflexivity]|repeat constructor; discriminate|reflexivity].
  - (* number *)
    intros vis v t U K S fuel B off [V D] H L. pose proof (vis_bound vis V). destruct fuel as [|f]; [lia|].
    destruct (num_shows_len v t U S) as (L1 & F & _).
    apply (to_json_plain f B off vis v TyNumber); auto; [|lia].
    destruct (preds_kind v U) as (P1 & _ & _ & _ & P5 & _). unfold to_string. rewrite P5, P1, K. cbn [kind_eqb].
    rewrite (num_text_shows v t U S). cbn [bind]. rewrite firstn_all2 by (unfold zlen in L1; lia). reflexivity.
  - (* string *)
    intros vis v s Hs Hb Hl fuel B off [V D] H L. pose proof (vis_bound vis V). destruct fuel as [|f]; [lia|].
    destruct (first_nul B off H) as (B1 & E1 & W1).
    destruct (snquote_wrote B1 (off + zlen (@nil Z)) s) as (w & B2 & E2 & E3 & W2); [change (zlen []) with 0; lia|assumption|assumption|].
    exists B2. split; [|apply (wrote_app B off [] B1 _ B2 H W1 W2)]. change (zlen []) with 0 in E2, E3. rewrite Z.add_0_r in E2, E3.
    pose proof Hs as (U & K & _).
    cbn [to_json]. rewrite E1. cbn [bind]. rewrite (skip_false_kind v TyString U K eq_refl). cbn [bind].
    rewrite vis_not_in by (assumption || (rewrite K; discriminate)).
    rewrite (get_type_agrees v TyString U K). cbn [bind]. rewrite (holds_str_bytes _ _ _ _ Hs). cbn [bind].
    rewrite E2, E3. cbn [bind]. rewrite Z.mod_small by (pose proof (zlen_nonneg (quoted s)); lia). reflexivity.
  - (* object *)
    intros vis v o m l R NI Mo _ IH fuel B off [V D] H L. pose proof (vis_bound vis V). destruct fuel as [|f]; [lia|].
    destruct (obj_ref_facts _ _ R) as (Rf & U & K). destruct (refers_object v o Rf) as (_ & Go & _).
    assert (V1 : okvis (v :: vis)) by (eapply okvis_cons; eauto).
    pose proof Hrep as (C & _ & A2 & _). destruct (A2 o m Mo) as ((first & G & Hc & F2) & _ & NM).
    destruct (first_nul B off H) as (B1 & E1 & W1). rewrite <- (Z.add_0_r off) in W1.
    destruct (printf_char B1 off 123) as (B2 & E2 & W2); [assumption|rewrite (wrote_len _ _ _ _ W1); assumption|lia|].
    destruct (IH f (pfuel h) (C o) first B2 (off + 1) off) as (B3 & E3 & W3); [split; [assumption|cbn [length]; lia]|lia|
      rewrite (wrote_len _ _ _ _ W2), (wrote_len _ _ _ _ W1); assumption|eapply (wrote_clean B1 off [123]); eassumption|assumption|assumption|assumption|eapply cells_length; eassumption|].
    replace (off + 1 - off =? 1) with true in E3, W3 by lia.
    destruct (printf_char B3 (off + 1 + zlen (commas l)) 125) as (B4 & E4 & W4);
      [pose proof (zlen_nonneg (commas l)); lia|rewrite (wrote_len _ _ _ _ W3), (wrote_len _ _ _ _ W2), (wrote_len _ _ _ _ W1); assumption|lia|].
    exists B4. split.
    + cbn [to_json]. rewrite E1. cbn [bind]. rewrite (skip_false_kind v TyObject U K eq_refl). cbn [bind].
      rewrite (vis_out vis v NI), (get_type_agrees v TyObject U K). cbn [bind]. rewrite E2. cbn [bind]. rewrite Go. cbn [bind].
      unfold obj_first. rewrite G. cbn [bind]. cbn [rev] in E3. rewrite E3. cbn [bind]. change (E_OK =? E_OK) with true. cbv iota.
      rewrite E4. cbn [bind]. rewrite removelast_last. f_equal. f_equal. f_equal. f_equal.
      change (123 :: commas l ++ [125]) with ([123] ++ commas l ++ [125]). rewrite !zlen_app. change (zlen [123]) with 1. change (zlen [125]) with 1. lia.
    + rewrite Z.add_0_r in W1. apply (wrote_app B off [] B1 _ B4 H W1). change (zlen []) with 0. rewrite Z.add_0_r.
      apply (wrote_app B1 off [123] B2 _ B4 H W2). change (zlen [123]) with 1.
      eapply (wrote_app B2 (off + 1) (commas l) B3 [125] B4); [lia|exact W3|exact W4].
  - (* array *)
    intros vis v o m L0 l R NI Mo (Ln & Lm & Lx) _ IH fuel B off [V D] H L. pose proof (vis_bound vis V). destruct fuel as [|f]; [lia|].
    destruct (arr_ref_facts _ _ R) as (Rf & U & K).
    assert (V1 : okvis (v :: vis)) by (eapply okvis_cons; eauto).
    assert (EL : array_length h ext v = OK L0).
    { destruct (array_length_spec h ext M v o m Hrep Mo Rf) as (L1 & E & K1 & K2 & K3). rewrite E. f_equal.
      assert (G : forall a b, (forall n w j, In (n, w) m -> index_text n j -> j < 4294967295 -> j < a) ->
        (b = 0 \/ exists n w, In (n, w) m /\ index_text n (b - 1) /\ b - 1 < 4294967295) -> 0 <= a -> b <= a).
      { intros a b Ha [->|(n & w & I & T & Q)] Ha0; [assumption|]. specialize (Ha n w (b - 1) I T Q). lia. }
      apply Z.le_antisymm; apply G; assumption. }
    assert (LB : L0 <= 4294967295) by (destruct Lx as [->|(n & w & _ & _ & Q)]; lia).
    destruct (first_nul B off H) as (B1 & E1 & W1).
    destruct (printf_char B1 off 91) as (B2 & E2 & W2); [assumption|rewrite (wrote_len _ _ _ _ W1); assumption|lia|].
    destruct (IH f v o B2 (off + 1) L0) as (B3 & E3 & W3); [split; [assumption|cbn [length]; lia]|lia|
      rewrite (wrote_len _ _ _ _ W2), (wrote_len _ _ _ _ W1); assumption|eapply (wrote_clean B1 off [91]); eassumption|assumption|assumption|lia|lia|lia|].
    destruct (printf_char B3 (off + 1 + zlen (commas l)) 93) as (B4 & E4 & W4);
      [pose proof (zlen_nonneg (commas l)); lia|rewrite (wrote_len _ _ _ _ W3), (wrote_len _ _ _ _ W2), (wrote_len _ _ _ _ W1); assumption|lia|].
    exists B4. split.
    + cbn [to_json]. rewrite E1. cbn [bind]. rewrite (skip_false_kind v TyArray U K eq_refl). cbn [bind].
      rewrite (vis_out vis v NI), (get_type_agrees v TyArray U K). cbn [bind]. rewrite EL. cbn [bind]. rewrite E2. cbn [bind].
      cbn [rev] in E3. rewrite E3. cbn [bind]. change (E_OK =? E_OK) with true. cbv iota.
      rewrite E4. cbn [bind]. rewrite removelast_last. f_equal. f_equal. f_equal. f_equal.
      change (91 :: commas l ++ [93]) with ([91] ++ commas l ++ [93]). rewrite !zlen_app. change (zlen [91]) with 1. change (zlen [93]) with 1. lia.
    + apply (wrote_app B off [] B1 _ B4 H W1). change (zlen []) with 0. rewrite Z.add_0_r.
      apply (wrote_app B1 off [91] B2 _ B4 H W2). change (zlen [91]) with 1.
      eapply (wrote_app B2 (off + 1) (commas l) B3 [93] B4); [lia|exact W3|exact W4].
  - (* no member *)
    intros vis f pf cs p B off start D H L Wc Hc F NM Hp u. inversion F; subst. cbn [cells] in Hc. subst p.
    assert (u = []) as -> by (subst u; destruct (off - start =? 1); reflexivity). exists B.
    change (zlen []) with 0. rewrite Z.add_0_r. split; [destruct pf; reflexivity|exact Wc].
  - (* member left out *)
    intros vis k w m l Sk _ IH f pf cs p B off start D H L Wc Hc F NM Hp u.
    inversion F as [|[a c] e' cs' m' [R1 R2] F' E1 E2]; subst. cbn [fst snd cells] in *. inversion NM as [|? ? NM1 NM2]; subst.
    destruct Hc as (-> & Na & Ga & Hr). destruct pf as [|pf]; [cbn [length] in Hp; lia|].
    destruct (IH f pf cs' (pc_next c) B off start D H L Wc Hr F' NM2 ltac:(cbn [length] in Hp; lia)) as (B' & E & W).
    exists B'. split; [|exact W]. cbn [props_loop]. replace (a =? 0) with false by lia. unfold prop_at. rewrite Ga. cbn [bind].
    rewrite (skip_true _ Sk). cbn [bind]. exact E.
  - (* member printed *)
    intros vis k w m t l NS Kl Sh IHt _ IH f pf cs p B off start D H L Wc Hc F NM Hp u.
    inversion F as [|[a c] e' cs' m' [R1 R2] F' E1 E2]; subst. cbn [fst snd cells] in *. inversion NM as [|? ? (NB & NN & NL) NM2]; subst. cbn [fst] in *.
    destruct Hc as (-> & Na & Ga & Hr). destruct pf as [|pf]; [cbn [length] in Hp; lia|].
    pose proof (shows_skip _ _ _ Sh NS) as SK.
    set (sep := if off - start =? 1 then [] else [44]).
    assert (STEP1 : exists B1, (if off - start =? 1 then OK (B, off) else '(B, k) <- j_printf B off [44] [] ;; OK (B, off + k)) = OK (B1, off + zlen sep) /\
              wrote B off sep B1).
    { subst sep. destruct (off - start =? 1).
      - exists B. change (zlen []) with 0. rewrite Z.add_0_r. split; [reflexivity|exact Wc].
      - destruct (printf_char B off 44) as (B1 & E1 & W1); [lia|assumption|lia|]. rewrite E1. exists B1. split; [reflexivity|exact W1]. }
    destruct STEP1 as (B1 & E1 & W1). assert (Zs : 0 <= zlen sep) by apply zlen_nonneg.
    destruct (printf_key B1 (off + zlen sep) k) as (B2 & E2 & W2); [lia|rewrite (wrote_len _ _ _ _ W1); assumption|assumption|assumption|].
    assert (KL : zlen (34 :: k ++ [34; 58]) = zlen k + 3).
    { change (34 :: k ++ [34; 58]) with ([34] ++ k ++ [34; 58]). rewrite !zlen_app. change (zlen [34]) with 1. change (zlen [34; 58]) with 2. lia. }
    pose proof (zlen_nonneg k) as Zk. pose proof (zlen_nonneg t) as Zt.
    destruct (IHt f B2 (off + zlen sep + (zlen k + 3))) as (B3 & E3 & W3); [assumption|lia|rewrite (wrote_len _ _ _ _ W2), (wrote_len _ _ _ _ W1); assumption|].
    destruct (IH f pf cs' (pc_next c) B3 (off + zlen sep + (zlen k + 3) + zlen t) start) as (B4 & E4 & W4);
      [assumption|lia|rewrite (wrote_len _ _ _ _ W3), (wrote_len _ _ _ _ W2), (wrote_len _ _ _ _ W1); assumption|
       eapply wrote_clean; [|exact W3]; lia|assumption|assumption|assumption|cbn [length] in Hp; lia|].
    replace (off + zlen sep + (zlen k + 3) + zlen t - start =? 1) with false in E4, W4 by lia.
    set (rest := match l with [] => [] | _ => 44 :: commas l end) in *.
    assert (UE : u = sep ++ (34 :: k ++ [34; 58]) ++ t ++ rest).
    { subst u sep. rewrite commas_cons. fold rest. destruct (off - start =? 1); cbn [app]; rewrite <- ?app_assoc; cbn [app]; rewrite <- ?app_assoc; reflexivity. }
    exists B4. split.
    + cbn [props_loop]. replace (a =? 0) with false by lia. unfold prop_at. rewrite Ga. cbn [bind]. rewrite SK. cbn [bind].
      rewrite E1. cbn [bind]. destruct R1 as (Rh & _). rewrite (holds_str_bytes _ _ _ _ Rh). cbn [bind]. rewrite E2. cbn [bind]. rewrite E3. cbn [bind].
      change (E_OK =? E_OK) with true. cbv iota. rewrite E4. f_equal. f_equal. f_equal. f_equal. rewrite UE, !zlen_app, KL. lia.
    + rewrite UE. apply (wrote_app B off sep B1 _ B4 ltac:(lia) W1). apply (wrote_app B1 (off + zlen sep) _ B2 _ B4 ltac:(lia) W2). rewrite KL.
      apply (wrote_app B2 (off + zlen sep + (zlen k + 3)) t B3 rest B4 ltac:(lia) W3 W4).
  - (* no element *)
    intros vis m i f v o B off alen D H L Wc R Mo Q I0 A. exists B. cbn [elems_loop commas]. change (zlen []) with 0. rewrite Z.add_0_r. split; [reflexivity|exact Wc].
  - (* hole *)
    intros vis m i n d l Nu Lk As IH f v o B off alen D H L Wc R Mo Q I0 A.
    destruct (arr_ref_facts _ _ R) as (Rf & U & K). destruct (refers_object v o Rf) as (I1 & _).
    destruct (printf_null B off) as (B1 & E1 & W1); [assumption|assumption|].
    assert (GET : exists el has, array_get2 h ext v i = OK (el, has) /\ (has = true -> skip_for_json el = OK true)).
    { unfold array_get2. rewrite I1. destruct (idx_name_spec i ltac:(lia)) as (d' & -> & Nu'). cbn [bind].
      rewrite (numeral_unique 10 i d d' ltac:(lia) Nu Nu') in Lk. destruct (numeral_name i d' Nu' ltac:(lia)) as ((N1 & N2 & N3) & _).
      destruct (own_property_spec' h ext M v o m d' Hrep Mo Rf N1 N3 Hst) as (a & -> & Qa). cbn [bind].
      destruct Lk as [Lk|(w & Lk & Sk)]; rewrite Lk in Qa.
      - subst a. do 2 eexists. split; [reflexivity|discriminate].
      - destruct Qa as (Q1 & c & Q2 & Q3). replace (a =? 0) with false by lia. rewrite Q2. cbn [bind]. do 2 eexists. split; [reflexivity|]. intros _.
        rewrite Q3. apply skip_true. assumption. }
    destruct GET as (el & has & EG & Sk).
    pose proof (ashows_length _ _ _ _ _ As) as Len.
    set (sep := match l with [] => [] | _ => [44] end).
    assert (STEP : exists B2, (if i =? alen - 1 then OK (B1, 0) else j_printf B1 (off + 4) [44] []) = OK (B2, zlen sep) /\ wrote B1 (off + 4) sep B2).
    { subst sep. destruct l as [|t0 l0]; cbn [length] in Len.
      - replace (i =? alen - 1) with true by lia. exists B1. split; [reflexivity|]. eapply (wrote_clean B off null_txt); assumption.
      - replace (i =? alen - 1) with false by lia. apply printf_char; [lia|rewrite (wrote_len _ _ _ _ W1); assumption|lia]. }
    destruct STEP as (B2 & E2 & W2). assert (Zs : 0 <= zlen sep) by apply zlen_nonneg.
    destruct (IH f v o B2 (off + 4 + zlen sep) alen) as (B3 & E3 & W3);
      [assumption|lia|rewrite (wrote_len _ _ _ _ W2), (wrote_len _ _ _ _ W1); assumption|eapply wrote_clean; [|exact W2]; lia|assumption|assumption|lia|lia|lia|].
    assert (CE : commas (null_txt :: l) = null_txt ++ sep ++ commas l) by (subst sep; rewrite commas_cons; destruct l; reflexivity).
    exists B3. split.
    + cbn [elems_loop]. rewrite EG. cbn [bind].
      assert (B0 : (if has then sk <- skip_for_json el ;; (if sk : bool then '(B, k) <- j_printf B off null_txt [] ;; OK (B, k, rev vis, E_OK) else to_json f h ext B off (rev vis) el)
                    else '(B, k) <- j_printf B off null_txt [] ;; OK (B, k, rev vis, E_OK)) = OK (B1, 4, rev vis, E_OK)).
      { destruct has; [rewrite (Sk eq_refl); cbn [bind]|]; rewrite E1; reflexivity. }
      rewrite B0. cbn [bind]. change (E_OK =? E_OK) with true. cbv iota. rewrite E2. cbn [bind]. rewrite E3.
      f_equal. f_equal. f_equal. f_equal. change [110; 117; 108; 108] with null_txt. rewrite CE, !zlen_app. change (zlen null_txt) with 4. lia.
    + change [110; 117; 108; 108] with null_txt. rewrite CE. apply (wrote_app B off null_txt B1 _ B3 H W1). change (zlen null_txt) with 4.
      apply (wrote_app B1 (off + 4) sep B2 _ B3 ltac:(lia) W2 W3).
  - (* element *)
    intros vis m i n d w t l Nu Lk NS Sh IHt As IH f v o B off alen D H L Wc R Mo Q I0 A.
    destruct (arr_ref_facts _ _ R) as (Rf & U & K). destruct (refers_object v o Rf) as (I1 & _).
    destruct (IHt f B off D H L) as (B1 & E1 & W1). pose proof (zlen_nonneg t) as Zt.
    assert (EG : array_get2 h ext v i = OK (w, true)).
    { unfold array_get2. rewrite I1. destruct (idx_name_spec i ltac:(lia)) as (d' & -> & Nu'). cbn [bind].
      rewrite (numeral_unique 10 i d d' ltac:(lia) Nu Nu') in Lk. destruct (numeral_name i d' Nu' ltac:(lia)) as ((N1 & N2 & N3) & _).
      destruct (own_property_spec' h ext M v o m d' Hrep Mo Rf N1 N3 Hst) as (a & -> & Qa). cbn [bind]. rewrite Lk in Qa.
      destruct Qa as (Q1 & c & Q2 & Q3). replace (a =? 0) with false by lia. rewrite Q2. cbn [bind]. rewrite Q3. reflexivity. }
    pose proof (ashows_length _ _ _ _ _ As) as Len.
    set (sep := match l with [] => [] | _ => [44] end).
    assert (STEP : exists B2, (if i =? alen - 1 then OK (B1, 0) else j_printf B1 (off + zlen t) [44] []) = OK (B2, zlen sep) /\ wrote B1 (off + zlen t) sep B2).
    { subst sep. destruct l as [|t0 l0]; cbn [length] in Len.
      - replace (i =? alen - 1) with true by lia. exists B1. split; [reflexivity|]. eapply (wrote_clean B off t); assumption.
      - replace (i =? alen - 1) with false by lia. apply printf_char; [lia|rewrite (wrote_len _ _ _ _ W1); assumption|lia]. }
    destruct STEP as (B2 & E2 & W2). assert (Zs : 0 <= zlen sep) by apply zlen_nonneg.
    destruct (IH f v o B2 (off + zlen t + zlen sep) alen) as (B3 & E3 & W3);
      [assumption|lia|rewrite (wrote_len _ _ _ _ W2), (wrote_len _ _ _ _ W1); assumption|eapply wrote_clean; [|exact W2]; lia|assumption|assumption|lia|lia|lia|].
    assert (CE : commas (t :: l) = t ++ sep ++ commas l) by (subst sep; rewrite commas_cons; destruct l; reflexivity).
    exists B3. split.
    + cbn [elems_loop]. rewrite EG. cbn [bind]. rewrite (shows_skip _ _ _ Sh NS). cbn [bind]. rewrite E1. cbn [bind].
      change (E_OK =? E_OK) with true. cbv iota. rewrite E2. cbn [bind]. rewrite E3. f_equal. f_equal. f_equal. f_equal. rewrite CE, !zlen_app. lia.
    + rewrite CE. apply (wrote_app B off t B1 _ B3 H W1). apply (wrote_app B1 (off + zlen t) sep B2 _ B3 ltac:(lia) W2 W3).
Qed.
End Text.
