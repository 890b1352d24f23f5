From Verif Require Import Base BaseFacts Value_Model Value_Spec Value_Proofs Str_Model Str_Spec
  Str_Proofs Str_Proofs2 SUtil_Model SUtil_Proofs Conv_Model Obj_Model Obj_Spec Obj_Proofs.
Ltac Zify.zify_post_hook ::= Z.div_mod_to_equations.

Lemma del_walk_spec h ext M o m b C first :
  (forall o, M o = None <-> aget (h_objs h) o = None) ->
  (forall o m, M o = Some m ->
       obj_rep h ext o (C o) m /\ NoDup (map fst m) /\ Forall (fun e => name_ok (fst e)) m) ->
  (forall o1 o2 m1 m2 a, o1 <> o2 -> M o1 = Some m1 -> M o2 = Some m2 ->
       In a (map fst (C o1)) -> In a (map fst (C o2)) -> False) ->
  (forall a c, aget (h_props h) a = Some c -> 0 < a < h_next h) ->
  (forall o p, aget (h_objs h) o = Some p -> 0 < o < h_next h) ->
  M o = Some m -> aget (h_objs h) o = Some first -> cells h first (C o) ->
  forall rest pre mpre mrest p fuel,
  C o = pre ++ rest -> m = mpre ++ mrest ->
  Forall2 (entry_rep (h_st h) ext) pre mpre -> Forall2 (entry_rep (h_st h) ext) rest mrest ->
  cells h p rest -> (length rest <= fuel)%nat ->
  exists h', del_walk fuel h ext o (match rev pre with [] => 0 | (pa, _) :: _ => pa end) p b
     = OK (h', match lookup mrest b with Some _ => 0 | None => -1 end) /\
    hrep h' ext (supd M o (mpre ++ mremove mrest b)) /\ h_st h' = h_st h /\ h_next h' = h_next h.
Proof.
  intros A1 A2 A3 A4 A5 HM G Hc.
  induction rest as [|[a c] rest IH]; intros pre mpre mrest p fuel HC Hm F1 F2 Hp Hf.
  - inversion F2; subst mrest. cbn [cells] in Hp. subst p. exists h.
    split; [destruct fuel; reflexivity|]. split; [|auto]. cbn [mremove]. rewrite <- Hm.
    exists C. split; [|split; [|split; [|split]]]; auto.
    + intros x. destruct (Z.eq_dec x o) as [->|Hx]; [rewrite supd_same, G; split; discriminate|rewrite supd_other by assumption; apply A1].
    + intros x mx Hx. destruct (Z.eq_dec x o) as [->|Ho]; [rewrite supd_same in Hx; injection Hx as <-; auto|].
      rewrite supd_other in Hx by assumption. auto.
    + assert (Y : forall x mx, supd M o m x = Some mx -> exists m', M x = Some m').
      { intros x mx Hx. destruct (Z.eq_dec x o) as [->|Hn]; [eauto|]. rewrite supd_other in Hx by assumption. eauto. }
      intros o1 o2 m1 m2 y Ho H1 H2. destruct (Y _ _ H1). destruct (Y _ _ H2). eauto.
  - inversion F2 as [|? [n v] ? mrest' [R1 R2] F2' E1 E2]; subst mrest. cbn [fst snd] in *.
    cbn [cells] in Hp. destruct Hp as (-> & Na & Ga & Hr).
    destruct fuel as [|fuel]; [cbn [length] in Hf; lia|].
    cbn [del_walk]. replace (a =? 0) with false by lia. unfold prop_at at 1. rewrite Ga. cbn [bind].
    destruct (A2 o m HM) as (_ & _ & NM).
    assert (Nn : name_ok n).
    { rewrite Forall_forall in NM. apply (NM (n, v)). rewrite Hm. apply in_or_app. right. left. reflexivity. }
    destruct Nn as (N1 & N2 & N3). destruct R1 as ((U & K & lc & P1 & P2 & P3) & _ & _). rewrite P1. cbn [bind].
    assert (T : (if zlen n =? zlen b then d <- loc_read (h_st h) ext (pc_name c) lc (zlen n) ;; OK (strncmp d b =? 0) else OK false)
       = OK (bytes_eqb n b)).
    { destruct (zlen n =? zlen b) eqn:E.
      - rewrite P3. cbn [bind]. f_equal.
        assert (L : length n = length b) by (unfold zlen in *; lia).
        pose proof (strncmp_eq0 n b L N2) as Q. destruct (bytes_eqb n b) eqn:B.
        + apply bytes_eqb_eq in B. apply Q in B. lia.
        + apply Z.eqb_neq. intros Q0. apply Q in Q0. subst b. rewrite bytes_eqb_refl in B. discriminate.
      - f_equal. destruct (bytes_eqb n b) eqn:B; [|reflexivity]. apply bytes_eqb_eq in B. subst b. lia. }
    rewrite T. cbn [bind lookup mremove]. destruct (bytes_eqb n b) eqn:B.
    + apply bytes_eqb_eq in B. subst n.
      pose proof (del_unlink h ext M o m b C first pre rest mpre mrest' a c v _ A1 A2 A3 A4 A5 HM G Hc HC Hm F1 F2' eq_refl) as D.
      assert (RP : forall q, In q (rev pre) -> aget (h_props h) (fst q) = Some (snd q) /\ fst q <> 0).
      { intros [q1 q2] Hq. cbn [fst snd]. eapply cells_get; [exact Hc|]. rewrite HC. apply in_or_app. left. apply in_rev. assumption. }
      destruct (rev pre) as [|[pa pcx] rp].
      * change (0 =? 0) with true. cbv iota. eexists; split; [reflexivity|]. split; [exact D|split; reflexivity].
      * destruct (RP (pa, pcx)) as [Gpa Npa]; [left; reflexivity|]. cbn [fst snd] in *.
        replace (pa =? 0) with false by lia. unfold prop_at. rewrite Gpa. cbn [bind].
        eexists; split; [reflexivity|]. split; [exact D|split; reflexivity].
    + destruct (IH (pre ++ [(a, c)]) (mpre ++ [(n, v)]) mrest' (pc_next c) fuel) as (h' & D1 & D2 & D3).
      * rewrite <- app_assoc. exact HC.
      * rewrite <- app_assoc. exact Hm.
      * apply Forall2_app; [assumption|]. constructor; [|constructor]. inversion F2; subst; assumption.
      * assumption.
      * assumption.
      * cbn [length] in Hf. lia.
      * rewrite rev_app_distr in D1. cbn [rev app] in D1. exists h'. split; [exact D1|].
        rewrite <- app_assoc in D2. split; [exact D2|exact D3].
Qed.

Lemma obj_del_spec h ext M v o m b :
  hrep h ext M -> M o = Some m -> refers v o ->
  exists h', obj_del h ext v b = OK (h', match lookup m b with Some _ => 0 | None => -1 end) /\
    hrep h' ext (supd M o (mremove m b)) /\ h_st h' = h_st h /\ h_next h' = h_next h.
Proof.
  intros (C & A1 & A2 & A3 & A4 & A5) HM Hr. destruct (A2 o m HM) as ((first & G & Hc & F) & ND & NM).
  destruct (refers_object v o Hr) as (I1 & I2 & _). unfold obj_del. rewrite I1, I2. cbn [negb bind].
  unfold obj_first. rewrite G. cbn [bind].
  apply (del_walk_spec h ext M o m b C first A1 A2 A3 A4 A5 HM G Hc (C o) [] [] m first (pfuel h)); auto.
  eapply cells_length; eassumption.
Qed.

Lemma mk_object_spec h ext M :
  hrep h ext M -> small h 64 ->
  exists h' v, mk_object h = OK (h', v) /\ refers v (h_next h) /\ v / 2 ^ 48 = 65521 /\ M (h_next h) = None /\
    hrep h' ext (supd M (h_next h) []) /\ h_st h' = h_st h /\ h_next h' = h_next h + 8.
Proof.
  intros (C & A1 & A2 & A3 & A4 & A5) (S0 & S1 & S2). unfold mk_object, new_object.
  replace (h_next h + 32 >? 2 ^ 47) with false by lia. cbn [bind].
  assert (OV : object_to_value (h_next h) = OK (65521 * 2 ^ 48 + h_next h)).
  { unfold object_to_value. replace (h_next h =? 0) with false by lia.
    unfold legit_pointer_to_value. rewrite ptr_legit_iff by (unfold is_u64; lia).
    replace (_ || _) with true by lia. cbn [bind]. f_equal. rewrite untag_mod.
    unfold TAG_OBJECT. rewrite lor_tag by lia. lia. }
  rewrite OV. cbn [bind]. eexists. eexists. split; [reflexivity|].
  assert (Fresh : M (h_next h) = None).
  { apply A1. destruct (aget (h_objs h) (h_next h)) eqn:E; [|reflexivity]. apply A5 in E. lia. }
  split; [split; [lia|left; reflexivity]|]. split; [lia|]. split; [exact Fresh|]. split; [|split; reflexivity].
  set (a := h_next h) in *.
  exists (fun x => if x =? a then [] else C x).
  split; [|split; [|split; [|split]]].
  - intros x. cbn [h_objs aget]. destruct (Z.eq_dec x a) as [->|Hx].
    + rewrite supd_same, Z.eqb_refl. split; discriminate.
    + rewrite supd_other by assumption. replace (a =? x) with false by lia. apply A1.
  - intros x mx Hx. destruct (Z.eq_dec x a) as [->|Ho].
    + rewrite supd_same in Hx. injection Hx as <-. rewrite Z.eqb_refl. split; [|split; constructor].
      exists 0. cbn [h_objs aget]. rewrite Z.eqb_refl. split; [reflexivity|]. split; [reflexivity|constructor].
    + rewrite supd_other in Hx by assumption. replace (x =? a) with false by lia.
      destruct (A2 x mx Hx) as ((fx & Gx & Hcx & Fx) & NDx & NMx). split; [|auto].
      exists fx. cbn [h_objs aget h_st]. replace (a =? x) with false by lia. split; [assumption|].
      split; [eapply cells_frame; [exact Hcx|reflexivity]|assumption].
  - intros o1 o2 m1 m2 y Ho H1 H2 I1 I2.
    destruct (Z.eqb_spec o1 a); [contradiction|]. destruct (Z.eqb_spec o2 a); [contradiction|].
    rewrite supd_other in H1, H2 by assumption. exact (A3 o1 o2 m1 m2 y Ho H1 H2 I1 I2).
  - intros y cy Hy. cbn [h_props h_next] in *. apply A4 in Hy. fold a in Hy. lia.
  - intros y p. cbn [h_objs h_next aget]. destruct (a =? y) eqn:E; [lia|]. intros Q. apply A5 in Q. fold a in Q. lia.
Qed.

(** Enumeration. *)
Lemma string_not_undefined st ext v d : holds st ext v d -> (v =? V_UNDEFINED) = false.
Proof.
  intros (U & K & _). destruct (Z.eqb_spec v V_UNDEFINED) as [->|]; [|reflexivity].
  exfalso. vm_compute in K. discriminate.
Qed.

Lemma keys_from h ext v : forall m cs p it fuel,
  (forall a c, aget (h_props h) a = Some c -> 0 < a < 2 ^ 48) ->
  cells h p cs -> Forall2 (entry_rep (h_st h) ext) cs m -> (length cs < fuel)%nat ->
  obj_next h v it = (if p =? 0 then OK (V_UNDEFINED, V_UNDEFINED)
                     else c <- prop_at h p ;; OK (pc_name c, fst (mk_foreign p))) ->
  keys_loop fuel h ext v it = OK (map fst m).
Proof.
  induction m as [|[n w] m IH]; intros cs p it fuel B Hc F L Hn.
  - inversion F; subst. cbn [cells] in Hc. subst p. destruct fuel; [cbn [length] in L; lia|].
    cbn [keys_loop]. rewrite Hn. change (0 =? 0) with true. cbv iota. cbn [bind]. reflexivity.
  - inversion F as [|[a c] e' cs' m' [R1 R2] F' E1 E2]; subst. cbn [fst snd cells] in *.
    destruct Hc as (-> & Na & Ga & Hr). destruct fuel as [|fuel]; [cbn [length] in L; lia|].
    cbn [keys_loop]. rewrite Hn. replace (a =? 0) with false by lia. unfold prop_at. rewrite Ga. cbn [bind].
    destruct R1 as (R1 & _). rewrite (string_not_undefined _ _ _ _ R1), (holds_str_bytes _ _ _ _ R1). cbn [bind].
    pose proof (B _ _ Ga) as Ba.
    pose proof (proj1 (foreign_round_trip a ltac:(unfold is_u64; lia)) ltac:(lia)) as X.
    destruct (mk_foreign a) as [fv fe] eqn:Ef. destruct X as (_ & X2 & X3). cbn [fst].
    assert (XR : get_ptr_raw fv = a).
    { unfold get_ptr in X2. destruct (negb (is_foreign fv)); [lia|assumption]. }
    rewrite (IH cs' (pc_next c) fv fuel); auto; [cbn [length] in L; lia|].
    unfold obj_next. replace (fv =? V_UNDEFINED) with false.
    + rewrite XR. unfold prop_at at 1. rewrite Ga. cbn [bind]. reflexivity.
    + symmetry. apply Z.eqb_neq. intros ->. vm_compute in X3. discriminate.
Qed.

Lemma keys_spec h ext M v o m :
  hrep h ext M -> M o = Some m -> refers v o -> h_next h <= 2 ^ 48 ->
  keys_loop (S (pfuel h)) h ext v V_UNDEFINED = OK (map fst m).
Proof.
  intros (C & A1 & A2 & A3 & A4 & A5) HM Hr Hs. destruct (A2 o m HM) as ((first & G & Hc & F) & ND & NM).
  eapply keys_from; [|exact Hc|exact F| |].
  - intros a c Ha. apply A4 in Ha. lia.
  - apply cells_length in Hc. lia.
  - destruct (refers_object v o Hr) as (I1 & I2 & _). unfold obj_next. rewrite Z.eqb_refl, I2. cbn [bind].
    unfold obj_first. rewrite G. reflexivity.
Qed.

(** Histories. *)
Lemma list_upd_length {A} (l : list A) i x : length (list_upd l i x) = length l.
Proof. revert i. induction l as [|y l IH]; intros [|i]; cbn [list_upd length]; auto. Qed.
Lemma list_upd_nth_same {A} (l : list A) i x d : (i < length l)%nat -> nth i (list_upd l i x) d = x.
Proof. revert i. induction l as [|y l IH]; intros [|i] H; cbn [list_upd length nth] in *; try lia; try reflexivity; apply IH; lia. Qed.
Lemma list_upd_nth_other {A} (l : list A) i j x d : i <> j -> nth j (list_upd l i x) d = nth j l d.
Proof.
  revert i j. induction l as [|y l IH]; intros [|i] [|j] H; cbn [list_upd nth]; try congruence.
  apply IH. congruence.
Qed.

(** The values created so far refer to distinct objects carrying the maps of the history. *)
Definition linked (M : store) (os : list Z) (S : list omap) : Prop :=
  exists addrs, length addrs = length os /\ length S = length os /\ NoDup addrs /\
    forall i, (i < length os)%nat -> refers (nth i os V_UNDEFINED) (nth i addrs 0) /\
                                     M (nth i addrs 0) = Some (nth i S []).

Lemma linked_upd M os S i m addrs :
  length addrs = length os -> length S = length os -> NoDup addrs ->
  (forall i, (i < length os)%nat -> refers (nth i os V_UNDEFINED) (nth i addrs 0) /\
                                     M (nth i addrs 0) = Some (nth i S [])) ->
  (i < length os)%nat -> linked (supd M (nth i addrs 0) m) os (list_upd S i m).
Proof.
  intros L1 L2 ND H Hi. exists addrs. rewrite list_upd_length. split; [assumption|]. split; [assumption|].
  split; [assumption|]. intros j Hj. destruct (H j Hj) as (H1 & H2). split; [assumption|].
  destruct (Nat.eq_dec i j) as [<-|Hne].
  - rewrite supd_same, list_upd_nth_same; [reflexivity|]. change (i < length S)%nat. rewrite L2. assumption.
  - rewrite supd_other, list_upd_nth_other by assumption || (intros E; apply Hne; symmetry;
      apply (proj1 (NoDup_nth addrs 0) ND j i); [lia|lia|assumption]). assumption.
Qed.

Lemma op_cost_pos op : 64 <= op_cost op.
Proof. destruct op; cbn [op_cost]; try lia. pose proof (zlen_nonneg n). lia. Qed.
Lemma ops_cost_nonneg ops : 0 <= ops_cost ops.
Proof. induction ops as [|op r IH]; cbn [ops_cost]; [lia|]. pose proof (op_cost_pos op). lia. Qed.

Lemma nodup_snoc {A} (l : list A) x : NoDup l -> ~ In x l -> NoDup (l ++ [x]).
Proof.
  induction l as [|y l IH]; intros H Hx; cbn [app]; [constructor; [auto|constructor]|].
  inversion H; subst. constructor.
  - intros Q. apply in_app_or in Q. destruct Q as [Q|[Q|[]]]; [contradiction|]. apply Hx. left. congruence.
  - apply IH; [assumption|]. intros Q. apply Hx. right. assumption.
Qed.

Lemma run_spec ext : forall ops h M os S,
  hrep h ext M -> linked M os S -> ops_ok (length os) ops -> small h (ops_cost ops) ->
  impl_run h ext os ops = OK (spec_run S ops).
Proof.
  induction ops as [|op ops IH]; intros h M os S Hrep Hl Ho Hs; [reflexivity|].
  cbn [impl_run spec_run ops_cost] in *. pose proof (ops_cost_nonneg ops) as Cn. pose proof (op_cost_pos op) as Cp.
  pose proof Hs as (S0 & S1 & S2).
  destruct Hl as (addrs & L1 & L2 & ND & H).
  destruct op as [|i n|i n v|i n|i]; cbn [impl_op spec_op ops_ok op_cost] in *.
  - destruct (mk_object_spec h ext M Hrep) as (h' & v & E & Rv & _ & Fr & Hrep' & Est & En); [unfold small; lia|].
    rewrite E. cbn [bind]. rewrite (IH h' (supd M (h_next h) []) (os ++ [v]) (S ++ [[]])); [reflexivity|assumption| |  |].
    + exists (addrs ++ [h_next h]). rewrite !app_length. cbn [length]. split; [lia|]. split; [lia|]. split.
      * apply nodup_snoc; [assumption|]. intros Hin. apply (In_nth _ _ 0) in Hin. destruct Hin as (j & Hj & Q).
        destruct (H j ltac:(lia)) as (_ & Q2). congruence.
      * intros j Hj. destruct (Nat.eq_dec j (length os)) as [->|Hne].
        -- rewrite (app_nth2 os), (app_nth2 addrs), (app_nth2 S) by lia. rewrite L1, L2, Nat.sub_diag. cbn [nth].
           split; [assumption|apply supd_same].
        -- rewrite (app_nth1 os), (app_nth1 addrs), (app_nth1 S) by lia. destruct (H j ltac:(lia)) as (H1 & H2).
           split; [assumption|]. rewrite supd_other; [assumption|]. intros Q. congruence.
    + rewrite app_length. cbn [length]. rewrite Nat.add_1_r. assumption.
    + unfold small. rewrite Est, En. lia.
  - destruct Ho as (Hi & (N1 & N2 & N3) & Ho). destruct (H i Hi) as (H1 & H2).
    rewrite (obj_get_spec h ext M _ _ _ n Hrep H2 H1 N1 N3) by lia. cbn [bind].
    rewrite (IH h M os S); [reflexivity|assumption| |assumption|unfold small; lia].
    exists addrs. auto.
  - destruct Ho as (Hi & Nn & Ho). destruct (H i Hi) as (H1 & H2). pose proof (zlen_nonneg n).
    destruct (set_prop_spec h ext M _ _ _ None n v Hrep H2 H1 Nn) as (h' & E & Hrep' & Gr & B1 & B2 & B3);
      [unfold small; lia|discriminate|].
    unfold obj_set. rewrite E. cbn [bind].
    erewrite (IH h' _ os (list_upd S i (mput (nth i S []) n v))); [reflexivity|exact Hrep'| |assumption|unfold small; lia].
    apply linked_upd; assumption.
  - destruct Ho as (Hi & Nn & Ho). destruct (H i Hi) as (H1 & H2).
    destruct (obj_del_spec h ext M _ _ _ n Hrep H2 H1) as (h' & E & Hrep' & B1 & B2).
    rewrite E. cbn [bind].
    erewrite (IH h' _ os (list_upd S i (mremove (nth i S []) n))); [reflexivity|exact Hrep'| |assumption|unfold small; rewrite B1, B2; lia].
    apply linked_upd; assumption.
  - destruct Ho as (Hi & Ho). destruct (H i Hi) as (H1 & H2).
    rewrite (keys_spec h ext M _ _ _ Hrep H2 H1) by lia. cbn [bind].
    rewrite (IH h M os S); [reflexivity|assumption| |assumption|unfold small; lia].
    exists addrs. auto.
Qed.

Lemma hrep_init ext : hrep heap_init ext sempty.
Proof.
  exists (fun _ => []). split; [|split; [|split; [|split]]]; try discriminate.
  intros o. split; reflexivity.
Qed.

Lemma history_spec ext ops : ops_ok 0 ops -> ops_cost ops < 2 ^ 46 ->
  impl_run heap_init ext [] ops = OK (spec_run [] ops).
Proof.
  intros H1 H2. eapply run_spec; [apply hrep_init| |exact H1|].
  - exists []. split; [reflexivity|]. split; [reflexivity|]. split; [constructor|]. intros i Hi. cbn [length] in Hi. lia.
  - assert (Q : zlen (so (h_st heap_init)) < 100) by (vm_compute; reflexivity).
    unfold small. change (h_next heap_init) with 4096. lia.
Qed.

(** Prototype chains. *)
Lemma is_string_kind v : is_u64 v -> is_string v = kind_eqb (kind_of v) KString.
Proof. intros H. apply (preds_kind v H). Qed.
Lemma to_string_holds st ext kv n : holds st ext kv n -> to_string st ext kv = OK (Some n).
Proof.
  intros H. unfold to_string. pose proof H as (U & K & _).
  assert (S : is_string kv = true) by (rewrite (is_string_kind kv U), K; reflexivity). rewrite S.
  rewrite (holds_str_bytes _ _ _ _ H). reflexivity.
Qed.

Lemma own_property_spec' h ext M v o m b :
  hrep h ext M -> M o = Some m -> refers v o -> bytes_ok b -> zlen b < 2 ^ 31 -> zlen (so (h_st h)) < 2 ^ 48 ->
  exists a, own_property h ext v b = OK a /\
    match lookup m b with
    | Some x => a <> 0 /\ exists c, prop_at h a = OK c /\ pc_val c = x
    | None => a = 0
    end.
Proof.
  intros (C & A1 & A2 & A3 & A4 & A5) HM Hr Hb Lb Hs. destruct (A2 o m HM) as (R & ND & NM).
  rewrite (own_property_spec h ext v o (C o) m b) by assumption.
  destruct R as (first & G & Hc & F). pose proof (find_hit_lookup _ _ _ _ b F) as Q. eexists; split; [reflexivity|].
  destruct (find (hit b) (combine (C o) m)) as [[[a c] e]|].
  - destruct Q as (Q1 & Q2 & Q3). destruct (cells_get h _ _ _ _ Hc Q1) as [Ga Na].
    rewrite Q2. split; [assumption|]. exists c. unfold prop_at. rewrite Ga. auto.
  - rewrite Q. reflexivity.
Qed.

Lemma proto_value st : mk_string st proto_name = OK (st, 65526 * 2 ^ 48 + le_val (3 :: proto_name)).
Proof.
  rewrite mk_inline4; [|repeat (apply Forall_cons; [unfold is_byte; lia|]); apply Forall_nil|vm_compute; discriminate].
  rewrite Z.add_comm. reflexivity.
Qed.
Lemma bytes_proto : bytes_ok proto_name.
Proof. repeat (apply Forall_cons; [unfold is_byte; lia|]); apply Forall_nil. Qed.

Section Proto.
  Context (h : heap) (ext : extmem) (M : store) (key : Z) (n : list Z).
  Context (Hrep : hrep h ext M) (Hk : holds (h_st h) ext key n) (Nn : bytes_ok n) (Ln : zlen n < 2 ^ 31)
          (Hs : zlen (so (h_st h)) < 2 ^ 48).

  Lemma proto_step v o m fuel : M o = Some m -> refers v o ->
    get_v_proto (S fuel) h ext v key =
      match lookup m n with
      | Some x => OK x
      | None => match lookup m proto_name with
                | None => OK V_UNDEFINED
                | Some pv => get_v_proto fuel h ext pv key
                end
      end.
  Proof.
    intros HM Hr. cbn [get_v_proto]. unfold own_property_v at 1. rewrite (to_string_holds _ _ _ _ Hk). cbn [bind].
    destruct (own_property_spec' h ext M v o m n Hrep HM Hr Nn Ln Hs) as (a & -> & Q). cbn [bind].
    destruct (lookup m n) as [x|].
    - destruct Q as (Q1 & c & Q2 & Q3). replace (a =? 0) with false by lia. cbn [negb]. rewrite Q2. cbn [bind]. congruence.
    - subst a. change (0 =? 0) with true. cbn [negb]. rewrite proto_value. cbn [bind].
      assert (Hp : holds (h_st h) ext (65526 * 2 ^ 48 + le_val (3 :: proto_name)) proto_name).
      { destruct (mk_string_holds (h_st h) ext proto_name bytes_proto Hs ltac:(vm_compute; reflexivity)) as (s & w & E & Hh & _).
        rewrite proto_value in E. injection E as <- <-. exact Hh. }
      unfold own_property_v. rewrite (to_string_holds _ _ _ _ Hp). cbn [bind].
      destruct (own_property_spec' h ext M v o m proto_name Hrep HM Hr bytes_proto ltac:(vm_compute; reflexivity) Hs) as (a & -> & Q). cbn [bind].
      destruct (lookup m proto_name) as [pv|].
      + destruct Q as (Q1 & c & Q2 & Q3). replace (a =? 0) with false by lia. rewrite Q2. cbn [bind]. congruence.
      + subst a. reflexivity.
  Qed.

  Lemma proto_nonobject v fuel : is_object v = false -> get_v_proto (S fuel) h ext v key = OK V_UNDEFINED.
  Proof.
    intros Hv. cbn [get_v_proto]. unfold own_property_v at 1. rewrite (to_string_holds _ _ _ _ Hk). cbn [bind].
    unfold own_property. rewrite Hv. cbn [negb bind]. rewrite proto_value. cbn [bind].
    assert (Hp : holds (h_st h) ext (65526 * 2 ^ 48 + le_val (3 :: proto_name)) proto_name).
    { destruct (mk_string_holds (h_st h) ext proto_name bytes_proto Hs ltac:(vm_compute; reflexivity)) as (s & w & E & Hh & _).
      rewrite proto_value in E. injection E as <- <-. exact Hh. }
    unfold own_property_v. rewrite (to_string_holds _ _ _ _ Hp). cbn [bind]. unfold own_property. rewrite Hv. reflexivity.
  Qed.
End Proto.
