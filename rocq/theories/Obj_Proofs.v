From Verif Require Import Base BaseFacts Value_Model Value_Spec Value_Proofs Str_Model Str_Spec
  Str_Proofs Str_Proofs2 SUtil_Model SUtil_Proofs Conv_Model Obj_Model Obj_Spec.
Ltac Zify.zify_post_hook ::= Z.div_mod_to_equations.

(** Association lists. *)
Lemma aget_aset_same {A} (m : list (Z * A)) a x y : aget m a = Some x -> aget (aset m a y) a = Some y.
Proof.
  induction m as [|[k z] m IH]; cbn [aget aset]; [discriminate|].
  destruct (k =? a) eqn:E; cbn [aget]; rewrite E; auto.
Qed.
Lemma aget_aset_other {A} (m : list (Z * A)) a b y : a <> b -> aget (aset m a y) b = aget m b.
Proof.
  intros H. induction m as [|[k z] m IH]; cbn [aget aset]; [reflexivity|].
  destruct (k =? a) eqn:E; cbn [aget].
  - replace (k =? b) with false by lia. reflexivity.
  - rewrite IH. reflexivity.
Qed.
Lemma aset_length {A} (m : list (Z * A)) a y : length (aset m a y) = length m.
Proof. induction m as [|[k z] m IH]; cbn [aset length]; [reflexivity|]. destruct (k =? a); cbn [length]; congruence. Qed.
Lemma aget_in {A} (m : list (Z * A)) a x : aget m a = Some x -> In a (map fst m).
Proof.
  induction m as [|[k z] m IH]; cbn [aget map fst]; [discriminate|].
  destruct (k =? a) eqn:E; [left; lia|right; auto].
Qed.

(** Names. *)
Lemma strncmp_eq0 a : forall b, length a = length b -> Forall (fun c => c <> 0) a ->
  (strncmp a b = 0 <-> a = b).
Proof.
  induction a as [|x a IH]; intros [|y b] L Hn; try discriminate; [cbn; tauto|].
  cbn [strncmp]. pose proof (Forall_inv Hn) as Hx. cbn beta in Hx. apply Forall_inv_tail in Hn.
  injection L as L. destruct (x =? y) eqn:E.
  - replace (x =? 0) with false by lia. rewrite IH by assumption.
    assert (x = y) by lia. subst y. split; [congruence|intros Q; injection Q; auto].
  - split; [unfold sgn_cmp; destruct (x <? y) eqn:?; destruct (x >? y) eqn:?; lia|intros Q; injection Q; lia].
Qed.

Lemma mk_short_indep n st st' v : zlen n <= 5 -> mk_string st n = OK (st, v) -> mk_string st' n = OK (st', v).
Proof.
  intros Hl. unfold mk_string, mk_string_src. rewrite Z.eqb_refl. cbn [negb].
  destruct (zlen n <=? 4) eqn:E4; [|replace (zlen n =? 5) with true by lia]; intros Q;
    apply (f_equal (fun r => match r with OK (_, x) => x | _ => 0 end)) in Q; cbv beta iota in Q; rewrite Q; reflexivity.
Qed.
Lemma name_of_grows st st' ext kv n : grows st st' -> name_of st ext kv n -> name_of st' ext kv n.
Proof.
  intros G (H1 & H2 & H3). split; [eapply holds_grows; eassumption|]. split.
  - destruct H2 as (l & N1 & N2). destruct H1 as (U & K & l2 & P1 & P2 & P3).
    rewrite N1 in P1. injection P1 as <-.
    exists l. split; [eapply get_string_grows; eassumption|].
    eapply loc_read_grows; [eassumption|eassumption|]. destruct l; try exact I.
    unfold is_u64 in U. apply (get_string_own_nonneg st kv o (zlen n)); [lia|exact N1].
  - intros Hl. specialize (H3 Hl). eapply mk_short_indep; eassumption.
Qed.

Lemma strcmp_name st ext kv n b : name_of st ext kv n -> name_ok n -> bytes_ok b -> zlen b < 2 ^ 31 ->
  exists k, mjs_strcmp st ext kv b = OK k /\ (k =? 0) = bytes_eqb n b.
Proof.
  intros (H1 & _ & _) (N1 & N2 & N3) B1 B2.
  destruct H1 as (U & K & l & P1 & P2 & P3). unfold mjs_strcmp. rewrite P1. cbn [bind].
  pose proof (zlen_nonneg n). pose proof (zlen_nonneg b).
  destruct (zlen n =? zlen b) eqn:E; cbn [negb].
  - rewrite P3. cbn [bind]. eexists; split; [reflexivity|].
    assert (L : length n = length b) by (unfold zlen in *; lia).
    pose proof (strncmp_eq0 n b L N2) as Q.
    destruct (bytes_eqb n b) eqn:B.
    + apply bytes_eqb_eq in B. apply Q in B. lia.
    + apply Z.eqb_neq. intros Q0. apply Q in Q0. subst b. rewrite bytes_eqb_refl in B. discriminate.
  - eexists; split; [reflexivity|]. rewrite s32_u64 by lia.
    destruct (bytes_eqb n b) eqn:B; [apply bytes_eqb_eq in B; subst b; lia|lia].
Qed.

Lemma inline_inj st n b v w : bytes_ok n -> bytes_ok b -> zlen n <= 5 -> zlen b <= 5 ->
  zlen (so st) < 2 ^ 48 ->
  mk_string st n = OK (st, v) -> mk_string st b = OK (st, w) -> (v =? w) = bytes_eqb n b.
Proof.
  intros Hn Hb Ln Lb Hs Mn Mb.
  destruct (mk_string_holds st (fun _ => 0) n Hn Hs ltac:(lia)) as (s1 & v1 & E1 & H1 & _).
  destruct (mk_string_holds st (fun _ => 0) b Hb Hs ltac:(lia)) as (s2 & w1 & E2 & H2 & _).
  rewrite Mn in E1. injection E1 as <- <-. rewrite Mb in E2. injection E2 as <- <-.
  destruct (bytes_eqb n b) eqn:B.
  - apply bytes_eqb_eq in B. subst b. rewrite Mn in Mb. injection Mb as ->. apply Z.eqb_refl.
  - apply Z.eqb_neq. intros ->. rewrite (holds_fun _ _ _ _ _ H1 H2), bytes_eqb_refl in B. discriminate.
Qed.

Lemma mk_short st b : bytes_ok b -> zlen b <= 5 -> exists w, mk_string st b = OK (st, w).
Proof.
  intros Hb Lb. destruct (Z_le_gt_dec (zlen b) 4).
  - rewrite mk_inline4 by assumption. eauto.
  - rewrite mk_inline5 by (auto; lia). eauto.
Qed.

(** A long name is never stored as an inline value, so it differs from every short one. *)
Lemma inline_long st ext kv n b w : name_of st ext kv n -> bytes_ok n -> bytes_ok b -> zlen b <= 5 -> 5 < zlen n ->
  zlen (so st) < 2 ^ 48 -> mk_string st b = OK (st, w) -> (kv =? w) = bytes_eqb n b.
Proof.
  intros (H1 & _ & _) Hn Hb Lb Ln Hs Mb.
  destruct (mk_string_holds st ext b Hb Hs ltac:(lia)) as (s2 & w1 & E2 & H2 & _).
  rewrite Mb in E2. injection E2 as <- <-.
  destruct (bytes_eqb n b) eqn:B; [apply bytes_eqb_eq in B; subst; lia|].
  apply Z.eqb_neq. intros ->. rewrite (holds_fun _ _ _ _ _ H1 H2), bytes_eqb_refl in B. discriminate.
Qed.

(** References. *)
Lemma refers_object v o : refers v o -> is_object v = true /\ get_object_struct v = OK o /\ is_u64 v.
Proof.
  intros (Ho & Hv).
  assert (L : Z.land v TAG_MASK = v / 2 ^ 48 * 2 ^ 48).
  { unfold TAG_MASK. apply land_mask. destruct Hv as [-> | ->]; unfold is_u64; lia. }
  assert (E : is_object v = true).
  { unfold is_object, TAG_OBJECT, TAG_ARRAY. rewrite L. destruct Hv as [-> | ->]; lia. }
  split; [exact E|]. split.
  - unfold get_object_struct. replace (is_null v) with false.
    + rewrite E. f_equal. unfold get_ptr_raw. rewrite land_ones_mod by lia. destruct Hv as [-> | ->]; lia.
    + unfold is_null, V_NULL, TAG_NULL. destruct Hv as [-> | ->]; lia.
  - unfold is_u64. destruct Hv as [-> | ->]; lia.
Qed.

(** Cells. *)
Lemma cells_fun h : forall l p l', cells h p l -> cells h p l' -> l = l'.
Proof.
  induction l as [|[a c] l IH]; intros p [|[a' c'] l'] H1 H2; cbn [cells] in *; try reflexivity.
  - destruct H2 as (-> & H & _). contradiction.
  - destruct H1 as (-> & H & _). contradiction.
  - destruct H1 as (-> & N & G & R). destruct H2 as (<- & _ & G' & R'). rewrite G in G'. injection G' as <-.
    f_equal. eapply IH; eassumption.
Qed.
Lemma cells_suffix h : forall l p a, cells h p l -> In a (map fst l) ->
  exists l2, cells h a l2 /\ (length l2 <= length l)%nat.
Proof.
  induction l as [|[b c] l IH]; intros p a H Hin; cbn [map fst In] in Hin; [contradiction|].
  destruct Hin as [<-|Hin].
  - exists ((b, c) :: l). pose proof H as Hc. cbn [cells] in H. destruct H as (-> & _). split; [exact Hc|lia].
  - cbn [cells] in H. destruct H as (_ & _ & _ & H). destruct (IH _ _ H Hin) as (l2 & A & B).
    exists l2. split; [exact A|cbn [length]; lia].
Qed.
Lemma cells_nodup h : forall l p, cells h p l -> NoDup (map fst l).
Proof.
  induction l as [|[a c] l IH]; intros p H; cbn [map fst]; [constructor|].
  pose proof H as H0. cbn [cells] in H. destruct H as (E & N & G & R). constructor; [|eapply IH; eassumption].
  intros Hin. destruct (cells_suffix h l _ _ R Hin) as (l2 & A & B). subst p.
  pose proof (cells_fun h _ _ _ H0 A) as Q. apply (f_equal (@length _)) in Q. cbn [length] in Q. lia.
Qed.
Lemma cells_get h : forall l p a c, cells h p l -> In (a, c) l -> aget (h_props h) a = Some c /\ a <> 0.
Proof.
  induction l as [|[b d] l IH]; intros p a c H Hin; [contradiction|].
  cbn [cells] in H. destruct H as (-> & N & G & R). destruct Hin as [Q|Hin]; [injection Q as <- <-; auto|].
  eapply IH; eassumption.
Qed.
Lemma cells_length h l p : cells h p l -> (length l <= pfuel h)%nat.
Proof.
  intros H. unfold pfuel. rewrite <- (map_length fst l), <- (map_length fst (h_props h)).
  apply NoDup_incl_length; [eapply cells_nodup; eassumption|].
  intros a Ha. apply in_map_iff in Ha. destruct Ha as ([b c] & <- & Hin).
  destruct (cells_get h l p b c H Hin) as [G _]. eapply aget_in; eassumption.
Qed.
Lemma cells_frame h h' : forall l p, cells h p l ->
  (forall a, In a (map fst l) -> aget (h_props h') a = aget (h_props h) a) -> cells h' p l.
Proof.
  induction l as [|[a c] l IH]; intros p H F; cbn [cells] in *; [assumption|].
  destruct H as (E & N & G & R). rewrite F by (left; reflexivity). repeat split; auto.
  apply IH; [assumption|]. intros b Hb. apply F. right. assumption.
Qed.

Lemma walk_spec h ext test f m : forall l p fuel,
  cells h p l -> (length l <= fuel)%nat -> Forall2 (entry_rep (h_st h) ext) l m ->
  (forall x e, In (x, e) (combine l m) -> test (snd x) = OK (f (fst e) : bool)) ->
  walk fuel h test p = OK (match find (fun xe => f (fst (snd xe))) (combine l m) with
                           | Some (a, _, _) => a | None => 0 end).
Proof.
  induction m as [|e m IH]; intros l p fuel H L F T.
  - inversion F; subst. cbn [cells] in H. subst p. destruct fuel; reflexivity.
  - inversion F as [|[a c] e' l' m' R F' E1 E2]; subst. cbn [cells] in H. destruct H as (-> & N & G & Hc).
    destruct fuel as [|fuel]; [cbn [length] in L; lia|]. cbn [walk]. replace (a =? 0) with false by lia.
    unfold prop_at. rewrite G. cbn [bind]. pose proof (T (a, c) e (or_introl eq_refl)) as T0. cbn [snd] in T0. rewrite T0. cbn [bind combine find].
    cbn [fst snd]. destruct (f (fst e)); [reflexivity|].
    apply IH; auto; [cbn [length] in L; lia|]. intros x e2 Hin. apply T. right. assumption.
Qed.

(** Where a name sits. *)
Definition hit (n : list Z) (xe : (Z * pcell) * (list Z * Z)) : bool := bytes_eqb (fst (snd xe)) n.

Lemma Forall2_in_combine {A B} (P : A -> B -> Prop) l m x y : Forall2 P l m -> In (x, y) (combine l m) -> P x y.
Proof.
  intros H. induction H as [|a b l m Hab H IH]; cbn [combine In]; [contradiction|].
  intros [Q|Q]; [injection Q as <- <-; assumption|auto].
Qed.
Lemma in_combine_r' {A B} (l : list A) (m : list B) x y : In (x, y) (combine l m) -> In y m.
Proof. apply in_combine_r. Qed.

Lemma own_property_spec h ext v o cs m b :
  refers v o -> obj_rep h ext o cs m -> Forall (fun e => name_ok (fst e)) m ->
  bytes_ok b -> zlen b < 2 ^ 31 -> zlen (so (h_st h)) < 2 ^ 48 ->
  own_property h ext v b = OK (match find (hit b) (combine cs m) with Some (a, _, _) => a | None => 0 end).
Proof.
  intros Hr (first & G & Hc & F) Hm Hb Lb Hs.
  destruct (refers_object v o Hr) as (I1 & I2 & _). unfold own_property. rewrite I1, I2. cbn [negb bind].
  unfold obj_first. rewrite G. cbn [bind].
  assert (NM : forall x e, In (x, e) (combine cs m) -> name_ok (fst e) /\ name_of (h_st h) ext (pc_name (snd x)) (fst e)).
  { intros x e Hin. split.
    - rewrite Forall_forall in Hm. apply (Hm e). eapply in_combine_r'; eassumption.
    - apply (Forall2_in_combine _ _ _ _ _ F Hin). }
  destruct (zlen b <=? 5) eqn:E5.
  - destruct (mk_short (h_st h) b Hb ltac:(lia)) as (w & Mw). rewrite Mw. cbn [bind].
    rewrite (walk_spec h ext _ (fun n => bytes_eqb n b) m cs first); auto; [eapply cells_length; eassumption|].
    intros x e Hin. destruct (NM x e Hin) as (N1 & N2). f_equal.
    destruct (Z_le_gt_dec (zlen (fst e)) 5).
    + destruct N2 as (P1 & P2 & P3). destruct N1 as (Q1 & _).
      eapply inline_inj with (st := h_st h); eauto. lia.
    + destruct N1 as (Q1 & _). eapply inline_long; eauto; lia.
  - rewrite (walk_spec h ext _ (fun n => bytes_eqb n b) m cs first); auto; [eapply cells_length; eassumption|].
    intros x e Hin. destruct (NM x e Hin) as (N1 & N2).
    destruct (strcmp_name (h_st h) ext (pc_name (snd x)) (fst e) b N2 N1 Hb Lb) as (k & -> & Q).
    cbn [bind]. rewrite Q. reflexivity.
Qed.

Lemma find_hit_lookup st ext cs m b : Forall2 (entry_rep st ext) cs m ->
  match find (hit b) (combine cs m) with
  | Some (a, c, e) => In (a, c) cs /\ lookup m b = Some (pc_val c) /\ fst e = b
  | None => lookup m b = None
  end.
Proof.
  intros F. induction F as [|[a c] [n v] cs m [R1 R2] F IH]; [reflexivity|].
  cbn [combine find lookup]. unfold hit at 1. cbn [fst snd] in *.
  destruct (bytes_eqb n b) eqn:E.
  - split; [left; reflexivity|]. split; [congruence|apply bytes_eqb_eq; assumption].
  - destruct (find (hit b) (combine cs m)) as [[[a1 c1] e1]|]; [|assumption].
    destruct IH as (I1 & I2 & I3). split; [right; assumption|auto].
Qed.

Lemma obj_get_spec h ext M v o m b :
  hrep h ext M -> M o = Some m -> refers v o -> bytes_ok b -> zlen b < 2 ^ 31 -> zlen (so (h_st h)) < 2 ^ 48 ->
  obj_get h ext v b = OK (match lookup m b with Some x => x | None => V_UNDEFINED end).
Proof.
  intros (C & A1 & A2 & A3 & A4 & A5) HM Hr Hb Lb Hs. destruct (A2 o m HM) as (R & ND & NM).
  unfold obj_get. rewrite (own_property_spec h ext v o (C o) m b) by assumption. cbn [bind].
  destruct R as (first & G & Hc & F). pose proof (find_hit_lookup _ _ _ _ b F) as Q.
  destruct (find (hit b) (combine (C o) m)) as [[[a c] e]|].
  - destruct Q as (Q1 & Q2 & Q3). destruct (cells_get h _ _ _ _ Hc Q1) as [Ga Na].
    replace (a =? 0) with false by lia. unfold prop_at. rewrite Ga, Q2. reflexivity.
  - rewrite Q. reflexivity.
Qed.

(** Writing the value of a cell. *)
Definition setval (cs : list (Z * pcell)) (a v : Z) : list (Z * pcell) :=
  map (fun x => if fst x =? a then (fst x, with_val (snd x) v) else x) cs.
Lemma setval_fst cs a v : map fst (setval cs a v) = map fst cs.
Proof. unfold setval. rewrite map_map. apply map_ext. intros [b c]. cbn [fst]. destruct (b =? a); reflexivity. Qed.

Lemma cells_setval h a v c0 : aget (h_props h) a = Some c0 -> forall l p, cells h p l ->
  cells (with_props h (aset (h_props h) a (with_val c0 v))) p (setval l a v).
Proof.
  intros G0. induction l as [|[b c] l IH]; intros p H; cbn [cells setval map] in *; [assumption|].
  destruct H as (-> & N & G & R). cbn [fst snd]. destruct (b =? a) eqn:E.
  - assert (b = a) by lia. subst b. rewrite G0 in G. injection G as <-.
    cbn [cells]. split; [reflexivity|]. split; [assumption|]. split; [|apply IH; exact R].
    cbn [h_props with_props]. eapply aget_aset_same; eassumption.
  - cbn [cells]. split; [reflexivity|]. split; [assumption|]. split; [|apply IH; exact R].
    cbn [h_props with_props]. rewrite aget_aset_other by lia. assumption.
Qed.

Lemma setval_notin cs a v : ~ In a (map fst cs) -> setval cs a v = cs.
Proof.
  induction cs as [|[b c] cs IH]; intros H; [reflexivity|]. cbn [setval map fst]. 
  cbn [map fst In] in H. replace (b =? a) with false by (destruct (Z.eqb_spec b a); [exfalso; auto|reflexivity]).
  f_equal. apply IH. auto.
Qed.

Lemma rep_setval st ext b v cs m : Forall2 (entry_rep st ext) cs m -> NoDup (map fst cs) ->
  match find (hit b) (combine cs m) with
  | Some (a, _, _) => Forall2 (entry_rep st ext) (setval cs a v) (replace m b v)
  | None => True
  end.
Proof.
  intros F. induction F as [|[a c] [n w] cs m [R1 R2] F IH]; intros ND; [exact I|].
  cbn [map fst] in ND. inversion ND as [|? ? N1 N2]; subst.
  cbn [combine find replace]. unfold hit at 1. cbn [fst snd] in *.
  destruct (bytes_eqb n b) eqn:E.
  - cbn [setval map fst]. rewrite Z.eqb_refl. constructor; [split; [exact R1|reflexivity]|].
    fold (setval cs a v). rewrite setval_notin by assumption. assumption.
  - specialize (IH N2). pose proof (find_hit_lookup st ext cs m b F) as Q.
    destruct (find (hit b) (combine cs m)) as [[[a1 c1] e1]|]; [|exact I].
    destruct Q as (Q1 & _). cbn [setval map fst].
    replace (a =? a1) with false.
    + constructor; [split; assumption|exact IH].
    + symmetry. apply Z.eqb_neq. intros ->. apply N1. apply in_map_iff. exists (a1, c1). auto.
Qed.

Lemma replace_names m b v : map fst (replace m b v) = map fst m.
Proof. induction m as [|[n w] m IH]; [reflexivity|]. cbn [replace map fst]. destruct (bytes_eqb n b); cbn [map fst]; congruence. Qed.
Lemma lookup_none_notin m b : lookup m b = None -> ~ In b (map fst m).
Proof.
  induction m as [|[n w] m IH]; cbn [lookup map fst In]; [auto|].
  destruct (bytes_eqb n b) eqn:E; [discriminate|]. intros H [Q|Q]; [|exact (IH H Q)].
  subst n. rewrite bytes_eqb_refl in E. discriminate.
Qed.
Lemma lookup_in m b v : lookup m b = Some v -> In (b, v) m.
Proof.
  induction m as [|[n w] m IH]; cbn [lookup]; [discriminate|].
  destruct (bytes_eqb n b) eqn:E; [|right; auto]. intros Q. injection Q as ->. apply bytes_eqb_eq in E. subst. left. reflexivity.
Qed.
Lemma Forall_names m m' : map fst m = map fst m' -> Forall (fun e : list Z * Z => name_ok (fst e)) m ->
  Forall (fun e : list Z * Z => name_ok (fst e)) m'.
Proof.
  intros E H. rewrite Forall_forall in *. intros x Hx.
  assert (In (fst x) (map fst m)) by (rewrite E; apply in_map; assumption).
  apply in_map_iff in H0. destruct H0 as (y & Q & Hy). rewrite <- Q. apply H. assumption.
Qed.

Lemma entry_rep_grows st st' ext x e : grows st st' -> entry_rep st ext x e -> entry_rep st' ext x e.
Proof. intros G (H1 & H2). split; [eapply name_of_grows; eassumption|assumption]. Qed.
Lemma Forall2_impl' {A B} (P Q : A -> B -> Prop) l m : (forall x y, P x y -> Q x y) -> Forall2 P l m -> Forall2 Q l m.
Proof. intros H F. induction F; constructor; auto. Qed.

Lemma supd_same M o m : supd M o m o = Some m.
Proof. unfold supd. rewrite Z.eqb_refl. reflexivity. Qed.
Lemma supd_other M o m x : x <> o -> supd M o m x = M x.
Proof. intros H. unfold supd. replace (x =? o) with false by lia. reflexivity. Qed.

(** The value of an existing property changes. *)
Lemma hrep_setval h ext M o m b v :
  hrep h ext M -> M o = Some m -> forall C,
  (forall o m, M o = Some m ->
       obj_rep h ext o (C o) m /\ NoDup (map fst m) /\ Forall (fun e => name_ok (fst e)) m) ->
  (forall o1 o2 m1 m2 a, o1 <> o2 -> M o1 = Some m1 -> M o2 = Some m2 ->
       In a (map fst (C o1)) -> In a (map fst (C o2)) -> False) ->
  forall a c e, find (hit b) (combine (C o) m) = Some (a, c, e) ->
  hrep (with_props h (aset (h_props h) a (with_val c v))) ext (supd M o (replace m b v)).
Proof.
  intros (C0 & A1 & _ & _ & A4 & A5) HM C A2 A3 a c e Hf.
  destruct (A2 o m HM) as ((first & G & Hc & F) & ND & NM).
  pose proof (find_hit_lookup _ _ _ _ b F) as Q. rewrite Hf in Q. destruct Q as (Q1 & Q2 & Q3).
  destruct (cells_get h _ _ _ _ Hc Q1) as [Ga Na].
  assert (Ha : In a (map fst (C o))) by (apply in_map_iff; exists (a, c); auto).
  exists (fun x => if x =? o then setval (C o) a v else C x).
  assert (CF : forall x, map fst (if x =? o then setval (C o) a v else C x) = map fst (C x)).
  { intros x. destruct (Z.eqb_spec x o); [subst; apply setval_fst|reflexivity]. }
  split; [|split; [|split; [|split]]].
  - intros x. destruct (Z.eq_dec x o) as [->|Hx].
    + rewrite supd_same. cbn [h_objs with_props]. rewrite G. split; discriminate.
    + rewrite supd_other by assumption. apply A1.
  - intros x mx Hx. destruct (Z.eq_dec x o) as [->|Ho].
    + rewrite supd_same in Hx. injection Hx as <-. rewrite Z.eqb_refl.
      split; [|split; [rewrite replace_names; assumption|]].
      * exists first. cbn [h_objs with_props h_st]. split; [assumption|]. split; [apply cells_setval; assumption|].
        pose proof (rep_setval _ _ b v _ _ F (cells_nodup _ _ _ Hc)) as R. rewrite Hf in R. exact R.
      * eapply Forall_names; [|exact NM]. symmetry. apply replace_names.
    + rewrite supd_other in Hx by assumption. replace (x =? o) with false by lia.
      destruct (A2 x mx Hx) as ((fx & Gx & Hcx & Fx) & NDx & NMx). split; [|auto].
      exists fx. cbn [h_objs with_props h_st]. split; [assumption|]. split; [|assumption].
      eapply cells_frame; [eassumption|]. intros y Hy. cbn [h_props with_props].
      apply aget_aset_other. intros <-. exact (A3 o x m mx a ltac:(congruence) HM Hx Ha Hy).
  - intros o1 o2 m1 m2 y Ho H1 H2 I1 I2. rewrite CF in I1, I2.
    assert (Y : forall x mx, supd M o (replace m b v) x = Some mx -> exists m', M x = Some m').
    { intros x mx Hx. destruct (Z.eq_dec x o) as [->|Hn]; [eauto|]. rewrite supd_other in Hx by assumption. eauto. }
    destruct (Y _ _ H1) as (m1' & H1'). destruct (Y _ _ H2) as (m2' & H2').
    exact (A3 o1 o2 m1' m2' y Ho H1' H2' I1 I2).
  - intros y cy. cbn [h_props with_props h_next]. destruct (Z.eq_dec a y) as [->|Hy].
    + intros _. eapply A4; eassumption.
    + rewrite aget_aset_other by assumption. apply A4.
  - exact A5.
Qed.

(** A new cell in front. *)
Lemma hrep_cons h ext M o m b v kv st' C first :
  (forall o, M o = None <-> aget (h_objs h) o = None) ->
  (forall o m, M o = Some m ->
       obj_rep h ext o (C o) m /\ NoDup (map fst m) /\ Forall (fun e => name_ok (fst e)) m) ->
  (forall o1 o2 m1 m2 a, o1 <> o2 -> M o1 = Some m1 -> M o2 = Some m2 ->
       In a (map fst (C o1)) -> In a (map fst (C o2)) -> False) ->
  (forall a c, aget (h_props h) a = Some c -> 0 < a < h_next h) ->
  (forall o p, aget (h_objs h) o = Some p -> 0 < o < h_next h) ->
  0 < h_next h ->
  M o = Some m -> aget (h_objs h) o = Some first -> grows (h_st h) st' -> name_of st' ext kv b -> name_ok b ->
  lookup m b = None ->
  let a := h_next h in
  hrep {| h_st := st'; h_objs := aset (h_objs h) o a;
          h_props := (a, {| pc_next := first; pc_name := kv; pc_val := v |}) :: h_props h;
          h_next := a + 24 |} ext (supd M o ((b, v) :: m)).
Proof.
  intros A1 A2 A3 A4 A5 Hn HM Gf Gr Nm Nb Lk a. subst a.
  set (h' := {| h_st := st'; h_objs := _; h_props := _; h_next := _ |}).
  set (nc := {| pc_next := first; pc_name := kv; pc_val := v |}).
  assert (Fr : forall l p, cells h p l -> cells h' p l).
  { intros l p H. eapply cells_frame; [eassumption|]. intros y Hy. apply in_map_iff in Hy.
    destruct Hy as ([y' cy] & <- & Hin). destruct (cells_get h _ _ _ _ H Hin) as [Gy _].
    cbn [fst h_props h' aget]. pose proof (A4 _ _ Gy). replace (h_next h =? y') with false by lia. reflexivity. }
  assert (NF : forall x mx, M x = Some mx -> ~ In (h_next h) (map fst (C x))).
  { intros x mx Hx Hin. destruct (A2 x mx Hx) as ((fx & Gx & Hcx & Fx) & _).
    apply in_map_iff in Hin. destruct Hin as ([y cy] & Q & Hin). cbn [fst] in Q. subst y.
    destruct (cells_get h _ _ _ _ Hcx Hin) as [Gy _]. pose proof (A4 _ _ Gy). lia. }
  exists (fun x => if x =? o then (h_next h, nc) :: C o else C x).
  split; [|split; [|split; [|split]]].
  - intros x. cbn [h_objs h']. destruct (Z.eq_dec x o) as [->|Hx].
    + rewrite supd_same. erewrite aget_aset_same by eassumption. split; discriminate.
    + rewrite supd_other, aget_aset_other by lia. apply A1.
  - intros x mx Hx. destruct (Z.eq_dec x o) as [->|Ho].
    + rewrite supd_same in Hx. injection Hx as <-. rewrite Z.eqb_refl.
      destruct (A2 o m HM) as ((fo & Go & Hco & Fo) & ND & NM). rewrite Gf in Go. injection Go as <-.
      split; [|split].
      * exists (h_next h). cbn [h_objs h' h_st]. split; [eapply aget_aset_same; eassumption|].
        split; [|constructor; [split; [assumption|reflexivity]|]].
        -- cbn [cells]. split; [reflexivity|]. split; [lia|]. split; [cbn [h_props h' aget]; rewrite Z.eqb_refl; reflexivity|].
           cbn [pc_next nc]. apply Fr. assumption.
        -- eapply Forall2_impl'; [|exact Fo]. intros. eapply entry_rep_grows; eassumption.
      * cbn [map fst]. constructor; [apply lookup_none_notin; assumption|assumption].
      * constructor; assumption.
    + rewrite supd_other in Hx by assumption. replace (x =? o) with false by lia.
      destruct (A2 x mx Hx) as ((fx & Gx & Hcx & Fx) & NDx & NMx). split; [|auto].
      exists fx. cbn [h_objs h' h_st]. split; [rewrite aget_aset_other by lia; assumption|].
      split; [apply Fr; assumption|]. eapply Forall2_impl'; [|exact Fx]. intros. eapply entry_rep_grows; eassumption.
  - intros o1 o2 m1 m2 y Ho H1 H2 I1 I2.
    destruct (Z.eqb_spec o1 o) as [->|E1]; destruct (Z.eqb_spec o2 o) as [->|E2]; try congruence.
    + rewrite supd_other in H2 by assumption. cbn [map fst In] in I1. destruct I1 as [<-|I1].
      * exact (NF o2 m2 H2 I2).
      * exact (A3 o o2 m m2 y ltac:(congruence) HM H2 I1 I2).
    + rewrite supd_other in H1 by assumption. cbn [map fst In] in I2. destruct I2 as [<-|I2].
      * exact (NF o1 m1 H1 I1).
      * exact (A3 o1 o m1 m y ltac:(congruence) H1 HM I1 I2).
    + rewrite supd_other in H1, H2 by assumption. exact (A3 o1 o2 m1 m2 y Ho H1 H2 I1 I2).
  - intros y cy. cbn [h_props h' aget h_next]. destruct (h_next h =? y) eqn:E; [lia|]. intros Q. apply A4 in Q. lia.
  - intros y p. cbn [h_objs h' h_next]. destruct (Z.eq_dec o y) as [->|Hy].
    + intros _. pose proof (A5 y first Gf). lia.
    + rewrite aget_aset_other by assumption. intros Q. apply A5 in Q. lia.
Qed.

(** How many bytes a string may add to the string heap. *)
Lemma mk_string_room st d st' v : mk_string st d = OK (st', v) -> zlen d < 2 ^ 63 ->
  zlen (so st') <= zlen (so st) + zlen d + 11 /\ sf st' = sf st.
Proof.
  unfold mk_string, mk_string_src. rewrite Z.eqb_refl. cbn [negb]. intros H Hd. pose proof (zlen_nonneg d).
  destruct (zlen d <=? 4); [injection H as <- <-; split; [lia|reflexivity]|].
  destruct (zlen d =? 5); [injection H as <- <-; split; [lia|reflexivity]|].
  injection H as <- <-. cbn [so sf]. split; [|reflexivity]. unfold embed_bytes. rewrite !zlen_app.
  destruct (Varint_Proofs.varint_len_u64 (zlen d)) as [L1 L2]; [unfold is_u64; lia|].
  change (zlen [0]) with 1. lia.
Qed.

Lemma set_prop_spec h ext M v o m key b val :
  hrep h ext M -> M o = Some m -> refers v o -> name_ok b -> small h (64 + zlen b) ->
  (forall k, key = Some k -> is_string k = true -> name_of (h_st h) ext k b) ->
  exists h', set_prop h ext v key b val = OK (h', E_OK) /\ hrep h' ext (supd M o (mput m b val)) /\
    grows (h_st h) (h_st h') /\ h_next h' <= h_next h + 24 /\ h_next h <= h_next h' /\
    zlen (so (h_st h')) <= zlen (so (h_st h)) + zlen b + 11.
Proof.
  intros Hrep HM Hr Nb (S0 & S1 & S2) Hk. pose proof Hrep as (C & A1 & A2 & A3 & A4 & A5).
  destruct (A2 o m HM) as (R & ND & NM). pose proof R as (first & G & Hc & F).
  pose proof Nb as (B1 & B2 & B3). pose proof (zlen_nonneg b).
  unfold set_prop. rewrite (own_property_spec h ext v o (C o) m b) by (auto; lia). cbn [bind].
  pose proof (find_hit_lookup _ _ _ _ b F) as Q.
  destruct (find (hit b) (combine (C o) m)) as [[[a c] e]|] eqn:Ef.
  - destruct Q as (Q1 & Q2 & Q3). destruct (cells_get h _ _ _ _ Hc Q1) as [Ga Na].
    replace (a =? 0) with false by lia. unfold prop_at. rewrite Ga. cbn [bind].
    eexists; split; [reflexivity|]. unfold mput. rewrite Q2. split.
    + eapply hrep_setval with (C := C); eauto.
    + cbn [h_st h_next with_props]. split; [apply grows_refl|]. lia.
  - change (0 =? 0) with true. cbv iota. destruct (refers_object v o Hr) as (I1 & I2 & _). rewrite I1. cbn [negb].
    assert (KV : exists st' kv, 
       (match key with
                    | Some k => if is_string k then OK (h, k)
                                else '(s, v) <- mk_string (h_st h) b ;; OK (with_st h s, v)
                    | None => '(s, v) <- mk_string (h_st h) b ;; OK (with_st h s, v)
                    end) = OK (with_st h st', kv) /\ grows (h_st h) st' /\ name_of st' ext kv b /\
       zlen (so st') <= zlen (so (h_st h)) + zlen b + 11).
    { assert (MK : exists st' kv, ('(s, v) <- mk_string (h_st h) b ;; OK (with_st h s, v)) = OK (with_st h st', kv)
         /\ grows (h_st h) st' /\ name_of st' ext kv b /\ zlen (so st') <= zlen (so (h_st h)) + zlen b + 11).
      { destruct (mk_string_holds (h_st h) ext b B1 ltac:(lia) ltac:(lia)) as (st' & kv & Mk & Hh & Hn & _ & _ & Hsh).
        exists st', kv. rewrite Mk. cbn [bind]. split; [reflexivity|]. split; [eapply mk_string_grows; eassumption|].
        split; [|apply mk_string_room in Mk; lia]. split; [assumption|]. split; [assumption|].
        intros Hl. specialize (Hsh Hl). subst st'. assumption. }
      destruct key as [k|]; [|exact MK]. destruct (is_string k) eqn:Ek; [|exact MK].
      exists (h_st h), k. split; [destruct h; reflexivity|]. split; [apply grows_refl|].
      split; [apply Hk; auto|lia]. }
    destruct KV as (st' & kv & -> & Gr & Nm & Room). cbn [bind]. unfold new_property. cbn [h_next with_st].
    replace (h_next h + 32 >? 2 ^ 47) with false by lia. cbn [bind]. rewrite I2. cbn [bind].
    unfold obj_first. cbn [h_objs with_st]. rewrite G. cbn [bind].
    unfold with_objs, with_props. cbn [h_st h_objs h_props h_next with_st aset]. rewrite Z.eqb_refl.
    eexists; split; [reflexivity|]. unfold mput. rewrite Q. split.
    + eapply hrep_cons with (C := C); eauto.
    + cbn [h_st h_next]. split; [assumption|]. lia.
Qed.

(** Deletion. *)
Lemma del_unlink h ext M o m b C first (pre post : list (Z * pcell)) mpre mpost a c v h' :
  (forall o, M o = None <-> aget (h_objs h) o = None) ->
  (forall o m, M o = Some m ->
       obj_rep h ext o (C o) m /\ NoDup (map fst m) /\ Forall (fun e => name_ok (fst e)) m) ->
  (forall o1 o2 m1 m2 a, o1 <> o2 -> M o1 = Some m1 -> M o2 = Some m2 ->
       In a (map fst (C o1)) -> In a (map fst (C o2)) -> False) ->
  (forall a c, aget (h_props h) a = Some c -> 0 < a < h_next h) ->
  (forall o p, aget (h_objs h) o = Some p -> 0 < o < h_next h) ->
  M o = Some m -> aget (h_objs h) o = Some first -> cells h first (C o) ->
  C o = pre ++ (a, c) :: post -> m = mpre ++ (b, v) :: mpost ->
  Forall2 (entry_rep (h_st h) ext) pre mpre -> Forall2 (entry_rep (h_st h) ext) post mpost ->
  h' = match rev pre with
       | [] => with_objs h (aset (h_objs h) o (pc_next c))
       | (pa, pcx) :: _ => with_props h (aset (h_props h) pa (with_next pcx (pc_next c)))
       end ->
  hrep h' ext (supd M o (mpre ++ mpost)).
Proof.
  intros A1 A2 A3 A4 A5 HM G Hc HC Hm F1 F2 Hh.
  destruct (A2 o m HM) as (_ & ND & NM).
  assert (NDm : NoDup (map fst (mpre ++ mpost)) /\ Forall (fun e => name_ok (fst e)) (mpre ++ mpost)).
  { subst m. split.
    - rewrite map_app in *. cbn [map] in ND. apply NoDup_remove_1 in ND. assumption.
    - rewrite Forall_app in *. destruct NM as [N1 N2]. split; [assumption|]. apply Forall_inv_tail in N2. assumption. }
  assert (Hpost : cells h (pc_next c) post).
  { clear -Hc HC. rewrite HC in Hc. clear HC. revert first Hc. induction pre as [|[x cx] pre IH]; intros first Hc; cbn [app cells] in Hc.
    - tauto.
    - destruct Hc as (_ & _ & _ & R). eapply IH; eassumption. }
  pose proof (cells_nodup _ _ _ Hc) as NDc. rewrite HC in NDc.
  destruct pre as [|x0 pre0] eqn:Epre using rev_ind.
  - cbn [rev] in Hh. subst h'. inversion F1; subst mpre. cbn [app] in *.
    exists (fun x => if x =? o then post else C x).
    split; [|split; [|split; [|split]]].
    + intros x. cbn [h_objs with_objs]. destruct (Z.eq_dec x o) as [->|Hx].
      * rewrite supd_same. erewrite aget_aset_same by eassumption. split; discriminate.
      * rewrite supd_other, aget_aset_other by lia. apply A1.
    + intros x mx Hx. destruct (Z.eq_dec x o) as [->|Ho].
      * rewrite supd_same in Hx. injection Hx as <-. rewrite Z.eqb_refl. split; [|exact NDm].
        exists (pc_next c). cbn [h_objs with_objs h_st]. split; [eapply aget_aset_same; eassumption|]. split; [eapply cells_frame; [exact Hpost|reflexivity]|assumption].
      * rewrite supd_other in Hx by assumption. replace (x =? o) with false by lia.
        destruct (A2 x mx Hx) as ((fx & Gx & Hcx & Fx) & NDx & NMx). split; [|auto].
        exists fx. cbn [h_objs with_objs h_st]. rewrite aget_aset_other by lia. split; [assumption|].
        split; [eapply cells_frame; [exact Hcx|reflexivity]|assumption].
    + intros o1 o2 m1 m2 y Ho H1 H2 I1 I2.
      assert (SUB : In y (map fst post) -> In y (map fst (C o))) by (rewrite HC; cbn [map In]; auto).
      destruct (Z.eqb_spec o1 o) as [->|E1]; destruct (Z.eqb_spec o2 o) as [->|E2]; try congruence.
      * rewrite supd_other in H2 by assumption. exact (A3 o o2 _ _ y ltac:(congruence) HM H2 (SUB I1) I2).
      * rewrite supd_other in H1 by assumption. exact (A3 o1 o _ _ y ltac:(congruence) H1 HM I1 (SUB I2)).
      * rewrite supd_other in H1, H2 by assumption. exact (A3 o1 o2 m1 m2 y Ho H1 H2 I1 I2).
    + exact A4.
    + intros y p. cbn [h_objs with_objs h_next]. destruct (Z.eq_dec o y) as [->|Hy].
      * intros _. exact (A5 y first G).
      * rewrite aget_aset_other by assumption. apply A5.
  - clear IHpre0. destruct x0 as [pa pcx]. rewrite rev_app_distr in Hh. cbn [rev app] in Hh. subst h'.
    set (h' := with_props h (aset (h_props h) pa (with_next pcx (pc_next c)))).
    rewrite map_app, map_app in NDc. cbn [map fst] in NDc.
    assert (Gpa : aget (h_props h) pa = Some pcx /\ pa <> 0).
    { eapply cells_get; [exact Hc|]. rewrite HC. apply in_or_app. left. apply in_or_app. right. left. reflexivity. }
    assert (Npost : ~ In pa (map fst post)).
    { intros Q. rewrite <- app_assoc in NDc. apply NoDup_remove_2 in NDc. apply NDc. apply in_or_app. right. right. assumption. }
    assert (Npre : ~ In pa (map fst pre0)).
    { intros Q. rewrite <- app_assoc in NDc. apply NoDup_remove_2 in NDc. apply NDc. apply in_or_app. left. assumption. }
    assert (Hnew : forall l p, ~ In pa (map fst l) -> cells h p l -> cells h' p l).
    { intros l p Hn H. eapply cells_frame; [eassumption|]. intros y Hy. cbn [h_props h' with_props].
      apply aget_aset_other. intros <-. contradiction. }
    exists (fun x => if x =? o then pre0 ++ (pa, with_next pcx (pc_next c)) :: post else C x).
    split; [|split; [|split; [|split]]].
    + intros x. cbn [h_objs with_props h']. destruct (Z.eq_dec x o) as [->|Hx].
      * rewrite supd_same, G. split; discriminate.
      * rewrite supd_other by assumption. apply A1.
    + intros x mx Hx. destruct (Z.eq_dec x o) as [->|Ho].
      * rewrite supd_same in Hx. injection Hx as <-. rewrite Z.eqb_refl. split; [|exact NDm].
        exists first. cbn [h_objs with_props h' h_st]. split; [assumption|]. split.
        -- rewrite HC in Hc. clear -Hc Hpost Hnew Npre Npost Gpa. revert first Hc.
           assert (Np : forall y, In y (map fst pre0) -> y <> pa) by (intros y Hy ->; contradiction).
           clear Npre. induction pre0 as [|[y cy] pre0 IH]; intros first Hc; cbn [app cells] in *.
           ++ destruct Hc as (-> & N & Gx & R). split; [reflexivity|]. split; [assumption|]. split.
              ** cbn [h_props h' with_props]. eapply aget_aset_same. apply Gpa.
              ** cbn [pc_next with_next]. apply Hnew; assumption.
           ++ destruct Hc as (-> & N & Gx & R). split; [reflexivity|]. split; [assumption|]. split.
              ** cbn [h_props h' with_props]. rewrite aget_aset_other; [assumption|]. intros Q.
                 apply (Np y); [left; reflexivity|congruence].
              ** apply IH; [|assumption]. intros z Hz. apply Np. right. assumption.
        -- apply Forall2_app_inv_l in F1. destruct F1 as (m1 & m2 & Fa & Fb & ->). rewrite <- app_assoc.
           apply Forall2_app; [assumption|]. inversion Fb as [|? [n2 v2] ? ? [E1 E2] E3]; subst. inversion E3; subst.
           cbn [app]. constructor; [split; assumption|assumption].
      * rewrite supd_other in Hx by assumption. replace (x =? o) with false by lia.
        destruct (A2 x mx Hx) as ((fx & Gx & Hcx & Fx) & NDx & NMx). split; [|auto].
        exists fx. cbn [h_objs with_props h' h_st]. split; [assumption|]. split; [|assumption].
        apply Hnew; [|assumption]. intros Q. refine (A3 o x m mx pa _ HM Hx _ Q); [congruence|].
        rewrite HC, map_app. apply in_or_app. left. rewrite map_app. apply in_or_app. right. left. reflexivity.
    + intros o1 o2 m1 m2 y Ho H1 H2 I1 I2.
      assert (SUB : In y (map fst (pre0 ++ (pa, with_next pcx (pc_next c)) :: post)) -> In y (map fst (C o))).
      { rewrite HC, !map_app. cbn [map fst]. intros Q. apply in_app_or in Q. apply in_or_app.
        destruct Q as [Q|[Q|Q]]; [left; apply in_or_app; left; assumption|left; apply in_or_app; right; left; assumption|right; right; assumption]. }
      destruct (Z.eqb_spec o1 o) as [->|E1]; destruct (Z.eqb_spec o2 o) as [->|E2]; try congruence.
      * rewrite supd_other in H2 by assumption. exact (A3 o o2 _ _ y ltac:(congruence) HM H2 (SUB I1) I2).
      * rewrite supd_other in H1 by assumption. exact (A3 o1 o _ _ y ltac:(congruence) H1 HM I1 (SUB I2)).
      * rewrite supd_other in H1, H2 by assumption. exact (A3 o1 o2 m1 m2 y Ho H1 H2 I1 I2).
    + intros y cy. cbn [h_props with_props h' h_next]. destruct (Z.eq_dec pa y) as [->|Hy].
      * intros _. eapply A4. apply Gpa.
      * rewrite aget_aset_other by assumption. apply A4.
    + exact A5.
Qed.
