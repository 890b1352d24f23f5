(** Writing a tree and reading it again. *)
From Verif Require Import Base BaseFacts Value_Model Value_Spec Value_Proofs Str_Model Str_Spec Str_Proofs SUtil_Model SUtil_Spec SUtil_Proofs
  Obj_Model Obj_Spec Obj_Proofs Obj_Proofs2 Arr_Model Arr_Spec Arr_Proofs NumText_Spec NumText_Proofs
  Json_Model Json_Spec JsonOut_Spec RoundTrip_Spec Json_Proofs Json_Proofs6 Json_Proofs7 Json_Proofs8.
Local Ltac Zify.zify_post_hook ::= idtac.

Lemma jt_induct (P : jt -> Prop) : P TNull -> (forall b, P (TBool b)) -> (forall d, P (TNum d)) -> (forall s, P (TStr s)) ->
  (forall l, Forall P l -> P (TArr l)) -> (forall l, Forall (fun kx => P (snd kx)) l -> P (TObj l)) -> forall t, P t.
Proof.
  intros H1 H2 H3 H4 H5 H6. fix IH 1. intros t. destruct t as [|b|d|s|l|l]; [exact H1|apply H2|apply H3|apply H4| |].
  - apply H5. induction l as [|x l IHl]; constructor; [apply IH|exact IHl].
  - apply H6. induction l as [|[k x] l IHl]; constructor; [apply IH|exact IHl].
Qed.
Fixpoint tsize (t : jt) : nat :=
  match t with
  | TArr l => S (list_sum (map tsize l))
  | TObj l => S (list_sum (map (fun kx => tsize (snd kx)) l))
  | _ => O
  end.
Lemma echo_arr l : echo (TArr l) -> zlen l < 2 ^ 31 /\ Forall echo l.
Proof.
  intros [H F]. split; [exact H|]. clear H. induction l as [|x l IH]; [constructor|]. cbn [fold_right] in F. destruct F. constructor; auto.
Qed.
Definition good_member (kx : list Z * jt) : Prop := plain (fst kx) /\ zlen (fst kx) + 3 < 2 ^ 31 /\ echo (snd kx).
Lemma echo_obj l : echo (TObj l) -> NoDup (map fst l) /\ Forall good_member l.
Proof.
  intros [H F]. split; [exact H|]. clear H. induction l as [|x l IH]; [constructor|]. cbn [fold_right] in F. destruct F. constructor; auto.
Qed.
Lemma utf8_bytes s : utf8 s -> bytes_ok s.
Proof.
  induction 1 as [|c r Hc _ IH]; [constructor|]. apply Forall_app. split; [|exact IH].
  destruct Hc; repeat constructor; unfold is_byte, cont in *; lia.
Qed.
Lemma combine_fst {A B} (a : list A) : forall (b : list B), length a = length b -> map fst (combine a b) = a.
Proof. induction a as [|x a IH]; intros [|y b] H; try discriminate; [reflexivity|]. cbn [combine map fst]. f_equal. apply IH. injection H as H. exact H. Qed.
Lemma combine_inj {A B} (a : list A) : forall (b b' : list B), length a = length b -> length a = length b' -> combine a b = combine a b' -> b = b'.
Proof.
  induction a as [|x a IH]; intros [|y b] [|y' b'] H H' E; try discriminate; [reflexivity|].
  cbn [combine] in E. injection E as -> E. f_equal. apply IH; [injection H as H; exact H|injection H' as H'; exact H'|exact E].
Qed.
Lemma mbuild_rev l : NoDup (map fst l) -> mbuild [] l = rev l.
Proof.
  assert (G : forall l m, NoDup (map fst l) -> (forall k, In k (map fst l) -> ~ In k (map fst m)) -> mbuild m l = rev l ++ m).
  { clear l. induction l as [|[k v] l IH]; intros m N D; [reflexivity|]. cbn [mbuild rev]. cbn [map fst] in N, D. apply NoDup_cons_iff in N as [N1 N2].
    assert (E : mput m k v = (k, v) :: m).
    { unfold mput. destruct (lookup m k) as [w|] eqn:L; [|reflexivity]. exfalso. apply (D k (or_introl eq_refl)).
      apply lookup_in in L. apply (in_map fst) in L. exact L. }
    rewrite E, IH; [rewrite <- app_assoc; reflexivity|assumption|]. intros k' I' [Q|Q]; [cbn [fst] in Q; subst k'; auto|].
    apply (D k' (or_intror I') Q). }
  intros N. rewrite G; [apply app_nil_r|assumption|intros k _ []].
Qed.
Lemma elems_commas l ts : Forall2 denotes l ts -> l <> [] -> elems l (commas ts).
Proof.
  induction 1 as [|t x l ts D H IH]; [congruence|]. intros _. destruct H as [|t' x' l ts D' H].
  - cbn [commas]. pose proof (E_one t [] x [] (Forall_nil _) D (Forall_nil _)) as E. cbn [app] in E. rewrite app_nil_r in E. exact E.
  - change (commas (x :: x' :: ts)) with (x ++ 44 :: commas (x' :: ts)).
    exact (E_more t [] x [] (t' :: l) _ (Forall_nil _) D (Forall_nil _) (IH ltac:(discriminate))).
Qed.
Definition member_text (kx : list Z * jt) (t : list Z) : Prop :=
  exists x, t = 34 :: fst kx ++ 34 :: 58 :: x /\ plain (fst kx) /\ denotes (snd kx) x.
Lemma members_commas l ts : Forall2 member_text l ts -> l <> [] -> members l (commas ts).
Proof.
  induction 1 as [|[k t] x l ts D H IH]; [congruence|]. intros _. destruct D as (y & -> & Pl & D). cbn [fst snd] in *.
  destruct H as [|kx' x' l ts D' H].
  - cbn [commas]. pose proof (M_one k t [] [] [] y [] (Forall_nil _) Pl (Forall_nil _) (Forall_nil _) D (Forall_nil _)) as E.
    cbn [app] in E. rewrite app_nil_r in E. exact E.
  - pose proof (M_more k t [] [] [] y [] (kx' :: l) _ (Forall_nil _) Pl (Forall_nil _) (Forall_nil _) D (Forall_nil _) (IH ltac:(discriminate))) as E.
    cbn [app] in E. change (commas ((34 :: k ++ 34 :: 58 :: y) :: x' :: ts)) with ((34 :: k ++ 34 :: 58 :: y) ++ 44 :: commas (x' :: ts)).
    cbn [app]. rewrite <- app_assoc. cbn [app]. exact E.
Qed.

Lemma f2_length {A B} (R : A -> B -> Prop) a b : Forall2 R a b -> length a = length b.
Proof. induction 1; cbn [length]; congruence. Qed.
Lemma f2_app {A B} (R : A -> B -> Prop) a b c d : Forall2 R a b -> Forall2 R c d -> Forall2 R (a ++ c) (b ++ d).
Proof. induction 1; intros; cbn [app]; [assumption|constructor; auto]. Qed.
Lemma f2_rev {A B} (R : A -> B -> Prop) a b : Forall2 R a b -> Forall2 R (rev a) (rev b).
Proof. induction 1; [constructor|]. cbn [rev]. apply f2_app; [assumption|]. repeat constructor; assumption. Qed.
Lemma nth_ext_error {A} (a : list A) : forall b, (forall n, nth_error a n = nth_error b n) -> a = b.
Proof.
  induction a as [|x a IH]; intros [|y b] H; [reflexivity|specialize (H O); discriminate|specialize (H O); discriminate|].
  pose proof (H O) as H0. injection H0 as ->. f_equal. apply IH. intros n. exact (H (S n)).
Qed.

Section Trip.
Context (st : strs) (ext : extmem) (M : store) (HN : forall o m, M o = Some m -> NoDup (map fst m)).
Let Rp := repr st ext M.

Lemma reprs_f2 vs l : reprs st ext M vs l -> Forall2 Rp vs l.
Proof. induction 1; constructor; assumption. Qed.
Definition kind_tree (t : jt) : Value_Spec.kind :=
  match t with TNull => KNull | TBool _ => KBoolean | TNum _ => KNumber | TStr _ => KString | TArr _ => KArray | TObj _ => KObject end.
Lemma repr_kind v t : echo t -> Rp v t -> is_u64 v /\ kind_of v = kind_tree t.
Proof.
  intros E R. destruct R as [|b|d|v s (U & K & _)|v o m vs l R _ _ _|v o m vs l R _ _ _]; cbn [kind_tree].
  - split; [vm_compute; split; [discriminate|reflexivity]|reflexivity].
  - destruct b; (split; [vm_compute; split; [discriminate|reflexivity]|reflexivity]).
  - cbn [echo] in E. destruct (six_number d E) as (U & -> & K & _). auto.
  - auto.
  - destruct (arr_ref_facts _ _ R) as (_ & U & K). auto.
  - destruct (obj_ref_facts _ _ R) as (_ & U & K). auto.
Qed.
(** Two trees represented by one value are equal. *)
Lemma repr_unique t : forall v t', echo t -> echo t' -> Rp v t -> Rp v t' -> t = t'.
Proof.
  induction t as [|b|d|s|l IH|l IH] using jt_induct; intros v t' E E' R R';
    destruct (repr_kind _ _ E R) as [U K]; destruct (repr_kind _ _ E' R') as [_ K']; rewrite K in K'; destruct t' as [|b'|d'|s'|l'|l']; try discriminate K'.
  - reflexivity.
  - inversion R; subst. inversion R' as [|b0 Q| | | |]; subst. destruct b, b'; (reflexivity || (vm_compute in Q; discriminate)).
  - inversion R; subst. inversion R' as [| |d0 Q| | |]; subst. cbn [echo] in E, E'. destruct (six_number d E) as (_ & Q1 & _). destruct (six_number d' E') as (_ & Q2 & _). congruence.
  - inversion R; subst. inversion R'; subst. f_equal. eapply holds_fun; eassumption.
  - apply echo_arr in E, E'. destruct E as [El E], E' as [El' E'].
    inversion R as [| | | |v1 o m vs l1 A1 M1 Ar F|]; subst. inversion R' as [| | | |v2 o' m' vs' l2 A2 M2 Ar' F'|]; subst.
    assert (o' = o) as -> by (destruct A1 as [_ Q1], A2 as [_ Q2]; lia). rewrite M1 in M2. injection M2 as <-.
    apply reprs_f2 in F, F'. pose proof (f2_length _ _ _ F) as L1. pose proof (f2_length _ _ _ F') as L2.
    assert (Ev : vs = vs').
    { assert (N : forall i, (i < 2 ^ 63)%Z -> 0 <= i -> lf vs i = lf vs' i).
      { intros i Hi H0. destruct (dec_text_num i ltac:(lia)) as (d & _ & Nu). destruct Ar as (Ar & _), Ar' as (Ar' & _). rewrite <- (Ar i d), <- (Ar' i d) by (assumption || lia). reflexivity. }
      apply nth_ext_error. intros n. destruct (Z_lt_dec (Z.of_nat n) (2 ^ 31)) as [Hn|Hn].
      - specialize (N (Z.of_nat n) ltac:(lia) ltac:(lia)). unfold lf in N. replace (0 <=? Z.of_nat n) with true in N by lia. rewrite Nat2Z.id in N. exact N.
      - rewrite (proj2 (nth_error_None vs n)), (proj2 (nth_error_None vs' n)); [reflexivity| |]; unfold zlen in El, El'; lia. }
    subst vs'. f_equal. clear - IH E E' F F'. revert l' E' F'. induction F as [|w x vs l Rw F IHF]; intros l' E' F'; inversion F' as [|w' x' vs1 l1 Rw' F1]; subst; [reflexivity|].
    inversion IH; subst. inversion E; subst. inversion E'; subst. f_equal; [eauto|apply IHF; assumption].
  - apply echo_obj in E, E'. destruct E as [N E], E' as [N' E'].
    inversion R as [| | | | |v1 o m vs l1 A1 M1 Ar F]; subst. inversion R' as [| | | | |v2 o' m' vs' l2 A2 M2 Ar' F']; subst.
    assert (o' = o) as -> by (destruct A1 as [_ Q1], A2 as [_ Q2]; lia). rewrite M1 in M2. injection M2 as M2.
    apply reprs_f2 in F, F'. pose proof (f2_length _ _ _ F) as L1. pose proof (f2_length _ _ _ F') as L2. rewrite map_length in L1, L2.
    assert (C1 : map fst (combine (map fst l) vs) = map fst l) by (apply combine_fst; rewrite map_length; lia).
    assert (C2 : map fst (combine (map fst l') vs') = map fst l') by (apply combine_fst; rewrite map_length; lia).
    rewrite !mbuild_rev in M2 by (rewrite ?C1, ?C2; assumption). apply (f_equal (@rev _)) in M2. rewrite !rev_involutive in M2.
    assert (Kq : map fst l = map fst l') by congruence. rewrite <- Kq in M2. apply combine_inj in M2; [|rewrite map_length; lia|rewrite Kq, map_length; lia]. subst vs'.
    f_equal. clear - IH E E' F F' Kq. revert l l' IH E E' Kq F F'. induction vs as [|w vs IHv]; intros [|[k x] l] [|[k' x'] l'] IH E E' Kq F F'; inversion F; inversion F'; subst; try reflexivity.
    cbn [map fst] in Kq. injection Kq as <- Kq. inversion IH; subst. inversion E as [|? ? (? & ? & Ex)]; subst. inversion E' as [|? ? (? & ? & Ex')]; subst. cbn [snd] in *.
    f_equal; [f_equal; eauto|apply IHv; assumption].
Qed.

Lemma kind_shown t w : echo t -> Rp w t -> ~ skipped w.
Proof.
  intros E R (_ & Q). destruct (repr_kind _ _ E R) as [_ K]. rewrite K in Q. destruct t; destruct Q as [Q|[Q|Q]]; discriminate Q.
Qed.
Lemma dense_arr_len m vs : NoDup (map fst m) -> arr m (lf vs) (fun _ => None) -> zlen vs < 2 ^ 31 -> arr_len m (zlen vs).
Proof.
  intros Nm (A1 & A2 & _) L. pose proof (zlen_nonneg vs) as Z0. split; [exact Z0|]. split.
  - intros n w j I T B. pose proof (index_text_range _ _ T) as Hr. pose proof (A1 j n ltac:(lia) (A2 n w j I T B)) as Q.
    rewrite (in_lookup m n w Nm I) in Q. symmetry in Q. apply lf_some in Q. lia.
  - destruct (Z.eq_dec (zlen vs) 0) as [Q|Q]; [left; exact Q|right].
    destruct (idx_name_spec (zlen vs - 1) ltac:(lia)) as (t & _ & Ht). destruct (lf_in vs (zlen vs - 1) ltac:(lia)) as (x & Hx).
    exists t, x. split; [apply lookup_in; rewrite (A1 (zlen vs - 1) t) by (assumption || lia); exact Hx|].
    split; [|lia]. apply (numeral_index (zlen vs - 1) t); [assumption|lia|reflexivity].
Qed.
Lemma sum_in (l : list nat) n : In n l -> (n <= list_sum l)%nat.
Proof. induction l as [|x l IH]; [intros []|]. intros [->|I]; cbn [list_sum fold_right]; [lia|]. specialize (IH I). unfold list_sum in IH. lia. Qed.

Definition trips (vis : list Z) (t : jt) : Prop := forall w, Rp w t -> exists x, shows st ext M vis w x /\ denotes (mirror t) x.
Lemma trip_elems vis m : forall vs l i, Forall2 Rp vs l -> Forall echo l -> Forall (trips vis) l -> 0 <= i -> i + zlen vs < 2 ^ 62 ->
  (forall j d, i <= j < i + zlen vs -> numeral 10 j d -> lookup m d = lf vs (j - i)) ->
  exists ts, ashows st ext M vis m i (length vs) ts /\ Forall2 denotes (map mirror l) ts.
Proof.
  intros vs l i F. revert i. induction F as [|w t vs l R F IH]; intros i E T Hi B Lk; [exists []; split; constructor|].
  inversion E; inversion T; subst. assert (Z1 : zlen (w :: vs) = 1 + zlen vs) by (unfold zlen; cbn [length]; lia). pose proof (zlen_nonneg vs) as Z0. rewrite Z1 in B, Lk.
  destruct (IH (i + 1)) as (ts & A & D); [assumption|assumption|lia|lia| |].
  { intros j d Hj Nu. rewrite (Lk j d) by (assumption || lia). unfold lf. replace (0 <=? j - i) with true by lia. replace (0 <=? j - (i + 1)) with true by lia.
    replace (Z.to_nat (j - i)) with (S (Z.to_nat (j - (i + 1)))) by lia. reflexivity. }
  match goal with K : trips vis t |- _ => destruct (K w R) as (x & Sx & Dx) end. exists (x :: ts). split; [|constructor; assumption].
  destruct (dec_text_num i ltac:(lia)) as (d & _ & Nu). cbn [length]. eapply AS_show; [exact Nu| | |exact Sx|exact A].
  - rewrite (Lk i d) by (assumption || lia). rewrite Z.sub_diag. reflexivity.
  - eapply kind_shown; eassumption.
Qed.
Lemma trip_members vis : forall m l, Forall2 (fun kw kx => fst kw = fst kx /\ Rp (snd kw) (snd kx)) m l -> Forall good_member l ->
  Forall (fun kx => trips vis (snd kx)) l ->
  exists ts, mshows st ext M vis m ts /\ Forall2 member_text (map (fun kx => (fst kx, mirror (snd kx))) l) ts.
Proof.
  intros m l F. induction F as [|[k w] [k' t] m l [K R] F IH]; intros E T; [exists []; split; constructor|]. cbn [fst snd] in *. subst k'.
  inversion E as [|? ? (P1 & P2 & P3)]; inversion T; subst. cbn [fst snd] in *. destruct IH as (ts & A & D); [assumption|assumption|].
  match goal with K : trips vis t |- _ => destruct (K w R) as (x & Sx & Dx) end.
  exists ((34 :: k ++ 34 :: 58 :: x) :: ts). split.
  - apply MS_show; [eapply kind_shown; eassumption|assumption|assumption|assumption].
  - constructor; [|exact D]. exists x. cbn [fst snd]. auto.
Qed.
Lemma trip t : forall vis v, echo t -> Rp v t -> (forall w, In w vis -> exists t', Rp w t' /\ echo t' /\ (tsize t < tsize t')%nat) ->
  exists x, shows st ext M vis v x /\ denotes (mirror t) x.
Proof.
  induction t as [|b|d|s|l IH|l IH] using jt_induct; intros vis v E R V.
  - inversion R; subst. eexists. split; [apply S_null|constructor].
  - inversion R; subst. destruct b; eexists; (split; [apply S_true || apply S_false|constructor]).
  - inversion R; subst. cbn [echo] in E. destruct (six_number d E) as (U & -> & K & P). destruct (num_shows_total d U P) as (x & S). exists x.
    split; [apply S_num; assumption|]. apply D_num. apply six_text; assumption.
  - inversion R; subst. destruct E as (E1 & E2 & E3). exists (quoted s). split; [apply S_str; [assumption|apply utf8_bytes; assumption|assumption]|].
    destruct (quote_items s E1 E2) as (il & Fi & Q1 & Q2). unfold quoted. rewrite <- Q1. cbn [mirror]. rewrite <- Q2 at 1. apply D_str. assumption.
  - assert (NV : ~ In v vis).
    { intros I. destruct (V v I) as (t' & R' & E' & Sz). rewrite (repr_unique (TArr l) v t' E E' R R') in Sz. lia. }
    pose proof E as E0. apply echo_arr in E. destruct E as [El E]. pose proof R as R0.
    inversion R as [| | | |v1 o m vs l1 A1 M1 Ar F|]; subst. apply reprs_f2 in F. pose proof (f2_length _ _ _ F) as L1.
    assert (Lz : zlen vs < 2 ^ 31) by (unfold zlen in *; lia). pose proof (zlen_nonneg vs) as Z0.
    assert (T : Forall (trips (v :: vis)) l).
    { apply Forall_forall. intros t It w Rw. rewrite Forall_forall in IH, E. apply (IH t It (v :: vis) w (E t It) Rw).
      assert (Sz : (tsize t < tsize (TArr l))%nat) by (cbn [tsize]; pose proof (sum_in (map tsize l) _ (in_map tsize l t It)); lia).
      intros u [<-|Iu]; [exists (TArr l); auto|]. destruct (V u Iu) as (t' & Ru & Eu & Su). exists t'. split; [assumption|]. split; [assumption|lia]. }
    destruct (trip_elems (v :: vis) m vs l 0 F E T ltac:(lia) ltac:(lia)) as (ts & A & D).
    { intros j d Hj Nu. destruct Ar as (Ar & _). rewrite (Ar j d) by (assumption || lia). rewrite Z.sub_0_r. reflexivity. }
    exists (91 :: commas ts ++ [93]). split.
    + apply (S_arr st ext M vis v o m (zlen vs) ts A1 NV M1); [apply dense_arr_len; [apply (HN o); assumption|assumption|assumption]|].
      unfold zlen. rewrite Nat2Z.id. exact A.
    + cbn [mirror]. destruct l as [|t l]; [cbn [map] in D; inversion D; subst; apply (D_arr0 []); constructor|].
      apply D_arr. apply elems_commas; [exact D|discriminate].
  - assert (NV : ~ In v vis).
    { intros I. destruct (V v I) as (t' & R' & E' & Sz). rewrite (repr_unique (TObj l) v t' E E' R R') in Sz. lia. }
    pose proof E as E0. apply echo_obj in E. destruct E as [N E]. pose proof R as R0.
    inversion R as [| | | | |v1 o m vs l1 A1 M1 Ar F]; subst. apply reprs_f2 in F. pose proof (f2_length _ _ _ F) as L1. rewrite map_length in L1.
    rewrite mbuild_rev in M1 by (rewrite combine_fst; [assumption|rewrite map_length; lia]).
    assert (T : Forall (fun kx => trips (v :: vis) (snd kx)) l).
    { apply Forall_forall. intros kx It w Rw. rewrite Forall_forall in IH, E. destruct (E kx It) as (_ & _ & Ek). apply (IH kx It (v :: vis) w Ek Rw).
      assert (Sz : (tsize (snd kx) < tsize (TObj l))%nat) by (cbn [tsize]; pose proof (sum_in _ _ (in_map (fun kx => tsize (snd kx)) l kx It)); lia).
      intros u [<-|Iu]; [exists (TObj l); auto|]. destruct (V u Iu) as (t' & Ru & Eu & Su). exists t'. split; [assumption|]. split; [assumption|lia]. }
    assert (PF : Forall2 (fun kw kx => fst kw = fst kx /\ Rp (snd kw) (snd kx)) (combine (map fst l) vs) l).
    { clear - F. revert vs F. induction l as [|[k t] l IHl]; intros vs F; inversion F; subst; [constructor|]. cbn [map fst combine]. constructor; [auto|apply IHl; assumption]. }
    destruct (trip_members (v :: vis) _ _ (f2_rev _ _ _ PF)) as (ts & A & D); [apply Forall_rev; assumption|apply Forall_rev; assumption|].
    exists (123 :: commas ts ++ [125]). split; [exact (S_obj st ext M vis v o _ ts A1 NV M1 A)|].
    cbn [mirror]. rewrite <- map_rev. rewrite <- (rev_involutive l) in L1. destruct (rev l) as [|kx l']; [cbn [map] in D |- *; inversion D; subst; apply (D_obj0 []); constructor|].
    apply D_obj. apply members_commas; [exact D|discriminate].
Qed.
End Trip.
