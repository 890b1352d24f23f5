(** What the destructor of an arena releases in a sweep. *)
From Verif Require Import Base BaseFacts Value_Model Str_Model Gc_Model Gc_Spec Gc_Proofs Gc_Proofs2.
From Coq Require Import ZifyBool.
Ltac Zify.zify_post_hook ::= Z.div_mod_to_equations.

Definition left_by (dtor : bool) (m : mem) (c : Z) : list Z :=
  match m c with
  | Some w => if negb (Z.land w 1 =? 0) || negb (Z.land w 2 =? 0) || negb dtor || (w =? 0) then [] else [w]
  | None => []
  end.
Lemma left_by_ext dtor m m' c : m' c = m c -> left_by dtor m' c = left_by dtor m c.
Proof. unfold left_by. intros ->. reflexivity. Qed.
Lemma flat_ext {A B} (f g : A -> list B) l : (forall x, In x l -> f x = g x) -> flat_map f l = flat_map g l.
Proof. induction l as [|x l IH]; intros H; [reflexivity|]. cbn [flat_map]. rewrite H by (left; reflexivity). rewrite IH; [reflexivity|]. intros y Hy. apply H. right. exact Hy. Qed.

Lemma ld_some m a w : ld m a = OK w -> m a = Some w.
Proof. unfold ld. destruct (_ =? 0); [|discriminate]. destruct (m a); [|discriminate]. intros [= ->]. reflexivity. Qed.
Lemma sto_frame m a v m' x : sto m a v = OK m' -> x <> a -> m' x = m x.
Proof. unfold sto. destruct (_ =? 0); [|discriminate]. destruct (m a); [|discriminate]. intros [= <-] H. apply upd_other. exact H. Qed.
Lemma clear_frame m a k m' x : clear_word m a k = OK m' -> x <> a -> m' x = m x.
Proof. unfold clear_word. destruct (ld m a); try discriminate. cbn [bind]. apply sto_frame. Qed.

Lemma sweep_cells_log cs dtor : 8 <= cs -> forall n m free cnt cur log m' free' cnt' log',
  sweep_cells n m free cnt cur cs dtor log = OK (m', free', cnt', log') ->
  log' = log ++ flat_map (left_by dtor m) (block_cells cs (cur, Z.of_nat n)) /\
  (forall x, ~ (cur <= x < cur + cs * Z.of_nat n) -> m' x = m x).
Proof.
  intros Hcs. induction n as [|n IH]; intros m free cnt cur log m' free' cnt' log' H.
  { cbn [sweep_cells] in H. injection H as <- <- <- <-. split; [cbn; rewrite app_nil_r; reflexivity|auto]. }
  rewrite block_cells_S. cbn [sweep_cells] in H. unfold test_word in H at 1.
  destruct (ld m cur) as [w| | |] eqn:E; try discriminate H. cbn [bind] in H. apply ld_some in E.
  assert (Tail : forall mm log1, (forall x, x < cur \/ cur + cs <= x -> mm x = m x) -> log1 = log ++ left_by dtor m cur ->
    forall fr ct, sweep_cells n mm fr ct (cur + cs) cs dtor log1 = OK (m', free', cnt', log') ->
    log' = log ++ flat_map (left_by dtor m) (cur :: block_cells cs (cur + cs, Z.of_nat n)) /\
    (forall x, ~ (cur <= x < cur + cs * Z.of_nat (S n)) -> m' x = m x)).
  { intros mm log1 Hm Hl fr ct Hs. destruct (IH _ _ _ _ _ _ _ _ _ Hs) as [I1 I2]. split.
    - rewrite I1, Hl, <- app_assoc. f_equal. cbn [flat_map]. f_equal. apply flat_ext. intros c Hc. apply left_by_ext. apply Hm.
      apply block_cells_in in Hc. cbn [fst snd] in Hc. destruct Hc as (i & Hi & ->). nia.
    - intros x Hx. rewrite I2 by nia. apply Hm. nia. }
  destruct (negb (Z.land w 1 =? 0)) eqn:M1.
  { destruct (clear_word m cur 1) as [m1| | |] eqn:C; try discriminate H. cbn [bind] in H. apply (Tail m1 log) in H; [exact H| |].
    - intros x Hx. apply (clear_frame _ _ _ _ _ C). lia.
    - unfold left_by. rewrite E, M1. cbn [orb]. rewrite app_nil_r. reflexivity. }
  unfold test_word in H.
  destruct (ld m cur) as [w2| | |] eqn:E2; try discriminate H. cbn [bind] in H. apply ld_some in E2. rewrite E in E2. injection E2 as <-.
  destruct (negb (Z.land w 2 =? 0)) eqn:M2.
  - destruct (clear_word m cur 2) as [m1| | |] eqn:C; try discriminate H. cbn [bind] in H.
    destruct (sto m1 cur free) as [m2| | |] eqn:St; try discriminate H. cbn [bind] in H. apply (Tail m2 log) in H; [exact H| |].
    + intros x Hx. rewrite (sto_frame _ _ _ _ x St) by lia. apply (clear_frame _ _ _ _ _ C). lia.
    + unfold left_by. rewrite E, M1, M2. cbn [orb]. rewrite app_nil_r. reflexivity.
  - cbn [bind] in H. destruct (sto _ cur free) as [m2| | |] eqn:St; try discriminate H. cbn [bind] in H. eapply Tail in H; [exact H| |].
    + intros x Hx. rewrite (sto_frame _ _ _ _ x St) by lia. apply setr_out. lia.
    + unfold left_by. rewrite E, M1, M2. cbn [orb]. destruct dtor; cbn [andb negb orb]; [|rewrite app_nil_r; reflexivity].
      destruct (w =? 0); cbn [negb]; [rewrite app_nil_r|]; reflexivity.
Qed.
Lemma sweep_blocks_log cs dtor : 8 <= cs -> forall bs m free log bs' m' free' log', Forall (fun bl => 0 < snd bl) bs ->
  ForallOrdPairs (disjoint_blocks cs) bs ->
  sweep_blocks bs m free cs dtor log = OK (bs', m', free', log') ->
  log' = log ++ flat_map (left_by dtor m) (cells cs bs).
Proof.
  intros Hcs. induction bs as [|[base size] bs IH]; intros m free log bs' m' free' log' Hp Hd H.
  { cbn [sweep_blocks] in H. injection H as <- <- <- <-. cbn. rewrite app_nil_r. reflexivity. }
  pose proof (Forall_inv Hp) as P1. cbn [snd] in P1. pose proof (Forall_inv_tail Hp) as P2. inversion Hd as [|? ? D1 D2]; subst.
  cbn [sweep_blocks] in H. destruct (sweep_cells (Z.to_nat size) m free 0 base cs dtor log) as [[[[m1 free1] cnt] log1]| | |] eqn:Sc; try discriminate H. cbn [bind] in H.
  destruct (sweep_cells_log cs dtor Hcs _ _ _ _ _ _ _ _ _ _ Sc) as [L1 F1]. rewrite Z2Nat.id in L1, F1 by lia.
  assert (Out : forall mm, (forall x, ~ (base <= x < base + cs * size) -> mm x = m x) ->
     flat_map (left_by dtor mm) (cells cs bs) = flat_map (left_by dtor m) (cells cs bs)).
  { intros mm Hm. apply flat_ext. intros c Hc. apply left_by_ext, Hm. intros X. apply cells_in in Hc. destruct Hc as (bl & Hb & Hc).
    rewrite Forall_forall in D1. apply (cell_in_block cs bl c Hcs) in Hc. exact (D1 bl Hb c X Hc). }
  unfold cells. cbn [flat_map]. rewrite flat_map_app. fold (cells cs bs). rewrite app_assoc, <- L1.
  destruct (_ && _).
  - apply IH in H; auto. rewrite H. f_equal. apply Out. intros x Hx. rewrite setr_out by exact Hx. apply F1, Hx.
  - destruct (sweep_blocks bs m1 free1 cs dtor log1) as [[[[bs2 m2] free2] log2]| | |] eqn:Sb; try discriminate H. cbn [bind] in H. injection H as <- <- <- <-.
    apply IH in Sb; auto. rewrite Sb. f_equal. apply Out, F1.
Qed.
Lemma sweep_log m a fl f log m' a' log' : arena_ok m a fl -> (length fl < f)%nat -> gc_sweep f m a log = OK (m', a', log') ->
  log' = log ++ flat_map (fun c => if in_dec Z.eq_dec c fl then [] else left_by (a_dtor a) m c) (acells a).
Proof.
  intros OKa Hf H. unfold gc_sweep in H.
  assert (Hfa : forall c, In c fl -> c mod 8 = 0 /\ exists w, m c = Some w /\ 0 <= w /\ w mod 8 = 0).
  { intros c Hin. pose proof (ok_fl_cells _ _ _ OKa c Hin) as Hca. destruct (cell_facts _ _ _ _ OKa Hca) as (Ha & Hp & _). split; [exact Ha|].
    destruct (flist_links _ _ _ c (ok_free _ _ _ OKa) Hin) as (nx & Hm & Hnx). exists nx. split; [exact Hm|]. destruct Hnx as [->|Hnx]; [lia|].
    destruct (cell_facts _ _ _ nx OKa (ok_fl_cells _ _ _ OKa nx Hnx)) as (Ha' & Hp' & _). lia. }
  destruct (mark_free_spec fl f m (a_free a) (ok_free _ _ _ OKa) (ok_fl_nodup _ _ _ OKa) Hf (fun c Hc => proj1 (Hfa c Hc))) as (m1 & E1 & I1 & O1).
  rewrite E1 in H. cbn [bind] in H. destruct (sweep_blocks _ _ _ _ _ _) as [[[[bs2 m2] free2] log2]| | |] eqn:Sb; try discriminate H. cbn [bind] in H. injection H as <- <- <-.
  apply sweep_blocks_log in Sb.
  - rewrite Sb. f_equal. apply flat_ext. intros c Hc. destruct (in_dec Z.eq_dec c fl) as [Hi|Hn].
    + destruct (Hfa c Hi) as (_ & w & Hw & Hw0 & Hw8). unfold left_by. rewrite (I1 c w Hi Hw). rewrite lor2 by lia.
      rewrite (land2_zero (w + 2)) by lia.
      assert (X : (w + 2) mod 4 = 2) by (pose proof (Z.div_mod w 8 ltac:(lia)) as Q; rewrite Hw8 in Q; replace (w + 2) with (2 + (2 * (w / 8)) * 4) by lia; rewrite Z.mod_add by lia; reflexivity).
      rewrite X. cbn [negb Z.ltb Z.compare]. change (2 <? 2) with false. cbn [negb]. rewrite orb_true_r. reflexivity.
    + apply left_by_ext, O1, Hn.
  - apply (ok_cs _ _ _ OKa).
  - pose proof (ok_blocks _ _ _ OKa) as B. eapply Forall_impl; [|exact B]. intros bl (_ & _ & X & _). exact X.
  - apply (ok_disj _ _ _ OKa).
Qed.
