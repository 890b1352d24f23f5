From Verif Require Import Base BaseFacts Varint_Model Varint_Spec Varint_Proofs Mbuf_Model
  Value_Model Value_Spec Value_Proofs Float_Proofs Str_Model Str_Spec Str_Proofs Str_Proofs2.
Ltac Zify.zify_post_hook ::= Z.div_mod_to_equations.

Lemma mk_foreign_grows st p n st' v : mk_string_foreign st p n = OK (st', v) -> grows st st'.
Proof.
  unfold mk_string_foreign. destruct (n =? 0); [apply mk_string_grows|].
  intros H. injection H as <- <-. split; cbn [so sf]; [exists []; rewrite app_nil_r; reflexivity|eexists; reflexivity].
Qed.
Lemma slice_grows st ext this args st' v e : string_slice st ext this args = OK (st', v, e) -> grows st st'.
Proof.
  unfold string_slice. intros H.
  repeat first
    [ injection H as <- <- <-; apply grows_refl
    | match type of H with
      | bind (mk_string ?s ?d) _ = _ => destruct (mk_string s d) as [[? ?]| | |] eqn:E; cbn [bind] in H; try discriminate H;
          injection H as <- <- <-; apply (mk_string_grows _ _ _ _ E)
      | bind ?m _ = _ => destruct m as [?| | |]; cbn [bind] in H; try discriminate H
      | match ?x with _ => _ end = _ => destruct x; try discriminate H
      end ].
Qed.

(** Every step of a concatenation only appends to the buffer, wherever it ends. *)
Lemma zlen_so_ok st : 0 <= zlen (so st). Proof. apply zlen_nonneg. Qed.

Lemma loc_write_beyond st st0 v o d st' v' : loc_write st v (POwn o) d = OK (st', v') ->
  grows st0 st -> zlen (so st0) <= o -> grows st0 st'.
Proof.
  unfold loc_write. intros H [[x Hx] [y Hy]] Ho. destruct (o + zlen d <=? zlen (so st)) eqn:E; [|discriminate H].
  injection H as <- <-. split; cbn [so sf]; [|exists y; exact Hy].
  exists (blit x (o - zlen (so st0)) d). rewrite Hx. unfold blit. pose proof (zlen_nonneg (so st0)).
  rewrite firstn_app, (firstn_all2 (so st0)) by (unfold zlen in *; lia).
  rewrite <- app_assoc. f_equal. f_equal; [f_equal; unfold zlen; lia|]. f_equal.
  rewrite skipn_app, (skipn_all2 (so st0)) by (unfold zlen in *; lia). cbn [app]. f_equal. unfold zlen in *; lia.
Qed.

(** The location of the result of mk_string_src lies in the appended part. *)
Lemma mk_src_loc st src n st' v l k : mk_string_src st src n = OK (st', v) -> zlen (so st) < 2 ^ 48 -> n < 2 ^ 64 ->
  get_string st' v = OK (l, k) -> match l with POwn o => zlen (so st) <= o | PVal _ => True | _ => False end.
Proof.
  intros H Hs Hn Hg. pose proof (zlen_nonneg (so st)). unfold mk_string_src in H. cbv zeta in H.
  set (data := match src with Some d => d | None => repeat 0 (Z.to_nat n) end) in *.
  destruct (negb (zlen data =? n)) eqn:E0; [discriminate H|]. pose proof (zlen_nonneg data).
  destruct (n <=? 4) eqn:E4; [|destruct (n =? 5) eqn:E5].
  - injection H as <- <-.
    unfold TAG_STRING_I in Hg. rewrite untag_mod, lor_tag in Hg by lia.
    unfold get_string in Hg. cbv zeta in Hg. rewrite is_string_tag in Hg by lia. cbn [negb] in Hg.
    rewrite tag_land in Hg by lia. unfold TAG_STRING_I in Hg. rewrite Z.eqb_refl in Hg.
    match type of Hg with context [le_bytes 8 ?x] => destruct (le_bytes_cons8 x) as (b & r & EQ) end.
    rewrite EQ in Hg. injection Hg as <- _. exact I.
  - injection H as <- <-.
    unfold TAG_STRING_5 in Hg. rewrite untag_mod, lor_tag in Hg by lia.
    unfold get_string in Hg. cbv zeta in Hg. rewrite is_string_tag in Hg by lia. cbn [negb] in Hg.
    rewrite tag_land in Hg by lia. unfold TAG_STRING_I, TAG_STRING_5 in Hg.
    change (65527 * 2 ^ 48 =? 65526 * 2 ^ 48) with false in Hg. rewrite Z.eqb_refl in Hg. injection Hg as <- _. exact I.
  - destruct (mk_heap_src st src n) as (st1 & M1 & M2 & M3); [fold data; lia|lia|exact Hs|].
    unfold mk_string_src in M1. fold data in M1. cbv zeta in M1. rewrite E0, E4, E5 in M1.
    rewrite M1 in H.
    assert (Q : st' = st1 /\ v = zlen (so st) + 65528 * 2 ^ 48) by (split; congruence).
    destruct Q as [-> ->]. unfold embed_bytes in M2. fold data in M2.
    rewrite (get_heap st1 (so st) n _ M2) in Hg; [|unfold is_u64; lia|exact Hs].
    injection Hg as <- _. pose proof (zlen_nonneg (varint_bytes n)). lia.
Qed.

Lemma loc_write_len st v l d st' v' : loc_write st v l d = OK (st', v') ->
  match l with POwn o => 0 <= o | _ => True end -> zlen (so st') = zlen (so st).
Proof.
  intros H Ho. unfold loc_write in H. destruct l as [|o|o|a].
  - destruct (zlen d =? 0); [injection H as <- <-; reflexivity|discriminate H].
  - destruct (o + zlen d <=? 8); [injection H as <- <-; reflexivity|discriminate H].
  - destruct (o + zlen d <=? zlen (so st)) eqn:E; [|discriminate H]. injection H as <- <-. cbn [so].
    apply blit_length; lia.
  - discriminate H.
Qed.

Lemma mk_src_nonneg st src n st' v : mk_string_src st src n = OK (st', v) -> 0 <= v.
Proof.
  unfold mk_string_src. intros H. cbv zeta in H. destruct (negb _); [discriminate H|].
  assert (G : forall x t, 0 <= t -> 0 <= Z.lor (untag x) t).
  { intros x t Ht. apply Z.lor_nonneg. split; [rewrite untag_mod; apply Z.mod_pos_bound; lia|exact Ht]. }
  destruct (n <=? 4); [injection H as _ <-; apply G; cbn; lia|].
  destruct (n =? 5); injection H as _ <-; apply G; cbn; lia.
Qed.
Lemma mk_src_grows st src n st' v : mk_string_src st src n = OK (st', v) -> grows st st'.
Proof.
  intros Em. unfold mk_string_src in Em. cbv zeta in Em.
  destruct (negb _); [discriminate Em|]. destruct (n <=? 4); [injection Em as <- <-; apply grows_refl|].
  destruct (n =? 5); [injection Em as <- <-; apply grows_refl|].
  injection Em as <- <-. split; cbn [so sf]; [eexists; reflexivity|exists []; rewrite app_nil_r; reflexivity].
Qed.
Lemma mk_src_size st src n st' v : mk_string_src st src n = OK (st', v) -> n <= 5 \/ n <= zlen (so st').
Proof.
  unfold mk_string_src. cbv zeta. intros H. destruct (negb _) eqn:E0; [discriminate H|].
  destruct (n <=? 4) eqn:E4; [left; lia|]. destruct (n =? 5) eqn:E5; [left; lia|]. right.
  injection H as <- _. cbn [so]. unfold embed_bytes. rewrite !zlen_app.
  pose proof (zlen_nonneg (so st)). pose proof (zlen_nonneg (varint_bytes n)). pose proof (zlen_nonneg [0]). lia.
Qed.

Lemma grows_len a b : grows a b -> zlen (so a) <= zlen (so b).
Proof. intros [[x ->] _]. rewrite zlen_app. pose proof (zlen_nonneg x). lia. Qed.

Lemma concat_grows st ext a b st' v : zlen (so st') < 2 ^ 48 ->
  s_concat st ext a b = OK (st', v) -> grows st st'.
Proof.
  intros Hs H. unfold s_concat in H.
  destruct (get_string st a) as [[l1 na]| | |] eqn:Ga; cbn [bind] in H; try discriminate H.
  destruct (get_string st b) as [[l2 nb]| | |] eqn:Gb; cbn [bind] in H; try discriminate H.
  destruct (mk_string_src st None (na + nb)) as [[st1 res]| | |] eqn:Em; cbn [bind] in H; try discriminate H.
  destruct (get_string st1 a) as [[la na1]| | |] eqn:Ga1; cbn [bind] in H; try discriminate H.
  destruct (get_string st1 b) as [[lb nb1]| | |] eqn:Gb1; cbn [bind] in H; try discriminate H.
  destruct (get_string st1 res) as [[lr nr]| | |] eqn:Gr; cbn [bind] in H; try discriminate H.
  pose proof (mk_src_grows _ _ _ _ _ Em) as G1.
  destruct (loc_read st1 ext a la na1) as [da| | |] eqn:Ra; cbn [bind] in H; try discriminate H.
  destruct (loc_write st1 res lr da) as [[st2 res2]| | |] eqn:W1; cbn [bind] in H; try discriminate H.
  destruct (loc_read st2 ext b lb nb1) as [db| | |] eqn:Rb; cbn [bind] in H; try discriminate H.
  assert (HA : 0 <= na1).
  { unfold loc_read in Ra. destruct la as [|x|x|x].
    - destruct (na1 =? 0) eqn:Q; [lia|discriminate Ra].
    - destruct ((0 <=? na1) && (x + na1 <=? 8)) eqn:Q; [lia|discriminate Ra].
    - destruct ((0 <=? na1) && (x + na1 <=? zlen (so st1))) eqn:Q; [lia|discriminate Ra].
    - destruct (0 <=? na1) eqn:Q; [lia|discriminate Ra]. }
  assert (HO : match lr with POwn o => 0 <= o | _ => True end).
  { destruct lr; try exact I. apply (get_string_own_nonneg st1 res o nr); [apply (mk_src_nonneg _ _ _ _ _ Em)|exact Gr]. }
  pose proof (loc_write_len _ _ _ _ _ _ W1 HO) as L1.
  assert (L2 : zlen (so st') = zlen (so st2)).
  { apply (loc_write_len _ _ _ _ _ _ H). destruct lr; cbn [loc_add]; try exact I. lia. }
  pose proof (mk_src_size _ _ _ _ _ Em) as SZ. pose proof (grows_len _ _ G1).
  pose proof (mk_src_loc st None (na + nb) st1 res lr nr Em ltac:(lia) ltac:(lia) Gr) as HL.
  destruct lr as [|o|o|p]; try contradiction; cbn [loc_add] in H.
  - unfold loc_write in W1, H. destruct (o + zlen da <=? 8); [|discriminate W1]. injection W1 as <- <-.
    destruct (o + na1 + zlen db <=? 8); [|discriminate H]. injection H as <- <-. exact G1.
  - pose proof (loc_write_beyond _ st _ _ _ _ _ W1 G1 HL) as G2.
    refine (loc_write_beyond _ st _ _ _ _ _ H G2 _). lia.
Qed.

Lemma concat_len st ext a b st' v : s_concat st ext a b = OK (st', v) -> zlen (so st) <= zlen (so st').
Proof.
  intros H. unfold s_concat in H.
  destruct (get_string st a) as [[l1 na]| | |] eqn:Ga; cbn [bind] in H; try discriminate H.
  destruct (get_string st b) as [[l2 nb]| | |] eqn:Gb; cbn [bind] in H; try discriminate H.
  destruct (mk_string_src st None (na + nb)) as [[st1 res]| | |] eqn:Em; cbn [bind] in H; try discriminate H.
  destruct (get_string st1 a) as [[la na1]| | |] eqn:Ga1; cbn [bind] in H; try discriminate H.
  destruct (get_string st1 b) as [[lb nb1]| | |] eqn:Gb1; cbn [bind] in H; try discriminate H.
  destruct (get_string st1 res) as [[lr nr]| | |] eqn:Gr; cbn [bind] in H; try discriminate H.
  pose proof (mk_src_grows _ _ _ _ _ Em) as G1.
  destruct (loc_read st1 ext a la na1) as [da| | |] eqn:Ra; cbn [bind] in H; try discriminate H.
  destruct (loc_write st1 res lr da) as [[st2 res2]| | |] eqn:W1; cbn [bind] in H; try discriminate H.
  destruct (loc_read st2 ext b lb nb1) as [db| | |] eqn:Rb; cbn [bind] in H; try discriminate H.
  assert (HA : 0 <= na1).
  { unfold loc_read in Ra. destruct la as [|x|x|x].
    - destruct (na1 =? 0) eqn:Q; [lia|discriminate Ra].
    - destruct ((0 <=? na1) && (x + na1 <=? 8)) eqn:Q; [lia|discriminate Ra].
    - destruct ((0 <=? na1) && (x + na1 <=? zlen (so st1))) eqn:Q; [lia|discriminate Ra].
    - destruct (0 <=? na1) eqn:Q; [lia|discriminate Ra]. }
  assert (HO : match lr with POwn o => 0 <= o | _ => True end).
  { destruct lr; try exact I. apply (get_string_own_nonneg st1 res o nr); [apply (mk_src_nonneg _ _ _ _ _ Em)|exact Gr]. }
  pose proof (loc_write_len _ _ _ _ _ _ W1 HO) as L1.
  assert (L2 : zlen (so st') = zlen (so st2)).
  { apply (loc_write_len _ _ _ _ _ _ H). destruct lr; cbn [loc_add]; try exact I. lia. }
  pose proof (grows_len _ _ G1). lia.
Qed.

Lemma str_step_len ext st o st' v : str_step ext st o = OK (st', v) -> zlen (so st) <= zlen (so st').
Proof.
  destruct o; cbn [str_step]; intros H.
  - apply grows_len. apply (mk_string_grows _ _ _ _ H).
  - apply grows_len. apply (mk_foreign_grows _ _ _ _ _ H).
  - apply (concat_len _ _ _ _ _ _ H).
  - destruct (string_slice st ext this args) as [[[s1 v1] e1]| | |] eqn:E; cbn [bind] in H; try discriminate H.
    injection H as <- <-. apply grows_len. apply (slice_grows _ _ _ _ _ _ _ E).
Qed.
Lemma str_step_grows ext st o st' v : str_step ext st o = OK (st', v) -> zlen (so st') < 2 ^ 48 -> grows st st'.
Proof.
  destruct o; cbn [str_step]; intros H Hs.
  - apply (mk_string_grows _ _ _ _ H).
  - apply (mk_foreign_grows _ _ _ _ _ H).
  - apply (concat_grows _ _ _ _ _ _ Hs H).
  - destruct (string_slice st ext this args) as [[[s1 v1] e1]| | |] eqn:E; cbn [bind] in H; try discriminate H.
    injection H as <- <-. apply (slice_grows _ _ _ _ _ _ _ E).
Qed.
Lemma str_run_len ext os : forall st st' vs, str_run ext st os = OK (st', vs) -> zlen (so st) <= zlen (so st').
Proof.
  induction os as [|o os IH]; intros st st' vs H; cbn [str_run] in H; [injection H as <- _; lia|].
  destruct (str_step ext st o) as [[s1 v1]| | |] eqn:E; cbn [bind] in H; try discriminate H.
  destruct (str_run ext s1 os) as [[s2 v2]| | |] eqn:E2; cbn [bind] in H; try discriminate H.
  injection H as <- _. apply str_step_len in E. apply IH in E2. lia.
Qed.
Lemma str_run_grows ext os : forall st st' vs, str_run ext st os = OK (st', vs) -> zlen (so st') < 2 ^ 48 -> grows st st'.
Proof.
  induction os as [|o os IH]; intros st st' vs H Hs; cbn [str_run] in H; [injection H as <- _; apply grows_refl|].
  destruct (str_step ext st o) as [[s1 v1]| | |] eqn:E; cbn [bind] in H; try discriminate H.
  destruct (str_run ext s1 os) as [[s2 v2]| | |] eqn:E2; cbn [bind] in H; try discriminate H.
  injection H as <- _. pose proof (str_run_len _ _ _ _ _ E2).
  apply grows_trans with s1; [apply (str_step_grows _ _ _ _ _ E); lia|apply (IH _ _ _ E2 Hs)].
Qed.
