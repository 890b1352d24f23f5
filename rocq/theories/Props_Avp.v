(** C105: formatted texts of any length. *)
From Verif Require Import Base BaseFacts TokNum_Model Txt_Model Avp_Model Avp_Spec.
From Coq Require Import ZifyBool.
Ltac Zify.zify_post_hook ::= idtac.

Lemma store_ok b w : zlen w <= zlen b -> store b w = OK (w ++ skipn (length w) b).
Proof. intros H. unfold store. replace (zlen w <=? zlen b) with true by lia. reflexivity. Qed.
Lemma store_len b w b' : store b w = OK b' -> zlen b' = zlen b.
Proof. unfold store. destruct (zlen w <=? zlen b) eqn:E; [|discriminate]. intros H. injection H as <-. unfold zlen in *. rewrite app_length, skipn_length. lia. Qed.
Lemma snoc_holds t r : holds ((t ++ [0]) ++ r) t.
Proof. exists r. rewrite <- app_assoc. reflexivity. Qed.
Lemma zlen_snoc (t : list Z) : zlen (t ++ [0]) = zlen t + 1.
Proof. rewrite zlen_app. reflexivity. Qed.
Lemma firstn_long (t : list Z) n : zlen t <= n -> firstn (Z.to_nat n) t = t.
Proof. intros H. apply firstn_all2. unfold zlen in H. lia. Qed.
Lemma conforming_fits t size b : zlen t < size -> size <= zlen b -> exists b', vsnprintf Conforming t size b = OK (zlen t, b') /\ holds b' t.
Proof.
  intros H L. pose proof (zlen_nonneg t). cbn [vsnprintf]. replace (size =? 0) with false by lia. rewrite firstn_long by lia.
  rewrite store_ok by (rewrite zlen_snoc; lia). cbn [bind]. eexists. split; [reflexivity|apply snoc_holds].
Qed.
Lemma old_fits t size b : zlen t < size -> size <= zlen b -> exists b', vsnprintf Old t size b = OK (zlen t, b') /\ holds b' t.
Proof.
  intros H L. cbn [vsnprintf]. replace (zlen t <? size) with true by lia. rewrite store_ok by (rewrite zlen_snoc; lia). cbn [bind].
  eexists. split; [reflexivity|apply snoc_holds].
Qed.
Lemma put0_holds t r : 0 < zlen r -> exists b, put0 (t ++ r) (zlen t) = OK b /\ holds b t.
Proof.
  intros H. pose proof (zlen_nonneg t). unfold put0. rewrite zlen_app. replace ((0 <=? zlen t) && (zlen t <? zlen t + zlen r)) with true by lia.
  eexists. split; [reflexivity|]. unfold zlen at 1. rewrite Nat2Z.id, firstn_app, firstn_all, Nat.sub_diag. cbn [firstn]. rewrite app_nil_r. eexists. reflexivity.
Qed.
(** C105. With a conforming vsnprintf the caller gets the whole text, or -1 and no block if there is no memory. *)
Theorem avprintf_whole f h t buf size : heap_ok h -> 0 <= size <= zlen buf -> size < 2 ^ 31 -> zlen t < 2 ^ 31 - 1 ->
  exists r, mg_avprintf f h Conforming t buf size = OK r /\
    (whole t size r \/ (size <= zlen t /\ malloc h (zlen t + 1) = false /\ r = (-1, Null, 0))).
Proof.
  intros Hh Hs _ _. pose proof (zlen_nonneg t) as Pt. unfold mg_avprintf. destruct (Z_lt_ge_dec (zlen t) size) as [L|L].
  - destruct (conforming_fits t size buf L ltac:(lia)) as (b & -> & H). cbn [bind]. replace (zlen t <? 0) with false by lia. replace (size <=? zlen t) with false by lia.
    eexists. split; [reflexivity|]. left. split; [exact L|]. split; [reflexivity|]. split; [exact H|reflexivity].
  - assert (X : exists b, vsnprintf Conforming t size buf = OK (zlen t, b)).
    { cbn [vsnprintf]. destruct (size =? 0) eqn:E; [rewrite store_ok by (change (zlen (@nil Z)) with 0; lia)|rewrite store_ok by (rewrite zlen_snoc; unfold zlen in *; rewrite firstn_length; lia)]; cbn [bind]; eexists; reflexivity. }
    destruct X as (b & ->). cbn [bind]. replace (zlen t <? 0) with false by lia. replace (size <=? zlen t) with true by lia.
    destruct (malloc h (zlen t + 1)) eqn:M; cbn [negb].
    + destruct (conforming_fits t (zlen t + 1) (junk h (zlen t + 1)) ltac:(lia) ltac:(rewrite Hh; lia)) as (b' & -> & H). cbn [bind].
      eexists. split; [reflexivity|]. left. split; [lia|]. split; [reflexivity|]. split; [exact H|reflexivity].
    + eexists. split; [reflexivity|]. right. split; [lia|]. split; reflexivity.
Qed.
Print Assumptions avprintf_whole.

Lemma old_terminated h t n : heap_ok h -> zlen t <= n - 1 -> exists b b', vsnprintf Old t (n - 1) (junk h n) = OK (zlen t, b) /\ put0 b (zlen t) = OK b' /\ holds b' t.
Proof.
  intros Hh L. pose proof (zlen_nonneg t) as Pt. pose proof (Hh n ltac:(lia)) as Hj. cbn [vsnprintf]. destruct (zlen t <? n - 1) eqn:E.
  - rewrite store_ok by (rewrite zlen_snoc; lia). cbn [bind]. rewrite <- app_assoc. set (q := [0] ++ _).
    destruct (put0_holds t q) as (b & Eb & H); [unfold q; rewrite zlen_app; change (zlen [0]) with 1; match goal with |- context [1 + zlen ?x] => pose proof (zlen_nonneg x) end; lia|].
    exists (t ++ q), b. split; [reflexivity|]. split; [exact Eb|exact H].
  - rewrite firstn_long by lia. rewrite store_ok by lia. cbn [bind]. replace (zlen t =? n - 1) with true by lia. set (q := skipn _ _).
    destruct (put0_holds t q) as (b & Eb & H); [unfold q; unfold zlen in *; rewrite skipn_length; lia|].
    exists (t ++ q), b. split; [reflexivity|]. split; [exact Eb|exact H].
Qed.
Lemma old_short h t n : heap_ok h -> 0 < n -> n - 1 < zlen t -> exists b, vsnprintf Old t (n - 1) (junk h n) = OK (-1, b).
Proof.
  intros Hh P L. cbn [vsnprintf]. replace (zlen t <? n - 1) with false by lia. pose proof (Hh n ltac:(lia)) as Hj.
  rewrite store_ok by (unfold zlen in *; rewrite firstn_length; lia). cbn [bind]. replace (zlen t =? n - 1) with false by lia. eexists. reflexivity.
Qed.
Lemma grow_step f h k t size have live : grow (S f) h k t size have live =
  (let live := if have : bool then live - 1 else live in let size := ((if size =? 0 then 5 else size) * 2) mod 2 ^ 64 in
   if negb (malloc h size) then UB else '(len, b) <- vsnprintf k t ((size - 1) mod 2 ^ 64) (junk h size) ;;
   if len <? 0 then grow f h k t size true (live + 1) else b <- put0 b len ;; OK (len, New b, live + 1)).
Proof. reflexivity. Qed.
Lemma grow_ok h t : heap_ok h -> zlen t < 2 ^ 31 - 1 -> (forall n, n <= Z.max 10 (2 * zlen t) -> malloc h n = true) ->
  forall f size have live, 0 <= size <= zlen t -> zlen t < 2 * (if size =? 0 then 5 else size) * 2 ^ Z.of_nat f -> live = (if have : bool then 1 else 0) ->
  exists b, grow (S f) h Old t size have live = OK (zlen t, New b, 1) /\ holds b t.
Proof.
  intros Hh Lt Hm. pose proof (zlen_nonneg t) as Pt. induction f as [|f IH]; intros size have live Hs Hf ->; rewrite grow_step; cbv zeta;
    set (m := if size =? 0 then 5 else size) in *;
    assert (Bm : 1 <= m <= Z.max 5 (zlen t)) by (unfold m; destruct (size =? 0) eqn:E; lia);
    rewrite (Z.mod_small (m * 2)) by lia; rewrite (Z.mod_small (m * 2 - 1)) by lia; rewrite (Hm (m * 2)) by lia; cbn [negb];
    (replace (if have then (if have then 1 else 0) - 1 else if have then 1 else 0) with 0 by (destruct have; reflexivity)).
  - change (2 ^ Z.of_nat 0) with 1 in Hf. destruct (old_terminated h t (m * 2) Hh ltac:(lia)) as (b & b' & -> & E & H). cbn [bind].
    replace (zlen t <? 0) with false by lia. rewrite E. cbn [bind]. exists b'. split; [reflexivity|exact H].
  - destruct (Z_le_gt_dec (zlen t) (m * 2 - 1)) as [L|L].
    + destruct (old_terminated h t (m * 2) Hh L) as (b & b' & -> & E & H). cbn [bind].
      replace (zlen t <? 0) with false by lia. rewrite E. cbn [bind]. exists b'. split; [reflexivity|exact H].
    + destruct (old_short h t (m * 2) Hh ltac:(lia) ltac:(lia)) as (b & ->). cbn [bind]. change (-1 <? 0) with true. cbn iota.
      apply IH; [lia| |reflexivity]. replace (m * 2 =? 0) with false by lia. rewrite Nat2Z.inj_succ, Z.pow_succ_r in Hf by lia. nia.
Qed.
(** C105. With an old vsnprintf the caller gets the whole text too, if there is memory for twice the text. *)
Theorem avprintf_whole_old h t buf size : heap_ok h -> 0 <= size <= zlen buf -> size < 2 ^ 31 -> zlen t < 2 ^ 31 - 1 ->
  (forall n, n <= Z.max 10 (2 * zlen t) -> malloc h n = true) ->
  exists r, mg_avprintf 32 h Old t buf size = OK r /\ whole t size r.
Proof.
  intros Hh Hs Ls Lt Hm. pose proof (zlen_nonneg t) as Pt. unfold mg_avprintf. destruct (Z_lt_ge_dec (zlen t) size) as [L|L].
  - destruct (old_fits t size buf L ltac:(lia)) as (b & -> & H). cbn [bind]. replace (zlen t <? 0) with false by lia. replace (size <=? zlen t) with false by lia.
    eexists. split; [reflexivity|]. split; [exact L|]. split; [reflexivity|]. split; [exact H|reflexivity].
  - assert (X : exists b, vsnprintf Old t size buf = OK (if zlen t =? size then zlen t else -1, b)).
    { cbn [vsnprintf]. replace (zlen t <? size) with false by lia. rewrite store_ok by (unfold zlen in *; rewrite firstn_length; lia). cbn [bind]. eexists. reflexivity. }
    destruct X as (b & ->). cbn [bind]. destruct (zlen t =? size) eqn:E.
    + replace (zlen t <? 0) with false by lia. replace (size <=? zlen t) with true by lia. rewrite (Hm (zlen t + 1)) by lia. cbn [negb].
      destruct (old_fits t (zlen t + 1) (junk h (zlen t + 1)) ltac:(lia) ltac:(rewrite Hh; lia)) as (b' & -> & H). cbn [bind].
      eexists. split; [reflexivity|]. split; [lia|]. split; [reflexivity|]. split; [exact H|reflexivity].
    + change (-1 <? 0) with true. cbn iota. destruct (grow_ok h t Hh Lt Hm 31 size false 0 ltac:(lia)) as (b' & -> & H); [|reflexivity|].
      * change (2 ^ Z.of_nat 31) with 2147483648. destruct (size =? 0) eqn:E0; lia.
      * eexists. split; [reflexivity|]. split; [lia|]. split; [reflexivity|]. split; [exact H|reflexivity].
Qed.
Print Assumptions avprintf_whole_old.

Definition ax (lim : Z) : heap := {| malloc := fun n => n <=? lim; junk := fun n => repeat 170 (Z.to_nat n) |}.
Lemma ax_ok lim : heap_ok (ax lim).
Proof. intros n H. unfold zlen. cbn [junk ax]. rewrite repeat_length. lia. Qed.
Definition ax_t : list Z := bs "failed to read file".
Example ax_meets : heap_ok (ax 100) /\ 0 <= 8 <= zlen (repeat 170 8) /\ zlen ax_t < 2 ^ 31 - 1 /\ (forall n, n <= Z.max 10 (2 * zlen ax_t) -> malloc (ax 100) n = true).
Proof. split; [apply ax_ok|]. split; [vm_compute; split; discriminate|]. split; [reflexivity|]. change (zlen ax_t) with 19. intros n H. cbn [malloc ax]. lia. Qed.
Example ax_runs : mg_avprintf 32 (ax 100) Conforming ax_t (repeat 170 8) 8 = OK (19, New (ax_t ++ [0]), 1) /\
  mg_avprintf 32 (ax 100) Old ax_t (repeat 170 8) 8 = OK (19, New (ax_t ++ 0 :: repeat 170 12), 1) /\
  mg_avprintf 32 (ax 100) Conforming (bs "ok") (repeat 170 8) 8 = OK (2, Callers (bs "ok" ++ 0 :: repeat 170 5), 0) /\
  mg_avprintf 32 (ax 10) Conforming ax_t (repeat 170 8) 8 = OK (-1, Null, 0).
Proof. vm_compute. repeat split. Qed.
Example ax_holds : exists r, mg_avprintf 32 (ax 100) Old ax_t (repeat 170 8) 8 = OK r /\ whole ax_t 8 r.
Proof. destruct ax_meets as (H1 & H2 & H3 & H4). apply avprintf_whole_old; [exact H1|exact H2|lia|exact H3|exact H4]. Qed.
(** Lack of memory is answered by -1: false for an old vsnprintf. *)
Theorem old_out_of_memory_refuted : exists h t buf size, heap_ok h /\ 0 <= size <= zlen buf /\ zlen t < 2 ^ 31 - 1 /\ mg_avprintf 32 h Old t buf size = UB.
Proof. exists (ax 10), ax_t, (repeat 170 8), 8. split; [apply ax_ok|]. split; [vm_compute; split; discriminate|]. split; reflexivity. Qed.
Print Assumptions old_out_of_memory_refuted.
(** A failing vsnprintf is answered by -1: false. Whatever memory there is, the blocks grow until there is none, and the null pointer is written to. *)
Lemma grow_fails h t : (forall n, 2 ^ 62 <= n -> malloc h n = false) -> forall f size have live, 0 <= size -> 2 ^ 62 <= 2 * (if size =? 0 then 5 else size) * 2 ^ Z.of_nat f -> size < 2 ^ 62 ->
  grow (S f) h Failing t size have live = UB.
Proof.
  intros Hm. induction f as [|f IH]; intros size have live Hs Hf Hl; rewrite grow_step; cbv zeta;
    set (m := if size =? 0 then 5 else size) in *; assert (Bm : 1 <= m < 2 ^ 62) by (unfold m; destruct (size =? 0) eqn:E; lia); rewrite (Z.mod_small (m * 2)) by lia.
  - change (2 ^ Z.of_nat 0) with 1 in Hf. rewrite Hm by lia. reflexivity.
  - destruct (malloc h (m * 2)) eqn:M; cbn [negb]; [|reflexivity]. cbn [vsnprintf bind]. change (-1 <? 0) with true. cbn iota.
    assert (m * 2 < 2 ^ 62) by (destruct (Z_lt_ge_dec (m * 2) (2 ^ 62)) as [K|K]; [exact K|rewrite Hm in M by lia; discriminate M]).
    apply IH; [lia| |lia]. replace (m * 2 =? 0) with false by lia. rewrite Nat2Z.inj_succ, Z.pow_succ_r in Hf by lia. nia.
Qed.
Theorem failing_format_crashes h t buf size : (forall n, 2 ^ 62 <= n -> malloc h n = false) -> 0 <= size < 2 ^ 31 -> mg_avprintf 64 h Failing t buf size = UB.
Proof.
  intros Hm Hs. unfold mg_avprintf. cbn [vsnprintf bind]. change (-1 <? 0) with true. cbn iota. apply (grow_fails h t Hm 63); [lia| |lia].
  change (2 ^ Z.of_nat 63) with (2 ^ 63). destruct (size =? 0) eqn:E; lia.
Qed.
Print Assumptions failing_format_crashes.
Example ax_crash : (forall n, 2 ^ 62 <= n -> malloc (ax 100) n = false) /\ mg_avprintf 64 (ax 100) Failing ax_t (repeat 170 8) 8 = UB.
Proof. split; [intros n H; cbn [malloc ax]; lia|]. apply failing_format_crashes; [intros n H; cbn [malloc ax]; lia|lia]. Qed.
Theorem failing_format_noticed_refuted : exists h t buf size, heap_ok h /\ 0 <= size <= zlen buf /\ mg_avprintf 64 h Failing t buf size = UB.
Proof. exists (ax 100), ax_t, (repeat 170 8), 8. split; [apply ax_ok|]. split; [vm_compute; split; discriminate|exact (proj2 ax_crash)]. Qed.
Print Assumptions failing_format_noticed_refuted.
