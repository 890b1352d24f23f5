From Verif Require Import Base BaseFacts Varint_Model Varint_Proofs Bcode_Model Bcode_Spec.

Ltac Zify.zify_post_hook ::= Z.div_mod_to_equations.

Lemma u64_id n : 0 <= n < 2 ^ 64 -> u64 n = n.
Proof. intros H. unfold u64. apply Z.mod_small. exact H. Qed.
Lemma varint_id n : 0 <= n < 2 ^ 64 -> varint n = varint_bytes n.
Proof. intros H. unfold varint. rewrite u64_id by exact H. reflexivity. Qed.
Lemma varint_u64 n : is_u64 (u64 n).
Proof. unfold is_u64, u64. apply Z.mod_pos_bound. reflexivity. Qed.
Lemma varint_zlen n : 1 <= zlen (varint n) <= 10.
Proof. apply varint_len_u64. apply varint_u64. Qed.
Lemma varint_decodes n rest : varint_decode_unsafe (varint n ++ rest) = OK (u64 n, zlen (varint n)).
Proof. apply decode_unsafe_encode. apply varint_u64. Qed.

Lemma skipn_zlen {A} (a b : list A) : skipn (Z.to_nat (zlen a)) (a ++ b) = b.
Proof. unfold zlen. rewrite Nat2Z.id, skipn_app, skipn_all, Nat.sub_diag. reflexivity. Qed.
Lemma firstn_zlen {A} (a b : list A) : firstn (Z.to_nat (zlen a)) (a ++ b) = a.
Proof. unfold zlen. rewrite Nat2Z.id, firstn_app, firstn_all, Nat.sub_diag, firstn_O, app_nil_r. reflexivity. Qed.

(** Insertion of a jump distance in place of the reserved byte. *)
Lemma insert_offset_spec g a r b v : g_code g = a ++ r :: b ->
  insert_offset g (zlen a) v =
  OK ({| g_code := a ++ varint v ++ b; g_cur := if zlen a <=? g_cur g then g_cur g + (zlen (varint v) - 1) else g_cur g;
         g_start := g_start g; g_map := g_map g; g_last := g_last g |}, zlen (varint v) - 1).
Proof.
  intros E. unfold insert_offset. pose proof (zlen_nonneg a). pose proof (zlen_nonneg b).
  assert (L : zlen (g_code g) = zlen a + 1 + zlen b) by (rewrite E, zlen_app, zlen_cons; lia).
  replace ((0 <=? zlen a) && (zlen a <? zlen (g_code g))) with true by lia.
  do 3 f_equal. rewrite E.
  rewrite firstn_zlen. f_equal. f_equal.
  change (a ++ r :: b) with (a ++ [r] ++ b). rewrite app_assoc.
  replace (S (Z.to_nat (zlen a))) with (Z.to_nat (zlen (a ++ [r]))) by (rewrite zlen_app; change (zlen [r]) with 1; lia).
  apply skipn_zlen.
Qed.

(** Emission at the end of the code. *)
Lemma put_end g d : g_cur g = zlen (g_code g) ->
  put g d = OK {| g_code := g_code g ++ d; g_cur := g_cur g + zlen d; g_start := g_start g; g_map := g_map g; g_last := g_last g |}.
Proof.
  intros E. unfold put. pose proof (zlen_nonneg (g_code g)).
  replace ((0 <=? g_cur g) && (g_cur g <=? zlen (g_code g))) with true by lia.
  rewrite E. unfold zlen at 1 2. rewrite Nat2Z.id, firstn_all, skipn_all, app_nil_r. reflexivity.
Qed.

(** Parts *)
Lemma find_part_spec ps : forall base off,
  (forall i, (i < length ps)%nat -> bp_start (nth i ps {| bp_start := 0; bp_data := [] |}) =
     base + zlen (concat (map bp_data (firstn i ps)))) ->
  base <= off -> off < base + zlen (concat (map bp_data ps)) ->
  exists pre bp post, ps = pre ++ bp :: post /\ find_part ps off = OK bp /\ bp_start bp <= off < bp_start bp + zlen (bp_data bp).
Proof.
  induction ps as [|bp ps IH]; intros base off H B T.
  - cbn in T. lia.
  - pose proof (H 0%nat ltac:(cbn; lia)) as H0. cbn in H0.
    cbn [find_part]. destruct (off <? bp_start bp + zlen (bp_data bp)) eqn:E.
    + exists [], bp, ps. split; [reflexivity|]. split; [reflexivity|]. unfold zlen in *. cbn in H0. lia.
    + cbn [map concat] in T. rewrite zlen_app in T.
      destruct (IH (base + zlen (bp_data bp)) off) as (pre & b & post & E1 & E2 & E3).
      * intros i Hi. specialize (H (S i) ltac:(cbn; lia)). cbn [nth firstn map concat] in H. rewrite zlen_app in H. lia.
      * change (zlen (@nil Z)) with 0 in H0. lia.
      * lia.
      * exists (bp :: pre), b, post. split; [rewrite E1; reflexivity|]. split; assumption.
Qed.

(** The code after committing the given byte strings in order. *)
Definition commits (ds : list (list Z)) : code := fold_left commit ds no_code.
Lemma commits_snoc ds d : commits (ds ++ [d]) = commit (commits ds) d.
Proof. unfold commits. rewrite fold_left_app. reflexivity. Qed.
Lemma commits_len ds : c_len (commits ds) = zlen (concat ds).
Proof.
  induction ds as [|d ds IH] using rev_ind; [reflexivity|].
  rewrite commits_snoc. cbn [commit c_len]. rewrite IH, concat_app, zlen_app. cbn [concat]. rewrite app_nil_r. reflexivity.
Qed.
Lemma commits_data ds : map bp_data (c_parts (commits ds)) = ds.
Proof.
  induction ds as [|d ds IH] using rev_ind; [reflexivity|].
  rewrite commits_snoc. cbn [commit c_parts]. rewrite map_app, IH. reflexivity.
Qed.
Lemma commits_starts ds : forall i, (i < length ds)%nat ->
  bp_start (nth i (c_parts (commits ds)) {| bp_start := 0; bp_data := [] |}) = zlen (concat (firstn i ds)).
Proof.
  induction ds as [|d ds IH] using rev_ind; [cbn; lia|]. intros i Hi. rewrite app_length in Hi. cbn in Hi.
  assert (L : length (c_parts (commits ds)) = length ds) by (rewrite <- (commits_data ds) at 2; rewrite map_length; reflexivity).
  rewrite commits_snoc. cbn [commit c_parts]. destruct (Nat.eq_dec i (length ds)) as [->|N].
  - rewrite app_nth2, L, Nat.sub_diag by lia. cbn [nth bp_start]. rewrite commits_len, firstn_app, firstn_all, Nat.sub_diag, firstn_O, app_nil_r. reflexivity.
  - rewrite app_nth1 by lia. rewrite IH by lia. rewrite firstn_app. replace (i - length ds)%nat with 0%nat by lia. rewrite firstn_O, app_nil_r. reflexivity.
Qed.

(** The line map *)
Lemma entry_decode e rest : entry_ok e ->
  varint_decode_unsafe (varint_bytes (fst e) ++ varint_bytes (snd e) ++ rest) = OK (fst e, zlen (varint_bytes (fst e))) /\
  varint_decode_unsafe (varint_bytes (snd e) ++ rest) = OK (snd e, zlen (varint_bytes (snd e))).
Proof.
  intros [H1 H2]. split; apply decode_unsafe_encode; unfold is_u64; lia.
Qed.
Lemma map_loop_spec pre : forall fuel post tail off prev, Forall entry_ok (pre ++ post) -> 0 <= off < 2 ^ 31 ->
  Forall (fun e => fst e < off) pre -> (forall e es, post = e :: es -> off <= fst e) ->
  (length (map_bytes (pre ++ post)) <= fuel)%nat ->
  map_loop fuel (map_bytes (pre ++ post) ++ tail) (zlen (map_bytes (pre ++ post))) off prev =
  OK (match post with [] => 1 | _ => match pre with [] => prev | _ => last_line pre end end).
Proof.
  induction pre as [|e pre IH]; intros fuel post tail off prev F Ho P1 P2 Hf.
  - cbn [app] in *. destruct post as [|e post].
    + destruct fuel; reflexivity.
    + apply Forall_inv in F. specialize (P2 e post eq_refl).
      unfold map_bytes in *. cbn [map concat] in *. rewrite <- !app_assoc. rewrite <- app_assoc in Hf.
      destruct (entry_decode e (concat (map (fun e0 => varint_bytes (fst e0) ++ varint_bytes (snd e0)) post) ++ tail) F) as [D1 D2].
      pose proof (varint_len_pos (fst e) ltac:(destruct F; lia)) as L1.
      pose proof (varint_len_pos (snd e) ltac:(destruct F; lia)) as L2.
      rewrite !app_length in Hf.
      destruct fuel as [|fuel]; [unfold zlen in *; lia|]. cbn [map_loop].
      rewrite !zlen_app. match goal with |- context [?n <=? 0] => pose proof (zlen_nonneg (concat (map (fun e0 : Z * Z => varint_bytes (fst e0) ++ varint_bytes (snd e0)) post))); replace (n <=? 0) with false by lia end.
      rewrite D1. cbn [bind]. rewrite skipn_zlen, D2. cbn [bind].
      rewrite u64_id by lia. replace (off <=? fst e) with true by lia. reflexivity.
  - cbn [app] in *. pose proof (Forall_inv F) as Fe. pose proof (Forall_inv P1) as Pe. cbn in Pe.
    assert (E : map_bytes (e :: pre ++ post) = varint_bytes (fst e) ++ varint_bytes (snd e) ++ map_bytes (pre ++ post)).
    { unfold map_bytes. cbn [map concat]. rewrite <- app_assoc. reflexivity. }
    rewrite E in *. rewrite <- !app_assoc.
    destruct (entry_decode e (map_bytes (pre ++ post) ++ tail) Fe) as [D1 D2].
    pose proof (varint_len_pos (fst e) ltac:(destruct Fe; lia)) as L1.
    pose proof (varint_len_pos (snd e) ltac:(destruct Fe; lia)) as L2.
    rewrite !app_length in Hf. destruct fuel as [|fuel]; [unfold zlen in *; lia|]. cbn [map_loop].
    rewrite !zlen_app. match goal with |- context [?n <=? 0] => pose proof (zlen_nonneg (map_bytes (pre ++ post))); replace (n <=? 0) with false by lia end.
    rewrite D1. cbn [bind]. rewrite skipn_zlen, D2. cbn [bind]. rewrite skipn_zlen.
    rewrite u64_id by lia. replace (off <=? fst e) with false by lia.
    match goal with |- map_loop _ _ ?n _ _ = _ => replace n with (zlen (map_bytes (pre ++ post))) by lia end.
    rewrite IH; try assumption; [|apply Forall_inv_tail in F; exact F|apply Forall_inv_tail in P1; exact P1|unfold zlen in *; lia].
    destruct post; [reflexivity|]. f_equal.
    assert (s32 (snd e) = snd e) as ->.
    { unfold s32. destruct Fe as [_ Fe]. rewrite Z.mod_small by lia. replace (snd e <? 2 ^ 31) with true by lia. reflexivity. }
    destruct pre as [|e1 pre]; reflexivity.
Qed.

Lemma le4_val n tail : 0 <= n < 2 ^ 32 -> le_val (firstn 4 (le_bytes 4 n ++ tail)) = n.
Proof.
  intros H. rewrite firstn_app. replace (length (le_bytes 4 n)) with 4%nat by (rewrite le_bytes_length; reflexivity).
  rewrite Nat.sub_diag, firstn_O, app_nil_r. rewrite firstn_all2 by (rewrite le_bytes_length; lia).
  apply le_val_bytes_small. exact H.
Qed.
Lemma read_u32_at a n tail : 0 <= n < 2 ^ 32 -> read_u32 (a ++ le_bytes 4 n ++ tail) (zlen a) = OK n.
Proof.
  intros H. unfold read_u32. pose proof (zlen_nonneg a). pose proof (zlen_nonneg tail).
  assert (L4 : zlen (le_bytes 4 n) = 4) by (unfold zlen; rewrite le_bytes_length; reflexivity).
  rewrite !zlen_app, L4. replace ((0 <=? zlen a) && (zlen a + 4 <=? zlen a + (4 + zlen tail))) with true by lia.
  unfold sub. rewrite skipn_zlen. change (Z.to_nat 4) with 4%nat. rewrite le4_val by exact H. reflexivity.
Qed.
Lemma layout_zlen hd total fname bc es :
  zlen (layout hd total fname bc es) = code_start fname + zlen bc + zlen (varint_bytes (zlen (map_bytes es))) + zlen (map_bytes es).
Proof.
  assert (L4 : forall n, zlen (le_bytes 4 n) = 4) by (intros; unfold zlen; rewrite le_bytes_length; reflexivity).
  unfold layout, code_start. rewrite !zlen_app, !L4.
  change (zlen [hd]) with 1. change (zlen [0]) with 1. lia.
Qed.
Lemma lineno_layout bp c off hd total fname bc pre post o :
  bp_data bp = layout hd total fname bc (pre ++ post) -> zlen (bp_data bp) < 2 ^ 31 ->
  part_by_offset c off = OK (Some bp) -> 0 <= bp_start bp -> off < 2 ^ 31 ->
  off = bp_start bp + code_start fname + o -> 0 <= o < 2 ^ 31 ->
  Forall entry_ok (pre ++ post) -> Forall (fun e => fst e < o) pre -> (forall e es, post = e :: es -> o <= fst e) ->
  lineno_by_offset c off = OK (match post with [] => 1 | _ => last_line pre end).
Proof.
  intros D Dl P B Ho Eo Hoo F P1 P2. unfold lineno_by_offset. rewrite P. cbn [bind].
  rewrite D, layout_zlen in Dl. pose proof (zlen_nonneg fname). pose proof (zlen_nonneg bc).
  pose proof (zlen_nonneg (map_bytes (pre ++ post))) as Hm.
  pose proof (varint_len_pos (zlen (map_bytes (pre ++ post))) Hm) as Hv.
  unfold code_start in *.
  assert (L4 : forall n, zlen (le_bytes 4 n) = 4) by (intros; unfold zlen; rewrite le_bytes_length; reflexivity).
  assert (R1 : read_u32 (bp_data bp) 9 = OK (12 + zlen fname + 1 + zlen bc)).
  { rewrite D. unfold layout.
    replace 9 with (zlen ([hd] ++ le_bytes 4 total ++ le_bytes 4 (12 + zlen fname + 1))) by (rewrite !zlen_app, !L4; reflexivity).
    rewrite (app_assoc (le_bytes 4 total)), (app_assoc [hd]). apply read_u32_at. lia. }
  assert (R2 : read_u32 (bp_data bp) 5 = OK (12 + zlen fname + 1)).
  { rewrite D. unfold layout.
    replace 5 with (zlen ([hd] ++ le_bytes 4 total)) by (rewrite !zlen_app, !L4; reflexivity).
    rewrite (app_assoc [hd]). apply read_u32_at. lia. }
  rewrite R1, R2. cbn [bind]. rewrite D, layout_zlen. unfold code_start.
  match goal with |- context [?a <? ?b] => replace (a <? b) with false by lia end.
  match goal with |- context [skipn ?k (layout _ _ _ _ _)] =>
    assert (SK : skipn k (layout hd total fname bc (pre ++ post)) =
      varint_bytes (zlen (map_bytes (pre ++ post))) ++ map_bytes (pre ++ post)) end.
  { unfold layout.
    replace (1 + (12 + zlen fname + 1 + zlen bc)) with
      (zlen (((((([hd] ++ le_bytes 4 total) ++ le_bytes 4 (12 + zlen fname + 1)) ++ le_bytes 4 (12 + zlen fname + 1 + zlen bc)) ++ fname) ++ [0]) ++ bc))
      by (rewrite !zlen_app, !L4; change (zlen [hd]) with 1; change (zlen [0]) with 1; lia).
    rewrite !app_assoc. rewrite <- (app_assoc _ (varint_bytes _)). apply skipn_zlen. }
  rewrite SK, decode_unsafe_encode by (unfold is_u64; lia). cbn [bind]. rewrite skipn_zlen.
  assert (E : s32 (off - (u32 (1 + (12 + zlen fname + 1)) + bp_start bp)) = o).
  { unfold u32. rewrite Z.mod_small by lia. unfold s32.
    replace (off - (1 + (12 + zlen fname + 1) + bp_start bp)) with o by lia.
    rewrite Z.mod_small by lia. replace (o <? 2 ^ 31) with true by lia. reflexivity. }
  rewrite E.
  replace (map_bytes (pre ++ post)) with (map_bytes (pre ++ post) ++ []) at 2 by apply app_nil_r.
  rewrite map_loop_spec; try assumption; [|unfold zlen; lia].
  destruct post; [reflexivity|]. destruct pre; reflexivity.
Qed.

(** Emissions *)
Fixpoint emits (g : gen) (es : list (Z * list Z)) : R gen :=
  match es with
  | [] => OK g
  | (l, d) :: es => g' <- put (add_lineno g l) d ;; emits g' es
  end.
Lemma emits_spec es : forall g, g_cur g = zlen (g_code g) -> 0 <= g_start g <= g_cur g ->
  g_cur g - g_start g + zlen (concat (map snd es)) < 2 ^ 31 -> Forall (fun e => 0 <= fst e < 2 ^ 31) es -> 0 <= g_last g ->
  exists g', emits g es = OK g' /\ g_code g' = g_code g ++ concat (map snd es) /\ g_cur g' = zlen (g_code g') /\
    g_start g' = g_start g /\
    g_map g' = g_map g ++ map_bytes (line_entries (g_last g) (g_cur g - g_start g) es).
Proof.
  induction es as [|[l d] es IH]; intros g Ec Hs Hb Hl Hg.
  - exists g. cbn. rewrite !app_nil_r. repeat split; assumption || reflexivity.
  - cbn [emits map concat snd] in *. rewrite zlen_app in Hb.
    pose proof (zlen_nonneg (concat (map snd es))) as Hn. pose proof (zlen_nonneg d) as Hd.
    pose proof (Forall_inv Hl) as Hl0. cbn [fst] in Hl0. apply Forall_inv_tail in Hl.
    unfold add_lineno. destruct (g_last g <? l) eqn:E.
    + rewrite put_end by exact Ec. cbn [bind]. cbn [g_code g_cur g_start g_map g_last].
      match goal with |- context [emits ?x es] => destruct (IH x) as (g' & E1 & E2 & E3 & E4 & E5) end;
        cbn [g_code g_cur g_start g_map g_last]; [rewrite zlen_app; lia|lia|lia|exact Hl|lia|].
      exists g'. split; [exact E1|].
      cbn [g_code g_cur g_start g_map g_last] in *.
      split; [rewrite E2, <- app_assoc; reflexivity|]. split; [exact E3|]. split; [exact E4|].
      rewrite E5. cbn [line_entries]. rewrite E. unfold map_bytes at 2. cbn [map concat fst snd].
      rewrite !varint_id by lia. rewrite <- !app_assoc.
      replace (g_cur g + zlen d - g_start g) with (g_cur g - g_start g + zlen d) by lia. reflexivity.
    + rewrite put_end by exact Ec. cbn [bind]. cbn [g_code g_cur g_start g_map g_last].
      match goal with |- context [emits ?x es] => destruct (IH x) as (g' & E1 & E2 & E3 & E4 & E5) end;
        cbn [g_code g_cur g_start g_map g_last]; [rewrite zlen_app; lia|lia|lia|exact Hl|lia|].
      exists g'. split; [exact E1|].
      cbn [g_code g_cur g_start g_map g_last] in *.
      split; [rewrite E2, <- app_assoc; reflexivity|]. split; [exact E3|]. split; [exact E4|].
      rewrite E5. cbn [line_entries]. rewrite E.
      replace (g_cur g + zlen d - g_start g) with (g_cur g - g_start g + zlen d) by lia. reflexivity.
Qed.
