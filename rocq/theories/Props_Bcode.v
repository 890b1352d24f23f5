(** C34, C46, C47: generated code, the line map and committed parts. *)
From Verif Require Import Base BaseFacts Varint_Model Varint_Proofs Txt_Model Bcode_Model Bcode_Spec Bcode_Proofs.

(** C34. Writing a jump distance into a reserved byte replaces that byte and nothing else,
    moves what follows by the reported amount, and the distance reads back. *)
Theorem insert_offset_replaces_one_byte g a r b v : g_code g = a ++ r :: b -> 0 <= v < 2 ^ 64 ->
  exists g' w, insert_offset g (zlen a) v = OK (g', zlen w - 1) /\ g_code g' = a ++ w ++ b /\
    1 <= zlen w <= 10 /\ varint_decode_unsafe (w ++ b) = OK (v, zlen w) /\
    g_start g' = g_start g /\ g_map g' = g_map g.
Proof.
  intros E V. rewrite (insert_offset_spec g a r b v E). eexists _, (varint v). split; [reflexivity|]. cbn [g_code g_start g_map].
  split; [reflexivity|]. split; [apply varint_zlen|]. split; [|split; reflexivity].
  rewrite varint_decodes, u64_id by exact V. reflexivity.
Qed.
Print Assumptions insert_offset_replaces_one_byte.

(** C34. A forward jump over [over], patched when the generator stands right after [over],
    lands right after [over] whatever the width of the distance, and the generator still
    stands there. *)
Theorem patched_jump_lands g before r over after : g_code g = before ++ r :: over ++ after ->
  g_cur g = zlen before + 1 + zlen over -> zlen over < 2 ^ 64 ->
  exists g' operand diff, insert_offset g (zlen before) (g_cur g - zlen before - 1) = OK (g', diff) /\
    g_code g' = before ++ operand ++ over ++ after /\
    varint_decode_unsafe (operand ++ over ++ after) = OK (zlen over, zlen operand) /\
    g_cur g' = zlen (before ++ operand ++ over) /\ g_cur g' = g_cur g + diff.
Proof.
  intros E C V. replace (g_cur g - zlen before - 1) with (zlen over) by lia.
  rewrite (insert_offset_spec g before r (over ++ after) (zlen over) E).
  pose proof (zlen_nonneg over). pose proof (zlen_nonneg before).
  eexists _, (varint (zlen over)), _. split; [reflexivity|]. cbn [g_code g_cur].
  split; [reflexivity|]. split; [rewrite varint_decodes, u64_id by lia; reflexivity|].
  replace (zlen before <=? g_cur g) with true by lia. rewrite !zlen_app. lia.
Qed.
Print Assumptions patched_jump_lands.

(** Two nested jumps: the inner one, patched first, still lands after the outer one has been
    widened, since both ends of it moved together. *)
Theorem nested_jumps_land g before mid inner rest r1 r2 :
  g_code g = before ++ r1 :: mid ++ r2 :: inner ++ rest ->
  g_cur g = zlen before + 1 + zlen mid + 1 + zlen inner ->
  zlen (g_code g) < 2 ^ 62 ->
  exists g1 d1 g2 d2 w1 w2,
    insert_offset g (zlen before + 1 + zlen mid) (zlen inner) = OK (g1, d1) /\
    insert_offset g1 (zlen before) (g_cur g1 - zlen before - 1) = OK (g2, d2) /\
    g_code g2 = before ++ w1 ++ mid ++ w2 ++ inner ++ rest /\
    varint_decode_unsafe (w2 ++ inner ++ rest) = OK (zlen inner, zlen w2) /\
    varint_decode_unsafe (w1 ++ mid ++ w2 ++ inner ++ rest) = OK (zlen (mid ++ w2 ++ inner), zlen w1) /\
    g_cur g2 = zlen (before ++ w1 ++ mid ++ w2 ++ inner).
Proof.
  intros E C B. assert (E1 : g_code g = (before ++ r1 :: mid) ++ r2 :: inner ++ rest) by (rewrite E, <- app_assoc; reflexivity).
  assert (Z1 : zlen (before ++ r1 :: mid) = zlen before + 1 + zlen mid) by (rewrite zlen_app, zlen_cons; lia).
  pose proof (zlen_nonneg before). pose proof (zlen_nonneg mid). pose proof (zlen_nonneg inner). pose proof (zlen_nonneg rest).
  assert (BB : zlen before + (1 + (zlen mid + (1 + (zlen inner + zlen rest)))) < 2 ^ 62).
  { rewrite E in B. rewrite zlen_app, zlen_cons, zlen_app, zlen_cons, zlen_app in B. lia. }
  rewrite <- Z1. rewrite (insert_offset_spec g _ r2 _ (zlen inner) E1).
  set (g1 := {| g_code := _; g_cur := _; g_start := _; g_map := _; g_last := _ |}).
  set (w2 := varint (zlen inner)).
  pose proof (varint_zlen (zlen inner)) as W2. fold w2 in W2.
  assert (C1 : g_cur g1 = zlen before + 1 + zlen mid + zlen w2 + zlen inner).
  { unfold g1. cbn [g_cur]. rewrite Z1. replace (_ <=? _) with true by lia. fold w2. lia. }
  assert (E2 : g_code g1 = before ++ r1 :: (mid ++ w2 ++ inner ++ rest)).
  { unfold g1. cbn [g_code]. rewrite <- app_assoc. reflexivity. }
  assert (V : g_cur g1 - zlen before - 1 = zlen (mid ++ w2 ++ inner)) by (rewrite C1, !zlen_app; lia).
  eexists g1, _, _, _, (varint (zlen (mid ++ w2 ++ inner))), w2. split; [reflexivity|]. rewrite V.
  rewrite (insert_offset_spec g1 before r1 _ _ E2). split; [reflexivity|]. cbn [g_code g_cur].
  split; [reflexivity|]. split; [unfold w2; rewrite varint_decodes, u64_id by lia; reflexivity|].
  split; [rewrite varint_decodes, u64_id; [reflexivity|rewrite !zlen_app; lia]|].
  replace (zlen before <=? g_cur g1) with true by lia. rewrite C1, !zlen_app. lia.
Qed.
Print Assumptions nested_jumps_land.

(** An instance: a jump over 200 bytes needs two operand bytes. *)
Definition long_jump : gen :=
  {| g_code := [OP_JMP; 0] ++ repeat OP_NOP 200; g_cur := 202; g_start := 0; g_map := []; g_last := 1 |}.
Example long_jump_lands : exists g', insert_offset long_jump 1 200 = OK (g', 1) /\
  g_code g' = [OP_JMP; 200; 1] ++ repeat OP_NOP 200 /\ g_cur g' = 203.
Proof. eexists. split; [vm_compute; reflexivity|]. split; reflexivity. Qed.

(** C34 does not extend to the line map: it is not adjusted when code moves. Here the map
    says that line 2 starts at offset 202, where the instruction of line 2 is until the jump
    over 200 bytes is patched; afterwards that instruction is at offset 203. *)
Definition two_lines : R gen :=
  emits {| g_code := []; g_cur := 0; g_start := 0; g_map := []; g_last := 0 |}
    [(1, [OP_JMP; 0]); (1, repeat OP_NOP 200); (2, [OP_PUSH_NULL]); (3, [OP_DROP])].
Theorem line_map_follows_code_refuted :
  exists g g' d, two_lines = OK g /\ insert_offset g 1 200 = OK (g', d) /\
    g_map g = map_bytes [(0, 1); (202, 2); (203, 3)] /\ nthz (g_code g) 202 = Some OP_PUSH_NULL /\
    g_map g' = g_map g /\ nthz (g_code g') 202 = Some OP_NOP /\ nthz (g_code g') 203 = Some OP_PUSH_NULL.
Proof.
  eexists _, _, _. split; [vm_compute; reflexivity|]. split; [vm_compute; reflexivity|].
  split; [vm_compute; reflexivity|]. split; [vm_compute; reflexivity|]. split; [reflexivity|]. split; vm_compute; reflexivity.
Qed.
Print Assumptions line_map_follows_code_refuted.

(** C47. After any commits, an offset is in exactly one part, the one returned; nothing is
    returned exactly for the offsets at or past the end. *)
Theorem part_containing_offset ds off : 0 <= off < 2 ^ 64 ->
  (off < zlen (concat ds) ->
     exists i d, nth_error ds i = Some d /\
       part_by_offset (commits ds) off = OK (Some {| bp_start := zlen (concat (firstn i ds)); bp_data := d |}) /\
       zlen (concat (firstn i ds)) <= off < zlen (concat (firstn i ds)) + zlen d) /\
  (zlen (concat ds) <= off -> part_by_offset (commits ds) off = OK None).
Proof.
  intros Ho. unfold part_by_offset. rewrite commits_len, u64_id by exact Ho. split; intros H.
  - replace (zlen (concat ds) <=? off) with false by lia.
    assert (L : length (c_parts (commits ds)) = length ds) by (rewrite <- (commits_data ds) at 2; rewrite map_length; reflexivity).
    destruct (find_part_spec (c_parts (commits ds)) 0 off) as (pre & bp & post & E & F & B).
    + intros i Hi. rewrite commits_starts by lia. rewrite <- firstn_map, commits_data. reflexivity.
    + lia.
    + rewrite commits_data. lia.
    + assert (D : ds = map bp_data pre ++ bp_data bp :: map bp_data post) by (rewrite <- (commits_data ds), E, map_app; reflexivity).
      assert (S : bp_start bp = zlen (concat (firstn (length pre) ds))).
      { assert (Lp : (length pre < length ds)%nat) by (rewrite <- L, E, app_length; cbn; lia).
        rewrite <- (commits_starts ds (length pre) Lp), E, app_nth2, Nat.sub_diag by lia. reflexivity. }
      exists (length pre), (bp_data bp). split; [|split].
      * rewrite D, nth_error_app2; rewrite map_length; [|lia]. rewrite Nat.sub_diag. reflexivity.
      * rewrite F. cbn [bind]. rewrite <- S. destruct bp. reflexivity.
      * rewrite <- S. exact B.
  - replace (zlen (concat ds) <=? off) with true by lia. reflexivity.
Qed.
Print Assumptions part_containing_offset.

(** The part is unique. *)
Theorem parts_do_not_overlap (ds : list (list Z)) i j di dj off : nth_error ds i = Some di -> nth_error ds j = Some dj ->
  zlen (concat (firstn i ds)) <= off < zlen (concat (firstn i ds)) + zlen di ->
  zlen (concat (firstn j ds)) <= off < zlen (concat (firstn j ds)) + zlen dj -> i = j.
Proof.
  revert i j off. induction ds as [|d ds IH]; intros i j off Hi Hj Bi Bj; [destruct i; discriminate|].
  destruct i as [|i], j as [|j]; cbn [nth_error firstn concat] in *; [reflexivity| | |].
  - assert (di = d) by congruence. subst d. rewrite zlen_app in Bj. change (zlen (@nil Z)) with 0 in Bi.
    pose proof (zlen_nonneg (concat (firstn j ds))). lia.
  - assert (dj = d) by congruence. subst d. rewrite zlen_app in Bi. change (zlen (@nil Z)) with 0 in Bj.
    pose proof (zlen_nonneg (concat (firstn i ds))). lia.
  - f_equal. rewrite zlen_app in Bi, Bj. apply (IH i j (off - zlen d) Hi Hj); lia.
Qed.
Print Assumptions parts_do_not_overlap.
Example second_part : part_by_offset (commits [[1; 2; 3]; [4; 5]; [6]]) 4 = OK (Some {| bp_start := 3; bp_data := [4; 5] |}).
Proof. vm_compute. reflexivity. Qed.

(** C46. In code made of parts, the line reported for an offset [o] into the instructions of
    a part is that of the last map entry before [o], line 1 if there is none before it, and
    also line 1 if every entry is before it. *)
Theorem lineno_is_last_entry_before ds i hd total fname bytecode before after o :
  nth_error ds i = Some (layout hd total fname bytecode (before ++ after)) ->
  zlen (concat ds) < 2 ^ 31 -> 0 <= o < zlen bytecode ->
  Forall entry_ok (before ++ after) -> Forall (fun e => fst e < o) before ->
  (forall e es, after = e :: es -> o <= fst e) ->
  lineno_by_offset (commits ds) (zlen (concat (firstn i ds)) + code_start fname + o) =
  OK (match after with [] => 1 | _ => last_line before end).
Proof.
  intros N L O F P1 P2.
  set (d := layout hd total fname bytecode (before ++ after)) in *.
  assert (Dl : zlen (concat (firstn i ds)) + zlen d <= zlen (concat ds)).
  { clear -N. revert i N. induction ds as [|x ds IH]; intros [|i] N; try discriminate; cbn [nth_error firstn concat] in *.
    - assert (x = d) by congruence. subst x. rewrite zlen_app. change (zlen (@nil Z)) with 0. pose proof (zlen_nonneg (concat ds)). lia.
    - rewrite !zlen_app. specialize (IH i N). lia. }
  pose proof (layout_zlen hd total fname bytecode (before ++ after)) as LZ. fold d in LZ.
  pose proof (zlen_nonneg (concat (firstn i ds))). pose proof (zlen_nonneg fname).
  pose proof (zlen_nonneg (map_bytes (before ++ after))) as Hm. pose proof (varint_len_pos _ Hm).
  assert (CS : 0 <= code_start fname) by (unfold code_start; lia).
  set (off := zlen (concat (firstn i ds)) + code_start fname + o) in *.
  destruct (part_containing_offset ds off ltac:(unfold off; lia)) as [Q _].
  destruct (Q ltac:(unfold off; lia)) as (j & d' & Nj & Pj & Bj).
  assert (j = i). { eapply (parts_do_not_overlap ds j i d' d off); try eassumption. unfold off. lia. }
  subst j. assert (d' = d) by congruence. subst d'.
  eapply lineno_layout with (bp := {| bp_start := zlen (concat (firstn i ds)); bp_data := d |}) (o := o); cbn [bp_start bp_data];
    [reflexivity|lia|exact Pj|lia|unfold off; lia|reflexivity|unfold off in *; lia|exact F|exact P1|exact P2].
Qed.
Print Assumptions lineno_is_last_entry_before.
Definition ex_part := layout OP_BCODE_HEADER 0 (bs "a.js") (repeat OP_NOP 9) [(0, 1); (3, 2); (6, 5)].
Example line_of_offset_5 : lineno_by_offset (commits [ex_part; ex_part]) (zlen ex_part + code_start (bs "a.js") + 5) = OK 2.
Proof. vm_compute. reflexivity. Qed.

(** C46. The map that any sequence of emissions leaves: one entry for each emission on a line
    beyond all earlier ones, with the position at which it was emitted. *)
Theorem line_map_of_emissions g es : g_cur g = zlen (g_code g) -> 0 <= g_start g <= g_cur g -> g_map g = [] -> g_last g = 0 ->
  g_cur g - g_start g + zlen (concat (map snd es)) < 2 ^ 31 -> Forall (fun e => 0 <= fst e < 2 ^ 31) es ->
  exists g', emits g es = OK g' /\ g_code g' = g_code g ++ concat (map snd es) /\
    g_map g' = map_bytes (line_entries 0 (g_cur g - g_start g) es).
Proof.
  intros H1 H2 H3 H4 H5 H6. destruct (emits_spec es g H1 H2 H5 H6 ltac:(lia)) as (g' & E1 & E2 & _ & _ & E5).
  exists g'. split; [exact E1|]. split; [exact E2|]. rewrite E5, H3, H4. reflexivity.
Qed.
Print Assumptions line_map_of_emissions.
Example three_lines : line_entries 0 0 [(1, [7; 7]); (1, [8]); (4, [9; 9]); (2, [1])] = [(0, 1); (3, 4)].
Proof. reflexivity. Qed.

(** A code offset past the last entry is reported as line 1, whatever line it is on. *)
Theorem last_line_is_reported_refuted :
  exists g, emits {| g_code := []; g_cur := 0; g_start := 0; g_map := []; g_last := 0 |}
              [(1, [OP_NOP]); (2, [OP_NOP]); (7, [OP_PUSH_NULL; OP_DROP])] = OK g /\
    g_map g = map_bytes [(0, 1); (1, 2); (2, 7)] /\
    lineno_by_offset (commits [layout OP_BCODE_HEADER 0 [] (g_code g) [(0, 1); (1, 2); (2, 7)]]) (code_start [] + 3) = OK 1.
Proof. eexists. split; [vm_compute; reflexivity|]. split; vm_compute; reflexivity. Qed.
Print Assumptions last_line_is_reported_refuted.

(** The file name stored in a part reads back. *)
Theorem filename_reads_back ds i hd total fname bytecode es o :
  nth_error ds i = Some (layout hd total fname bytecode es) -> ~ In 0 fname -> zlen (concat ds) < 2 ^ 31 ->
  0 <= o < zlen (layout hd total fname bytecode es) ->
  filename_by_offset (commits ds) (zlen (concat (firstn i ds)) + o) = OK (Some fname).
Proof.
  intros N Z0 L O. set (d := layout hd total fname bytecode es) in *.
  assert (Dl : zlen (concat (firstn i ds)) + zlen d <= zlen (concat ds)).
  { clear -N. revert i N. induction ds as [|x ds IH]; intros [|i] N; try discriminate; cbn [nth_error firstn concat] in *.
    - assert (x = d) by congruence. subst x. rewrite zlen_app. change (zlen (@nil Z)) with 0. pose proof (zlen_nonneg (concat ds)). lia.
    - rewrite !zlen_app. specialize (IH i N). lia. }
  pose proof (zlen_nonneg (concat (firstn i ds))).
  destruct (part_containing_offset ds (zlen (concat (firstn i ds)) + o) ltac:(lia)) as [Q _].
  destruct (Q ltac:(lia)) as (j & d' & Nj & Pj & Bj).
  assert (j = i). { eapply (parts_do_not_overlap ds j i d' d); try eassumption. lia. }
  subst j. assert (d' = d) by congruence. subst d'.
  unfold filename_by_offset. rewrite Pj. cbn [bind]. unfold bcode_filename. cbn [bp_data].
  assert (E : exists tail, d = ([hd] ++ le_bytes 4 total ++ le_bytes 4 (12 + zlen fname + 1) ++
    le_bytes 4 (12 + zlen fname + 1 + zlen bytecode)) ++ fname ++ [0] ++ tail).
  { eexists. unfold d, layout. rewrite <- !app_assoc. reflexivity. }
  destruct E as [tail E].
  assert (L4 : forall n, zlen (le_bytes 4 n) = 4) by (intros; unfold zlen; rewrite le_bytes_length; reflexivity).
  assert (Lh : zlen ([hd] ++ le_bytes 4 total ++ le_bytes 4 (12 + zlen fname + 1) ++
    le_bytes 4 (12 + zlen fname + 1 + zlen bytecode)) = 13) by (rewrite !zlen_app, !L4; reflexivity).
  rewrite E. replace (13 <=? _) with true by (rewrite zlen_app, Lh; pose proof (zlen_nonneg (fname ++ [0] ++ tail)); lia).
  change 13%nat with (Z.to_nat 13). rewrite <- Lh, skipn_zlen.
  assert (C : c_str (fname ++ [0] ++ tail) = OK fname).
  { clear -Z0. induction fname as [|c f IH]; [reflexivity|]. cbn [app c_str].
    assert (c <> 0) by (intros ->; apply Z0; left; reflexivity). replace (c =? 0) with false by lia.
    cbn [app] in IH. rewrite IH; [reflexivity|]. intros I. apply Z0. right. exact I. }
  rewrite C. reflexivity.
Qed.
Print Assumptions filename_reads_back.
Example filename_of_second : filename_by_offset (commits [ex_part; ex_part]) (zlen ex_part + 20) = OK (Some (bs "a.js")).
Proof. vm_compute. reflexivity. Qed.
