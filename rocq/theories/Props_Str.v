(** Properties C07-C14: strings. *)
From Verif Require Import Base BaseFacts Varint_Model Mbuf_Model Value_Model Value_Spec
  Str_Model Str_Spec Str_Proofs Str_Proofs2 Str_Proofs3 Str_Proofs4.

(** C07. Any byte string put into the engine comes back, in every layout. *)
Theorem string_round_trip : forall st ext d,
  bytes_ok d -> zlen (so st) < 2 ^ 48 -> zlen d < 2 ^ 64 ->
  exists st' v, mk_string st d = OK (st', v) /\
    kind_of v = KString /\ str_bytes st' ext v = OK d /\ nul_terminated st' ext v d.
Proof.
  intros st ext d H1 H2 H3. destruct (mk_string_holds st ext d H1 H2 H3) as (st' & v & M & Hh & Hn & _).
  exists st', v. split; [exact M|]. split; [apply Hh|]. split; [apply holds_str_bytes; exact Hh|exact Hn].
Qed.
Print Assumptions string_round_trip.

(** Foreign strings are read where the embedder keeps them. *)
Theorem foreign_string_round_trip : forall st ext p n,
  0 < n < 2 ^ 64 -> is_u64 p -> zlen (sf st) < 2 ^ 48 -> (forall i, 0 <= i < n -> is_byte (ext (p + i))) ->
  exists st' v, mk_string_foreign st p n = OK (st', v) /\
    kind_of v = KString /\ str_bytes st' ext v = OK (ext_read ext p n).
Proof.
  intros st ext p n H1 H2 H3 H4. destruct (mk_foreign_holds st ext p n H1 H2 H3 H4) as (st' & v & M & Hh & _).
  exists st', v. split; [exact M|]. split; [apply Hh|apply holds_str_bytes; exact Hh].
Qed.
Print Assumptions foreign_string_round_trip.

(** C08. Whatever strings are created, concatenated or sliced afterwards, a string keeps
    its contents. *)
Theorem strings_persist : forall ext os st st' vs v d,
  str_run ext st os = OK (st', vs) -> zlen (so st') < 2 ^ 48 ->
  holds st ext v d -> holds st' ext v d /\ str_bytes st' ext v = OK d.
Proof.
  intros ext os st st' vs v d H Hs Hh. pose proof (str_run_grows _ _ _ _ _ H Hs) as G.
  pose proof (holds_grows _ _ _ _ _ G Hh) as K. split; [exact K|apply holds_str_bytes; exact K].
Qed.
Print Assumptions strings_persist.

(** C09. *)
Theorem string_equality_is_byte_equality : forall st ext a b da db,
  holds st ext a da -> holds st ext b db ->
  exists r, s_cmp st ext a b = OK r /\ (r = 0 <-> da = db) /\
    (r < 0 <-> shortlex_lt da db) /\ (r > 0 <-> shortlex_lt db da).
Proof. exact s_cmp_spec. Qed.
Print Assumptions string_equality_is_byte_equality.

(** C10. *)
Theorem concat_appends : forall st ext a b da db,
  bytes_ok da -> bytes_ok db -> holds st ext a da -> holds st ext b db ->
  zlen (so st) < 2 ^ 48 -> zlen da + zlen db < 2 ^ 64 ->
  exists st' v, s_concat st ext a b = OK (st', v) /\
    holds st' ext v (da ++ db) /\ nul_terminated st' ext v (da ++ db) /\
    (forall w d, holds st ext w d -> holds st' ext w d).
Proof.
  intros st ext a b da db Da Db Ha Hb Hs Hn.
  destruct (s_concat_spec st ext a b da db Da Db Ha Hb Hs Hn) as (st' & v & H1 & H2 & H3 & H4 & _).
  exists st', v. split; [exact H1|]. split; [exact H2|]. split; [exact H3|].
  intros w d. apply holds_grows. exact H4.
Qed.
Print Assumptions concat_appends.

(** C11. *)
Theorem slice_is_substring : forall st ext this d bv bi rest e,
  holds st ext this d -> bytes_ok d -> zlen d < 2 ^ 31 -> zlen (so st) < 2 ^ 48 ->
  is_u64 bv -> kind_of bv = KNumber -> get_int bv = OK bi ->
  match rest with
  | [] => e = zlen d
  | ev :: _ => is_u64 ev /\ kind_of ev = KNumber /\ exists ei, get_int ev = OK ei /\ e = clamp_idx ei (zlen d)
  end ->
  exists st' v, string_slice st ext this (bv :: rest) = OK (st', v, E_OK) /\
    holds st' ext v (sub d (clamp_idx bi (zlen d)) (Z.max 0 (e - clamp_idx bi (zlen d)))) /\
    (forall w x, holds st ext w x -> holds st' ext w x).
Proof.
  intros st ext this d bv bi rest e H1 H2 H3 H4 H5 H6 H7 H8.
  destruct (string_slice_spec st ext this d bv bi rest H1 H2 H3 H4 H5 H6 H7 e H8) as (st' & v & K1 & K2 & K3).
  exists st', v. split; [exact K1|]. split; [exact K2|]. intros w x. apply holds_grows. exact K3.
Qed.
Print Assumptions slice_is_substring.

(** C12. *)
Theorem index_of_finds_first : forall st ext this d sv t rest from,
  holds st ext this d -> holds st ext sv t -> zlen d < 2 ^ 31 ->
  match rest with
  | [] => from = 0
  | iv :: _ => is_u64 iv /\ kind_of iv = KNumber /\ exists i, get_int iv = OK i /\ from = Z.min (zlen d) (Z.max 0 i)
  end ->
  exists r, string_index_of st ext this (sv :: rest) = OK (st, mk_number (d_of_Z r), E_OK) /\
    (first_occurrence d t from r \/ (r = -1 /\ no_occurrence d t from)).
Proof. exact string_index_of_spec. Qed.
Print Assumptions index_of_finds_first.

(** C13. *)
Theorem char_code_at_is_byte : forall st ext this d iv i rest,
  holds st ext this d -> zlen d < 2 ^ 31 -> is_u64 iv -> kind_of iv = KNumber -> get_int iv = OK i ->
  string_char_code_at st ext this (iv :: rest) =
    OK (st, match nthz d (clamp_idx i (zlen d)) with Some b => mk_number (d_of_Z b) | None => V_UNDEFINED end, E_OK).
Proof. exact char_code_at_spec. Qed.
Print Assumptions char_code_at_is_byte.

Theorem subscript_is_char : forall st ext v d ds,
  holds st ext v d -> bytes_ok d -> zlen d < 2 ^ 31 -> zlen (so st) < 2 ^ 48 ->
  digits_ok ds -> digits_val ds < 2 ^ 31 ->
  exists st' r, getprop_string st ext v (ds ++ [0]) (zlen ds) = OK (st', GP_val r) /\
    (forall w x, holds st ext w x -> holds st' ext w x) /\
    match nthz d (digits_val ds) with Some b => holds st' ext r [b] | None => r = V_UNDEFINED end.
Proof.
  intros st ext v d ds H1 H2 H3 H4 H5 H6.
  assert (P : 0 <= digits_val ds).
  { destruct H5 as [_ H5]. unfold digits_val. assert (G : forall l a, 0 <= a -> Forall (fun c => 48 <= c <= 57) l ->
      0 <= fold_left (fun a c => a * 10 + (c - 48)) l a).
    { induction l as [|x l IH]; intros a Ha Hl; [exact Ha|]. cbn [fold_left]. apply IH; [|apply (Forall_inv_tail Hl)].
      pose proof (Forall_inv Hl). cbn beta in *. lia. }
    apply G; [lia|exact H5]. }
  destruct (getprop_string_digits st ext v d ds H1 H2 H3 H4 H5 ltac:(lia)) as (st' & r & K1 & K2 & K3).
  rewrite s32_small in K3 by lia. exists st', r. split; [exact K1|]. split; [|exact K3].
  intros w x. apply holds_grows. exact K2.
Qed.
Print Assumptions subscript_is_char.

Theorem length_is_byte_count : forall st ext v d, holds st ext v d ->
  getprop_string st ext v (ascii_length ++ [0]) 6 = OK (st, GP_val (mk_number (d_of_Z (zlen d)))).
Proof. exact getprop_string_length. Qed.
Print Assumptions length_is_byte_count.

(** An index past every string is not always undefined: '4294967296' denotes index 0. *)
Theorem subscript_out_of_range_undefined_refuted : exists st ext v d ds,
  holds st ext v d /\ digits_ok ds /\ zlen d <= digits_val ds /\
  exists st' r, getprop_string st ext v (ds ++ [0]) (zlen ds) = OK (st', GP_val r) /\ r <> V_UNDEFINED.
Proof.
  destruct (mk_string_holds strs_init (fun _ => 0) [97; 98]) as (st & v & M & Hh & _).
  { repeat constructor; unfold is_byte; lia. } { cbn; lia. } { cbn; lia. }
  exists st, (fun _ => 0), v, [97; 98], [52; 50; 57; 52; 57; 54; 55; 50; 57; 54].
  split; [exact Hh|]. split; [split; [discriminate|repeat constructor; lia]|]. split; [vm_compute; discriminate|].
  vm_compute in M. injection M as <- <-. eexists; eexists; split; [vm_compute; reflexivity|]. vm_compute. discriminate.
Qed.
Print Assumptions subscript_out_of_range_undefined_refuted.

(** C14. *)
(** The counting pass gives exactly the bytes the writing pass produces, at most as many
    as were read, and the literal is embedded intact. *)
Theorem unescape_passes_agree : forall txt len d, 0 <= len -> unescape_str txt len = OK d ->
  unescape_count (Z.to_nat len) txt len 0 = OK (zlen d) /\ zlen d <= len /\
  forall buf, embed_unescaped buf txt len = OK (buf ++ varint_bytes (zlen d) ++ d ++ [0]).
Proof.
  intros txt len d Hl H. destruct (unescape_passes _ _ _ 0 _ H) as [P1 P2].
  split; [exact P1|]. split; [apply P2; exact Hl|]. intros buf. apply embed_unescaped_spec. exact H.
Qed.
Print Assumptions unescape_passes_agree.
(** No body makes it read past the byte that follows it (the closing quote). *)
Theorem unescape_stays_inside : forall body q rest, is_xdigit q = false ->
  exists d, unescape_str (body ++ q :: rest) (zlen body) = OK d.
Proof.
  intros body q rest Hq. unfold unescape_str. apply unescape_safe; [exact Hq|]. unfold zlen. lia.
Qed.
Print Assumptions unescape_stays_inside.
(** Every sequence of well-formed elements denotes what the grammar says. *)
Theorem unescape_denotes : forall ls tail, Forall lit_ok ls ->
  unescape_str (lits_src ls ++ tail) (zlen (lits_src ls)) = OK (lits_val ls).
Proof. exact unescape_str_lits. Qed.
Print Assumptions unescape_denotes.
Theorem plain_text_is_verbatim : forall d tail, bytes_ok d -> ~ In 92 d ->
  unescape_str (d ++ tail) (zlen d) = OK d.
Proof.
  intros d tail Hd Hn. destruct (plain_lits d) as [E1 E2].
  assert (L : Forall lit_ok (map LPlain d)).
  { apply Forall_forall. intros l Hl. apply in_map_iff in Hl as (b & <- & Hb). cbn [lit_ok].
    split; [apply (proj1 (Forall_forall _ _) Hd b Hb)|intros ->; contradiction]. }
  pose proof (unescape_str_lits (map LPlain d) tail L) as H. rewrite E1, E2 in H. exact H.
Qed.
Print Assumptions plain_text_is_verbatim.
Theorem hex_escaping_round_trips : forall d tail, bytes_ok d ->
  unescape_str (lits_src (map lit_of_byte d) ++ tail) (zlen (lits_src (map lit_of_byte d))) = OK d.
Proof.
  intros d tail Hd. destruct (hex_lits d Hd) as [L E].
  pose proof (unescape_str_lits _ tail L) as H. rewrite E in H. exact H.
Qed.
Print Assumptions hex_escaping_round_trips.
(** \u escapes beyond one byte do not denote their character: Ł and Ɂ collide. *)
Theorem unicode_escape_injective_refuted : exists l1 l2, lit_ok l1 /\ lit_ok l2 /\ l1 <> l2 /\
  (exists a b c d, l1 = LUni a b c d) /\ (exists a b c d, l2 = LUni a b c d) /\
  unescape_str (lit_src l1 ++ [34]) 6 = unescape_str (lit_src l2 ++ [34]) 6.
Proof.
  exists (LUni 48 49 52 49), (LUni 48 50 52 49). repeat split; try (vm_compute; discriminate); try discriminate;
    try (do 4 eexists; reflexivity).
Qed.
Print Assumptions unicode_escape_injective_refuted.

(** Non-vacuity: "hello world" on the heap, "abcd" inline, both held. *)
Definition hello := [104; 101; 108; 108; 111; 32; 119; 111; 114; 108; 100].
Example ex_heap : exists st v, mk_string strs_init hello = OK (st, v) /\
  holds st (fun _ => 0) v hello /\ bytes_ok hello /\ zlen (so st) < 2 ^ 48 /\
  string_slice st (fun _ => 0) v [mk_number (d_of_Z 6)] =
    OK (st, Z.lor (le_val [119; 111; 114; 108; 100]) TAG_STRING_5, E_OK) /\
  string_index_of st (fun _ => 0) v [Z.lor (le_val [1; 111]) TAG_STRING_I; mk_number (d_of_Z 5)] =
    OK (st, mk_number (d_of_Z 7), E_OK) /\
  string_char_code_at st (fun _ => 0) v [mk_number (d_of_Z 4)] = OK (st, mk_number (d_of_Z 111), E_OK).
Proof.
  assert (B : bytes_ok hello) by (repeat constructor; unfold is_byte; lia).
  destruct (mk_string_holds strs_init (fun _ => 0) hello B) as (st & v & M & Hh & _); [cbn; lia|cbn; lia|].
  exists st, v. split; [exact M|]. split; [exact Hh|]. split; [exact B|].
  vm_compute in M. injection M as <- <-. split; [vm_compute; reflexivity|].
  repeat split; vm_compute; reflexivity.
Qed.
Example ex_concat : exists st1 a st2 b st3 c, mk_string strs_init [97; 98; 99] = OK (st1, a) /\
  mk_string st1 [100; 101; 102] = OK (st2, b) /\ s_concat st2 (fun _ => 0) a b = OK (st3, c) /\
  str_bytes st3 (fun _ => 0) c = OK [97; 98; 99; 100; 101; 102].
Proof.
  do 6 eexists. split; [vm_compute; reflexivity|]. split; [vm_compute; reflexivity|].
  split; [vm_compute; reflexivity|]. vm_compute. reflexivity.
Qed.
Example ex_run : exists st vs, str_run (fun _ => 7) strs_init [MkCopy hello; MkForeign 4096 9; MkCopy [1; 2]] = OK (st, vs) /\
  zlen (so st) < 2 ^ 48.
Proof. do 2 eexists. split; [vm_compute; reflexivity|]. vm_compute. reflexivity. Qed.
Example ex_lits : Forall lit_ok [LPlain 97; LSimple 110; LHex 52 49; LUni 48 48 52 50; LOther 113] /\
  lits_val [LPlain 97; LSimple 110; LHex 52 49; LUni 48 48 52 50; LOther 113] = [97; 10; 65; 66; 92; 113].
Proof.
  split; [|reflexivity]. repeat constructor; try (vm_compute; discriminate); cbn; unfold is_byte; try lia; try reflexivity.
Qed.
