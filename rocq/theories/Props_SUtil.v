(** C44, C45: formatted printing is bounded and exact; the codecs round trip. *)
From Verif Require Import Base BaseFacts SUtil_Model SUtil_Spec SUtil_Proofs SUtil_Proofs2.

(** C44. Every format made of literals and supported conversions denotes exactly one text. *)
Theorem format_text_unique l a b : fmt_prints l a -> fmt_prints l b -> a = b.
Proof. exact (fmt_prints_unique l a b). Qed.
Print Assumptions format_text_unique.

(** C44. c_vsnprintf never leaves the buffer (it would be UB), returns the length of the
    whole text, and leaves as much of the text as fits followed by a NUL; the bytes after
    that are untouched; size 0 writes nothing. *)
Theorem snprintf_bounded_exact l text buf size :
  Forall item_ok l -> fmt_prints l text -> zlen text < 2 ^ 31 ->
  0 <= size < 2 ^ 31 -> size <= zlen buf ->
  c_vsnprintf buf size (fmt_src l) (fmt_args l) = OK (shown buf size text, zlen text).
Proof. exact (vsnprintf_spec l text buf size). Qed.
Print Assumptions snprintf_bounded_exact.

(** C44. Integers of every int64 value but the smallest have their text: the shortest
    numeral, zero padded up to the width when asked, with the sign in front. *)
Theorem integer_text_exists base n zero w :
  base = 10 \/ base = 16 -> int64 n -> exists t, int_text base n zero w t.
Proof. exact (int_text_exists base n zero w). Qed.
Print Assumptions integer_text_exists.

Theorem integer_text_unique base n a b :
  2 <= base -> numeral base n a -> numeral base n b -> a = b.
Proof. exact (numeral_unique base n a b). Qed.
Print Assumptions integer_text_unique.

(** Used for arrays: the key of index n is its decimal numeral, whatever was in the stack
    buffer before. *)
Theorem index_key_is_numeral junk n : zlen junk = 20 -> 0 <= n < 2 ^ 63 ->
  exists t, index_name junk n = OK t /\ numeral 10 n t.
Proof. exact (index_name_spec junk n). Qed.
Print Assumptions index_key_is_numeral.

(** Format abc:%05d|%.3s|%lx with -42, a 5 character string and 255, into 8 bytes. *)
Example snprintf_items : list item :=
  [Lit 97; Lit 58;
   Dir {| d_width := [48; 53]; d_star := None; d_prec := PNone; d_kind := KD (-42) |};
   Dir {| d_width := []; d_star := None; d_prec := PDigits [51]; d_kind := KStr (Some [104; 101; 108; 108; 111; 0]) |};
   Dir {| d_width := []; d_star := None; d_prec := PNone; d_kind := KLx 255 |}].
Example snprintf_items_ok : Forall item_ok snprintf_items.
Proof. repeat constructor; cbn; try discriminate; repeat constructor. Qed.
Example snprintf_items_run :
  c_vsnprintf (repeat 170 20) 20 (fmt_src snprintf_items) (fmt_args snprintf_items)
  = OK ([97; 58; 45; 48; 48; 48; 52; 50; 104; 101; 108; 102; 102; 0] ++ repeat 170 6, 13)
  /\ c_vsnprintf (repeat 170 20) 8 (fmt_src snprintf_items) (fmt_args snprintf_items)
  = OK ([97; 58; 45; 48; 48; 48; 52; 0] ++ repeat 170 12, 13).
Proof. split; vm_compute; reflexivity. Qed.
Example numeral_1234 : numeral 10 1234 [49; 50; 51; 52].
Proof.
  split; [discriminate|]. split; [|split; [reflexivity|discriminate]].
  repeat (apply Forall_cons; [unfold is_digit_in, digit_of; cbn; lia|]). apply Forall_nil.
Qed.
Example index_key_ex : index_name (repeat 7 20) 4096 = OK [52; 48; 57; 54].
Proof. vm_compute. reflexivity. Qed.

(** False readings of C44. A size_t / unsigned long above the int64 range prints as a
    negative number; INT64_MIN overflows; the percent literal aborts; a width without the
    zero flag is ignored for integers, and pads strings by the full width. *)
Theorem unsigned_long_prints_exactly_refuted :
  exists n, 0 <= n < 2 ^ 64 /\
  c_vsnprintf (repeat 0 30) 30 fmt_lu [VLong n] = OK ([45; 49] ++ repeat 0 28, 2).
Proof. exists (2 ^ 64 - 1). split; [lia|vm_compute; reflexivity]. Qed.
Print Assumptions unsigned_long_prints_exactly_refuted.
Theorem int64_min_prints_refuted :
  exists n, - 2 ^ 63 <= n < 2 ^ 63 /\
  c_vsnprintf (repeat 0 30) 30 [37; 108; 108; 100] [VLong n] = UB.
Proof. exists (- 2 ^ 63). split; [lia|vm_compute; reflexivity]. Qed.
Print Assumptions int64_min_prints_refuted.
Theorem percent_literal_refuted :
  exists fmt, fmt = [37; 37] /\ c_vsnprintf (repeat 0 30) 30 fmt [] = Abort.
Proof. exists [37; 37]. split; [reflexivity|vm_compute; reflexivity]. Qed.
Print Assumptions percent_literal_refuted.
Theorem string_width_is_minimum_refuted :
  (* %3s of ab prints three spaces and then ab *)
  exists s, c_text s [97; 98] /\
  c_vsnprintf (repeat 0 8) 8 [37; 51; 115] [VStr (Some s)]
  = OK ([32; 32; 32; 97; 98; 0; 0; 0], 5).
Proof.
  exists [97; 98; 0]. split; [|vm_compute; reflexivity].
  split; [repeat constructor; discriminate|exists []; reflexivity].
Qed.
Print Assumptions string_width_is_minimum_refuted.

(** C45. Hex text of any bytes has two digits per byte, and decodes back. *)
Theorem hex_round_trip d : bytes_ok d -> exists t,
  to_hex d = t ++ [0] /\ zlen t = 2 * zlen d /\ Forall hex_alphabet t /\
  from_hex (length t) t (zlen t) = OK (d ++ [0]).
Proof. exact (hex_spec d). Qed.
Print Assumptions hex_round_trip.
Example hex_ex : to_hex [0; 171; 255] = [48; 48; 97; 98; 102; 102; 0]
  /\ from_hex 6 [48; 48; 65; 98; 102; 70] 6 = OK [0; 171; 255; 0].
Proof. split; vm_compute; reflexivity. Qed.

(** C45. Base64 of any bytes uses the alphabet, has four characters per three bytes, and
    decodes back. *)
Theorem base64_round_trip d : bytes_ok d ->
  b64dec (b64enc d) = d /\ Forall b64_alphabet (b64enc d) /\ zlen (b64enc d) = (zlen d + 2) / 3 * 4.
Proof. exact (b64_spec (length d) d (le_n _)). Qed.
Print Assumptions base64_round_trip.
(** RFC 4648: foob -> Zm9vYg== *)
Example base64_ex : b64enc [102; 111; 111; 98] = [90; 109; 57; 118; 89; 103; 61; 61]
  /\ b64dec [90; 109; 57; 118; 89; 103; 61; 61] = [102; 111; 111; 98].
Proof. split; vm_compute; reflexivity. Qed.

(** Searching: c_strnstr finds the first occurrence inside the first slen bytes. *)
Theorem strnstr_first s slen find : 0 <= slen <= zlen s ->
  exists r, strnstr s slen find = OK r /\
    match r with
    | Some k => 0 <= k < slen /\ k + zlen find <= slen /\ sub s k (zlen find) = find /\
                (forall j, 0 <= j < k -> sub s j (zlen find) <> find)
    | None => forall j, 0 <= j < slen -> j + zlen find <= slen -> sub s j (zlen find) <> find
    end.
Proof. intros H. apply strnstr_loop; lia. Qed.
Print Assumptions strnstr_first.
Example strnstr_ex : strnstr [1; 2; 1; 2; 3; 9] 5 [1; 2; 3] = OK (Some 2).
Proof. vm_compute. reflexivity. Qed.

(** Splitting a comma list recovers the entries that were joined. *)
Theorem comma_list_recovers l : Forall entry_ok l ->
  comma_all (S (length l)) (entries_src l) = l.
Proof. intros H. apply comma_all_spec; [assumption|lia]. Qed.
Print Assumptions comma_list_recovers.
Example comma_ex : Forall entry_ok [([97], Some [49]); ([98], None)] /\
  entries_src [([97], Some [49]); ([98], None)] = [97; 61; 49; 44; 98].
Proof.
  split; [|reflexivity]. repeat apply Forall_cons; try apply Forall_nil; unfold entry_ok; cbn; intuition (try discriminate; lia).
Qed.

(** mg_strcmp is a total order on byte strings. *)
Theorem mg_strcmp_total_order a b c : bytes_ok a -> bytes_ok b ->
  (mg_strcmp a b = 0 <-> a = b) /\ mg_strcmp a b = - mg_strcmp b a /\
  (mg_strcmp a b < 0 -> mg_strcmp b c < 0 -> mg_strcmp a c < 0).
Proof.
  intros Ha Hb. split; [exact (mg_strcmp_eq a b Ha Hb)|]. split; [exact (mg_strcmp_antisym a b)|].
  exact (mg_strcmp_trans a b c).
Qed.
Print Assumptions mg_strcmp_total_order.
Example mg_strcmp_ex : mg_strcmp [97; 98] [97; 99] = -1 /\ mg_strcmp [200] [97] = -1.
Proof. split; reflexivity. Qed.
