(** JSON.stringify writes the text of the value. *)
From Verif Require Import Base BaseFacts Value_Model Value_Spec Value_Proofs Str_Model Str_Spec Str_Proofs SUtil_Model SUtil_Spec SUtil_Proofs
  Num_Model Conv_Model Obj_Model Obj_Spec Obj_Proofs Obj_Proofs2 Arr_Model Arr_Spec Arr_Proofs Arr_Proofs2 NumText_Spec NumText_Proofs
  Json_Model Json_Spec Json_Proofs JsonOut_Spec.
Ltac Zify.zify_post_hook ::= Z.div_mod_to_equations.

(** * The buffer *)

(** [B'] is [B] after writing [t] and a NUL at [off], if they fit. *)
Definition wrote (B : list Z) (off : Z) (t B' : list Z) : Prop :=
  zlen B' = zlen B /\ firstn (Z.to_nat off) B' = firstn (Z.to_nat off) B /\
  (off + zlen t < zlen B -> exists r, B' = firstn (Z.to_nat off) B ++ t ++ 0 :: r).

Lemma wrote_same B off t : 0 <= off -> zlen B <= off -> wrote B off t B.
Proof. intros H L. split; [reflexivity|]. split; [reflexivity|]. intros Q. pose proof (zlen_nonneg t). lia. Qed.
Lemma wrote_app B off t1 B1 t2 B2 : 0 <= off -> wrote B off t1 B1 -> wrote B1 (off + zlen t1) t2 B2 -> wrote B off (t1 ++ t2) B2.
Proof.
  intros H (A1 & A2 & A3) (C1 & C2 & C3). pose proof (zlen_nonneg t1) as Z1. pose proof (zlen_nonneg t2) as Z2.
  split; [congruence|]. split.
  - apply (f_equal (firstn (Z.to_nat off))) in C2. rewrite !firstn_firstn in C2.
    replace (min (Z.to_nat off) (Z.to_nat (off + zlen t1))) with (Z.to_nat off) in C2 by lia. congruence.
  - rewrite zlen_app. intros Q. destruct A3 as [r Er]; [lia|]. destruct C3 as [r' Er']; [lia|].
    exists r'. rewrite Er', Er.
    assert (E : firstn (Z.to_nat (off + zlen t1)) (firstn (Z.to_nat off) B ++ t1 ++ 0 :: r) = firstn (Z.to_nat off) B ++ t1).
    { rewrite app_assoc. apply firstn_exact. rewrite app_length, firstn_length. unfold zlen in *. lia. }
    rewrite E, <- !app_assoc. reflexivity.
Qed.
(** Storing [d] where it fits. *)
Lemma blit_wrote B off d t : 0 <= off -> off + zlen d <= zlen B ->
  (off + zlen t < zlen B -> exists r, d = t ++ 0 :: r) -> wrote B off t (blit B off d).
Proof.
  intros H L T. unfold wrote, blit. split; [|split].
  - unfold zlen in *. rewrite !app_length, firstn_length, skipn_length. lia.
  - apply firstn_exact. rewrite firstn_length. unfold zlen in *. lia.
  - intros Q. destruct (T Q) as [r ->]. eexists. rewrite <- app_assoc. cbn [app]. reflexivity.
Qed.
Lemma store_wrote B off d t : 0 <= off -> d <> [] -> off + zlen d <= zlen B ->
  (off + zlen t < zlen B -> exists r, d = t ++ 0 :: r) -> exists B', store_at B off d = OK B' /\ wrote B off t B'.
Proof.
  intros H N L T. exists (blit B off d). split; [|apply blit_wrote; assumption].
  unfold store_at. destruct d; [congruence|]. replace (off + zlen (z :: d) <=? zlen B) with true by lia. reflexivity.
Qed.
Lemma printf_wrote B off l u : 0 <= off -> zlen B < 2 ^ 31 -> Forall item_ok l -> fmt_prints l u -> zlen u < 2 ^ 31 ->
  exists B', j_printf B off (fmt_src l) (fmt_args l) = OK (B', zlen u) /\ wrote B off u B'.
Proof.
  intros H L I P U. unfold j_printf. pose proof (zlen_nonneg B) as Z0. pose proof (zlen_nonneg u) as Z1.
  assert (SZ : 0 <= buf_left B off /\ buf_left B off = zlen (skipn (Z.to_nat off) B)).
  { unfold buf_left, zlen in *. rewrite skipn_length. destruct (off <? Z.of_nat (length B)) eqn:E; lia. }
  rewrite vsnprintf_spec with (u := u); [|assumption|assumption|assumption| |lia].
  2:{ unfold buf_left in *. destruct (off <? zlen B); lia. }
  cbn [bind]. eexists. split; [reflexivity|]. unfold shown. destruct (buf_left B off =? 0) eqn:E.
  - rewrite firstn_skipn. apply wrote_same; [assumption|]. unfold buf_left in E. destruct (off <? zlen B) eqn:E'; lia.
  - unfold buf_left in E, SZ |- *. destruct (off <? zlen B) eqn:E'; [|lia]. cbv zeta.
    set (k := Z.min (zlen u) (zlen B - off - 1)). set (d := sub u 0 k ++ [0]).
    replace (firstn (Z.to_nat off) B ++ blit (skipn (Z.to_nat off) B) 0 d) with (blit B off d).
    2:{ unfold blit. change (Z.to_nat 0) with O. rewrite firstn_O, skipn_skipn. cbn [app Nat.add]. f_equal. f_equal. f_equal. lia. }
    assert (LS : zlen (sub u 0 k) = k).
    { unfold sub, zlen in *. change (Z.to_nat 0) with O. cbn [skipn]. rewrite firstn_length. lia. }
    apply blit_wrote; [assumption| |].
    + subst d. rewrite zlen_app, LS. change (zlen [0]) with 1. lia.
    + intros Q. exists []. subst d. f_equal. unfold sub. change (Z.to_nat 0) with O. cbn [skipn]. apply firstn_all2. unfold zlen in *. lia.
Qed.
Lemma printf_char B off c : 0 <= off -> zlen B < 2 ^ 31 -> c <> 37 ->
  exists B', j_printf B off [c] [] = OK (B', 1) /\ wrote B off [c] B'.
Proof.
  intros H L C. apply (printf_wrote B off [Lit c] [c]); [assumption|assumption|apply Forall_cons; [exact C|apply Forall_nil]| |reflexivity].
  exists [c], []. repeat split.
Qed.
Lemma printf_null B off : 0 <= off -> zlen B < 2 ^ 31 ->
  exists B', j_printf B off null_txt [] = OK (B', 4) /\ wrote B off null_txt B'.
Proof.
  intros H L. apply (printf_wrote B off [Lit 110; Lit 117; Lit 108; Lit 108] null_txt); auto; [repeat constructor; discriminate| |reflexivity].
  exists [110], [117; 108; 108]. split; [reflexivity|]. split; [|reflexivity]. exists [117], [108; 108]. split; [reflexivity|]. split; [|reflexivity].
  exists [108], [108]. split; [reflexivity|]. split; [|reflexivity]. exists [108], []. repeat split.
Qed.
Definition sdir (s : list Z) : direc := {| d_width := []; d_star := None; d_prec := PStar (zlen s); d_kind := KStr (Some (s ++ [0])) |}.
Lemma sdir_prints s : Forall (fun c => c <> 0) s -> prints (sdir s) s.
Proof.
  intros F. unfold prints. cbn [d_kind sdir]. exists s. unfold width_of, prec_of. cbn [d_star d_width d_prec sdir dec_value].
  pose proof (zlen_nonneg s) as Z0. split.
  - unfold str_text. destruct (zlen s <=? 0) eqn:E; [split; [assumption|exists []; reflexivity]|].
    split; [assumption|]. left. split; [reflexivity|]. eexists. reflexivity.
  - replace (zlen s >=? 0) with true by lia. replace (Z.to_nat (0 - Z.min (zlen s) (zlen s))) with O by lia. reflexivity.
Qed.
Lemma printf_str B off s : 0 <= off -> zlen B < 2 ^ 31 -> Forall (fun c => c <> 0) s -> zlen s < 2 ^ 31 ->
  exists B', j_printf B off fmt_str [VInt (s32 (zlen s)); VStr (Some (s ++ [0]))] = OK (B', zlen s) /\ wrote B off s B'.
Proof.
  intros H L F S. rewrite s32_id by (pose proof (zlen_nonneg s); lia).
  apply (printf_wrote B off [Dir (sdir s)] s); auto; [repeat constructor|].
  exists s, []. split; [apply sdir_prints; assumption|]. split; [reflexivity|]. rewrite app_nil_r. reflexivity.
Qed.
Lemma printf_key B off s : 0 <= off -> zlen B < 2 ^ 31 -> Forall (fun c => c <> 0) s -> zlen s + 3 < 2 ^ 31 ->
  exists B', j_printf B off fmt_key [VInt (s32 (zlen s)); VStr (Some (s ++ [0]))] = OK (B', zlen s + 3) /\ wrote B off (34 :: s ++ [34; 58]) B'.
Proof.
  intros H L F S. rewrite s32_id by (pose proof (zlen_nonneg s); lia).
  assert (E : zlen (34 :: s ++ [34; 58]) = zlen s + 3).
  { change (34 :: s ++ [34; 58]) with ([34] ++ s ++ [34; 58]). rewrite !zlen_app. change (zlen [34]) with 1. change (zlen [34; 58]) with 2. lia. }
  rewrite <- E. apply (printf_wrote B off [Lit 34; Dir (sdir s); Lit 34; Lit 58] (34 :: s ++ [34; 58])); [assumption|assumption| | |rewrite E; assumption].
  - repeat constructor; discriminate.
  - exists [34], (s ++ [34; 58]). split; [reflexivity|]. split; [|reflexivity]. exists s, [34; 58]. split; [apply sdir_prints; assumption|]. split; [|reflexivity].
    exists [34], [58]. split; [reflexivity|]. split; [|reflexivity]. exists [58], []. repeat split.
Qed.
Lemma strncpy_wrote B off s : 0 <= off -> s <> [] -> exists B', j_strncpy B off s = OK B' /\ wrote B off s B'.
Proof.
  intros H N. unfold j_strncpy. pose proof (zlen_nonneg B) as Z0. unfold buf_left. destruct (off <? zlen B) eqn:E.
  - cbv zeta. set (n := Z.to_nat (zlen B - off)).
    assert (L : length (firstn n s ++ repeat 0 (n - length s)) = n) by (rewrite app_length, firstn_length, repeat_length; clear; lia).
    apply store_wrote; [assumption| | |].
    + intros Q. rewrite Q in L. change (length []) with O in L. subst n. lia.
    + unfold zlen at 1. rewrite L. lia.
    + intros Q. exists (repeat 0 (n - length s - 1)). rewrite firstn_all2 by (unfold zlen in *; lia).
      f_equal. change (0 :: repeat 0 (n - length s - 1)) with (repeat 0 (S (n - length s - 1))). f_equal. unfold zlen in *. lia.
  - cbn [Z.to_nat firstn Nat.sub repeat app store_at]. exists B. split; [reflexivity|]. apply wrote_same; [assumption|lia].
Qed.
Lemma snquote_wrote B off s : 0 <= off -> bytes_ok s -> zlen (quoted s) < 2 ^ 31 ->
  exists w B', snquote (buf_left B off) s = (w, zlen (quoted s)) /\ store_at B off w = OK B' /\ wrote B off (quoted s) B'.
Proof.
  intros H Bs L. pose proof (zlen_nonneg B) as Z0. exists (clipped (buf_left B off) (quoted s)).
  rewrite snquote_spec by (auto; unfold buf_left; destruct (off <? zlen B) eqn:?; lia).
  assert (W : exists B', store_at B off (clipped (buf_left B off) (quoted s)) = OK B' /\ wrote B off (quoted s) B').
  { unfold clipped, buf_left. destruct (off <? zlen B) eqn:E.
    - replace (zlen B - off =? 0) with false by lia.
      assert (LC : zlen (firstn (Z.to_nat (zlen B - off - 1)) (quoted s) ++ [0]) <= zlen B - off).
      { unfold zlen in *. rewrite app_length, firstn_length. cbn [length]. lia. }
      apply store_wrote; [assumption| |lia|].
      + intros Q. apply app_eq_nil in Q. destruct Q; discriminate.
      + intros Q. exists []. f_equal. apply firstn_all2. unfold zlen in *. lia.
    - change (0 =? 0) with true. cbv iota. exists B. split; [reflexivity|]. apply wrote_same; [assumption|lia]. }
  destruct W as (B' & W1 & W2). eauto.
Qed.
Lemma first_nul B off : 0 <= off -> exists B',
  (if buf_left B off >? 0 then store_at B off [0] else OK B) = OK B' /\ wrote B off [] B'.
Proof.
  intros H. pose proof (zlen_nonneg B) as Z0. unfold buf_left. destruct (off <? zlen B) eqn:E.
  - replace (zlen B - off >? 0) with true by lia. apply store_wrote; [assumption|discriminate|change (zlen [0]) with 1; lia|].
    intros _. exists []. reflexivity.
  - exists B. split; [reflexivity|]. apply wrote_same; [assumption|lia].
Qed.
Lemma wrote_len B off t B' : wrote B off t B' -> zlen B' = zlen B. Proof. intros (A & _). exact A. Qed.
Lemma wrote_clean B off t B' : 0 <= off -> wrote B off t B' -> wrote B' (off + zlen t) [] B'.
Proof.
  intros H (A1 & A2 & A3). split; [reflexivity|]. split; [reflexivity|]. change (zlen []) with 0. intros Q. pose proof (zlen_nonneg t) as Z1.
  destruct A3 as [r E]; [lia|]. exists r. rewrite E at 1. cbn [app]. rewrite app_assoc. f_equal.
  assert (X : firstn (Z.to_nat (off + zlen t)) ((firstn (Z.to_nat off) B ++ t) ++ 0 :: r) = firstn (Z.to_nat off) B ++ t).
  { apply firstn_exact. rewrite app_length, firstn_length. unfold zlen in *. lia. }
  rewrite E. rewrite app_assoc, X. reflexivity.
Qed.
