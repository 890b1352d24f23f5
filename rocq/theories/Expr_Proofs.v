From Verif Require Import Base BaseFacts Value_Model Str_Model Str_Spec Ops_Model TokNum_Model Num_Model Txt_Model Tok_Spec Tok_Model
  Bcode_Model Bcode_Proofs Str_Proofs Float_Proofs Ops_Spec Ops_Proofs Parse_Model Parse_Proofs Expr_Spec Props_Str.
Ltac Zify.zify_post_hook ::= Z.div_mod_to_equations.

(** * The code generator's cursor *)
(** Code [a] before the cursor, [b] behind it. *)
Definition cursor (g : gen) (a b : list Z) : Prop := g_code g = a ++ b /\ g_cur g = zlen a.

Lemma put_cursor g a b d : cursor g a b -> exists g', put g d = OK g' /\ cursor g' (a ++ d) b.
Proof.
  intros [E1 E2]. unfold put. rewrite E1, E2. pose proof (zlen_nonneg a). pose proof (zlen_nonneg b).
  rewrite zlen_app. replace ((0 <=? zlen a) && (zlen a <=? zlen a + zlen b)) with true by lia.
  eexists. split; [reflexivity|]. split; cbn [g_code g_cur]; [|rewrite zlen_app; reflexivity].
  rewrite firstn_zlen, skipn_zlen, app_assoc. reflexivity.
Qed.
Lemma add_lineno_cursor g line a b : cursor g a b -> cursor (add_lineno g line) a b.
Proof. unfold add_lineno, cursor. destruct (g_last g <? line); auto. Qed.
Lemma ins_cursor g a x c b v off : cursor g (a ++ x :: c) b -> off = zlen a ->
  exists g', insert_offset g off v = OK (g', zlen (varint v) - 1) /\ cursor g' (a ++ varint v ++ c) b.
Proof.
  intros [E1 E2] ->. unfold insert_offset. pose proof (zlen_nonneg a). pose proof (zlen_nonneg c). pose proof (zlen_nonneg b).
  rewrite E1, E2, !zlen_app, zlen_cons. replace ((0 <=? zlen a) && (zlen a <? zlen a + (1 + zlen c) + zlen b)) with true by lia.
  eexists. split; [reflexivity|]. unfold cursor. cbn [g_code g_cur].
  replace (zlen a <=? zlen a + (1 + zlen c)) with true by lia. split.
  - rewrite <- app_assoc, firstn_zlen. rewrite <- !app_assoc. do 2 f_equal.
    replace (S (Z.to_nat (zlen a))) with (1 + Z.to_nat (zlen a))%nat by lia.
    rewrite <- skipn_skipn, skipn_zlen. reflexivity.
  - rewrite !zlen_app. lia.
Qed.

(** * Tokens ahead *)
Definition shows (t : tstate) (k : tokn) : Prop :=
  t_tok t = lx_tok k /\ (lx_tok k <> TOK_EOF -> t_len t = zlen (lx_text k) /\
  exists q, t_ptr t = lx_text k ++ q /\ (lx_tok k = TOK_NUM -> num_end (lx_text k) q)).
Fixpoint ahead (t : tstate) (ts : list tokn) : Prop :=
  match ts with
  | [] => True
  | k :: ts => shows t k /\ exists t', pnext t = OK t' /\ t_prev t' = t_tok t /\ ahead t' ts
  end.
Lemma shows_text t k : shows t k -> lx_tok k <> TOK_EOF -> tok_text t = lx_text k.
Proof.
  intros (_ & H) N. destruct (H N) as (L & q & E & _). unfold tok_text. rewrite L, E. rewrite firstn_zlen. reflexivity.
Qed.

(** * Number literals *)
Lemma is_digit_iff c : is_digit c = true <-> 48 <= c <= 57.
Proof. unfold is_digit. lia. Qed.
Lemma dec_run_digits ds q : Forall (fun c => 48 <= c <= 57) ds -> (forall c r, q = c :: r -> ~ 48 <= c <= 57) ->
  forall acc k, dec_run (ds ++ q) acc k = (fold_left (fun a c => a * 10 + (c - 48)) ds acc, (k + length ds)%nat).
Proof.
  intros F Hq. induction F as [|c ds Hc F IH]; intros acc k.
  - cbn [app fold_left List.length]. rewrite Nat.add_0_r. destruct q as [|c r]; [reflexivity|]. cbn [dec_run].
    destruct (is_digit c) eqn:E; [|reflexivity]. apply is_digit_iff in E. exfalso. exact (Hq c r eq_refl E).
  - cbn [app dec_run fold_left List.length]. rewrite (proj2 (is_digit_iff c) Hc), IH. f_equal. lia.
Qed.
Lemma digits_val_nonneg ds : Forall (fun c => 48 <= c <= 57) ds -> 0 <= digits_val ds.
Proof.
  intros F. unfold digits_val. enough (H : forall acc, 0 <= acc -> 0 <= fold_left (fun a c => a * 10 + (c - 48)) ds acc) by (apply H; lia).
  induction F as [|c ds Hc F IH]; intros acc Ha; [exact Ha|]. cbn [fold_left]. apply IH. lia.
Qed.
