(** C108: what die shows. *)
From Verif Require Import Base BaseFacts Str_Model SUtil_Model TokNum_Model Txt_Model Err_Model ErrMem_Model Die_Model Die_Spec.
From Coq Require Import ZifyBool.
Ltac Zify.zify_post_hook ::= idtac.

Lemma most_visible s : forall rest, exists v, read_most (length s) (s ++ rest) = OK v /\ visible s v.
Proof.
  induction s as [|c s IH]; intros rest; cbn [length app read_most].
  - exists []. split; [reflexivity|]. split; [constructor|left; reflexivity].
  - destruct (c =? 0) eqn:E; [exists []; split; [reflexivity|]; split; [constructor|right; exists s; cbn [app]; f_equal; lia]|].
    destruct (IH rest) as (v & -> & F & V). cbn [bind]. exists (c :: v). split; [reflexivity|]. split; [constructor; [lia|exact F]|].
    destruct V as [->|(r & ->)]; [left; reflexivity|right; exists r; reflexivity].
Qed.
Lemma die_text_visible s rest : zlen s < 2 ^ 31 -> exists v, die_text (s ++ rest) (zlen s) = OK v /\ visible s v.
Proof.
  intros L. pose proof (zlen_nonneg s) as P. unfold die_text, to_int. cbv zeta. rewrite (Z.mod_small (zlen s) (2 ^ 32)) by lia. replace (zlen s <? 2 ^ 31) with true by lia.
  replace (zlen s <? 0) with false by lia. replace (Z.to_nat (zlen s)) with (length s) by (unfold zlen; lia). apply most_visible.
Qed.
(** A text has one visible part. *)
Theorem shown_text_unique s v w : visible s v -> visible s w -> v = w.
Proof.
  revert v w. induction s as [|c s IH]; intros v w (Fv & V) (Fw & W).
  - destruct V as [<-|(r & V)]; [|destruct v; discriminate V]. destruct W as [<-|(r & W)]; [reflexivity|destruct w; discriminate W].
  - destruct v as [|a v], w as [|b w]; [reflexivity| | |].
    + destruct V as [V|(r & V)]; [discriminate V|]. inversion Fw; subst. destruct W as [W|(q & W)]; cbn [app] in *; congruence.
    + destruct W as [W|(r & W)]; [discriminate W|]. inversion Fv; subst. destruct V as [V|(q & V)]; cbn [app] in *; congruence.
    + inversion Fv; inversion Fw; subst. cbn [app] in *. assert (a = c /\ b = c) as (-> & ->) by (destruct V as [V|(r & V)], W as [W|(q & W)]; split; congruence). f_equal. apply IH.
      * split; [assumption|]. destruct V as [V|(r & V)]; [left; congruence|right; exists r; congruence].
      * split; [assumption|]. destruct W as [W|(r & W)]; [left; congruence|right; exists r; congruence].
Qed.
Print Assumptions shown_text_unique.
Lemma strerror_name e c : e_msg e = None \/ e_msg e = Some [] -> 0 <= c <= 8 -> exists n, mjs_strerror e c = OK n /\ code_name c n.
Proof.
  intros M R. unfold mjs_strerror. cbv zeta. replace (c <? 0) with false by lia.
  assert (exists n, match nth_error err_names (Z.to_nat c) with Some n => OK n | None => UB end = OK n /\ code_name c n) as (n & E & N).
  { assert (c = 0 \/ c = 1 \/ c = 2 \/ c = 3 \/ c = 4 \/ c = 5 \/ c = 6 \/ c = 7 \/ c = 8) as Hc by lia.
    repeat (destruct Hc as [->|Hc]; [eexists; split; [reflexivity|constructor]|]). subst c. eexists. split; [reflexivity|constructor]. }
  exists n. split; [|exact N]. destruct M as [->| ->]; exact E.
Qed.
(** C108. For all strings shorter than 2^31 bytes, whatever follows them in memory, and all earlier errors: die reads only the string, and
    what is printed is the trace if asked for, the title, and the string up to its first NUL before any earlier message. *)
Theorem die_shows e s rest trace msg b : zlen s < 2 ^ 31 -> 0 <= e_code e <= 8 ->
  exists e' v m, mjs_die e (s ++ rest) (zlen s) = OK e' /\ e_code e' = (if e_code e =? 0 then 3 else e_code e) /\ visible s v /\ reported v (e_msg e) (e_code e') m /\
    print_error e' trace msg b = OK ((match b, trace with true, Some t => t | _, _ => [] end) ++ (match msg with Some m => m | None => bs "MJS error" end) ++ bs ": " ++ m ++ [10]).
Proof.
  intros L C. unfold mjs_die. destruct (die_text_visible s rest L) as (v & -> & V). cbn [bind]. unfold prepend_errorf. change (E_TYPE =? E_OK) with false. cbn iota. change E_OK with 0. change E_TYPE with 3.
  set (c' := if e_code e =? 0 then 3 else e_code e). assert (C' : 0 <= c' <= 8) by (unfold c'; destruct (e_code e =? 0); lia).
  set (e' := {| e_code := c'; e_msg := _ |}). exists e', v.
  assert (exists m, mjs_strerror e' c' = OK m /\ reported v (e_msg e) c' m) as (m & E & Rm).
  { unfold e'. destruct (e_msg e) as [o|] eqn:Eo.
    - exists (v ++ bs ": " ++ o). split; [|apply Earlier]. unfold mjs_strerror. cbn [e_msg]. change (bs ": ") with [58; 32]. destruct (v ++ [58; 32] ++ o) eqn:Z0; [destruct v; discriminate Z0|reflexivity].
    - destruct v as [|a v]; [|exists (a :: v); split; [reflexivity|apply Text; discriminate]].
      destruct (strerror_name {| e_code := c'; e_msg := Some [] |} c' (or_intror eq_refl) C') as (n & E & N). exists n. split; [exact E|apply Name; [reflexivity|exact N]]. }
  exists m. split; [reflexivity|]. split; [reflexivity|]. split; [exact V|]. split; [exact Rm|]. unfold print_error. cbv zeta. change (e_code e') with c'. rewrite E. cbn [bind].
  destruct b, trace; reflexivity.
Qed.
Print Assumptions die_shows.
Definition ex_e : errst := {| e_code := 2; e_msg := Some (bs "x") |}.
Example ex_die : exists e', mjs_die ex_e (bs "no file" ++ bs "junk") 7 = OK e' /\ print_error e' (Some (bs "  at a.js:1" ++ [10])) None true = OK (bs "  at a.js:1" ++ [10] ++ bs "MJS error: no file: x" ++ [10]).
Proof. eexists. split; vm_compute; reflexivity. Qed.
Example ex_die_meets : zlen (bs "no file") < 2 ^ 31 /\ 0 <= e_code ex_e <= 8 /\ visible (bs "no file") (bs "no file").
Proof. split; [reflexivity|]. split; [cbn; lia|]. split; [vm_compute; repeat constructor; discriminate|left; reflexivity]. Qed.
(** The text given to die is shown: false, it is cut at a NUL; and for an empty text the name of the code is shown. *)
Theorem text_is_shown_refuted : exists s e', mjs_die err0 s (zlen s) = OK e' /\ print_error e' None None true = OK (bs "MJS error: a" ++ [10]) /\ s = bs "a" ++ 0 :: bs "b".
Proof. exists (bs "a" ++ 0 :: bs "b"), {| e_code := 3; e_msg := Some (bs "a") |}. split; [vm_compute; reflexivity|]. split; [vm_compute; reflexivity|reflexivity]. Qed.
Print Assumptions text_is_shown_refuted.
Theorem different_texts_differ_refuted : exists s1 s2 e1 e2 t, s1 <> s2 /\ mjs_die err0 s1 (zlen s1) = OK e1 /\ mjs_die err0 s2 (zlen s2) = OK e2 /\ print_error e1 None None true = OK t /\ print_error e2 None None true = OK t.
Proof.
  exists [], (bs "TYPE_ERROR"), {| e_code := 3; e_msg := Some [] |}, {| e_code := 3; e_msg := Some (bs "TYPE_ERROR") |}, (bs "MJS error: TYPE_ERROR" ++ [10]).
  split; [discriminate|]. repeat split; vm_compute; reflexivity.
Qed.
Print Assumptions different_texts_differ_refuted.
Lemma read_past s : Forall (fun c => c <> 0) s -> read_cstr s = UB.
Proof. induction 1 as [|c s N _ IH]; cbn [read_cstr]; [reflexivity|]. replace (c =? 0) with false by lia. rewrite IH. reflexivity. Qed.
(** Every string without NUL from 2^31 up to 2^32 bytes, with nothing readable after it (a foreign string), is read past its end: the
    length becomes negative. *)
Theorem long_text_read_past_end e s : Forall (fun c => c <> 0) s -> 2 ^ 31 <= zlen s < 2 ^ 32 -> mjs_die e s (zlen s) = UB.
Proof.
  intros F H. unfold mjs_die, die_text, to_int. cbv zeta. rewrite (Z.mod_small (zlen s) (2 ^ 32)) by lia. replace (zlen s <? 2 ^ 31) with false by lia. replace (zlen s - 2 ^ 32 <? 0) with true by lia. rewrite (read_past s F). reflexivity.
Qed.
Print Assumptions long_text_read_past_end.
(** die reads only the string: false. *)
Theorem only_the_string_is_read_refuted : exists s, mjs_die err0 s (zlen s) = UB.
Proof.
  exists (repeat 97 (Z.to_nat (2 ^ 31))). apply long_text_read_past_end; [apply Forall_forall; intros c I; apply repeat_spec in I; lia|]. unfold zlen. rewrite repeat_length, Z2Nat.id; lia.
Qed.
Print Assumptions only_the_string_is_read_refuted.
