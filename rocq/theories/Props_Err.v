(** Error reports (property C43). *)
From Verif Require Import Base Str_Model Txt_Model Err_Model Err_Spec.

Lemma run_app a : forall e b, run_reports e (a ++ b) = (e' <- run_reports e a ;; run_reports e' b).
Proof.
  induction a as [|[c t|c t] a IH]; intros e b; [reflexivity| |]; cbn [app run_reports].
  - apply IH.
  - destruct (prepend_errorf e c t); cbn [bind]; [apply IH|reflexivity..].
Qed.

Lemma prepends ps : forall e, Forall (fun p => fst p <> 0) ps ->
  run_reports e (map (fun p => Prepend (fst p) (snd p)) ps) =
  OK {| e_code := first_code (e_code e) ps; e_msg := outward (e_msg e) ps |}.
Proof.
  induction ps as [|[c t] ps IH] using rev_ind; intros e H.
  - cbn. unfold first_code, outward. destruct e as [c m]. cbn. f_equal. f_equal; [destruct (c =? 0) eqn:E; lia|destruct m; reflexivity].
  - apply Forall_app in H as [H1 H2]. apply Forall_inv in H2. cbn in H2.
    rewrite map_app, run_app, IH by exact H1. cbn [bind map run_reports fst snd]. unfold prepend_errorf.
    replace (c =? E_OK) with false by (unfold E_OK; lia). cbn [bind e_code e_msg]. f_equal. f_equal.
    + unfold first_code, E_OK. destruct (e_code e =? 0) eqn:E0; [|rewrite E0; reflexivity].
      destruct ps as [|[c1 t1] ps]; cbn [app]; [reflexivity|].
      apply Forall_inv in H1. cbn in H1. replace (c1 =? 0) with false by lia. reflexivity.
    + unfold outward. rewrite map_app, rev_app_distr. cbn [map rev app snd].
      destruct (rev (map snd ps) ++ match e_msg e with Some t0 => [t0] | None => [] end) as [|x l]; reflexivity.
Qed.

(** Any history: a last mjs_set_errorf followed by any number of mjs_prepend_errorf. *)
Theorem errors_nest_outward : forall e before c t ps e1,
  run_reports e before = OK e1 -> Forall (fun p => fst p <> 0) ps ->
  run_reports e (before ++ SetErr c t :: map (fun p => Prepend (fst p) (snd p)) ps) =
  OK {| e_code := first_code c ps; e_msg := outward t ps |}.
Proof.
  intros e before c t ps e1 H Hp. rewrite run_app, H. cbn [bind run_reports]. rewrite prepends by exact Hp. reflexivity.
Qed.
Print Assumptions errors_nest_outward.

(** The first code survives any later mjs_prepend_errorf. *)
Theorem first_error_code_survives : forall e ps e', Forall (fun p => fst p <> 0) ps -> e_code e <> 0 ->
  run_reports e (map (fun p => Prepend (fst p) (snd p)) ps) = OK e' -> e_code e' = e_code e.
Proof.
  intros e ps e' Hp He H. rewrite prepends in H by exact Hp. assert (E : e_code e' = first_code (e_code e) ps) by (injection H as <-; reflexivity).
  rewrite E. unfold first_code. replace (e_code e =? 0) with false by lia. reflexivity.
Qed.
Print Assumptions first_error_code_survives.

(** What mjs_strerror shows is the nested message when it is not empty. *)
Theorem strerror_shows_the_message : forall e before c t ps e1 code,
  run_reports e before = OK e1 -> Forall (fun p => fst p <> 0) ps ->
  forall m b, outward t ps = Some (b :: m) ->
  (e2 <- run_reports e (before ++ SetErr c t :: map (fun p => Prepend (fst p) (snd p)) ps) ;; mjs_strerror e2 code) = OK (b :: m).
Proof.
  intros e before c t ps e1 code H Hp m b Ho. rewrite (errors_nest_outward e before c t ps e1 H Hp). cbn [bind].
  unfold mjs_strerror. cbn [e_msg]. rewrite Ho. reflexivity.
Qed.
Print Assumptions strerror_shows_the_message.

Example err_ex : run_reports err0 [Prepend E_TYPE (bs "a"); SetErr E_SYNTAX (Some (bs "parse error"));
    Prepend E_INTERNAL (bs "in f"); Prepend E_TYPE (bs "in g")] =
  OK {| e_code := E_SYNTAX; e_msg := Some (bs "in g: in f: parse error") |}.
Proof. reflexivity. Qed.
Example err_ex2 : Forall (fun p : Z * list Z => fst p <> 0) [(E_INTERNAL, bs "in f"); (E_TYPE, bs "in g")].
Proof. repeat constructor; discriminate. Qed.
