From Verif Require Import Base BaseFacts Value_Model TokNum_Model Txt_Model Expr_Spec Lang_Spec Iso_Spec.

Definition orel {A B} (P : A -> B -> Prop) (x : option A) (y : option B) : Prop :=
  match x, y with Some a, Some b => P a b | None, None => True | _, _ => False end.
Definition sres (R : pairing) (x y : option state) : Prop := orel (same_state R) x y.
Definition res {A B} (Q : pairing -> A -> B -> Prop) (R : pairing) (x : option (A * state)) (y : option (B * state)) : Prop :=
  orel (fun p q => exists R', extends R R' /\ same_state R' (snd p) (snd q) /\ Q R' (fst p) (fst q)) x y.
(** a state only, with more pairs *)
Definition sres' (R : pairing) (x y : option state) : Prop := orel (fun s t => exists R', extends R R' /\ same_state R' s t) x y.

Lemma ext_refl R : extends R R. Proof. intros i j H. exact H. Qed.
Lemma ext_trans R1 R2 R3 : extends R1 R2 -> extends R2 R3 -> extends R1 R3.
Proof. intros A B i j H. apply B, A, H. Qed.
Lemma same_val_mono R R' v w : extends R R' -> same_val R v w -> same_val R' v w.
Proof. intros E. destruct v, w; cbn; auto. Qed.
Lemma vals_mono R R' vs ws : extends R R' -> Forall2 (same_val R) vs ws -> Forall2 (same_val R') vs ws.
Proof. intros E F. induction F; constructor; [eapply same_val_mono; eassumption|assumption]. Qed.
Lemma sc_mono R R' sc sd : extends R R' -> Forall2 R sc sd -> Forall2 R' sc sd.
Proof. intros E F. induction F; constructor; auto. Qed.
Lemma cell_mono R R' c d : extends R R' -> same_cell R c d -> same_cell R' c d.
Proof. intros E F. induction F as [|x y l l' [H1 H2] F IH]; constructor; [|exact IH]. split; [exact H1|eapply same_val_mono; eassumption]. Qed.

Section Pure.
Context (R : pairing).
Lemma take_same n s t : same_state R s t -> sres R (take n s) (take n t).
Proof.
  intros (A & B & C). unfold take. rewrite <- B. destruct (_ && _); [|exact I]. split; [exact A|]. split; [cbn; rewrite B; reflexivity|exact C].
Qed.
Lemma use_name_same n s t : same_state R s t -> sres R (use_name n s) (use_name n t).
Proof. intros H. unfold use_name. destruct (good_name n); [apply take_same, H|exact I]. Qed.
Lemma find_name_same c d n : same_cell R c d -> orel (same_val R) (find_name c n) (find_name d n).
Proof.
  induction 1 as [|[k v] [k' v'] c d [H1 H2] F IH]; [exact I|]. cbn [fst snd] in *. subst k'. cbn [find_name].
  destruct (name_eqb k n); [exact H2|exact IH].
Qed.
Lemma own_same s t i j n : same_state R s t -> R i j -> orel (same_val R) (own s i n) (own t j n).
Proof. intros (_ & _ & C) H. destruct (C i j H) as (c & d & E1 & E2 & Q). unfold own. rewrite E1, E2. apply find_name_same, Q. Qed.
Lemma change_same c d n v w : same_cell R c d -> same_val R v w -> same_cell R (change c n v) (change d n w).
Proof.
  intros F V. induction F as [|[k x] [k' x'] c d [H1 H2] F IH]; [constructor|]. cbn [fst snd] in *. subst k'. cbn [change].
  destruct (name_eqb k n); constructor; try (split; [reflexivity|assumption]); assumption.
Qed.
Lemma put_same c d n v w : same_cell R c d -> same_val R v w -> same_cell R (put c n v) (put d n w).
Proof.
  intros F V. unfold put. pose proof (find_name_same c d n F) as Q. destruct (find_name c n), (find_name d n); try contradiction.
  - apply change_same; assumption.
  - constructor; [split; [reflexivity|exact V]|exact F].
Qed.
Lemma upd_nth {A} (l : list A) i x y : nth_error l i = Some y -> nth_error (upd l i x) i = Some x.
Proof. revert i. induction l as [|a l IH]; intros [|i] H; try discriminate; [reflexivity|]. cbn [upd nth_error] in *. apply IH, H. Qed.
Lemma upd_nth_other {A} (l : list A) i k x : i <> k -> nth_error (upd l i x) k = nth_error l k.
Proof. revert i k. induction l as [|a l IH]; intros [|i] [|k] H; try reflexivity; try congruence. cbn [upd nth_error]. apply IH. congruence. Qed.
Lemma set_own_same s t i j n v w : same_state R s t -> R i j -> same_val R v w -> sres R (set_own s i n v) (set_own t j n w).
Proof.
  intros S H V. pose proof S as (A & B & C). destruct (C i j H) as (c & d & E1 & E2 & Q). unfold set_own. rewrite E1, E2. apply take_same.
  split; [exact A|]. split; [exact B|]. intros i' j' H'. cbn [objs]. destruct (Nat.eq_dec i i') as [<-|N].
  - assert (j' = j) by (eapply (proj1 A); eassumption). subst j'. exists (put c n v), (put d n w).
    split; [eapply upd_nth; exact E1|]. split; [eapply upd_nth; exact E2|apply put_same; assumption].
  - assert (j <> j') by (intros <-; apply N; eapply (proj2 A); eassumption). rewrite !upd_nth_other by assumption. apply C, H'.
Qed.
Lemma find_var_same s t sc sd x : same_state R s t -> Forall2 R sc sd -> orel R (find_var s sc x) (find_var t sd x).
Proof.
  intros S F. induction F as [|i j sc sd H F IH]; [exact I|]. cbn [find_var].
  pose proof (own_same s t i j x S H) as Q. destruct (own s i x), (own t j x); try contradiction; [exact H|exact IH].
Qed.
Lemma prop_of_same s t i j n : same_state R s t -> R i j -> orel (same_val R) (prop_of s i n) (prop_of t j n).
Proof.
  intros (_ & _ & C) H. destruct (C i j H) as (c & d & E1 & E2 & Q). unfold prop_of. destruct (name_eqb n n_apply); [exact I|]. rewrite E1, E2.
  pose proof (find_name_same c d n Q) as X. destruct (find_name c n), (find_name d n); try contradiction; [exact X|].
  pose proof (find_name_same c d n_proto Q) as Y. destruct (find_name c n_proto), (find_name d n_proto); try contradiction; [exact I|reflexivity].
Qed.
Lemma len_of_same c d : same_cell R c d -> len_of c = len_of d.
Proof. induction 1 as [|[k x] [k' x'] c d [H1 H2] F IH]; [reflexivity|]. cbn [fst snd] in *. subst k'. cbn [len_of]. rewrite IH. reflexivity. Qed.
Lemma arr_len_same s t i j : same_state R s t -> R i j -> arr_len s i = arr_len t j.
Proof. intros (_ & _ & C) H. destruct (C i j H) as (c & d & E1 & E2 & Q). unfold arr_len. rewrite E1, E2. apply len_of_same, Q. Qed.
Lemma keys_same s t i j : same_state R s t -> R i j -> orel (fun c d => map fst c = map fst d) (nth_error (objs s) i) (nth_error (objs t) j).
Proof.
  intros (_ & _ & C) H. destruct (C i j H) as (c & d & E1 & E2 & Q). rewrite E1, E2. cbn [orel]. clear -Q.
  induction Q as [|x y c d [H1 H2] F IH]; [reflexivity|]. cbn [map]. congruence.
Qed.
Lemma key_index_same v w : same_val R v w -> key_index v = key_index w.
Proof. destruct v, w; cbn [same_val]; try contradiction; intros H; try reflexivity. subst. reflexivity. Qed.
Lemma key_name_same v w : same_val R v w -> key_name v = key_name w.
Proof. destruct v, w; cbn [same_val]; try contradiction; intros H; try reflexivity. subst. reflexivity. Qed.
Lemma text_key_same v w : same_val R v w -> text_key v = text_key w.
Proof. destruct v, w; cbn [same_val]; try contradiction; intros H; try reflexivity. subst. reflexivity. Qed.
Lemma arg_int_same v w : same_val R v w -> arg_int v = arg_int w.
Proof. destruct v, w; cbn [same_val]; try contradiction; intros H; try reflexivity. subst. reflexivity. Qed.
Lemma truthy_same v w : same_val R v w -> v_truthy v = v_truthy w.
Proof. destruct v, w; cbn [same_val]; try contradiction; intros H; try reflexivity. subst. reflexivity. Qed.
Lemma type_same v w : same_val R v w -> v_type v = v_type w.
Proof. destruct v, w; cbn [same_val]; try contradiction; intros H; try reflexivity. subst. reflexivity. Qed.
Lemma cost_same v w : same_val R v w -> v_cost v = v_cost w.
Proof. destruct v, w; cbn [same_val]; try contradiction; intros H; try reflexivity. subst. reflexivity. Qed.
Lemma orel_refl (x : option val) : (forall v, x = Some v -> same_val R v v) -> orel (same_val R) x x.
Proof. destruct x; cbn; auto. Qed.
Lemma member_same s t o k o' k' : same_state R s t -> same_val R o o' -> same_val R k k' -> orel (same_val R) (member s o k) (member t o' k').
Proof.
  intros S O K. pose proof (key_name_same k k' K) as N. pose proof (key_index_same k k' K) as X.
  destruct o as [a|i|i|ps b|p], o' as [a'|j|j|ps' b'|p']; cbn [same_val] in O; try contradiction; cbn [member]; try exact I; rewrite <- ?N, <- ?X.
  - subst a'. destruct a; try exact I. destruct (key_name k) as [n|]; [|exact I].
    repeat (match goal with |- orel _ (if ?b then _ else _) _ => destruct b; [reflexivity|] end).
    destruct (key_index k); [|exact I]. destruct (_ <? _); [|exact I]. destruct (nth_error _ _); reflexivity.
  - destruct (key_name k) as [n|]; [|exact I]. apply prop_of_same; assumption.
  - destruct (key_name k) as [n|]; [|exact I]. destruct (name_eqb n (bs "length")).
    { rewrite <- (arr_len_same s t i j S O). destruct (arr_len s i); [reflexivity|exact I]. }
    destruct (name_eqb n (bs "push")); [reflexivity|]. destruct (name_eqb n (bs "splice")); [reflexivity|]. apply prop_of_same; assumption.
Qed.
Context (I1 : one_to_one R).
Lemma same_same a b a' b' : same_val R a a' -> same_val R b b' -> v_same a b = v_same a' b'.
Proof.
  assert (X : forall i j i' j', R i i' -> R j j' -> Nat.eqb i j = Nat.eqb i' j').
  { intros i j i' j' A B. destruct (Nat.eqb_spec i j) as [<-|N].
    - symmetry. apply Nat.eqb_eq. eapply (proj1 I1); eassumption.
    - symmetry. apply Nat.eqb_neq. intros <-. apply N. eapply (proj2 I1); eassumption. }
  destruct a, a'; cbn [same_val]; try contradiction; intros A; destruct b, b'; cbn [same_val]; try contradiction; intros B; cbn [v_same]; subst; try reflexivity;
    f_equal; apply X; assumption.
Qed.
Lemma un_op_same op a a' : same_val R a a' -> orel (same_val R) (un_op op a) (un_op op a').
Proof.
  intros A. unfold un_op. rewrite <- (truthy_same a a' A), <- (type_same a a' A). destruct (_ =? _); [reflexivity|]. destruct (_ =? _); [reflexivity|].
  destruct a, a'; cbn [same_val] in A; try contradiction; try exact I. subst. match goal with |- context [un_val op ?x] => destruct (un_val op x) end; [reflexivity|exact I].
Qed.
Lemma bin_op_same op a b a' b' : same_val R a a' -> same_val R b b' -> orel (same_val R) (bin_op op a b) (bin_op op a' b').
Proof.
  intros A B. unfold bin_op. rewrite <- (same_same a b a' b' A B).
  destruct (_ =? _); [destruct (v_same a b); [reflexivity|exact I]|]. destruct (_ =? _); [destruct (v_same a b); [reflexivity|exact I]|].
  destruct a, a'; cbn [same_val] in A; try contradiction; destruct b, b'; cbn [same_val] in B; try contradiction; try exact I.
  subst. match goal with |- context [bin_val op ?x ?y] => destruct (bin_val op x y) end; [reflexivity|exact I].
Qed.
End Pure.

Lemma new_cell_same R s t : same_state R s t -> res (fun R i j => R i j) R (new_cell s) (new_cell t).
Proof.
  intros S. unfold new_cell. pose proof (take_same R 16 s t S) as Q. destruct (take 16 s) as [s1|], (take 16 t) as [t1|]; cbn in Q; try contradiction; [|exact I].
  destruct Q as (A & B & C). cbn [res orel fst snd].
  assert (Bd : forall i j, R i j -> (i < length (objs s1))%nat /\ (j < length (objs t1))%nat).
  { intros i j H. destruct (C i j H) as (c & d & E1 & E2 & _). split; apply nth_error_Some; congruence. }
  set (R' := fun i j => R i j \/ (i = length (objs s1) /\ j = length (objs t1))).
  assert (E : extends R R') by (intros i j H; left; exact H).
  exists R'. split; [exact E|]. split; [|right; split; reflexivity]. split; [split|].
  - intros i j k [H1|[-> ->]] [H2|[H3 H4]].
    + eapply (proj1 A); eassumption.
    + apply Bd in H1. lia.
    + apply Bd in H2. lia.
    + congruence.
  - intros i j k [H1|[-> ->]] [H2|[H3 H4]].
    + eapply (proj2 A); eassumption.
    + apply Bd in H1. lia.
    + apply Bd in H2. lia.
    + congruence.
  - split; [exact B|]. cbn [objs]. intros i j [H|[-> ->]].
    + destruct (Bd i j H). destruct (C i j H) as (c & d & E1 & E2 & Q). exists c, d. rewrite !nth_error_app1 by assumption.
      split; [exact E1|]. split; [exact E2|eapply cell_mono; eassumption].
    + exists [], []. rewrite !nth_error_app2, !Nat.sub_diag by lia. split; [reflexivity|]. split; [reflexivity|constructor].
Qed.

Lemma res_weaken {A B} (Q : pairing -> A -> B -> Prop) R R' x y : extends R R' -> res Q R' x y -> res Q R x y.
Proof.
  intros E. unfold res, orel. destruct x, y; auto. intros (R2 & X & Y). exists R2. split; [eapply ext_trans; eassumption|exact Y].
Qed.
Lemma sres_weaken R R' x y : extends R R' -> sres' R' x y -> sres' R x y.
Proof. intros E. unfold sres', orel. destruct x, y; auto. intros (R2 & X & Y). exists R2. split; [eapply ext_trans; eassumption|exact Y]. Qed.
Lemma res_now {A B} (Q : pairing -> A -> B -> Prop) R a b s t : same_state R s t -> Q R a b -> res Q R (Some (a, s)) (Some (b, t)).
Proof. intros S H. exists R. split; [apply ext_refl|]. split; assumption. Qed.
Lemma sres_now R s t : same_state R s t -> sres' R (Some s) (Some t).
Proof. intros S. exists R. split; [apply ext_refl|exact S]. Qed.
Definition rval : pairing -> val -> val -> Prop := same_val.
Definition rpair (R : pairing) (p q : val * val) : Prop := same_val R (fst p) (fst q) /\ same_val R (snd p) (snd q).
Definition rvals (R : pairing) : list val -> list val -> Prop := Forall2 (same_val R).
Definition rout (R : pairing) (o p : outcome) : Prop :=
  match o, p with
  | ONormal v, ONormal w | OReturn v, OReturn w => same_val R v w
  | OBreak, OBreak | OContinue, OContinue => True
  | _, _ => False
  end.
Lemma undef_same R : same_val R undef undef. Proof. reflexivity. Qed.
Lemma prim_same R a : same_val R (VPrim a) (VPrim a). Proof. reflexivity. Qed.
Local Hint Resolve undef_same prim_same : core.

Ltac up E :=
  match type of E with extends ?R ?R' =>
    repeat match goal with
    | H : same_val R _ _ |- _ => apply (same_val_mono _ _ _ _ E) in H
    | H : Forall2 R _ _ |- _ => apply (sc_mono _ _ _ _ E) in H
    | H : Forall2 (same_val R) _ _ |- _ => apply (vals_mono _ _ _ _ E) in H
    | H : R _ _ |- _ => apply E in H
    | H : same_state R _ _ |- _ => clear H
    end
  end; clear E.
Ltac wk E := first [apply (res_weaken _ _ _ _ _ E) | apply (sres_weaken _ _ _ _ E)].
Ltac go H0 :=
  let H := fresh "H" in pose proof H0 as H;
  lazymatch type of H with
  | sres ?R ?x ?y => unfold sres, orel in H; destruct x, y; cbv beta iota in H; try contradiction; [|exact I];
      repeat match goal with K : same_state R ?s ?t |- _ => lazymatch K with H => fail | _ => clear K end end
  | orel ?P ?x ?y => unfold orel in H; destruct x, y; cbv beta iota in H; try contradiction; [|exact I]
  | sres' ?R ?x ?y => unfold sres', orel in H; destruct x, y; cbv beta iota in H; try contradiction; [|exact I];
      let R1 := fresh "R" in let E := fresh "E" in let S := fresh "S" in destruct H as (R1 & E & S); wk E; up E
  | res ?Q ?R ?x ?y => unfold res, orel in H; destruct x as [[? ?]|], y as [[? ?]|]; cbv beta iota in H; try contradiction; [|exact I];
      let R1 := fresh "R" in let E := fresh "E" in let S := fresh "S" in let V := fresh "V" in
      destruct H as (R1 & E & S & V); cbn [fst snd] in S, V; wk E; up E; try unfold rval in V; try unfold rvals in V;
      try (destruct V as [? V]; cbn [fst snd] in *)
  end; cbv beta iota.

Lemma set_member_same R s t o k v o' k' v' : same_state R s t -> same_val R o o' -> same_val R k k' -> same_val R v v' ->
  sres R (set_member s o k v) (set_member t o' k' v').
Proof.
  intros S O K V. unfold set_member. rewrite <- (key_name_same R k k' K). destruct (key_name k) as [n|]; [|exact I].
  destruct o, o'; cbn [same_val] in O; try contradiction; try exact I; apply set_own_same; assumption.
Qed.
Lemma modify_same R s t o k op v o' k' v' : same_state R s t -> same_val R o o' -> same_val R k k' -> same_val R v v' ->
  res rpair R (modify s o k op v) (modify t o' k' op v').
Proof.
  intros S O K V.
  assert (X : forall i j, R i j -> res rpair R
     (let? n := text_key k in let? old := own s i n in let? w := bin_op op old v in let? s := take (v_cost w) s in let? s := set_own s i n w in Some (old, w, s))
     (let? n := text_key k' in let? old := own t j n in let? w := bin_op op old v' in let? s := take (v_cost w) t in let? s := set_own s j n w in Some (old, w, s))).
  { intros i j H. rewrite <- (text_key_same R k k' K). destruct (text_key k) as [n|]; [|exact I].
    go (own_same R s t i j n S H). go (bin_op_same R (proj1 S) op _ _ _ _ H0 V). rewrite <- (cost_same R _ _ H1). go (take_same R (v_cost v2) s t S).
    go (set_own_same R _ _ i j n _ _ H2 H H1). apply res_now; [exact H3|split; assumption]. }
  unfold modify. destruct o, o'; cbn [same_val] in O; try contradiction; try exact I; apply X, O.
Qed.
Lemma assign_to_same R s t op o k v o' k' v' : same_state R s t -> same_val R o o' -> same_val R k k' -> same_val R v v' ->
  res rval R (assign_to s op o k v) (assign_to t op o' k' v').
Proof.
  intros S O K V. unfold assign_to. destruct (op =? TOK_ASSIGN).
  - go (set_member_same R s t o k v o' k' v' S O K V). apply res_now; assumption.
  - destruct (compound_op op) as [b|]; [|exact I]. pose proof (modify_same R s t o k b v o' k' v' S O K V) as M.
    destruct (modify s o k b v) as [[[old x] s1]|], (modify t o' k' b v') as [[[old' x'] t1]|]; try contradiction; [|exact I].
    destruct M as (R1 & E & S1 & [Q1 Q2]). cbn [fst snd] in *. apply (res_weaken _ _ _ _ _ E). apply res_now; assumption.
Qed.
Lemma inc_to_same R s t op o k o' k' : same_state R s t -> same_val R o o' -> same_val R k k' ->
  res rval R (inc_to s op o k) (inc_to t op o' k').
Proof.
  intros S O K. unfold inc_to.
  assert (M : forall b, res rpair R (modify s o k b (vint 1)) (modify t o' k' b (vint 1))) by (intros b; apply modify_same; auto; reflexivity).
  assert (X : forall b, res rval R (let? (_, w, s) := modify s o k b (vint 1) in Some (w, s)) (let? (_, w, s) := modify t o' k' b (vint 1) in Some (w, s))
    /\ res rval R (let? (w, _, s) := modify s o k b (vint 1) in Some (w, s)) (let? (w, _, s) := modify t o' k' b (vint 1) in Some (w, s))).
  { intros b. specialize (M b). destruct (modify s o k b (vint 1)) as [[[old x] s1]|], (modify t o' k' b (vint 1)) as [[[old' x'] t1]|]; try contradiction; [|split; exact I].
    destruct M as (R1 & E & S1 & [Q1 Q2]). cbn [fst snd] in *. split; apply (res_weaken _ _ _ _ _ E); apply res_now; assumption. }
  destruct (op =? TOK_PLUS_PLUS); [apply X|]. destruct (op =? TOK_MINUS_MINUS); [apply X|].
  destruct (op =? TOK_POSTFIX_PLUS); [apply X|]. destruct (op =? TOK_POSTFIX_MINUS); [apply X|]. exact I.
Qed.
Lemma append_same R s t i j v w : same_state R s t -> R i j -> same_val R v w -> sres R (append s i v) (append t j w).
Proof. intros S H V. unfold append. rewrite <- (arr_len_same R s t i j S H). destruct (arr_len s i); [|exact I]. apply set_own_same; assumption. Qed.
Lemma append_all_same R i j vs ws : Forall2 (same_val R) vs ws -> forall s t, same_state R s t -> R i j -> sres R (append_all s i vs) (append_all t j ws).
Proof.
  induction 1 as [|v w vs ws V F IH]; intros s t S H; [exact S|]. cbn [append_all].
  go (append_same R s t i j v w S H V). apply IH; assumption.
Qed.
Lemma char_code_same R t vs ws : Forall2 (same_val R) vs ws -> char_code_of t vs = char_code_of t ws.
Proof. intros [|v w l l' V F]; [reflexivity|]. cbn [char_code_of]. rewrite (arg_int_same R v w V). reflexivity. Qed.
Lemma slice_same R t vs ws : Forall2 (same_val R) vs ws -> slice_of t vs = slice_of t ws.
Proof.
  intros [|v w l l' V F]; [reflexivity|]. cbn [slice_of]. rewrite (arg_int_same R v w V). destruct F as [|v1 w1 l l' V1 F]; [reflexivity|].
  rewrite (arg_int_same R v1 w1 V1). reflexivity.
Qed.
Lemma index_of_same R t vs ws : Forall2 (same_val R) vs ws -> index_of t vs = index_of t ws.
Proof.
  intros [|v w l l' V F]; [reflexivity|]. cbn [index_of]. destruct v, w; cbn [same_val] in V; try contradiction; try reflexivity. subst.
  destruct F as [|v1 w1 l l' V1 F]; [reflexivity|]. rewrite (arg_int_same R v1 w1 V1). reflexivity.
Qed.
Lemma call_host_same R p th vs s th' ws t : same_state R s t -> same_val R th th' -> Forall2 (same_val R) vs ws ->
  res rval R (call_host p th vs s) (call_host p th' ws t).
Proof.
  intros S T F. unfold call_host. destruct th as [a|i|i|ps b|q], th' as [a'|j|j|ps' b'|q']; cbn [same_val] in T; try contradiction; try exact I.
  - subst a'. destruct a; try exact I.
    destruct (zlen _ <? 2 ^ 31); [|exact I]. rewrite (char_code_same R _ vs ws F), (slice_same R _ vs ws F), (index_of_same R _ vs ws F).
    match goal with |- res _ _ (match ?a with _ => _ end) _ => destruct a as [v|] eqn:Z; [|exact I] end.
    go (take_same R (v_cost v) s t S). apply res_now; [assumption|].
    assert (W : exists a, v = VPrim a)
      by (repeat match type of Z with (if ?c then _ else _) = _ => destruct c end; try discriminate;
          [unfold char_code_of in Z|unfold slice_of in Z|unfold index_of in Z];
          repeat match type of Z with context [match ?c with _ => _ end] => destruct c end; try discriminate; injection Z as <-; eexists; reflexivity).
    destruct W as [a ->]. reflexivity.
  - destruct (p =? h_push); [|exact I]. go (append_all_same R i j vs ws F s t S T). rewrite <- (arr_len_same R _ _ i j H T).
    match goal with |- context [arr_len ?s i] => destruct (arr_len s i) end; [|exact I]. apply res_now; [assumption|reflexivity].
Qed.

(** * The interpreter *)
Definition ok_ev (E : evaluator) : Prop :=
  (forall R sc sd th th' e s t, same_state R s t -> Forall2 R sc sd -> same_val R th th' -> res rval R (ev E sc th e s) (ev E sd th' e t)) /\
  (forall R sc sd th th' e s t, same_state R s t -> Forall2 R sc sd -> same_val R th th' -> res rpair R (ev_ref E sc th e s) (ev_ref E sd th' e t)) /\
  (forall R sc sd th th' e s t, same_state R s t -> Forall2 R sc sd -> same_val R th th' -> res rvals R (ev_args E sc th e s) (ev_args E sd th' e t)) /\
  (forall R sc sd th th' e s t, same_state R s t -> Forall2 R sc sd -> same_val R th th' -> res rout R (ex E sc th e s) (ex E sd th' e t)).

Lemma declare_same R sc sd x s t : same_state R s t -> Forall2 R sc sd -> sres R (declare sc x s) (declare sd x t).
Proof.
  intros S [|i j sc' sd' H F]; [exact I|]. cbn [declare]. go (use_name_same R x s t S).
  pose proof (own_same R s0 s1 i j x H0 H) as Q. destruct (own s0 i x), (own s1 j x); try contradiction; [exact H0|].
  apply set_own_same; auto.
Qed.
Lemma bind_pars_same R i j : forall ps vs ws s t, same_state R s t -> R i j -> Forall2 (same_val R) vs ws -> sres R (bind_pars i ps vs s) (bind_pars j ps ws t).
Proof.
  induction ps as [|p ps IH]; intros vs ws s t S H F; [exact S|]. cbn [bind_pars]. go (use_name_same R p s t S).
  assert (V : same_val R (match vs with v :: _ => v | [] => undef end) (match ws with v :: _ => v | [] => undef end)) by (destruct F; auto).
  go (set_own_same R _ _ i j p _ _ H0 H V). apply IH; auto. destruct F; [constructor|assumption].
Qed.
Lemma eval_var_same R sc sd x s t : same_state R s t -> Forall2 R sc sd -> res rval R (eval_var sc x s) (eval_var sd x t).
Proof.
  intros S F. unfold eval_var. destruct (name_eqb x n_apply); [exact I|]. go (use_name_same R x s t S). go (find_var_same R _ _ sc sd x H F).
  go (own_same R _ _ _ _ x H H0). apply res_now; assumption.
Qed.

Section Eval.
Context (E : evaluator) (rounds : nat) (OK : ok_ev E).
Let okv := proj1 OK. Let okr := proj1 (proj2 OK). Let oka := proj1 (proj2 (proj2 OK)). Let okx := proj2 (proj2 (proj2 OK)).

Lemma fill_same : forall l R sc sd th th' i j s t, same_state R s t -> Forall2 R sc sd -> same_val R th th' -> R i j ->
  sres' R (fill E sc th i l s) (fill E sd th' j l t).
Proof.
  induction l as [|[n e] l IH]; intros R sc sd th th' i j s t S F T H; [apply sres_now, S|]. cbn [fill]. go (use_name_same R n s t S).
  go (okv R sc sd th th' e _ _ H0 F T). go (set_own_same _ _ _ i j n _ _ S H V). apply IH; assumption.
Qed.
Lemma fill_arr_same : forall l R sc sd th th' i j s t, same_state R s t -> Forall2 R sc sd -> same_val R th th' -> R i j ->
  sres' R (fill_arr E sc th i l s) (fill_arr E sd th' j l t).
Proof.
  induction l as [|e l IH]; intros R sc sd th th' i j s t S F T H; [apply sres_now, S|]. cbn [fill_arr].
  go (okv R sc sd th th' e _ _ S F T). go (append_same _ _ _ i j _ _ S0 H V). apply IH; assumption.
Qed.
Lemma ex_list_same : forall l R sc sd th th' v w s t, same_state R s t -> Forall2 R sc sd -> same_val R th th' -> same_val R v w ->
  res rout R (ex_list E sc th l v s) (ex_list E sd th' l w t).
Proof.
  induction l as [|a l IH]; intros R sc sd th th' v w s t S F T V; [apply res_now; assumption|]. cbn [ex_list].
  pose proof (okx R sc sd th th' a s t S F T) as X.
  destruct (ex E sc th a s) as [[o s1]|], (ex E sd th' a t) as [[o' t1]|]; try contradiction; [|exact I].
  destruct X as (R1 & X & S1 & Q). cbn [fst snd] in *. wk X. up X.
  destruct o, o'; cbn [rout] in Q; try contradiction; [apply IH; assumption|..]; apply res_now; assumption.
Qed.
Ltac goo X :=
  let R1 := fresh "R" in let Y := fresh "Y" in let S := fresh "S" in let Q := fresh "Q" in
  let H := fresh "H" in pose proof X as H; unfold res, orel in H;
  match type of H with match ?x with _ => _ end => destruct x as [[? ?]|] end;
  match type of H with match ?x with _ => _ end => destruct x as [[? ?]|] | _ => idtac end; cbv beta iota in H;
  match type of H with match ?x with _ => _ end => destruct x as [[? ?]|] | _ => idtac end; cbv beta iota in H;
  try contradiction; [|exact I];
  destruct H as (R1 & Y & S & Q); cbn [fst snd] in S, Q; wk Y; up Y; cbv beta iota.
Lemma call_same R sc sd f f' th th' vs ws s t : same_state R s t -> Forall2 R sc sd -> same_val R f f' -> same_val R th th' ->
  Forall2 (same_val R) vs ws -> res rval R (call E sc f th vs s) (call E sd f' th' ws t).
Proof.
  intros S F P T A. unfold call. destruct f, f'; cbn [same_val] in P; try contradiction; try exact I.
  - destruct P as [<- <-]. goo (new_cell_same R s t S). go (bind_pars_same _ _ _ ps _ _ _ _ S0 Q A).
    goo (ex_list_same b _ (n :: sc) (n0 :: sd) th th' undef undef _ _ H (Forall2_cons _ _ Q F) T eq_refl).
    destruct o, o0; cbn [rout] in Q0; try contradiction; try exact I; apply res_now; auto. reflexivity.
  - subst. apply call_host_same; assumption.
Qed.
Lemma eval_let_same R sc sd th th' x e s t : same_state R s t -> Forall2 R sc sd -> same_val R th th' ->
  res rval R (eval_let E sc th x e s) (eval_let E sd th' x e t).
Proof.
  intros S F T. unfold eval_let. go (declare_same R sc sd x s t S F). destruct e as [e|]; [|apply res_now; [assumption|reflexivity]].
  go (use_name_same R x _ _ H). go (okv R sc sd th th' e _ _ H0 F T). destruct F as [|i j sc sd I1 F]; [exact I|].
  go (set_own_same _ _ _ i j x _ _ S I1 V). apply res_now; assumption.
Qed.
Lemma eval_lets_same : forall l R sc sd th th' v w s t, same_state R s t -> Forall2 R sc sd -> same_val R th th' -> same_val R v w ->
  res rval R (eval_lets E sc th l v s) (eval_lets E sd th' l w t).
Proof.
  induction l as [|[x e] l IH]; intros R sc sd th th' v w s t S F T V; [apply res_now; assumption|]. cbn [eval_lets].
  clear V. go (eval_let_same R sc sd th th' x e s t S F T). apply IH; assumption.
Qed.
Lemma eval_all_same : forall l R sc sd th th' v w s t, same_state R s t -> Forall2 R sc sd -> same_val R th th' -> same_val R v w ->
  res rval R (eval_all E sc th l v s) (eval_all E sd th' l w t).
Proof.
  induction l as [|e l IH]; intros R sc sd th th' v w s t S F T V; [apply res_now; assumption|]. cbn [eval_all].
  clear V. go (okv R sc sd th th' e s t S F T). apply IH; assumption.
Qed.
Lemma loop_same : forall n R sc sd th th' c u b s t, same_state R s t -> Forall2 R sc sd -> same_val R th th' ->
  res rout R (loop E sc th c u b n s) (loop E sd th' c u b n t).
Proof.
  induction n as [|n IH]; intros R sc sd th th' c u b s t S F T; [exact I|]. cbn [loop]. go (okv R sc sd th th' c s t S F T).
  rewrite <- (truthy_same _ _ _ V). destruct (v_truthy v); [|apply res_now; [assumption|reflexivity]].
  goo (ex_list_same b _ sc sd th th' undef undef _ _ S0 F T eq_refl).
  assert (X : sres' R1 (match u with None => Some s2 | Some u => let? (_, s) := ev E sc th u s2 in Some s end)
                       (match u with None => Some s3 | Some u => let? (_, s) := ev E sd th' u s3 in Some s end)).
  { destruct u as [u|]; [|apply sres_now, S]. go (okv R1 sc sd th th' u _ _ S F T). apply sres_now; assumption. }
  destruct o, o0; cbn [rout] in Q; try contradiction; try (apply res_now; [assumption|auto; reflexivity]); go X; apply IH; assumption.
Qed.
Lemma each_same : forall ks R sc sd th th' x b s t, same_state R s t -> Forall2 R sc sd -> same_val R th th' ->
  res rout R (each E sc th x b ks s) (each E sd th' x b ks t).
Proof.
  induction ks as [|k ks IH]; intros R sc sd th th' x b s t S F T; [apply res_now; [assumption|reflexivity]|]. cbn [each].
  go (find_var_same R s t sc sd x S F). go (set_own_same R s t _ _ x (VPrim (AStr k)) (VPrim (AStr k)) S H eq_refl).
  goo (ex_list_same b _ sc sd th th' undef undef _ _ H0 F T eq_refl).
  destruct o, o0; cbn [rout] in Q; try contradiction; try (apply res_now; [assumption|auto; reflexivity]); apply IH; assumption.
Qed.
Lemma eval_ref_same R sc sd th th' r s t : same_state R s t -> Forall2 R sc sd -> same_val R th th' ->
  res rpair R (eval_ref E sc th r s) (eval_ref E sd th' r t).
Proof.
  intros S F T. destruct r; try exact I; cbn [eval_ref].
  - go (use_name_same R x s t S). go (find_var_same R _ _ sc sd x H F). apply res_now; [assumption|]. split; [exact H0|reflexivity].
  - go (okv R sc sd th th' r s t S F T). go (use_name_same _ x _ _ S0). apply res_now; [assumption|]. split; [exact V|reflexivity].
  - go (okv R sc sd th th' r1 s t S F T). go (okv _ sc sd th th' r2 _ _ S0 F T). apply res_now; [assumption|]. split; assumption.
Qed.
Lemma eval_callee_same R sc sd th th' f s t : same_state R s t -> Forall2 R sc sd -> same_val R th th' ->
  res rpair R (eval_callee E sc th f s) (eval_callee E sd th' f t).
Proof.
  intros S F T.
  assert (X : res rpair R (let? (v, s) := ev E sc th f s in Some (v, undef, s)) (let? (v, s) := ev E sd th' f t in Some (v, undef, s))).
  { go (okv R sc sd th th' f s t S F T). apply res_now; [assumption|]. split; [exact V|reflexivity]. }
  assert (Y : res rpair R (let? (o, k, s) := ev_ref E sc th f s in let? v := member s o k in Some (v, o, s))
                          (let? (o, k, s) := ev_ref E sd th' f t in let? v := member s o k in Some (v, o, s))).
  { goo (okr R sc sd th th' f s t S F T). destruct p as [o k], p0 as [o' k'], Q as [Q1 Q2]. cbn [fst snd] in Q1, Q2.
    go (member_same _ _ _ _ _ _ _ S0 Q1 Q2). apply res_now; [assumption|]. split; assumption. }
  unfold eval_callee. destruct f; cbn [plain]; try exact I; assumption.
Qed.
Lemma eval1_same R sc sd th th' e s t : same_state R s t -> Forall2 R sc sd -> same_val R th th' ->
  res rval R (eval1 E sc th e s) (eval1 E sd th' e t).
Proof.
  intros S F T.
  assert (Y : res rval R (let? (o, k, s) := ev_ref E sc th e s in let? v := member s o k in Some (v, s))
                         (let? (o, k, s) := ev_ref E sd th' e t in let? v := member s o k in Some (v, s))).
  { goo (okr R sc sd th th' e s t S F T). destruct p as [o k], p0 as [o' k'], Q as [Q1 Q2]. cbn [fst snd] in Q1, Q2.
    go (member_same _ _ _ _ _ _ _ S0 Q1 Q2). apply res_now; assumption. }
  destruct e; cbn [eval1]; try exact Y; clear Y.
  - destruct (Expr_Spec.value _ e) as [[a n]|]; [|exact I]. go (take_same R n s t S). apply res_now; [assumption|reflexivity].
  - apply res_now; assumption.
  - apply eval_var_same; assumption.
  - go (okv R sc sd th th' e s t S F T). go (un_op_same _ op _ _ V). rewrite <- (cost_same _ _ _ H). go (take_same _ (v_cost v1) _ _ S0).
    apply res_now; assumption.
  - go (okv R sc sd th th' e1 s t S F T). go (okv _ sc sd th th' e2 _ _ S0 F T). go (bin_op_same _ (proj1 S) op _ _ _ _ V V0).
    rewrite <- (cost_same _ _ _ H). go (take_same _ (v_cost v3) _ _ S). apply res_now; assumption.
  - go (okv R sc sd th th' e1 s t S F T). rewrite <- (truthy_same _ _ _ V). destruct (v_truthy v); [apply okv; assumption|apply res_now; assumption].
  - go (okv R sc sd th th' e1 s t S F T). rewrite <- (truthy_same _ _ _ V). destruct (v_truthy v); [apply res_now; assumption|apply okv; assumption].
  - go (okv R sc sd th th' e1 s t S F T). rewrite <- (truthy_same _ _ _ V). apply okv; assumption.
  - goo (okr R sc sd th th' e1 s t S F T). destruct p as [o k], p0 as [o' k'], Q as [Q1 Q2]. cbn [fst snd] in Q1, Q2.
    go (okv _ sc sd th th' e2 _ _ S0 F T). apply assign_to_same; assumption.
  - goo (okr R sc sd th th' e s t S F T). destruct p as [o k], p0 as [o' k'], Q as [Q1 Q2]. cbn [fst snd] in Q1, Q2. apply inc_to_same; assumption.
  - goo (eval_callee_same R sc sd th th' e s t S F T). destruct p as [o k], p0 as [o' k'], Q as [Q1 Q2]. cbn [fst snd] in Q1, Q2.
    go (oka _ sc sd th th' l _ _ S0 F T). apply call_same; assumption.
  - goo (new_cell_same R s t S). go (fill_same l _ sc sd th th' _ _ _ _ S0 F T Q). apply res_now; assumption.
  - goo (new_cell_same R s t S). go (fill_arr_same l _ sc sd th th' _ _ _ _ S0 F T Q). apply res_now; assumption.
  - destruct name as [f|]; [|apply res_now; [assumption|split; reflexivity]]. go (declare_same R sc sd f s t S F). go (use_name_same R f _ _ H).
    destruct F as [|i j sc sd I1 F]; [exact I|]. go (set_own_same _ _ _ i j f (VFun ps b) (VFun ps b) H0 I1 (conj eq_refl eq_refl)).
    apply res_now; [assumption|split; reflexivity].
Qed.
Lemma eval_args_same R sc sd th th' l s t : same_state R s t -> Forall2 R sc sd -> same_val R th th' ->
  res rvals R (eval_args E sc th l s) (eval_args E sd th' l t).
Proof.
  intros S F T. destruct l as [|e l]; cbn [eval_args]; [apply res_now; [assumption|constructor]|].
  go (okv R sc sd th th' e s t S F T). go (oka _ sc sd th th' l _ _ S0 F T). apply res_now; [assumption|]. constructor; assumption.
Qed.
Lemma exec1_same R sc sd th th' a s t : same_state R s t -> Forall2 R sc sd -> same_val R th th' ->
  res rout R (exec1 E rounds sc th a s) (exec1 E rounds sd th' a t).
Proof.
  intros S F T. destruct a; cbn [exec1].
  - apply res_now; [assumption|reflexivity].
  - go (eval_all_same l R sc sd th th' undef undef s t S F T eq_refl). apply res_now; assumption.
  - go (eval_lets_same l R sc sd th th' undef undef s t S F T eq_refl). apply res_now; assumption.
  - goo (new_cell_same R s t S). apply ex_list_same; auto.
  - go (okv R sc sd th th' c s t S F T). rewrite <- (truthy_same _ _ _ V). destruct (v_truthy v); [apply okx; assumption|].
    destruct b; [apply okx; assumption|apply res_now; [assumption|reflexivity]].
  - goo (new_cell_same R s t S). apply loop_same; auto.
  - goo (new_cell_same R s t S). assert (F' := Forall2_cons _ _ Q F). clear F Q. goo (okx _ _ _ th th' a _ _ S0 F' T). apply loop_same; auto.
  - goo (new_cell_same R s t S). assert (F' := Forall2_cons _ _ Q F). clear F Q.
    assert (X : sres R0 (if d then declare (n :: sc) x s0 else Some s0) (if d then declare (n0 :: sd) x s1 else Some s1))
      by (destruct d; [apply declare_same; assumption|exact S0]).
    go X. go (use_name_same _ x _ _ H). go (okv _ _ _ th th' e _ _ H0 F' T).
    destruct v, v0; cbn [same_val] in V; try contradiction; try exact I;
      go (keys_same _ _ _ _ _ S V); rewrite <- H; apply each_same; auto.
  - apply res_now; [assumption|exact I].
  - apply res_now; [assumption|exact I].
  - destruct e as [e|]; [|apply res_now; [assumption|reflexivity]]. go (okv R sc sd th th' e s t S F T). apply res_now; assumption.
Qed.
End Eval.

Lemma at_depth_same rounds : forall d, ok_ev (at_depth rounds d).
Proof.
  induction d as [|d IH]; [repeat split; intros; exact I|]. cbn [at_depth]. split; [|split; [|split]]; cbn [ev ev_ref ev_args ex]; intros.
  - apply eval1_same; assumption.
  - apply eval_ref_same; assumption.
  - apply eval_args_same; assumption.
  - apply exec1_same; assumption.
Qed.
Theorem run_program_same rounds depth R sc sd th th' l s t : same_state R s t -> Forall2 R sc sd -> same_val R th th' ->
  res rval R (run_program rounds depth sc th l s) (run_program rounds depth sd th' l t).
Proof.
  intros S F T. unfold run_program.
  pose proof (ex_list_same _ (at_depth_same rounds depth) l R sc sd th th' undef undef s t S F T eq_refl) as X.
  destruct (ex_list _ sc th l undef s) as [[o s1]|], (ex_list _ sd th' l undef t) as [[o' t1]|]; try contradiction; [|exact I].
  destruct X as (R1 & X & S1 & Q). cbn [fst snd] in *. apply (res_weaken _ _ _ _ _ X).
  destruct o, o'; cbn [rout] in Q; try contradiction; try exact I. apply res_now; assumption.
Qed.
