(** Well-formed declarations are read as written: the argument list. *)
From Verif Require Import Base BaseFacts Value_Model Str_Model Txt_Model Ffi_Model Ffi_Spec Ffi_Proofs.

Lemma space_char c : is_space c = true -> c <> 0 /\ c <> 40 /\ c <> 41 /\ c <> 44.
Proof. unfold is_space. lia. Qed.
Definition quiet (c : Z) : Prop := c <> 0 /\ c <> 40 /\ c <> 41 /\ c <> 44.
Lemma spaces_quiet l : spaces l -> Forall quiet l.
Proof. intros H. eapply Forall_impl; [| exact H]. intros c. apply space_char. Qed.
Lemma ptext_quiet p : piece_ok p -> Forall quiet (ptext p).
Proof.
  intros (A & B & C). destruct (names_shape _ _ C) as (_ & _ & _ & _ & D & _). unfold ptext.
  rewrite !Forall_app. repeat split; [apply spaces_quiet, A | exact D | apply spaces_quiet, B].
Qed.
Lemma ptext_long p : piece_ok p -> (3 <= length (ptext p))%nat.
Proof. intros (A & B & C). destruct (names_shape _ _ C) as (_ & _ & _ & _ & _ & D). unfold ptext. rewrite !app_length. lia. Qed.

(** * Scanning one argument *)
Lemma scan_skip x : forall n t i l level fp, Forall (fun c => c <> 0 /\ c <> 40 /\ c <> 41 /\ (c <> 44 \/ 0 < level)) x ->
  At t i (x ++ l) -> (length x <= n)%nat -> scan_arg n t i level fp = scan_arg (n - length x) t (i + zlen x) level fp.
Proof.
  induction x as [| c x IH]; intros n t i l level fp Hx HA Hn.
  - cbn [length]. rewrite Nat.sub_0_r. change (zlen []) with 0. rewrite Z.add_0_r. reflexivity.
  - inversion Hx as [| ? ? (H0 & H1 & H2 & H3) Hx']; subst. cbn [length app] in *. destruct n; [lia |]. cbn [scan_arg]. rewrite (At_rd _ _ _ _ HA). cbn [bind].
    replace (c =? 0) with false by lia. replace ((0 <? level) || negb (c =? 44) && negb (c =? 41)) with true by lia.
    replace (c =? 40) with false by lia. replace (c =? 41) with false by lia.
    rewrite (IH n t (i + 1) l level fp Hx' (At_next _ _ c _ HA)) by lia. rewrite zlen_cons'. f_equal. lia.
Qed.
Lemma scan_open n t i l level fp : 0 <= level -> At t i (40 :: l) -> scan_arg (S n) t i level fp = scan_arg n t (i + 1) (level + 1) true.
Proof. intros H HA. cbn [scan_arg]. rewrite (At_rd _ _ _ _ HA). cbn [bind]. change (40 =? 0) with false. change (40 =? 44) with false. change (40 =? 41) with false. cbn [negb andb]. rewrite orb_true_r. reflexivity. Qed.
Lemma scan_close n t i l level fp : 0 < level -> At t i (41 :: l) -> scan_arg (S n) t i level fp = scan_arg n t (i + 1) (level - 1) fp.
Proof. intros H HA. cbn [scan_arg]. rewrite (At_rd _ _ _ _ HA). cbn [bind]. change (41 =? 0) with false. replace (0 <? level) with true by lia. reflexivity. Qed.
Lemma scan_stop n t i c l fp : c = 44 \/ c = 41 -> At t i (c :: l) -> scan_arg (S n) t i 0 fp = OK (i, fp).
Proof. intros H HA. cbn [scan_arg]. rewrite (At_rd _ _ _ _ HA). cbn [bind]. destruct H as [-> | ->]; reflexivity. Qed.

Lemma scan_plain n p t i c l : piece_ok p -> c = 44 \/ c = 41 -> At t i (ptext p ++ c :: l) -> (length (ptext p) < n)%nat ->
  scan_arg n t i 0 false = OK (i + zlen (ptext p), false).
Proof.
  intros Hp Hc HA Hn. rewrite (scan_skip (ptext p) n t i (c :: l)); [| | exact HA | lia].
  - apply At_app in HA. replace (n - length (ptext p))%nat with (S (n - length (ptext p) - 1)) by lia. apply (scan_stop _ _ _ c l); assumption.
  - eapply Forall_impl; [| apply ptext_quiet, Hp]. intros d (? & ? & ? & ?). auto.
Qed.
Lemma commas_all (P : Z -> Prop) l : P 44 -> Forall (Forall P) l -> Forall P (commas l).
Proof.
  intros H. induction 1 as [| x l Hx Hl IH]; [constructor |]. destruct l as [| y l]; [exact Hx |]. cbn [commas]. rewrite !Forall_app.
  repeat split; [exact Hx | constructor; auto | exact IH].
Qed.
Definition shape (c : cbdecl) : list Z := ptext (c_ret c) ++ [40] ++ c_in c ++ [41] ++ c_gap c ++ [40] ++ commas (map ptext (c_args c)) ++ [41] ++ c_tail c.
Lemma args_chars c : cb_ok c -> Forall (fun c => c <> 0 /\ c <> 40 /\ c <> 41) (commas (map ptext (c_args c))).
Proof.
  intros (_ & _ & _ & _ & H & _). apply commas_all; [lia |]. induction H as [| p l Hp _ IH]; constructor; [| exact IH].
  eapply Forall_impl; [| apply ptext_quiet, Hp]. intros d (? & ? & ? & ?). auto.
Qed.
Lemma scan_cb n c t i x l : cb_ok c -> x = 44 \/ x = 41 -> At t i (ctext c ++ x :: l) -> (length (ctext c) < n)%nat ->
  scan_arg n t i 0 false = OK (i + zlen (ctext c), true).
Proof.
  intros Hok Hx HA Hn. pose proof (args_chars c Hok) as Hargs. destruct Hok as (Hr & Hi & Hg & Ht & Ha & _). unfold ctext in *.
  set (args := commas (map ptext (c_args c))) in *. rewrite <- !app_assoc in HA. rewrite !app_length in Hn. cbn [length] in Hn.
  rewrite (scan_skip (ptext (c_ret c)) n t i _ 0 false) with (2 := HA); [| eapply Forall_impl; [| apply ptext_quiet, Hr]; intros d (? & ? & ? & ?); auto | lia].
  apply At_app in HA. cbn [app] in HA.
  replace (n - length (ptext (c_ret c)))%nat with (S (n - length (ptext (c_ret c)) - 1)) by lia.
  rewrite (scan_open _ _ _ _ 0 false ltac:(lia) HA). apply At_next in HA. change (0 + 1) with 1.
  rewrite (scan_skip (c_in c)) with (2 := HA); [| eapply Forall_impl; [| exact Hi]; intros d (? & ? & ?); repeat split; try assumption; lia | lia].
  apply At_app in HA. match goal with |- scan_arg ?m _ _ _ _ = _ => replace m with (S (m - 1)) by lia end.
  rewrite (scan_close _ _ _ _ 1 true ltac:(lia) HA). apply At_next in HA. change (1 - 1) with 0.
  rewrite (scan_skip (c_gap c)) with (2 := HA); [| eapply Forall_impl; [| apply spaces_quiet, Hg]; intros d (? & ? & ? & ?); auto | lia].
  apply At_app in HA. match goal with |- scan_arg ?m _ _ _ _ = _ => replace m with (S (m - 1)) by lia end.
  rewrite (scan_open _ _ _ _ 0 true ltac:(lia) HA). apply At_next in HA. change (0 + 1) with 1.
  rewrite (scan_skip args) with (2 := HA); [| eapply Forall_impl; [| exact Hargs]; intros d (? & ? & ?); repeat split; try assumption; lia | lia].
  apply At_app in HA. match goal with |- scan_arg ?m _ _ _ _ = _ => replace m with (S (m - 1)) by lia end.
  rewrite (scan_close _ _ _ _ 1 true ltac:(lia) HA). apply At_next in HA. change (1 - 1) with 0.
  rewrite (scan_skip (c_tail c)) with (2 := HA); [| eapply Forall_impl; [| apply spaces_quiet, Ht]; intros d (? & ? & ? & ?); auto | lia].
  apply At_app in HA. match goal with |- scan_arg ?m _ _ _ _ = _ => replace m with (S (m - 1)) by lia end.
  rewrite (scan_stop _ _ _ _ _ true Hx HA). do 2 f_equal. rewrite !zlen_app'. change (zlen [40]) with 1. change (zlen [41]) with 1. lia.
Qed.
Lemma skip_blanks_spec k : forall n t i l c r, At t i (repeat 32 k ++ l) -> l = c :: r -> c <> 32 -> (k < n)%nat -> skip_blanks n t i = OK (i + Z.of_nat k).
Proof.
  induction k as [| k IH]; intros n t i l c r HA -> Hc Hn; (destruct n; [lia |]); cbn [repeat app] in HA; cbn [skip_blanks]; rewrite (At_rd _ _ _ _ HA); cbn [bind].
  - replace (c =? 32) with false by lia. f_equal. lia.
  - change (32 =? 32) with true. cbv iota. rewrite (IH n t (i + 1) _ c r (At_next _ _ _ _ HA) eq_refl Hc) by lia. f_equal. lia.
Qed.

(** * What an argument denotes *)
Inductive aval := AT (t : Z) | AC (ret : Z) (tys : list Z).
Definition aval_of (a : argdecl) : aval :=
  match a with Plain p => AT (p_type p) | Callback c => AC (p_type (c_ret c)) (cb_types c) end.
Lemma strip_piece p : piece_ok p -> exists k q, ptext p = repeat 32 k ++ ptext q /\ piece_ok q /\ p_type q = p_type p /\
  exists c r, ptext q = c :: r /\ c <> 32.
Proof.
  destruct p as [pre name post ty]. unfold piece_ok, ptext. cbn. intros (A & B & C).
  destruct (names_shape _ _ C) as (_ & _ & (c & r & En & Hc) & _).
  induction A as [| x pre Hx A IH].
  - exists 0%nat, {| p_pre := []; p_name := name; p_post := post; p_type := ty |}. cbn. repeat split; try assumption; try constructor.
    exists c, (r ++ post). rewrite En. split; [reflexivity |]. unfold is_space in Hc. lia.
  - destruct (Z.eq_dec x 32) as [-> | N].
    + destruct IH as (k & q & E & H). exists (S k), q. cbn [repeat app]. rewrite E. split; [reflexivity | exact H].
    + exists 0%nat, {| p_pre := x :: pre; p_name := name; p_post := post; p_type := ty |}. cbn. repeat split; try assumption; try (constructor; assumption).
      exists x, (pre ++ name ++ post). auto.
Qed.
Lemma strip_arg a : arg_ok a -> exists k b, atext a = repeat 32 k ++ atext b /\ arg_ok b /\ aval_of b = aval_of a /\ exists c r, atext b = c :: r /\ c <> 32.
Proof.
  destruct a as [p | c]; cbn [arg_ok atext aval_of].
  - intros H. destruct (strip_piece p H) as (k & q & A & B & C & D). exists k, (Plain q). cbn [atext arg_ok aval_of]. rewrite C. auto.
  - intros (H & R). destruct (strip_piece _ H) as (k & q & A & B & C & (x & r & D & E)).
    exists k, (Callback {| c_ret := q; c_in := c_in c; c_gap := c_gap c; c_args := c_args c; c_tail := c_tail c |}).
    cbn [atext arg_ok aval_of ctext c_ret c_in c_gap c_args c_tail]. unfold ctext, cb_ok, cb_types. cbn [c_ret c_in c_gap c_args c_tail].
    rewrite A, <- app_assoc, C. repeat split; try apply B; try apply R. exists x. rewrite D. eexists. split; [reflexivity | exact E].
Qed.

Definition cb_start (ret : Z) (tys : list Z) : sig :=
  {| s_cb := None; s_types := padded (ret :: tys); s_fn := FnNull; s_cnt := 0; s_callback := true; s_valid := false |}.
Definition cbsem (ret : Z) (tys : list Z) : option sig :=
  if Nat.leb (length tys) 6 then
    let g := fst (validate (cb_start ret tys) SigCallback E_OK) in
    if s_valid g then match cb_impl_for g with OK (Some i) => Some (set_fn g (FnImpl i)) | _ => None end else None
  else None.
(** the callback and the types once the arguments have been read *)
Fixpoint fill (l : list aval) (vt : Z) (cb : option sig) (tys : list Z) : option (option sig * list Z) :=
  match l with
  | [] => Some (cb, tys)
  | AT t :: l => if vt <? 7 then fill l (vt + 1) cb (blit tys vt [t]) else None
  | AC r ts :: l =>
    match cb with
    | Some _ => None
    | None => match cbsem r ts with
              | None => None
              | Some s => if vt <? 7 then fill l (vt + 1) (Some s) (blit tys vt [T_CALLBACK]) else None
              end
    end
  end.

Section ArgsLoop.
  Context (t : list Z) (rec : Z -> Z -> Z -> sres).
  Definition rec_good : Prop := forall c s x l, cb_ok c -> x = 44 \/ x = 41 -> At t s (ctext c ++ x :: l) ->
    exists g r e, rec s (zlen (ctext c)) E_OK = OK (g, r, e) /\
      match cbsem (p_type (c_ret c)) (cb_types c) with Some h => g = h /\ r = E_OK /\ e = E_OK | None => r <> E_OK end.
  Definition loop_arg (a : argdecl) : Prop := arg_ok a /\ match a with Plain _ => True | Callback _ => rec_good end.

  Lemma atext_long a : arg_ok a -> (3 <= length (atext a))%nat.
  Proof. destruct a as [p | c]; cbn [arg_ok atext]; intros H; [apply ptext_long, H |]. destruct H as [H _]. unfold ctext. rewrite app_length. pose proof (ptext_long _ H). lia. Qed.
  Lemma commas_cons x y l : commas (x :: y :: l) = x ++ 44 :: commas (y :: l).
  Proof. reflexivity. Qed.


  Lemma args_loop_spec r : forall a n ab al cur tmp_e vt g l,
    Forall loop_arg (a :: r) -> At t cur (commas (map atext (a :: r)) ++ 41 :: l) ->
    cur + zlen (commas (map atext (a :: r))) = ab + al -> tmp_e <= cur -> (length r < n)%nat -> 1 <= vt ->
    exists g' q e, args_loop rec n t ab al cur tmp_e vt g E_OK = OK (g', q, e) /\
      match fill (map aval_of (a :: r)) vt (s_cb g) (s_types g) with
      | Some (cb, tys) => q = E_OK /\ e = E_OK /\ g' = set_types (set_cb g cb) tys
      | None => q <> E_OK
      end.
  Proof.
    induction r as [| b r IH]; intros a n ab al cur tmp_e vt g l HF HA Hend Htmp Hn Hvt.
    all: inversion HF as [| ? ? [Hok Hrec] HF']; subst; clear HF; destruct n; [cbn in Hn; lia |]; cbn [args_loop].
    all: pose proof (atext_long a Hok) as Hlong.
    - (* the last argument *)
      cbn [map commas] in *. assert (Hlt : tmp_e - ab <? al = true) by (unfold zlen in Hend; lia). rewrite Hlt. cbn [negb].
      pose proof (At_len _ _ _ HA) as [HL HL0]. rewrite zlen_app', zlen_cons' in HL. unfold zlen in HL.
      assert (Hne : cur + zlen (atext a) =? cur = false) by (unfold zlen; lia).
      assert (Hr : rd t (cur + zlen (atext a)) = OK 41) by (eapply At_rd, At_app, HA).
      destruct a as [p | c]; cbn [atext aval_of map fill arg_ok] in *.
      + rewrite (scan_plain (length t) p t cur 41 l Hok (or_intror eq_refl) HA) by lia. cbn [bind]. rewrite Hne.
        rewrite (type_parsed p t cur (41 :: l) E_OK Hok HA). cbn [bind].
        destruct Hok as (_ & _ & Hnt). destruct (names_shape _ _ Hnt) as (_ & Hty & _). replace (p_type p =? T_INVALID) with false by lia.
        unfold set_val_type. destruct (vt <? 7) eqn:Ev; [| eexists _, _, _; split; [reflexivity | discriminate]].
        rewrite Hr. cbn [bind]. change (41 =? 44) with false. cbv iota. eexists _, _, _. split; [reflexivity |]. repeat split.
      + rewrite (scan_cb (length t) c t cur 41 l Hok (or_intror eq_refl) HA) by lia. cbn [bind]. rewrite Hne.
        destruct (s_cb g) eqn:Ecb; [eexists _, _, _; split; [reflexivity | discriminate] |].
        replace (cur + zlen (ctext c) - cur) with (zlen (ctext c)) by lia.
        destruct (Hrec c cur 41 l Hok (or_intror eq_refl) HA) as (h & q & e & Eq & Q). rewrite Eq. cbn [bind].
        destruct (cbsem _ _) as [h' |]; [destruct Q as (-> & -> & ->) | replace (q =? E_OK) with false by lia; eexists _, _, _; split; [reflexivity | exact Q]].
        change (E_OK =? E_OK) with true. cbn [negb]. unfold set_val_type. cbn [set_cb s_types].
        destruct (vt <? 7) eqn:Ev; [| eexists _, _, _; split; [reflexivity | discriminate]].
        rewrite Hr. cbn [bind]. change (41 =? 44) with false. cbv iota. eexists _, _, _. split; [reflexivity |]. repeat split.
    - (* more follow *)
      inversion HF' as [| ? ? [Hokb Hrecb] HF'']; subst.
      change (map atext (a :: b :: r)) with (atext a :: atext b :: map atext r) in *. rewrite commas_cons in *.
      change (atext b :: map atext r) with (map atext (b :: r)) in *.
      rewrite zlen_app', zlen_cons' in Hend. assert (Hlt : tmp_e - ab <? al = true) by (unfold zlen in Hend; lia). rewrite Hlt. cbn [negb].
      rewrite <- app_assoc in HA. cbn [app] in HA.
      pose proof (At_len _ _ _ HA) as [HL HL0]. rewrite zlen_app', zlen_cons' in HL. unfold zlen in HL.
      assert (Hne : cur + zlen (atext a) =? cur = false) by (unfold zlen; lia).
      assert (Hr : rd t (cur + zlen (atext a)) = OK 44) by (eapply At_rd, At_app, HA).
      destruct (strip_arg b Hokb) as (k & b' & Eb & Hokb' & Evb & (c0 & r0 & Eh & Hc0)).
      assert (HB : At t (cur + zlen (atext a) + 1) (repeat 32 k ++ commas (map atext (b' :: r)) ++ 41 :: l)).
      { pose proof (At_next _ _ _ _ (At_app _ _ _ _ HA)) as HB. assert (EQ : commas (map atext (b :: r)) = repeat 32 k ++ commas (map atext (b' :: r))).
        { destruct r; cbn [map commas]; rewrite Eb; [reflexivity | rewrite <- app_assoc; reflexivity]. }
        rewrite EQ, <- app_assoc in HB. exact HB. }
      assert (Hhd : exists r1, commas (map atext (b' :: r)) ++ 41 :: l = c0 :: r1) by (destruct r; cbn [map commas]; rewrite Eh; cbn [app]; eexists; reflexivity).
      destruct Hhd as (r1 & Er1).
      pose proof (At_len _ _ _ HB) as [HL2 _]. rewrite zlen_app', repeat_length' in HL2 || (unfold zlen in HL2; rewrite app_length, repeat_length in HL2).
      pose proof (skip_blanks_spec k (length t) t _ _ c0 r1 HB Er1 Hc0 ltac:(lia)) as Hsk.
      apply At_app in HB. assert (Zk : zlen (repeat 32 k) = Z.of_nat k) by (unfold zlen; rewrite repeat_length; reflexivity). rewrite Zk in HB.
      assert (Hlenc : zlen (commas (map atext (b :: r))) = Z.of_nat k + zlen (commas (map atext (b' :: r)))).
      { rewrite <- Zk, <- zlen_app'. f_equal. destruct r; cbn [map commas]; rewrite Eb; [reflexivity | rewrite <- app_assoc; reflexivity]. }
      assert (HF3 : Forall loop_arg (b' :: r)).
      { constructor; [split; [exact Hokb' | destruct b, b'; try discriminate; assumption] | exact HF'']. }
      assert (Hgo : forall g0, exists g' q e, args_loop rec n t ab al (cur + zlen (atext a) + 1 + Z.of_nat k) (cur + zlen (atext a)) (vt + 1) g0 E_OK = OK (g', q, e) /\
        match fill (map aval_of (b :: r)) (vt + 1) (s_cb g0) (s_types g0) with
        | Some (cb, tys) => q = E_OK /\ e = E_OK /\ g' = set_types (set_cb g0 cb) tys | None => q <> E_OK end).
      { intros g0. destruct (IH b' n ab al _ (cur + zlen (atext a)) (vt + 1) g0 l HF3 HB) as (g' & q & e & E1 & E2); [lia | lia | cbn in Hn; lia | lia |].
        exists g', q, e. split; [exact E1 |]. change (map aval_of (b' :: r)) with (aval_of b' :: map aval_of r) in E2. rewrite Evb in E2. exact E2. }
      destruct a as [p | c]; cbn [atext aval_of arg_ok] in *; change (map aval_of (?a :: b :: r)) with (aval_of a :: map aval_of (b :: r)); cbn [aval_of fill].
      + rewrite (scan_plain (length t) p t cur 44 _ Hok (or_introl eq_refl) HA) by lia. cbn [bind]. rewrite Hne.
        rewrite (type_parsed p t cur _ E_OK Hok HA). cbn [bind].
        destruct Hok as (_ & _ & Hnt). destruct (names_shape _ _ Hnt) as (_ & Hty & _). replace (p_type p =? T_INVALID) with false by lia.
        unfold set_val_type. destruct (vt <? 7) eqn:Ev; [| eexists _, _, _; split; [reflexivity | discriminate]].
        rewrite Hr. cbn [bind]. change (44 =? 44) with true. cbv iota. rewrite Hsk. cbn [bind].
        destruct (Hgo (set_types g (blit (s_types g) vt [p_type p]))) as (g' & q & e & E1 & E2). rewrite E1. eexists _, _, _. split; [reflexivity |].
        cbn [set_types s_cb s_types] in E2. destruct (fill _ _ _ _) as [[cb tys] |]; [| exact E2]. destruct E2 as (-> & -> & ->). repeat split.
      + rewrite (scan_cb (length t) c t cur 44 _ Hok (or_introl eq_refl) HA) by lia. cbn [bind]. rewrite Hne.
        destruct (s_cb g) eqn:Ecb; [eexists _, _, _; split; [reflexivity | discriminate] |].
        replace (cur + zlen (ctext c) - cur) with (zlen (ctext c)) by lia.
        destruct (Hrec c cur 44 _ Hok (or_introl eq_refl) HA) as (h & q & e & Eq & Q). rewrite Eq. cbn [bind].
        destruct (cbsem _ _) as [h' |]; [destruct Q as (-> & -> & ->) | replace (q =? E_OK) with false by lia; eexists _, _, _; split; [reflexivity | exact Q]].
        change (E_OK =? E_OK) with true. cbn [negb]. unfold set_val_type. cbn [set_cb s_types].
        destruct (vt <? 7) eqn:Ev; [| eexists _, _, _; split; [reflexivity | discriminate]].
        rewrite Hr. cbn [bind]. change (44 =? 44) with true. cbv iota. rewrite Hsk. cbn [bind].
        match goal with |- context [args_loop rec n t ab al _ _ _ ?g0 _] => destruct (Hgo g0) as (g' & q' & e' & E1 & E2) end. rewrite E1. eexists _, _, _. split; [reflexivity |].
        cbn [set_types set_cb s_cb s_types] in E2. destruct (fill _ _ _ _) as [[cb tys] |]; [| exact E2]. destruct E2 as (-> & -> & ->). repeat split.
  Qed.
End ArgsLoop.
