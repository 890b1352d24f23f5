(** Collections between programs cannot be noticed (C95). *)
From Verif Require Import Base BaseFacts Value_Model Value_Spec Value_Proofs Str_Model Str_Spec Str_Proofs Gc_Model Gc_Spec Gc_Fuel Gc_Proofs Gc_Proofs3 Gc_Proofs5 Props_Gc
  Obj_Model Obj_Spec Obj_Proofs Bcode_Model Bcode_Proofs Vm_Model Vm_Spec TokNum_Model Expr_Spec Run_Spec Run_Model Lang_Spec Lang_Code Lang_Spec2 Lang_Spec3 Lang_Exec1 Lang_Exec10 Props_Lang
  Iso_Spec Iso_Proofs Coll_Spec Coll_Spec2 Coll_Proofs Coll_Proofs2 Coll_Proofs3.
From Coq Require Import ZifyBool.
Ltac Zify.zify_post_hook ::= idtac.

Lemma last_any {A} (l : list A) : forall x d d', last (x :: l) d = last (x :: l) d'.
Proof. induction l as [|y l IH]; intros x d d'; [reflexivity|]. change (last (y :: l) d = last (y :: l) d'). apply IH. Qed.
(** C95. In a session with collections before, between and after the programs, however many, every
    program has the value that the interpreter gives, who knows nothing of collections: the
    same number, string, boolean or function, or the object that is the same one. After each
    program, and at the end, the objects have the same properties in the same order with the
    same values. *)
Theorem session_agrees w rounds depth m ps outs m' : session w m ps outs m' -> forall codes W s l sc th,
  Forall well_formed ps -> Forall2 compiles ps codes -> told rounds depth sc th ps s = Some l ->
  code_room m (total codes) -> stack_room m depth -> in_state m W s sc th ->
  Forall2 agrees outs l /\
  exists W' t sc' th' R, in_state m' W' t sc' th' /\ same_state R (last (map snd l) s) t /\ Forall2 R sc sc' /\ same_val R th th'.
Proof.
  intros Se. cut (forall codes W s t l sc th sd th' R, Forall well_formed ps -> Forall2 compiles ps codes -> told rounds depth sc th ps s = Some l ->
    code_room m (total codes) -> stack_room m depth -> in_state m W t sd th' -> same_state R s t -> Forall2 R sc sd -> same_val R th th' ->
    Forall2 agrees outs l /\
    exists W' t sc' th' R, in_state m' W' t sc' th' /\ same_state R (last (map snd l) s) t /\ Forall2 R sc sc' /\ same_val R th th').
  { intros H codes W s l sc th Wf Cp Ht Cr Sr St. pose proof St as (_ & Rl & (_ & Ls) & Vt).
    pose (I := fun i j : nat => i = j /\ (i < length (objs s))%nat).
    assert (Ll : length (w_addr W) = length (objs s)) by (apply (rel_len _ _ W s Rl)).
    assert (Iv : forall x v, vrep (m_code m) (m_ext m) W x v -> same_val I v v).
    { intros x [i|i|q|q|q] Hv; cbn [same_val vrep] in *; auto; unfold I; split; auto; destruct Hv; lia. }
    apply (H codes W s s l sc th sc th I Wf Cp Ht Cr Sr St).
    - split; [split; unfold I; intuition congruence|]. split; [reflexivity|]. intros i j [<- Hi]. destruct (nth_error (objs s) i) as [c|] eqn:E; [|apply nth_error_None in E; lia].
      exists c, c. split; [reflexivity|]. split; [reflexivity|].
      destruct Rl as (_ & _ & F & _). destruct (Forall2_nth2 _ _ _ _ _ F E) as (o & _ & (mp & _ & Fe)). clear -Fe Iv. induction Fe as [|x y mp c [E1 E2] Fe IH]; constructor; [|exact IH].
      split; [reflexivity|exact (Iv _ _ E2)].
    - clear -Ls Ll. induction Ls as [|i l Hi Hl IH]; constructor; [|exact IH]. unfold I. split; [reflexivity|]. rewrite <- Ll. exact Hi.
    - exact (Iv _ _ Vt). }
  induction Se as [m|m m1 ps outs m' Co Se IH|m m1 r p ps outs m' (F & HF) Er Se IH]; intros codes W s t l sc th sd th' R Wf Cp Ht Cr Sr St Sm Sc Th.
  - cbn [told] in Ht. injection Ht as <-. split; [constructor|]. exists W, t, sd, th', R. auto.
  - destruct (collected_state m m1 W t sd th' depth Co St Sr) as (Ec & Sr1 & W1 & t1 & sd1 & th1 & R1 & St1 & Sm1 & Sc1 & Th1).
    apply (IH codes W1 s t1 l sc th sd1 th1 (comp R R1)); auto.
    + destruct Cr as (dd & E & L). exists dd. rewrite Ec. auto.
    + exact (state_comp _ _ _ _ _ Sm Sm1).
    + exact (list_comp _ _ _ _ _ Sc Sc1).
    + exact (val_comp _ _ _ _ _ Th Th1).
  - inversion Cp as [|? code ? codes' Cp1 Cp2]; subst. cbn [told] in Ht.
    pose proof (run_program_same rounds depth R sc sd th th' (g_tree p) s t Sm Sc Th) as X.
    destruct (run_program rounds depth sc th (g_tree p) s) as [[v s1]|] eqn:E1; [|discriminate Ht].
    destruct (run_program rounds depth sd th' (g_tree p) t) as [[v' t1]|] eqn:E2; [|contradiction]. destruct X as (R1 & X & S1 & Q). cbn [fst snd] in *.
    destruct (told rounds depth sc th ps s1) as [l1|] eqn:E3; [|discriminate Ht]. injection Ht as <-.
    change (total (code :: codes')) with (zlen code + total codes') in Cr. pose proof (total_nonneg codes') as Pt.
    destruct (program_result w m W t sd th' p code rounds depth v' t1 (Forall_inv Wf) Cp1 E2 ltac:(eapply code_room_less; [exact Cr|lia]) Sr St)
      as (f1 & m2 & r2 & W1 & H1 & _ & St1 & L1 & V1 & SS & C1).
    specialize (H1 (max F f1) ltac:(lia)). rewrite HF in H1 by lia. injection H1 as <- <-.
    pose proof SS as (T1 & T2 & T3 & T4 & T5 & T6 & T7).
    destruct (IH codes' W1 s1 t1 l1 sc th sd th' R1 (Forall_inv_tail Wf) Cp2 E3) as [I1 I2].
    { eapply code_room_commit; [exact Cr|exact C1]. }
    { unfold stack_room in *. rewrite T1, T4, T5. exact Sr. }
    { exact St1. }
    { exact S1. }
    { exact (sc_mono _ _ _ _ X Sc). }
    { exact (same_val_mono _ _ _ _ X Th). }
    split.
    + constructor; [|exact I1]. exists W1, t1, sd, th', v', R1. cbn [fst snd]. auto.
    + destruct I2 as (Wz & tz & scz & thz & Rz & Z1 & Z2 & Z3 & Z4). exists Wz, tz, scz, thz, Rz. split; [exact Z1|]. split; [|auto].
      destruct l1 as [|y l1]; [exact Z2|]. cbn [map snd] in Z2 |- *. change (last (s1 :: snd y :: map snd l1) s) with (last (snd y :: map snd l1) s). rewrite (last_any (map snd l1) (snd y) s s1). exact Z2.
Qed.
(** Every engine whose memory is in order can be collected, and its memory is in order then. *)
Theorem collection_possible phi g ds flo flp fls m : heap_ok g ds flo flp fls -> depicts phi g flo flp m ->
  exists m' g' ds' flo' flp' fls', collected m m' /\ heap_ok g' ds' flo' flp' fls' /\ depicts phi g' flo' flp' m'.
Proof.
  intros HK Dm. destruct (collects g ds flo flp fls HK) as (F & HF).
  destruct (HF F (le_n F)) as (g' & ds' & mv & flo' & flp' & fls' & E & HK' & CO).
  destruct (picture phi g g' ds ds' flo flp fls flo' flp' fls' mv CO m Dm) as [D1 SR].
  eexists. exists g', ds', flo', flp', fls'. split; [|split; [exact HK'|exact D1]].
  exists phi, g, ds, flo, flp, fls, g', ds', flo', flp', fls'. split; [exact HK|]. split; [exact Dm|]. split; [exists F; exact E|].
  split; [exact HK'|]. split; [exact D1|exact SR].
Qed.
(** Programs that run, run after a collection too. *)
Theorem session_goes_on w rounds depth m m1 ps codes W s l sc th : collected m m1 ->
  Forall well_formed ps -> Forall2 compiles ps codes -> told rounds depth sc th ps s = Some l ->
  code_room m (total codes) -> stack_room m depth -> in_state m W s sc th ->
  exists outs m', session w m1 ps outs m' /\ length outs = length ps.
Proof.
  intros Co Wf Cp Ht Cr Sr St. destruct (collected_state m m1 W s sc th depth Co St Sr) as (Ec & Sr1 & W1 & t & sd & th' & R & St1 & Sm & Sc & Th).
  assert (Cr1 : code_room m1 (total codes)) by (destruct Cr as (dd & E & L); exists dd; rewrite Ec; auto).
  clear m Co Ec Cr Sr St W. revert m1 W1 s t l R Wf Ht Cr1 Sr1 St1 Sm Sc Th.
  induction Cp as [|p code ps codes Cp1 Cp2 IH]; intros m W s t l R Wf Ht Cr Sr St Sm Sc Th; [exists [], m; split; [constructor|reflexivity]|].
  cbn [told] in Ht. pose proof (run_program_same rounds depth R sc sd th th' (g_tree p) s t Sm Sc Th) as X.
  destruct (run_program rounds depth sc th (g_tree p) s) as [[v s1]|] eqn:E1; [|discriminate Ht].
  destruct (run_program rounds depth sd th' (g_tree p) t) as [[v' t1]|] eqn:E2; [|contradiction]. destruct X as (R1 & X & S1 & Q). cbn [fst snd] in *.
  destruct (told rounds depth sc th ps s1) as [l1|] eqn:E3; [|discriminate Ht].
  change (total (code :: codes)) with (zlen code + total codes) in Cr. pose proof (total_nonneg codes) as Pt.
  destruct (program_result w m W t sd th' p code rounds depth v' t1 (Forall_inv Wf) Cp1 E2 ltac:(eapply code_room_less; [exact Cr|lia]) Sr St)
    as (f1 & m2 & r & W1 & H1 & Er & St1 & L1 & V1 & SS & C1). pose proof SS as (T1 & T2 & T3 & T4 & T5 & T6 & T7).
  destruct (IH m2 W1 s1 t1 l1 R1 (Forall_inv_tail Wf) E3) as (outs & m' & Z1 & Z2).
  { eapply code_room_commit; [exact Cr|exact C1]. }
  { unfold stack_room in *. rewrite T1, T4, T5. exact Sr. }
  { exact St1. }
  { exact S1. }
  { exact (sc_mono _ _ _ _ X Sc). }
  { exact (same_val_mono _ _ _ _ X Th). }
  exists ((m2, r) :: outs), m'. split; [apply ses_exec; [exists f1; exact H1|exact Er|exact Z1]|cbn [length]; congruence].
Qed.
Print Assumptions session_agrees.
Print Assumptions collection_possible.
Print Assumptions session_goes_on.
Print Assumptions gc_fuel.
