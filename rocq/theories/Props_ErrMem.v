(** C106: error messages in memory. *)
From Verif Require Import Base BaseFacts Str_Model TokNum_Model Txt_Model Avp_Model Avp_Spec Props_Avp Err_Model ErrMem_Model ErrMem_Spec.
From Coq Require Import ZifyBool.
Ltac Zify.zify_post_hook ::= idtac.

Lemma format_some h t : heap_ok h -> zlen t < 2 ^ 31 - 1 -> malloc h (zlen t + 1) = true -> exists b, format h t = OK (Some b, 1) /\ holds b t.
Proof.
  intros Hh L Mt. pose proof (zlen_nonneg t) as Pt. unfold format.
  destruct (avprintf_whole 1 h t [] 0 Hh ltac:(change (zlen (@nil Z)) with 0; lia) ltac:(lia) L) as (r & -> & [W|(_ & M & _)]); [|rewrite Mt in M; discriminate M].
  destruct r as [[len b] live]. cbn [bind]. destruct b as [b|b|]; cbn [whole] in W; [lia| |contradiction]. destruct W as (_ & _ & H & ->). exists b. split; [reflexivity|exact H].
Qed.
Lemma format_ok h t : heap_ok h -> enough h -> zlen t < 2 ^ 31 - 1 -> exists b, format h t = OK (Some b, 1) /\ holds b t.
Proof. intros Hh He L. pose proof (zlen_nonneg t) as Pt. apply format_some; [exact Hh|exact L|apply He; lia]. Qed.
Lemma format_null h t : heap_ok h -> malloc h (zlen t + 1) = false -> format h t = OK (None, 0).
Proof.
  intros Hh M. pose proof (zlen_nonneg t) as Pt. unfold format, mg_avprintf. cbn [vsnprintf]. change (0 =? 0) with true. cbn iota. rewrite store_ok by (change (zlen (@nil Z)) with 0; lia). cbn [bind].
  replace (zlen t <? 0) with false by lia. replace (0 <=? zlen t) with true by lia. rewrite M. reflexivity.
Qed.
Lemma read_ok b t : Forall (fun c => c <> 0) t -> holds b t -> read_cstr b = OK t.
Proof.
  intros F (r & ->). induction F as [|c t N F IH]; [reflexivity|]. cbn [app read_cstr]. replace (c =? 0) with false by lia. rewrite IH. reflexivity.
Qed.
Lemma total_nonneg rs : 0 <= total rs.
Proof. induction rs as [|r rs IH]; cbn [total]; [lia|]. pose proof (zlen_nonneg (report_text r)). lia. Qed.
Lemma reports_keep : forall rs hs m e, (forall k, heap_ok (hs k)) -> (forall k, enough (hs k)) -> keeps m (e_code e) (e_msg e) -> Forall no_nul rs ->
  match e_msg e with Some t => Forall (fun c => c <> 0) t /\ zlen t + total rs < 2 ^ 31 - 1 | None => total rs < 2 ^ 31 - 1 end ->
  match run_reports e rs with
  | OK e' => exists m', run_reports_mem hs m rs = OK m' /\ keeps m' (e_code e') (e_msg e')
  | Abort => run_reports_mem hs m rs = Abort
  | _ => False
  end.
Proof.
  induction rs as [|r rs IH]; intros hs m e Hh He K F B.
  - cbn [run_reports run_reports_mem]. exists m. split; [reflexivity|exact K].
  - inversion F as [|? ? Fr Frs]; subst. cbn [total] in B. pose proof (total_nonneg rs) as Pr. pose proof (zlen_nonneg (report_text r)) as Pt.
    destruct K as (Kc & Km). assert (Lv : m_live m - freed (m_msg m) = 0) by (destruct (e_msg e); [destruct Km as ((b & -> & _) & ->)|destruct Km as (-> & ->)]; reflexivity).
    assert (Bt : 2 + zlen (report_text r) + total rs < 2 ^ 31 - 1) by (destruct (e_msg e) as [q|]; [pose proof (zlen_nonneg q)|]; lia).
    destruct r as [c [t|]|c t]; cbn [run_reports run_reports_mem report_text] in *; cbv zeta.
    + unfold set_errorf_mem. cbv zeta. rewrite Lv. destruct (format_ok (hs O) t (Hh O) (He O) ltac:(lia)) as (b & -> & Hb). cbn [bind].
      apply IH; [intros k; apply Hh|intros k; apply He|split; [reflexivity|]; cbn [set_errorf e_msg m_msg m_live]; split; [exists b; split; [reflexivity|exact Hb]|reflexivity]|exact Frs|].
      cbn [set_errorf e_msg]. split; [exact Fr|lia].
    + unfold set_errorf_mem. cbv zeta. rewrite Lv. cbn [bind]. apply IH; [intros k; apply Hh|intros k; apply He|split; [reflexivity|]; split; reflexivity|exact Frs|]. cbn [set_errorf e_msg]. lia.
    + unfold prepend_errorf, prepend_errorf_mem. destruct (c =? E_OK); [reflexivity|]. cbv zeta. rewrite Kc. cbn [bind].
      destruct (format_ok (hs O) t (Hh O) (He O) ltac:(lia)) as (b & -> & Hb). cbn [bind]. destruct (e_msg e) as [q|] eqn:Eq.
      * destruct Km as ((bq & -> & Hq) & ->). destruct B as (Fq & Lq). rewrite (read_ok b t Fr Hb). cbn [bind]. rewrite (read_ok bq q Fq Hq). cbn [bind].
        assert (Ll : zlen (t ++ [58; 32] ++ q) = zlen t + 2 + zlen q) by (rewrite !zlen_app; change (zlen [58; 32]) with 2; lia).
        destruct (format_ok (hs 1%nat) (t ++ [58; 32] ++ q) (Hh 1%nat) (He 1%nat) ltac:(lia)) as (b2 & -> & Hb2). cbn [bind].
        apply IH; [intros k; apply Hh|intros k; apply He|split; [reflexivity|]; cbn [e_msg m_msg m_live freed]; split; [exists b2; split; [reflexivity|exact Hb2]|lia]|exact Frs|].
        cbn [e_msg]. split; [|lia]. apply Forall_app. split; [exact Fr|]. apply Forall_app. split; [repeat constructor; lia|exact Fq].
      * destruct Km as (-> & ->). apply IH; [intros k; apply Hh|intros k; apply He|split; [reflexivity|]; cbn [e_msg m_msg m_live]; split; [exists b; split; [reflexivity|exact Hb]|reflexivity]|exact Frs|].
        cbn [e_msg]. split; [exact Fr|lia].
Qed.
Lemma reports_abort rs : forall e, match run_reports e rs with
  | Abort => exists t, In (Prepend E_OK t) rs | _ => ~ exists t, In (Prepend E_OK t) rs end.
Proof.
  induction rs as [|r rs IH]; intros e; cbn [run_reports]; [intros (t & [])|]. destruct r as [c t|c t].
  - specialize (IH (set_errorf e c t)). destruct (run_reports _ rs); [| |destruct IH as (q & Q); exists q; right; exact Q|]; intros (q & [Q|Q]); try discriminate Q; apply IH; exists q; exact Q.
  - unfold prepend_errorf. destruct (c =? E_OK) eqn:C; cbn [bind]; [exists t; left; f_equal; lia|].
    match goal with |- context [run_reports ?x rs] => specialize (IH x); destruct (run_reports x rs) end;
      [| |destruct IH as (q & Q); exists q; right; exact Q|]; intros (q & [Q|Q]); try (apply IH; exists q; exact Q); assert (c = E_OK) by congruence; lia.
Qed.
(** C106. With enough memory the blocks hold after any reports what [Err_Model] says, and no block leaks or is freed twice. *)
Theorem messages_kept hs rs e : (forall k, heap_ok (hs k)) -> (forall k, enough (hs k)) -> Forall no_nul rs -> total rs < 2 ^ 31 - 1 -> run_reports err0 rs = OK e ->
  exists m, run_reports_mem hs errmem0 rs = OK m /\ keeps m (e_code e) (e_msg e).
Proof. intros Hh He F B H. pose proof (reports_keep rs hs errmem0 err0 Hh He (conj eq_refl (conj eq_refl eq_refl)) F B) as P. rewrite H in P. exact P. Qed.
Print Assumptions messages_kept.
(** The assertion on the code fails in both or in neither. *)
Theorem assertion_kept hs rs : (forall k, heap_ok (hs k)) -> (forall k, enough (hs k)) -> Forall no_nul rs -> total rs < 2 ^ 31 - 1 ->
  (run_reports_mem hs errmem0 rs = Abort <-> exists t, In (Prepend E_OK t) rs).
Proof.
  intros Hh He F B. pose proof (reports_keep rs hs errmem0 err0 Hh He (conj eq_refl (conj eq_refl eq_refl)) F B) as P. pose proof (reports_abort rs err0) as A.
  destruct (run_reports err0 rs) as [e| | |]; try contradiction.
  - destruct P as (m & -> & _). split; [discriminate|]. intros T. contradiction (A T).
  - split; [intros _; exact A|intros _; exact P].
Qed.
Print Assumptions assertion_kept.

Lemma format_live h t p l : format h t = OK (p, l) -> l = freed p.
Proof.
  unfold format, mg_avprintf. pose proof (zlen_nonneg t) as Pt. cbn [vsnprintf]. change (0 =? 0) with true. cbn iota. rewrite store_ok by (change (zlen (@nil Z)) with 0; lia). cbn [bind].
  replace (zlen t <? 0) with false by lia. replace (0 <=? zlen t) with true by lia. destruct (malloc h (zlen t + 1)); cbn [negb].
  - destruct (store _ _) as [b| | |]; cbn [bind]; intros E; try discriminate E. assert (p = Some b /\ l = 1) as (-> & ->) by (split; congruence). reflexivity.
  - cbn [bind]. intros E. assert (p = None /\ l = 0) as (-> & ->) by (split; congruence). reflexivity.
Qed.
Lemma reports_live rs : forall hs m m', m_live m = freed (m_msg m) -> run_reports_mem hs m rs = OK m' -> m_live m' = freed (m_msg m').
Proof.
  induction rs as [|r rs IH]; intros hs m m' L; cbn [run_reports_mem]; cbv zeta.
  - intros E. assert (m = m') by congruence. subst m'. exact L.
  - destruct r as [c [t|]|c t].
    + unfold set_errorf_mem. cbv zeta. destruct (format (hs O) t) as [[p l]| | |] eqn:E; cbn [bind]; try discriminate. apply IH. cbn [m_live m_msg]. rewrite (format_live _ _ _ _ E). lia.
    + unfold set_errorf_mem. cbv zeta. cbn [bind]. apply IH. cbn [m_live m_msg freed]. lia.
    + unfold prepend_errorf_mem. destruct (c =? E_OK); cbn [bind]; [discriminate|]. cbv zeta. destruct (format (hs O) t) as [[p l]| | |] eqn:E; cbn [bind]; try discriminate. pose proof (format_live _ _ _ _ E) as Lp.
      destruct (m_msg m) as [old|] eqn:Eo.
      * destruct p as [n|]; cbn [bind]; [|discriminate]. destruct (read_cstr n) as [tn| | |]; cbn [bind]; try discriminate. destruct (read_cstr old) as [told| | |]; cbn [bind]; try discriminate.
        destruct (format (hs 1%nat) (tn ++ [58; 32] ++ told)) as [[p2 l2]| | |] eqn:E2; cbn [bind]; try discriminate. apply IH. cbn [m_live m_msg]. rewrite (format_live _ _ _ _ E2). lia.
      * cbn [bind]. apply IH. cbn [m_live m_msg]. cbn [freed] in L. lia.
Qed.
(** For all heaps, also ones that run out of memory, and all texts: if the reports end, the block of the message is the only one left. *)
Theorem messages_never_leak hs rs m : run_reports_mem hs errmem0 rs = OK m -> m_live m = match m_msg m with Some _ => 1 | None => 0 end.
Proof. intros H. exact (reports_live rs hs errmem0 m eq_refl H). Qed.
Print Assumptions messages_never_leak.

Definition ex_h : heap := {| malloc := fun n => n <? 2 ^ 31; junk := fun n => repeat 170 (Z.to_nat n) |}.
Definition ex_none : heap := {| malloc := fun _ => false; junk := fun n => repeat 170 (Z.to_nat n) |}.
Definition ex_rs : list report := [SetErr 2 (Some (bs "x is not defined")); Prepend 3 (bs "load"); SetErr 0 None; Prepend 3 (bs "bad"); Prepend 5 (bs "call")].
Lemma ex_heap (p : Z -> bool) : heap_ok {| malloc := p; junk := fun n => repeat 170 (Z.to_nat n) |}.
Proof. intros n H. unfold zlen. cbn [junk]. rewrite repeat_length. lia. Qed.
Example ex_meets : heap_ok ex_h /\ enough ex_h /\ Forall no_nul ex_rs /\ total ex_rs < 2 ^ 31 - 1 /\ run_reports err0 ex_rs = OK {| e_code := 3; e_msg := Some (bs "call: bad") |}.
Proof.
  split; [apply ex_heap|]. split; [intros n H; cbn [malloc ex_h]; lia|]. split; [repeat apply Forall_cons; try apply Forall_nil; unfold no_nul; vm_compute; repeat constructor; discriminate|].
  split; reflexivity.
Qed.
Example ex_holds : exists m, run_reports_mem (fun _ => ex_h) errmem0 ex_rs = OK m /\ keeps m 3 (Some (bs "call: bad")).
Proof. destruct ex_meets as (H1 & H2 & H3 & H4 & H5). exact (messages_kept (fun _ => ex_h) _ _ (fun _ => H1) (fun _ => H2) H3 H4 H5). Qed.
Example ex_aborts : run_reports_mem (fun _ => ex_h) errmem0 [SetErr 2 (Some (bs "x")); Prepend 0 (bs "bad")] = Abort.
Proof. vm_compute. reflexivity. Qed.
Example ex_runs : run_reports_mem (fun _ => ex_h) errmem0 ex_rs = OK {| m_code := 3; m_msg := Some (bs "call: bad" ++ [0]); m_live := 1 |}.
Proof. vm_compute. reflexivity. Qed.
(** Lack of memory while an error is reported is harmless: false. For every heap without room for the text, adding to a message formats the null pointer. *)
Theorem no_memory_formats_null h h2 m err t : heap_ok h -> err <> E_OK -> m_msg m <> None -> malloc h (zlen t + 1) = false -> prepend_errorf_mem h h2 m err t = UB.
Proof.
  intros Hh Ne Nm M. unfold prepend_errorf_mem. replace (err =? E_OK) with false by lia. cbv zeta. rewrite (format_null h t Hh M). cbn [bind]. destruct (m_msg m); [reflexivity|contradiction].
Qed.
Print Assumptions no_memory_formats_null.
(** Without room for the joined text both parts are freed and the message is lost. *)
Theorem no_memory_loses_message h h2 m err t told b : heap_ok h -> heap_ok h2 -> err <> E_OK -> Forall (fun c => c <> 0) t -> Forall (fun c => c <> 0) told -> zlen t < 2 ^ 31 - 1 ->
  m_msg m = Some b -> holds b told -> malloc h (zlen t + 1) = true -> malloc h2 (zlen t + 2 + zlen told + 1) = false ->
  exists m', prepend_errorf_mem h h2 m err t = OK m' /\ m_msg m' = None /\ m_live m' = m_live m - 1.
Proof.
  intros Hh Hh2 Ne Ft Fo Lt Em Hb M M2. unfold prepend_errorf_mem. replace (err =? E_OK) with false by lia. cbv zeta. rewrite Em.
  destruct (format_some h t Hh Lt M) as (n & -> & Hn). cbn [bind]. rewrite (read_ok n t Ft Hn). cbn [bind]. rewrite (read_ok b told Fo Hb). cbn [bind].
  rewrite (format_null h2 (t ++ [58; 32] ++ told) Hh2) by (rewrite !zlen_app; change (zlen [58; 32]) with 2; rewrite <- M2; f_equal; lia). cbn [bind].
  eexists. split; [reflexivity|]. split; [reflexivity|]. cbn [m_live freed]. lia.
Qed.
Print Assumptions no_memory_loses_message.
Example ex_loses : exists m', prepend_errorf_mem ex_h ex_none {| m_code := 2; m_msg := Some (bs "x y z" ++ [0]); m_live := 1 |} 3 (bs "load") = OK m' /\ m_msg m' = None /\ m_live m' = 0.
Proof.
  apply (no_memory_loses_message ex_h ex_none {| m_code := 2; m_msg := Some (bs "x y z" ++ [0]); m_live := 1 |} 3 (bs "load") (bs "x y z") (bs "x y z" ++ [0])); try apply ex_heap; try reflexivity; try discriminate;
    [vm_compute; repeat constructor; discriminate|vm_compute; repeat constructor; discriminate|exists []; reflexivity].
Qed.
Definition ex_small : heap := {| malloc := fun n => n <? 8; junk := fun n => repeat 170 (Z.to_nat n) |}.
Theorem no_memory_harmless_refuted : exists hs rs e, (forall k : nat, heap_ok (hs k)) /\ Forall no_nul rs /\ total rs < 2 ^ 31 - 1 /\ run_reports err0 rs = OK e /\ run_reports_mem hs errmem0 rs = UB.
Proof.
  exists (fun _ => ex_small), [SetErr 2 (Some (bs "x")); Prepend 3 (bs "failed to read")], {| e_code := 2; e_msg := Some (bs "failed to read: x") |}. split; [intros k; apply ex_heap|].
  split; [repeat apply Forall_cons; try apply Forall_nil; unfold no_nul; vm_compute; repeat constructor; discriminate|]. split; [reflexivity|]. split; reflexivity.
Qed.
Print Assumptions no_memory_harmless_refuted.
(** A heap without room for the joined text: the message is lost, and no block leaks. *)
Example ex_lost : run_reports_mem (fun _ => ex_small) errmem0 [SetErr 2 (Some (bs "x y z")); Prepend 3 (bs "load")] = OK {| m_code := 2; m_msg := None; m_live := 0 |}.
Proof. vm_compute. reflexivity. Qed.
(** An error once reported keeps its text: false. *)
Theorem message_survives_refuted : exists hs rs e m, (forall k : nat, heap_ok (hs k)) /\ Forall no_nul rs /\ run_reports err0 rs = OK e /\ e_msg e <> None /\ run_reports_mem hs errmem0 rs = OK m /\ m_msg m = None.
Proof.
  exists (fun _ => ex_small), [SetErr 2 (Some (bs "x y z")); Prepend 3 (bs "load")], {| e_code := 2; e_msg := Some (bs "load: x y z") |}, {| m_code := 2; m_msg := None; m_live := 0 |}. split; [intros k; apply ex_heap|].
  split; [repeat apply Forall_cons; try apply Forall_nil; unfold no_nul; vm_compute; repeat constructor; discriminate|]. split; [reflexivity|]. split; [discriminate|]. split; [exact ex_lost|reflexivity].
Qed.
Print Assumptions message_survives_refuted.
