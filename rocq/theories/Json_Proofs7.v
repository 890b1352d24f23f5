(** Every value has a text; JSON.stringify returns it. *)
From Verif Require Import Base BaseFacts Value_Model Value_Spec Value_Proofs Str_Model Str_Spec Str_Proofs SUtil_Model SUtil_Spec SUtil_Proofs
  Num_Model Conv_Model Obj_Model Obj_Spec Obj_Proofs Obj_Proofs2 Arr_Model Arr_Spec Arr_Proofs Arr_Proofs2 Vm_Proofs4 NumText_Spec NumText_Proofs
  Json_Model Json_Spec Json_Proofs JsonOut_Spec Json_Proofs5 Json_Proofs6.
Ltac Zify.zify_post_hook ::= Z.div_mod_to_equations.

Lemma kind_dec (a b : Value_Spec.kind) : {a = b} + {a <> b}. Proof. decide equality. Qed.
Lemma skipped_dec v : is_u64 v -> skipped v \/ ~ skipped v.
Proof.
  intros U. unfold skipped. destruct (kind_dec (kind_of v) KUndefined), (kind_dec (kind_of v) KFunction), (kind_dec (kind_of v) KForeign); tauto.
Qed.

Section Total.
Context (h : heap) (ext : extmem) (M : store) (Hrep : hrep h ext M) (Hst : zlen (so (h_st h)) < 2 ^ 48).
Context (Hj : jstore (h_st h) ext M).
Let J := jvalue (h_st h) ext M.

Lemma jvalue_u64 v : J v -> is_u64 v.
Proof.
  intros Q. unfold J, jvalue in Q. destruct Q as [Q|[Q|[Q|[Q|[Q|[Q|Q]]]]]].
  - destruct Q as (U & _). exact U.
  - rewrite Q. vm_compute; split; [discriminate|reflexivity].
  - rewrite Q. vm_compute; split; [discriminate|reflexivity].
  - rewrite Q. vm_compute; split; [discriminate|reflexivity].
  - destruct Q as (U & _). exact U.
  - destruct Q as (s & (U & _) & _). exact U.
  - destruct Q as (o & [R|R] & _); [apply (obj_ref_facts _ _ R)|apply (arr_ref_facts _ _ R)].
Qed.
Lemma lookup_In m k w : lookup m k = Some w -> In (k, w) m.
Proof.
  induction m as [|[k' w'] m IH]; cbn [lookup]; [discriminate|]. destruct (bytes_eqb k' k) eqn:E.
  - intros Q. injection Q as ->. apply bytes_eqb_eq in E. subst k'. left. reflexivity.
  - intros Q. right. auto.
Qed.
Lemma shows_total n : forall vis v, okvis M vis -> (2 * length (h_objs h) < n + length vis)%nat -> J v ->
  exists t, shows (h_st h) ext M vis v t.
Proof.
  induction n as [|n IH]; intros vis v V D Jv.
  { pose proof (vis_bound h ext M Hrep vis V). lia. }
  destruct Jv as [K|[->|[->|[->|[(U & K & P)|[(s & Hs & Hb & Hl)|(o & R & Mo)]]]]]].
  - eexists. apply S_skip. assumption.
  - eexists. apply S_null.
  - eexists. apply S_true.
  - eexists. apply S_false.
  - destruct (num_shows_total v U P) as [t T]. eexists. apply S_num; eassumption.
  - eexists. eapply S_str; eassumption.
  - destruct (in_dec Z.eq_dec v vis) as [I|I].
    { eexists. apply S_circular; [assumption|]. exists o. assumption. }
    destruct (M o) as [m|] eqn:Em; [|congruence]. clear Mo.
    assert (V1 : okvis M (v :: vis)) by (eapply okvis_cons; eauto).
    assert (REC : forall w, J w -> exists t, shows (h_st h) ext M (v :: vis) w t).
    { intros w Jw. apply IH; [assumption|cbn [length]; lia|assumption]. }
    destruct R as [R|R].
    + assert (MS : forall m', incl m' m -> exists l, mshows (h_st h) ext M (v :: vis) m' l).
      { induction m' as [|[k w] m' IHm]; intros I'; [eexists; apply MS_nil|].
        destruct (Hj o m k w Em (I' (k, w) (or_introl eq_refl))) as [Kl Jw]. destruct IHm as [l Hl]; [intros x Hx; apply I'; right; exact Hx|].
        destruct (skipped_dec w (jvalue_u64 w Jw)) as [Sk|Sk]; [eexists; apply MS_skip; eassumption|].
        destruct (REC w Jw) as [t T]. eexists. apply MS_show; eassumption. }
      destruct (MS m (incl_refl m)) as [l Hl]. eexists. eapply S_obj; eassumption.
    + destruct (arr_ref_facts _ _ R) as (Rf & _).
      destruct (array_length_spec h ext M v o m Hrep Em Rf) as (L & _ & L0 & L1 & L2).
      assert (AS : forall k i, 0 <= i -> i + Z.of_nat k < 2 ^ 63 -> exists l, ashows (h_st h) ext M (v :: vis) m i k l).
      { induction k as [|k IHk]; intros i Hi Hb; [eexists; apply AS_nil|]. destruct (IHk (i + 1)) as [l Hl]; [lia|lia|].
        destruct (idx_name_spec i ltac:(lia)) as (d & _ & Nu). destruct (lookup m d) as [w|] eqn:Lk.
        - destruct (Hj o m d w Em (lookup_In m d w Lk)) as [_ Jw].
          destruct (skipped_dec w (jvalue_u64 w Jw)) as [Sk|Sk]; [eexists; eapply AS_hole; eauto|].
          destruct (REC w Jw) as [t T]. eexists. eapply AS_show; eauto.
        - eexists. eapply AS_hole; eauto. }
      destruct (AS (Z.to_nat L) 0) as [l Hl]; [lia|destruct L2 as [->|(? & ? & _ & _ & ?)]; lia|].
      eexists. eapply S_arr; try eassumption. repeat split; assumption.
Qed.
Lemma okvis_nil : okvis M []. Proof. split; constructor. Qed.
Lemma text_exists v : J v -> exists t, shows (h_st h) ext M [] v t.
Proof. intros Jv. apply (shows_total (S (2 * length (h_objs h)))); [apply okvis_nil|cbn [length]; lia|assumption]. Qed.
End Total.

Section Out.
Context (h : heap) (ext : extmem) (M : store) (Hrep : hrep h ext M) (Hst : zlen (so (h_st h)) < 2 ^ 48).

(** The text has no NUL. *)
Definition clean (t : list Z) : Prop := Forall (fun c => c <> 0) t /\ bytes_ok t.
Lemma clean_app a b : clean a -> clean b -> clean (a ++ b).
Proof. intros [A1 A2] [B1 B2]. split; apply Forall_app; auto. Qed.
Lemma clean1 c : 0 < c < 256 -> clean [c].
Proof. intros H. split; constructor; auto; unfold is_byte; lia. Qed.
Lemma quote_clean s : bytes_ok s -> clean (quoted s).
Proof.
  intros Hb. unfold quoted. apply (clean_app [34]); [apply clean1; lia|]. apply clean_app; [|apply clean1; lia].
  induction Hb as [|c s Hc _ IH]; [split; constructor|]. cbn [quote_bytes]. apply clean_app; [|exact IH].
  assert (E : forallb (fun x => (0 <? x) && (x <? 256)) (quote_byte c) = true).
  { revert c Hc. apply forall_bytes. vm_compute. reflexivity. }
  rewrite forallb_forall in E. split; apply Forall_forall; intros x Hx; specialize (E x Hx); unfold is_byte; lia.
Qed.
Lemma commas_clean l : Forall clean l -> clean (commas l).
Proof.
  induction 1 as [|t l Ht _ IH]; [split; constructor|]. rewrite commas_cons. apply clean_app; [assumption|].
  destruct l; [split; constructor|]. apply (clean_app [44]); [apply clean1; lia|exact IH].
Qed.
Lemma shows_clean :
  (forall vis v t, shows (h_st h) ext M vis v t -> clean t) /\
  (forall vis m l, mshows (h_st h) ext M vis m l -> Forall (fun e => name_ok (fst e)) m -> Forall clean l) /\
  (forall vis m i n l, ashows (h_st h) ext M vis m i n l -> Forall clean l).
Proof.
  assert (LIT : forall t, forallb (fun c => (0 <? c) && (c <? 256)) t = true -> clean t).
  { intros t E. rewrite forallb_forall in E. split; apply Forall_forall; intros c Hc; specialize (E c Hc); unfold is_byte; lia. }
  apply shows_mut.
  - intros. split; constructor.
  - intros. apply LIT. reflexivity.
  - intros. apply LIT. reflexivity.
  - intros. apply LIT. reflexivity.
  - intros. apply LIT. reflexivity.
  - intros vis v t U K S. destruct (num_shows_len v t U S) as (_ & A & B). split; assumption.
  - intros vis v s _ Hb _. apply quote_clean. assumption.
  - intros vis v o m l R NI Mo _ IH. pose proof Hrep as (C & _ & A2 & _). destruct (A2 o m Mo) as (_ & _ & NM).
    apply (clean_app [123]); [apply clean1; lia|]. apply clean_app; [apply commas_clean; auto|apply clean1; lia].
  - intros vis v o m L l R NI Mo AL _ IH.
    apply (clean_app [91]); [apply clean1; lia|]. apply clean_app; [apply commas_clean; auto|apply clean1; lia].
  - constructor.
  - intros vis k w m l Sk _ IH NM. inversion NM; auto.
  - intros vis k w m t l NS Kl _ Ct _ IH NM. inversion NM as [|? ? (NB & NN & _) NM2]; subst. constructor; [|auto].
    apply (clean_app [34]); [apply clean1; lia|]. apply clean_app; [split; assumption|]. apply (clean_app [34; 58]); [apply LIT; reflexivity|assumption].
  - constructor.
  - intros. constructor; [apply LIT; reflexivity|assumption].
  - intros. constructor; assumption.
Qed.

Lemma stringify_text junk v t : (forall n, 0 <= n -> zlen (junk n) = n) -> shows (h_st h) ext M [] v t -> zlen t + 1 < 2 ^ 31 ->
  json_stringify h ext junk [] v = OK (t ++ [0], []).
Proof.
  intros Hj S L. destruct (to_json_text h ext M Hrep Hst) as (T & _ & _). pose proof (zlen_nonneg t) as Zt.
  assert (D : deep h M [] (json_fuel h)) by (split; [apply okvis_nil|unfold json_fuel; cbn [length]; lia]).
  unfold json_stringify. cbn [stringify_into].
  destruct (T [] v t S (json_fuel h) [] 0 D ltac:(lia) ltac:(vm_compute; reflexivity)) as (B1 & E1 & W1).
  cbn [rev] in E1. rewrite E1. cbn [bind]. pose proof (wrote_len _ _ _ _ W1) as WL. change (zlen []) with 0 in WL.
  replace (zlen t >=? zlen B1) with true by lia.
  assert (JL : zlen (junk (zlen t + 1)) = zlen t + 1) by (apply Hj; lia).
  destruct (T [] v t S (json_fuel h) (junk (zlen t + 1)) 0 D ltac:(lia) ltac:(lia)) as (B2 & E2 & W2).
  cbn [rev] in E2. rewrite E2. cbn [bind]. pose proof (wrote_len _ _ _ _ W2) as WL2.
  replace (zlen t >=? zlen B2) with false by lia. destruct W2 as (_ & _ & W2). destruct W2 as [r Er]; [lia|].
  cbn [Z.to_nat firstn app] in Er. subst B2. rewrite zlen_app in WL2.
  assert (r = []) as -> by (destruct r as [|c r]; [reflexivity|unfold zlen in *; cbn [length] in *; lia]). reflexivity.
Qed.
(** The first pass terminates whatever the length. *)
Lemma to_json_terminates v t : shows (h_st h) ext M [] v t ->
  to_json (json_fuel h) h ext [] 0 [] v = OK ([], zlen t, [], E_OK).
Proof.
  intros S. destruct (to_json_text h ext M Hrep Hst) as (T & _ & _).
  assert (D : deep h M [] (json_fuel h)) by (split; [apply okvis_nil|unfold json_fuel; cbn [length]; lia]).
  destruct (T [] v t S (json_fuel h) [] 0 D ltac:(lia) ltac:(vm_compute; reflexivity)) as (B1 & E1 & W1).
  pose proof (wrote_len _ _ _ _ W1) as WL. change (zlen []) with 0 in WL. destruct B1 as [|c B1]; [exact E1|].
  unfold zlen in WL. cbn [length] in WL. lia.
Qed.
Lemma shows_unique v t t' : shows (h_st h) ext M [] v t -> shows (h_st h) ext M [] v t' -> zlen t + 1 < 2 ^ 31 -> t = t'.
Proof.
  intros A B L. pose proof (to_json_terminates v t A) as E1. pose proof (to_json_terminates v t' B) as E2.
  assert (L' : zlen t' = zlen t) by congruence.
  pose proof (zlen_nonneg t) as Zt.
  assert (Hj : forall n, 0 <= n -> zlen (repeat 0 (Z.to_nat n)) = n) by (intros n Hn; unfold zlen; rewrite repeat_length; lia).
  pose proof (stringify_text _ v t Hj A L) as S1. pose proof (stringify_text _ v t' Hj B ltac:(lia)) as S2.
  rewrite S1 in S2. injection S2 as Q. apply app_inj_tail in Q. tauto.
Qed.
Lemma op_stringify_text junk v t rest : (forall n, 0 <= n -> zlen (junk n) = n) -> shows (h_st h) ext M [] v t -> zlen t + 1 < 2 ^ 31 ->
  small h (zlen t + 20) ->
  exists st r, op_json_stringify h ext junk [] (v :: rest) = OK (with_st h st, [], r, false) /\ holds st ext r t /\ grows (h_st h) st /\
    hrep (with_st h st) ext M /\ zlen (so st) <= zlen (so (h_st h)) + zlen t + 12.
Proof.
  intros Hj S L Sm. unfold op_json_stringify. rewrite (stringify_text junk v t Hj S L). cbn [bind].
  destruct (proj1 shows_clean _ _ _ S) as [C1 C2].
  assert (MC : mk_cstring (h_st h) (t ++ [0]) = mk_string (h_st h) t).
  { unfold mk_cstring. f_equal. clear - C1. induction C1 as [|c t Hc _ IH]; [reflexivity|].
    cbn [app]. cbn [until_nul]. replace (c =? 0) with false by lia. rewrite IH. reflexivity. }
  rewrite MC. destruct (mk_string_holds (h_st h) ext t C2) as (st' & r & Mk & Hh & _); [assumption|lia|].
  rewrite Mk. cbn [bind]. pose proof (mk_string_grows _ _ _ _ Mk) as G. exists st', r. split; [reflexivity|]. split; [assumption|]. split; [assumption|].
  split; [apply hrep_grows; assumption|]. destruct (mk_string_room _ _ _ _ Mk ltac:(lia)). lia.
Qed.
End Out.
