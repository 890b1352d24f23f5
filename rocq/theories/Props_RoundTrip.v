(** C67: JSON.parse after JSON.stringify. *)
From Verif Require Import Base BaseFacts Value_Model Value_Spec Value_Proofs Str_Model Str_Spec Str_Proofs Txt_Model SUtil_Spec
  Obj_Model Obj_Spec Obj_Proofs Obj_Proofs2 Arr_Model Arr_Spec Arr_Proofs NumText_Spec
  Json_Model Json_Spec JsonOut_Spec RoundTrip_Spec Json_Proofs6 Json_Proofs7 Json_Proofs8 Json_Proofs9 Props_Json Props_JsonOut.
Local Ltac Zify.zify_post_hook ::= idtac.

Lemma fits_obj n l : fits n (TObj l) <->
  Forall (fun kx => fst kx <> [] /\ last (fst kx) 0 <> 46 /\ n + zlen (fst kx) + 1 <= 255 /\ fits (n + zlen (fst kx) + 1) (snd kx)) l.
Proof.
  induction l as [|[k x] l IH]; [split; [constructor|exact (fun _ => I)]|]. split.
  - intros [A B]. constructor; [exact A|]. apply IH. exact B.
  - intros H. inversion H; subst. split; [assumption|]. apply IH. assumption.
Qed.
Lemma fits_mirror t : forall n, fits n t -> fits n (mirror t).
Proof.
  induction t as [|b|d|s|l IH|l IH] using jt_induct; intros n H; try exact H.
  - cbn [mirror]. cbn [fits] in *. revert H. generalize 0. induction IH as [|x l Hx _ IHl]; intros i H; [exact I|]. cbn [map].
    destruct H as [(d & N & B & F) H]. split; [exists d; auto|]. apply IHl. exact H.
  - apply fits_obj in H. cbn [mirror]. apply fits_obj. apply Forall_rev. rewrite Forall_forall in *. intros kx I. apply in_map_iff in I as ([k x] & <- & I).
    destruct (H _ I) as (A & B & C & D). cbn [fst snd] in *. repeat split; auto. apply (IH _ I). exact D.
Qed.
Lemma echo_mirror t : echo t -> echo (mirror t).
Proof.
  assert (FA : forall l, Forall echo l -> fold_right (fun x P => echo x /\ P) True l) by (induction 1; cbn [fold_right]; auto).
  assert (FO : forall l, Forall good_member l -> fold_right (fun kx P => (plain (fst kx) /\ zlen (fst kx) + 3 < 2 ^ 31 /\ echo (snd kx)) /\ P) True l)
    by (induction 1; cbn [fold_right]; auto).
  induction t as [|b|d|s|l IH|l IH] using jt_induct; intros H; try exact H.
  - apply echo_arr in H. destruct H as [L F]. cbn [mirror echo]. split; [unfold zlen; rewrite map_length; exact L|]. apply FA.
    rewrite Forall_forall in *. intros x I. apply in_map_iff in I as (y & <- & I). auto.
  - apply echo_obj in H. destruct H as [N F]. cbn [mirror echo]. split.
    + rewrite map_rev, map_map. cbn [fst]. apply NoDup_rev. exact N.
    + apply FO. apply Forall_rev. rewrite Forall_forall in *. intros kx I. apply in_map_iff in I as ([k x] & <- & I).
      destruct (F _ I) as (A & B & C). cbn [fst snd] in *. repeat split; auto. apply (IH _ I). exact C.
Qed.
Lemma mirror_mirror t : mirror (mirror t) = t.
Proof.
  induction t as [|b|d|s|l IH|l IH] using jt_induct; try reflexivity; cbn [mirror]; f_equal.
  - induction IH as [|x l Hx _ IHl]; [reflexivity|]. cbn [map]. rewrite Hx, IHl. reflexivity.
  - rewrite <- map_rev, rev_involutive, map_map. induction IH as [|[k x] l Hx _ IHl]; [reflexivity|]. cbn [map fst snd] in *. rewrite Hx, IHl. reflexivity.
Qed.

(** The text of a value is a document for the tree the value represents, members in the opposite order. *)
Theorem text_is_a_document : forall h ext M v t, hrep h ext M -> repr (h_st h) ext M v t -> echo t ->
  exists x, shows (h_st h) ext M [] v x /\ denotes (mirror t) x.
Proof.
  intros h ext M v t H R E. apply (trip (h_st h) ext M (fun o m Q => hrep_nodup h ext M o m H Q) t [] v E R). intros w [].
Qed.
Print Assumptions text_is_a_document.

(** Parsing what stringify made of a value gives a new value with the same tree, up to the order of members.
    Existing objects stay as they are. *)
Theorem stringify_then_parse : forall h ext M junk v t x,
  hrep h ext M -> (forall n, 0 <= n -> zlen (junk n) = n) -> repr (h_st h) ext M v t ->
  echo t -> fits 0 t -> (forall d, t <> TNum d) ->
  shows (h_st h) ext M [] v x -> zlen x + 1 < 2 ^ 31 -> small h (301 * zlen x + 20) ->
  exists h1 r h2 M' v',
    op_json_stringify h ext junk [] [v] = OK (h1, [], r, false) /\ op_json_parse h1 ext r = OK (h2, v', false) /\
    hrep h2 ext M' /\ (forall o m, M o = Some m -> M' o = Some m) /\ grows (h_st h) (h_st h2) /\ repr (h_st h2) ext M' v' (mirror t).
Proof.
  intros h ext M junk v t x H Hj R E F Nn S L Sm. pose proof (zlen_nonneg x) as Z0.
  assert (Hst : zlen (so (h_st h)) < 2 ^ 48) by (destruct Sm as (_ & _ & Sm); lia).
  destruct (text_is_a_document h ext M v t H R E) as (x' & S' & D).
  assert (x' = x) as -> by (symmetry; apply (text_determined h ext M v x x' H Hst S S' L)).
  destruct (op_stringify_text h ext M H Hst junk v x [] Hj S L) as (st & r & E1 & Hr & G & H1 & Rm).
  { destruct Sm as (A & B & C). repeat split; lia. }
  assert (Stp : stops (mirror t) []) by (destruct t; cbn [mirror stops]; try exact I; exfalso; eapply Nn; reflexivity).
  destruct (json_parse_builtin (with_st h st) ext M r [] x [] (mirror t)) as (h2 & M' & v' & E2 & H2 & K & G2 & R2);
    [assumption|cbn [app]; rewrite app_nil_r; assumption|constructor|assumption|apply fits_mirror; assumption|assumption|cbn [app]; rewrite app_nil_r; lia| |].
  { destruct Sm as (A & B & C). unfold small. cbn [with_st h_next h_st]. repeat split; lia. }
  exists (with_st h st), r, h2, M', v'. split; [exact E1|]. split; [exact E2|]. split; [exact H2|]. split; [exact K|]. split; [|exact R2].
  eapply grows_trans; [exact G|exact G2].
Qed.
Print Assumptions stringify_then_parse.
(** Doing it again restores the order: the conditions still hold, and mirroring twice changes nothing. *)
Theorem second_trip : forall t, echo t -> fits 0 t -> echo (mirror t) /\ fits 0 (mirror t) /\ mirror (mirror t) = t.
Proof. intros t E F. split; [apply echo_mirror; assumption|]. split; [apply fits_mirror; assumption|apply mirror_mirror]. Qed.
Print Assumptions second_trip.
(** A value has one such tree only. *)
Theorem tree_determined : forall h ext M v t t', hrep h ext M -> echo t -> echo t' ->
  repr (h_st h) ext M v t -> repr (h_st h) ext M v t' -> t = t'.
Proof. intros h ext M v t t' H E E' R R'. apply (repr_unique (h_st h) ext M t v t' E E' R R'). Qed.
Print Assumptions tree_determined.

(** Example: the value JSON.parse makes of [ex_doc] (see Props_Json). *)
Definition rt_res := getr (heap_init, None, true) (json_parse heap_init jext (ex_doc ++ [32])).
Definition rt_h := fst (fst rt_res).
Definition rt_v := match snd (fst rt_res) with Some v => v | None => 0 end.
Definition rt_text := bs "{""b"":{},""a"":[1,-25,""x\n""]}".
Lemma rt_echo : echo ex_tree.
Proof.
  assert (S1 : six_decimals (Num_Model.scale10 1 0)).
  { right. exists false, 4503599627370496%positive, (-52). split; [vm_compute; split; [discriminate|reflexivity]|]. split; [vm_compute; reflexivity|].
    right. split; [lia|vm_compute; reflexivity]. }
  assert (S2 : six_decimals (Num_Model.scale10 25 0 + 2 ^ 63)).
  { right. exists true, 7036874417766400%positive, (-48). split; [vm_compute; split; [discriminate|reflexivity]|]. split; [vm_compute; reflexivity|].
    right. split; [lia|vm_compute; reflexivity]. }
  assert (PA : forall c, 97 <= c <= 98 -> plain [c]).
  { intros c Hc. apply (P_cons [c] []); [|constructor]. split; [constructor; lia|]. split; [intros Q; injection Q; lia|].
    split; [intros Q; injection Q; lia|]. intros a Q. injection Q as <-. lia. }
  unfold ex_tree. cbn [echo fold_right map fst snd]. split.
  - constructor; [intros [Q|[]]; discriminate Q|]. constructor; [intros []|constructor].
  - split; [|split; [|exact I]]; (split; [(apply (PA 97); lia) || (apply (PA 98); lia)|]); (split; [vm_compute; reflexivity|]).
    + split; [vm_compute; reflexivity|]. split; [exact S1|]. split; [exact S2|]. split; [|exact I]. split; [|split; [|vm_compute; reflexivity]].
      * apply (U_cons [120]); [constructor; lia|]. apply (U_cons [10] []); [constructor; lia|constructor].
      * intros [Q|[Q|[]]]; discriminate Q.
    + split; [constructor|exact I].
Qed.
Example round_trip_example : exists M,
  hrep rt_h jext M /\ repr (h_st rt_h) jext M rt_v ex_tree /\ echo ex_tree /\ fits 0 ex_tree /\ (forall d, ex_tree <> TNum d) /\
  shows (h_st rt_h) jext M [] rt_v rt_text /\ zlen rt_text + 1 < 2 ^ 31 /\ small rt_h (301 * zlen rt_text + 20).
Proof.
  destruct documents_example as (D & F & St & H & Sm & L).
  destruct (documents_are_parsed heap_init jext sempty [] ex_doc [32] ex_tree H ws_nil D F) as (h' & M' & v & E & H' & _ & _ & R);
    [exact I|vm_compute; reflexivity|exact Sm|].
  assert (E' : json_parse heap_init jext ([] ++ ex_doc ++ [32]) = OK (rt_h, Some rt_v, false)) by (vm_compute; reflexivity).
  rewrite E' in E. assert (h' = rt_h) as -> by congruence. assert (v = rt_v) as -> by congruence. exists M'.
  split; [exact H'|]. split; [exact R|]. split; [exact rt_echo|]. split; [exact F|]. split; [discriminate|].
  split; [|split; [vm_compute; reflexivity|unfold small; vm_compute; repeat split; discriminate || reflexivity]].
  destruct (text_is_a_document rt_h jext M' rt_v ex_tree H' R rt_echo) as (x & S & _).
  assert (T : zlen x = zlen rt_text).
  { pose proof (to_json_terminates rt_h jext M' H' ltac:(vm_compute; reflexivity) rt_v x S) as T.
    assert (T' : to_json (json_fuel rt_h) rt_h jext [] 0 [] rt_v = OK ([], zlen rt_text, [], E_OK)) by (vm_compute; reflexivity).
    congruence. }
  pose proof (stringify_text rt_h jext M' H' ltac:(vm_compute; reflexivity) (fun n => repeat 0 (Z.to_nat n)) rt_v x) as Q.
  assert (Q' : json_stringify rt_h jext (fun n => repeat 0 (Z.to_nat n)) [] rt_v = OK (rt_text ++ [0], [])) by (vm_compute; reflexivity).
  rewrite Q' in Q. assert (x = rt_text) as ->; [|exact S].
  assert (B : OK (rt_text ++ [0], @nil Z) = OK (x ++ [0], [])).
  { apply Q; [|exact S|rewrite T; vm_compute; reflexivity]. intros n Hn. unfold zlen. rewrite repeat_length. lia. }
  injection B as B. change (rt_text ++ [0] = x ++ [0]) in B. apply app_inj_tail in B. destruct B as [B _]. symmetry. exact B.
Qed.

(** Outside these trees the trip fails: minus zero loses its sign and 0.0000001 becomes zero; *)
Definition rt_arr (d : Z) : heap * Z :=
  let '(h, a) := getr (heap_init, 0) (mk_array heap_init) in (fst (getr (heap_init, 0) (array_push h jext a d)), a).
Definition rt_trip (d : Z) : R Z :=
  let '(h, a) := rt_arr d in
  '(h, _, r, _) <- op_json_stringify h jext (fun n => repeat 0 (Z.to_nat n)) [] [a] ;;
  '(h, b, _) <- op_json_parse h jext r ;; array_get h jext b 0.
Theorem every_number_survives_refuted : exists d d', d <> 0 /\ d' <> 0 /\ kind_of d = KNumber /\ kind_of d' = KNumber /\
  rt_trip d = OK 0 /\ rt_trip d' = OK 0.
Proof. exists (2 ^ 63), 4502148214488346440. repeat (split; [discriminate || reflexivity|]). split; vm_compute; reflexivity. Qed.
Print Assumptions every_number_survives_refuted.
(** a value that contains itself is written as a text that is no document. *)
Theorem every_text_parses_refuted : exists h v h' r h2,
  op_json_stringify h jext (fun n => repeat 0 (Z.to_nat n)) [] [v] = OK (h', [], r, false) /\
  op_json_parse h' jext r = OK (h2, V_UNDEFINED, true).
Proof.
  set (x := getr (heap_init, [], 0, true) (op_json_stringify jh1 jext (fun n => repeat 0 (Z.to_nat n)) [] [jo])).
  exists jh1, jo, (fst (fst (fst x))), (snd (fst x)), (fst (fst (getr (heap_init, 0, true) (op_json_parse (fst (fst (fst x))) jext (snd (fst x)))))).
  split; vm_compute; reflexivity.
Qed.
Print Assumptions every_text_parses_refuted.
