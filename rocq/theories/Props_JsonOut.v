(** C40, C65, C66: the text of numbers and JSON.stringify. *)
From Verif Require Import Base BaseFacts Value_Model Value_Spec Value_Proofs Str_Model Str_Spec Str_Proofs Txt_Model Num_Model SUtil_Model SUtil_Spec
  Conv_Model Obj_Model Obj_Spec Obj_Proofs Obj_Proofs2 Arr_Model Arr_Spec NumText_Spec NumText_Proofs
  Json_Model Json_Spec JsonOut_Spec Json_Proofs6 Json_Proofs7 Props_Json.

(** C65: a number that can be printed has exactly one text, and converting the number to a string gives it.
    Integers below 2^63 are exact, other numbers are the nearest multiple of 1/1000000. *)
Theorem number_to_text : forall st ext v, is_u64 v -> kind_of v = KNumber -> printable v ->
  exists t, num_shows v t /\ (forall t', num_shows v t' -> t' = t) /\ to_string st ext v = OK (Some t).
Proof.
  intros st ext v U K P. destruct (num_shows_total v U P) as (t & S). exists t. split; [exact S|].
  split; [intros t' S'; apply (num_shows_unique v); assumption|].
  destruct (preds_kind v U) as (P3 & _ & _ & _ & P4 & _). unfold to_string. rewrite P4, P3, K. cbn [kind_eqb].
  rewrite (num_text_shows v t U S). cbn [bind]. do 2 f_equal. apply firstn_all2.
  destruct (num_shows_len v t U S) as (L & _). unfold zlen in L. lia.
Qed.
Print Assumptions number_to_text.
(** 2.5 is printed 2.500000 and -3 is printed -3. *)
Example number_to_text_example :
  num_shows 4612811918334230528 (bs "2.500000") /\ printable 4612811918334230528 /\
  num_shows 13837309855095848960 (bs "-3") /\ printable 13837309855095848960 /\
  kind_of 4612811918334230528 = KNumber /\ kind_of 13837309855095848960 = KNumber.
Proof.
  assert (D1 : d_dec 4612811918334230528 = S754_finite false 5629499534213120 (-51)) by (vm_compute; reflexivity).
  assert (D2 : d_dec 13837309855095848960 = S754_finite true 6755399441055744 (-51)) by (vm_compute; reflexivity).
  split; [|split; [|split; [|split; [|split]]]].
  - apply (NS_frac _ false 5629499534213120 (-51) 2500000 [50] [53; 48; 48; 48; 48; 48]); [exact D1|lia|vm_compute; discriminate| | |].
    + split; vm_compute; [discriminate|reflexivity].
    + split; [discriminate|]. split; [repeat constructor; unfold is_digit_in; cbn; lia|]. split; [reflexivity|cbn; congruence].
    + split; [reflexivity|]. split; [repeat constructor; unfold is_digit_in; cbn; lia|reflexivity].
  - split; [rewrite D1; discriminate|]. intros n W. apply whole_trunc in W. revert W. unfold d_trunc. rewrite D1.
    intros Q. injection Q as <-. vm_compute. split; [discriminate|reflexivity].
  - apply (NS_whole _ (-3)); [|lia|].
    + apply (W_down _ true 6755399441055744 (-51) 3); [exact D2|lia|reflexivity].
    + exists [51]. split; [|reflexivity]. split; [discriminate|]. split; [repeat constructor; unfold is_digit_in; cbn; lia|]. split; [reflexivity|cbn; congruence].
  - split; [rewrite D2; discriminate|]. intros n W. apply whole_trunc in W. revert W. unfold d_trunc. rewrite D2.
    intros Q. injection Q as <-. vm_compute. split; [discriminate|reflexivity].
  - reflexivity.
  - reflexivity.
Qed.
(** Every other number makes the conversion undefined: an infinity, or an integer outside int64. *)
Theorem other_numbers_undefined : forall st ext v, is_u64 v -> kind_of v = KNumber -> ~ printable v -> to_string st ext v = UB.
Proof.
  intros st ext v U K P. destruct (preds_kind v U) as (P3 & _ & _ & _ & P4 & _). unfold to_string. rewrite P4, P3, K. cbn [kind_eqb].
  rewrite (num_text_ub v U P). reflexivity.
Qed.
Print Assumptions other_numbers_undefined.
Example other_numbers_example : ~ printable (2047 * 2 ^ 52) /\ kind_of (2047 * 2 ^ 52) = KNumber.
Proof. split; [|reflexivity]. intros [P _]. apply (P false). vm_compute. reflexivity. Qed.
(** So not every number has a text; *)
Theorem every_number_prints_refuted : exists v, is_u64 v /\ kind_of v = KNumber /\ to_string strs_init jext v = UB.
Proof. exists (2047 * 2 ^ 52). split; [vm_compute; split; [discriminate|reflexivity]|]. split; vm_compute; reflexivity. Qed.
Print Assumptions every_number_prints_refuted.
(** different numbers may have the same text, even in all 6 decimals; *)
Theorem number_text_injective_refuted : exists v w t, v <> w /\ kind_of v = KNumber /\ kind_of w = KNumber /\
  to_string strs_init jext v = OK (Some t) /\ to_string strs_init jext w = OK (Some t).
Proof.
  (* 0.1 and the next double *)
  exists 4591870180066957722, 4591870180066957723, (bs "0.100000"). split; [discriminate|]. split; [reflexivity|]. split; [reflexivity|].
  split; vm_compute; reflexivity.
Qed.
Print Assumptions number_text_injective_refuted.
(** and the text of the number that is not a number starts with a sign. *)
Theorem nan_text_refuted : exists v, is_number v = true /\ d_isnan v = true /\ to_string strs_init jext v = OK (Some (bs "-nan")).
Proof. exists TAG_NAN. split; [reflexivity|]. split; [reflexivity|]. vm_compute. reflexivity. Qed.
Print Assumptions nan_text_refuted.

(** C40: serialising terminates whatever refers to whatever: every value over a store of such values has
    a text, and computing it visits no more than the objects there are (the fuel of [to_json]). *)
Theorem serialising_terminates : forall h ext M v,
  hrep h ext M -> zlen (so (h_st h)) < 2 ^ 48 -> jstore (h_st h) ext M -> jvalue (h_st h) ext M v ->
  exists t, shows (h_st h) ext M [] v t /\ to_json (json_fuel h) h ext [] 0 [] v = OK ([], zlen t, [], E_OK).
Proof.
  intros h ext M v H S J V. destruct (text_exists h ext M H J v V) as (t & T). exists t. split; [exact T|].
  apply (to_json_terminates h ext M H S v t T).
Qed.
Print Assumptions serialising_terminates.
(** C66: JSON.stringify gives a string holding that text, changes no object, and leaves the stack of visited
    values empty. *)
Theorem stringify_gives_the_text : forall h ext M junk v t rest,
  hrep h ext M -> zlen (so (h_st h)) < 2 ^ 48 -> (forall n, 0 <= n -> zlen (junk n) = n) ->
  shows (h_st h) ext M [] v t -> zlen t + 1 < 2 ^ 31 -> small h (zlen t + 20) ->
  exists st r, op_json_stringify h ext junk [] (v :: rest) = OK (with_st h st, [], r, false) /\ holds st ext r t /\
    grows (h_st h) st /\ hrep (with_st h st) ext M.
Proof.
  intros h ext M junk v t rest H S Hj T L Sm. destruct (op_stringify_text h ext M H S junk v t rest Hj T L Sm) as (st & r & A & B & C & D & _).
  exists st, r. auto.
Qed.
Print Assumptions stringify_gives_the_text.
(** The text is determined by the value. *)
Theorem text_determined : forall h ext M v t t', hrep h ext M -> zlen (so (h_st h)) < 2 ^ 48 ->
  shows (h_st h) ext M [] v t -> shows (h_st h) ext M [] v t' -> zlen t + 1 < 2 ^ 31 -> t = t'.
Proof. intros h ext M v t t' H S A B L. apply (shows_unique h ext M H S v t t' A B L). Qed.
Print Assumptions text_determined.

(** Example: [let o = {}; o.self = o; o.n = [null];] *)
Definition getr {A} (d : A) (r : R A) : A := match r with OK a => a | _ => d end.
Definition jh0 := fst (getr (heap_init, 0) (mk_object heap_init)).
Definition jo := snd (getr (heap_init, 0) (mk_object heap_init)).
Definition nm_self := [115; 101; 108; 102].
Definition jh1 := fst (getr (heap_init, 0) (obj_set jh0 jext jo nm_self jo)).
Definition jh2 := fst (getr (heap_init, 0) (obj_set jh1 jext jo [110] (mk_boolean true))).
Definition jM : store := supd (supd (supd sempty 4096 []) 4096 (mput [] nm_self jo)) 4096 (mput (mput [] nm_self jo) [110] (mk_boolean true)).
Example serialising_example :
  hrep jh2 jext jM /\ zlen (so (h_st jh2)) < 2 ^ 48 /\ jstore (h_st jh2) jext jM /\ jvalue (h_st jh2) jext jM jo /\
  shows (h_st jh2) jext jM [] jo (bs "{""n"":true,""self"":[Circular]}") /\ small jh2 64.
Proof.
  destruct (mk_object_spec heap_init jext sempty (hrep_init jext)) as (h1 & v & E & Rv & Tv & _ & H1 & _).
  { unfold small. vm_compute. repeat split; discriminate || reflexivity. }
  assert (E1 : mk_object heap_init = OK (jh0, jo)) by (vm_compute; reflexivity).
  rewrite E1 in E. injection E as <- <-. change (h_next heap_init) with 4096 in *.
  destruct (set_prop_spec jh0 jext _ jo 4096 [] None nm_self jo H1 (supd_same _ _ _) Rv) as (h2 & E2 & H2 & _).
  { split; repeat constructor; unfold is_byte; try lia; cbn; intuition discriminate. }
  { unfold small. vm_compute. repeat split; discriminate || reflexivity. }
  { discriminate. }
  assert (E2' : set_prop jh0 jext jo None nm_self jo = OK (jh1, E_OK)) by (vm_compute; reflexivity).
  rewrite E2' in E2. injection E2 as <-.
  destruct (set_prop_spec jh1 jext _ jo 4096 _ None [110] (mk_boolean true) H2 (supd_same _ _ _) Rv) as (h3 & E3 & H3 & _).
  { split; repeat constructor; unfold is_byte; try lia; cbn; intuition discriminate. }
  { unfold small. vm_compute. repeat split; discriminate || reflexivity. }
  { discriminate. }
  assert (E3' : set_prop jh1 jext jo None [110] (mk_boolean true) = OK (jh2, E_OK)) by (vm_compute; reflexivity).
  rewrite E3' in E3. injection E3 as <-.
  assert (HM : jM 4096 = Some [([110], mk_boolean true); (nm_self, jo)]) by reflexivity.
  assert (HMo : forall o m, jM o = Some m -> m = [([110], mk_boolean true); (nm_self, jo)]).
  { intros o m. unfold jM, supd. destruct (o =? 4096); [intros Q; injection Q as <-; reflexivity|discriminate]. }
  assert (Ro : is_obj_ref jo 4096) by (split; [lia|vm_compute; reflexivity]).
  assert (Jo : jvalue (h_st jh2) jext jM jo).
  { do 6 right. exists 4096. split; [left; exact Ro|rewrite HM; discriminate]. }
  split; [exact H3|]. split; [vm_compute; reflexivity|]. split.
  { intros o m k w Q I. apply HMo in Q. subst m. destruct I as [I|[I|[]]]; injection I as <- <-.
    - split; [vm_compute; reflexivity|]. right. right. left. reflexivity.
    - split; [vm_compute; reflexivity|exact Jo]. }
  split; [exact Jo|]. split; [|unfold small; vm_compute; repeat split; discriminate || reflexivity].
  assert (NS : ~ skipped (mk_boolean true)) by (intros (_ & [Q|[Q|Q]]); vm_compute in Q; discriminate).
  assert (NO : ~ skipped jo) by (intros (_ & [Q|[Q|Q]]); vm_compute in Q; discriminate).
  refine (S_obj _ _ _ [] jo 4096 _ _ Ro _ HM (MS_show _ _ _ _ [110] _ _ _ _ NS _ (S_true _ _ _ _)
    (MS_show _ _ _ _ nm_self _ _ _ _ NO _ (S_circular _ _ _ _ _ _ _) (MS_nil _ _ _ _)))).
  - intros [].
  - vm_compute. reflexivity.
  - vm_compute. reflexivity.
  - left. reflexivity.
  - exists 4096. left. exact Ro.
Qed.

(** Names are written as they are, so the text need not be JSON: *)
Definition jq := fst (getr (heap_init, 0) (obj_set jh0 jext jo [97; 34; 98] (mk_boolean true))).
Definition jq' := getr (heap_init, [], 0, true) (op_json_stringify jq jext (fun n => repeat 0 (Z.to_nat n)) [] [jo]).
Theorem names_quoted_refuted : exists h v h' r,
  op_json_stringify h jext (fun n => repeat 0 (Z.to_nat n)) [] [v] = OK (h', [], r, false) /\
  str_bytes (h_st h') jext r = OK (bs "{""a""b"":true}").
Proof. exists jq, jo, (fst (fst (fst jq'))), (snd (fst jq')). split; vm_compute; reflexivity. Qed.
Print Assumptions names_quoted_refuted.
(** A number without a text makes the whole call undefined: *)
Definition jinf := fst (getr (heap_init, 0) (obj_set jh0 jext jo [97] (2047 * 2 ^ 52))).
Theorem infinite_member_refuted : exists h v junk, op_json_stringify h jext junk [] [v] = UB.
Proof. exists jinf, jo, (fun n => repeat 0 (Z.to_nat n)). vm_compute. reflexivity. Qed.
Print Assumptions infinite_member_refuted.
