(** Properties C15-C18: objects, enumeration, prototypes. *)
From Verif Require Import Base BaseFacts Value_Model Value_Spec Str_Model Str_Spec Str_Proofs Str_Proofs2 SUtil_Model Conv_Model
  Obj_Model Obj_Spec Obj_Proofs Obj_Proofs2.

(** C15. Any history of creating objects and getting, setting, deleting and enumerating
    properties returns exactly what a list of insertion-ordered maps returns. *)
Theorem objects_are_finite_maps : forall ext ops,
  ops_ok 0 ops -> ops_cost ops < 2 ^ 46 ->
  impl_run heap_init ext [] ops = OK (spec_run [] ops).
Proof. exact history_spec. Qed.
Print Assumptions objects_are_finite_maps.

Definition ext0 : extmem := fun _ => 0.
Definition nm_short := [97; 98; 99].
Definition nm_five := [97; 98; 99; 100; 101].
Definition nm_long := [97; 98; 99; 100; 101; 102; 103].
Definition ex_ops := [ONew; ONew; OSet 0 nm_short 1; OSet 0 nm_long 2; OSet 1 nm_five 3; OSet 0 nm_five 4;
  OSet 0 nm_short 5; OGet 0 nm_short; OKeys 0; ODel 0 nm_long; OGet 0 nm_long; ODel 0 nm_long;
  OGet 1 nm_five; OKeys 0; ODel 0 nm_five; ODel 0 nm_short; OKeys 0].
Example objects_are_finite_maps_ex :
  ops_ok 0 ex_ops /\ ops_cost ex_ops < 2 ^ 46 /\
  impl_run heap_init ext0 [] ex_ops = OK
   [RUnit; RUnit; RErr 0; RErr 0; RErr 0; RErr 0; RErr 0; RVal 5; RNames [nm_five; nm_long; nm_short];
    RErr 0; RVal V_UNDEFINED; RErr (-1); RVal 3; RNames [nm_five; nm_short]; RErr 0; RErr 0; RNames []].
Proof.
  split; [|split; [vm_compute; reflexivity|vm_compute; reflexivity]].
  assert (N : forall n, forallb (fun c => (0 <? c) && (c <? 256)) n = true -> zlen n < 2 ^ 31 -> name_ok n).
  { intros n H1 H2. rewrite forallb_forall in H1.
    split; [|split; [|assumption]]; apply Forall_forall; intros c Hc; apply H1 in Hc; unfold is_byte; lia. }
  cbn [ops_ok ex_ops].
  repeat (split; [try lia|]); try exact I; apply N; vm_compute; reflexivity.
Qed.

(** A single update in an arbitrary heap: the object gets the new binding, everything else
    is untouched. *)
Theorem set_updates_one_binding : forall h ext M v o m b val,
  hrep h ext M -> M o = Some m -> refers v o -> name_ok b -> small h (64 + zlen b) ->
  exists h', obj_set h ext v b val = OK (h', E_OK) /\ hrep h' ext (supd M o (mput m b val)).
Proof.
  intros h ext M v o m b val H1 H2 H3 H4 H5.
  destruct (set_prop_spec h ext M v o m None b val H1 H2 H3 H4 H5) as (h' & E & R & _); [discriminate|].
  exists h'. auto.
Qed.
Print Assumptions set_updates_one_binding.

(** The same with the name given as a string value made by the engine. *)
Theorem set_v_updates_one_binding : forall h ext M v o m kv b val,
  hrep h ext M -> M o = Some m -> refers v o -> name_ok b -> small h (64 + zlen b) ->
  name_of (h_st h) ext kv b ->
  exists h', obj_set_v h ext v kv val = OK (h', E_OK) /\ hrep h' ext (supd M o (mput m b val)).
Proof.
  intros h ext M v o m kv b val H1 H2 H3 H4 H5 H6. unfold obj_set_v.
  rewrite (to_string_holds _ _ _ _ (proj1 H6)). cbn [bind].
  destruct (set_prop_spec h ext M v o m (Some kv) b val H1 H2 H3 H4 H5) as (h' & E & R & _).
  - intros k Q _. injection Q as <-. assumption.
  - exists h'. auto.
Qed.
Print Assumptions set_v_updates_one_binding.

Theorem get_reads_binding : forall h ext M v o m b,
  hrep h ext M -> M o = Some m -> refers v o -> bytes_ok b -> zlen b < 2 ^ 31 -> zlen (so (h_st h)) < 2 ^ 48 ->
  obj_get h ext v b = OK (match lookup m b with Some x => x | None => V_UNDEFINED end).
Proof. exact obj_get_spec. Qed.
Print Assumptions get_reads_binding.

(** A heap with two objects, the first having two properties. *)
Definition R_get {A} (d : A) (r : R A) : A := match r with OK x => x | _ => d end.
Definition ex_heap1 : heap := fst (R_get (heap_init, 0) (mk_object heap_init)).
Definition ex_obj : Z := 65521 * 2 ^ 48 + 4096.
Definition ex_heap2 : heap := fst (R_get (heap_init, 0) (obj_set ex_heap1 ext0 ex_obj nm_long 7)).
Lemma nm_long_ok : name_ok nm_long.
Proof.
  split; [|split]; [repeat (apply Forall_cons; [unfold is_byte; lia|]); apply Forall_nil
                   |repeat (apply Forall_cons; [lia|]); apply Forall_nil|vm_compute; reflexivity].
Qed.
Example set_updates_one_binding_ex :
  exists M m, hrep ex_heap2 ext0 M /\ refers ex_obj 4096 /\ M 4096 = Some m /\ m = [(nm_long, 7)].
Proof.
  destruct (mk_object_spec heap_init ext0 sempty (hrep_init ext0)) as (h1 & v & E & Rv & _ & _ & H1 & _).
  { unfold small. vm_compute. repeat split; discriminate || reflexivity. }
  assert (E1 : mk_object heap_init = OK (ex_heap1, ex_obj)) by (vm_compute; reflexivity).
  rewrite E1 in E. injection E as <- <-. change (h_next heap_init) with 4096 in *.
  destruct (set_prop_spec ex_heap1 ext0 _ ex_obj 4096 [] None nm_long 7 H1 (supd_same _ _ _) Rv nm_long_ok) as (h2 & E2 & H2 & _).
  { unfold small. vm_compute. repeat split; discriminate || reflexivity. }
  { discriminate. }
  assert (E3 : obj_set ex_heap1 ext0 ex_obj nm_long 7 = OK (ex_heap2, E_OK)) by (vm_compute; reflexivity).
  unfold obj_set in E3. rewrite E3 in E2. injection E2 as <-.
  eexists. eexists. split; [exact H2|]. split; [exact Rv|]. split; [apply supd_same|reflexivity].
Qed.

(** C16. Names of six bytes or more that agree up to a NUL byte are one property. *)
Theorem nul_names_alias : forall ext p ra rb v,
  bytes_ok (p ++ 0 :: ra) -> bytes_ok (p ++ 0 :: rb) -> Forall (fun c => c <> 0) p -> length ra = length rb ->
  5 < zlen (p ++ 0 :: ra) < 2 ^ 31 ->
  impl_run heap_init ext [] [ONew; OSet 0 (p ++ 0 :: ra) v; OGet 0 (p ++ 0 :: rb)] = OK [RUnit; RErr 0; RVal v].
Proof.
  intros ext p ra rb v Ha Hb Hp Hl Hn.
  set (a := p ++ 0 :: ra) in *. set (b := p ++ 0 :: rb) in *.
  assert (Lab : zlen b = zlen a) by (unfold a, b, zlen; rewrite !app_length; cbn [length]; lia).
  assert (SC : strncmp a b = 0).
  { unfold a, b. clear -Hp. induction p as [|c p IH]; [reflexivity|]. cbn [app strncmp]. rewrite Z.eqb_refl.
    pose proof (Forall_inv Hp) as Hc. cbn beta in Hc. replace (c =? 0) with false by lia. apply IH. apply (Forall_inv_tail Hp). }
  cbn [impl_run]. unfold impl_op at 1.
  assert (E1 : mk_object heap_init = OK (ex_heap1, ex_obj)) by (vm_compute; reflexivity). rewrite E1. cbn [bind].
  assert (RO : refers ex_obj 4096) by (unfold refers, ex_obj; lia).
  destruct (refers_object ex_obj 4096 RO) as (I1 & I2 & _).
  unfold impl_op at 1. cbn [app nth]. unfold obj_set, set_prop, own_property. rewrite I1, I2. cbn [negb bind].
  change (obj_first ex_heap1 4096) with (OK 0). cbn [bind]. replace (zlen a <=? 5) with false by lia.
  cbn [pfuel]. change (pfuel ex_heap1) with O. cbn [walk]. change (0 =? 0) with true. cbv iota. cbn [bind].
  destruct (mk_string_holds (h_st ex_heap1) ext a Ha) as (st' & kv & Mk & Hh & _); [vm_compute; reflexivity|lia|].
  rewrite Mk. cbn [bind]. unfold new_property. cbn [h_next with_st]. change (h_next ex_heap1) with 4104.
  change (4104 + 32 >? 2 ^ 47) with false. cbv iota. cbn [bind].
  unfold obj_first. cbn [h_objs with_st]. change (aget (h_objs ex_heap1) 4096) with (Some 0). cbn [bind].
  unfold with_objs, with_props. cbn [h_st h_objs h_props h_next with_st aset]. rewrite Z.eqb_refl.
  change (h_objs ex_heap1) with [(4096, 0)]. change (h_props ex_heap1) with (@nil (Z * pcell)).
  cbn [aset]. change (4096 =? 4096) with true. cbv iota.
  change (4104 =? 4104) with true. cbv iota. cbn [bind]. unfold impl_op. cbn [app nth]. unfold obj_get, own_property. rewrite I1, I2. cbn [negb bind]. unfold obj_first. cbn [h_objs aget].
  change (4096 =? 4096) with true. cbv iota. cbn [bind]. replace (zlen b <=? 5) with false by lia.
  unfold pfuel. cbn [h_props length walk]. change (4104 =? 0) with false. cbv iota.
  unfold prop_at. cbn [h_props aget]. change (4104 =? 4104) with true. cbv iota. cbn [bind h_st pc_name].
  destruct Hh as (U & K & l & P1 & P2 & P3). unfold mjs_strcmp. rewrite P1. cbn [bind].
  replace (negb (zlen a =? zlen b)) with false by lia. rewrite P3. cbn [bind]. rewrite SC. reflexivity.
Qed.
Print Assumptions nul_names_alias.

Theorem names_are_distinct_refuted : exists a b v, a <> b /\ bytes_ok a /\ bytes_ok b /\
  impl_run heap_init ext0 [] [ONew; OSet 0 a v; OGet 0 b] = OK [RUnit; RErr 0; RVal v] /\
  spec_run [] [ONew; OSet 0 a v; OGet 0 b] = [RUnit; RErr 0; RVal V_UNDEFINED].
Proof.
  exists [97; 0; 1; 1; 1; 1], [97; 0; 2; 2; 2; 2], 7.
  split; [discriminate|]. split; [|split; [|split; vm_compute; reflexivity]];
    repeat (apply Forall_cons; [unfold is_byte; lia|]); apply Forall_nil.
Qed.
Print Assumptions names_are_distinct_refuted.
(** Deleting compares short names the same way, although getting and setting do not. *)
Theorem delete_short_nul_name_refuted : exists a b v, a <> b /\ zlen a <= 5 /\
  impl_run heap_init ext0 [] [ONew; OSet 0 a v; OGet 0 b; ODel 0 b; OGet 0 a]
    = OK [RUnit; RErr 0; RVal V_UNDEFINED; RErr 0; RVal V_UNDEFINED] /\ v <> V_UNDEFINED.
Proof.
  exists [97; 0; 1], [97; 0; 2], 7. split; [discriminate|]. split; [vm_compute; discriminate|].
  split; [vm_compute; reflexivity|vm_compute; discriminate].
Qed.
Print Assumptions delete_short_nul_name_refuted.
(** A short name given as a foreign string is stored but not found. *)
Theorem foreign_short_name_found_refuted : exists ext p h kv h' ,
  mk_string_foreign (h_st ex_heap1) p 3 = OK (h_st h, kv) /\ h = with_st ex_heap1 (h_st h) /\
  str_bytes (h_st h) ext kv = OK nm_short /\
  obj_set_v h ext ex_obj kv 7 = OK (h', E_OK) /\
  obj_get h' ext ex_obj nm_short = OK V_UNDEFINED /\
  obj_get_v h' ext ex_obj kv = OK V_UNDEFINED /\
  keys_loop 3 h' ext ex_obj V_UNDEFINED = OK [nm_short].
Proof.
  exists (fun a => if a =? 1000 then 97 else if a =? 1001 then 98 else if a =? 1002 then 99 else 0), 1000.
  set (s := match mk_string_foreign (h_st ex_heap1) 1000 3 with OK x => x | _ => (strs_init, 0) end).
  set (ext := fun a : Z => _).
  exists (with_st ex_heap1 (fst s)), (snd s).
  exists (fst (R_get (heap_init, 0) (obj_set_v (with_st ex_heap1 (fst s)) ext ex_obj (snd s) 7))).
  repeat split; vm_compute; reflexivity.
Qed.
Print Assumptions foreign_short_name_found_refuted.

(** C17. Enumeration visits every own property once, newest first, and stops. *)
Theorem enumeration_is_complete : forall h ext M v o m,
  hrep h ext M -> M o = Some m -> refers v o -> h_next h <= 2 ^ 48 ->
  keys_loop (S (pfuel h)) h ext v V_UNDEFINED = OK (map fst m) /\ NoDup (map fst m) /\
  (forall n, In n (map fst m) <-> exists x, lookup m n = Some x).
Proof.
  intros h ext M v o m H1 H2 H3 H4. split; [eapply keys_spec; eassumption|].
  pose proof H1 as (C & A1 & A2 & _). split; [apply (A2 o m H2)|].
  intros n. split.
  - intros Hin. destruct (lookup m n) eqn:E; [eauto|]. apply lookup_none_notin in E. contradiction.
  - intros (x & Hx). apply lookup_in in Hx. apply in_map_iff. exists (n, x). auto.
Qed.
Print Assumptions enumeration_is_complete.
Example enumeration_is_complete_ex : h_next ex_heap2 <= 2 ^ 48 /\
  keys_loop (S (pfuel ex_heap2)) ex_heap2 ext0 ex_obj V_UNDEFINED = OK [nm_long].
Proof. split; vm_compute; [discriminate|reflexivity]. Qed.

(** C18. *)
Theorem prototype_lookup : forall h ext M key n v x k,
  hrep h ext M -> holds (h_st h) ext key n -> bytes_ok n -> zlen n < 2 ^ 31 -> zlen (so (h_st h)) < 2 ^ 48 ->
  proto_finds M n v x k ->
  forall fuel, (k <= fuel)%nat -> get_v_proto fuel h ext v key = OK x.
Proof.
  intros h ext M key n v x k Hrep Hk Nn Ln Hs P. induction P as [v o m x R1 R2 R3|v o m R1 R2 R3 R4|v R1|v o m pv x k R1 R2 R3 R4 P IH];
    intros fuel Hf; (destruct fuel as [|fuel]; [lia|]).
  - rewrite (proto_step h ext M key n Hrep Hk Nn Ln Hs v o m fuel R2 R1), R3. reflexivity.
  - rewrite (proto_step h ext M key n Hrep Hk Nn Ln Hs v o m fuel R2 R1), R3, R4. reflexivity.
  - apply (proto_nonobject h ext key n Hk Hs). assumption.
  - rewrite (proto_step h ext M key n Hrep Hk Nn Ln Hs v o m fuel R2 R1), R3, R4. apply IH. lia.
Qed.
Print Assumptions prototype_lookup.
(** On an endless chain (a cycle in particular) the lookup never returns. *)
Theorem prototype_cycle_diverges : forall h ext M key n path,
  hrep h ext M -> holds (h_st h) ext key n -> bytes_ok n -> zlen n < 2 ^ 31 -> zlen (so (h_st h)) < 2 ^ 48 ->
  endless_chain M n path ->
  forall fuel i, get_v_proto fuel h ext (path i) key = NoFuel.
Proof.
  intros h ext M key n path Hrep Hk Nn Ln Hs P. induction fuel as [|fuel IH]; intros i; [reflexivity|].
  destruct (P i) as (o & m & R1 & R2 & R3 & R4).
  rewrite (proto_step h ext M key n Hrep Hk Nn Ln Hs _ o m fuel R2 R1), R3, R4. apply IH.
Qed.
Print Assumptions prototype_cycle_diverges.

(** o.__p = o, and a second object inheriting from the one with a property. *)
Definition ex_heap3 : heap := fst (R_get (heap_init, 0) (obj_set ex_heap1 ext0 ex_obj proto_name ex_obj)).
Lemma proto_ok : name_ok proto_name.
Proof.
  split; [|split]; [repeat (apply Forall_cons; [unfold is_byte; lia|]); apply Forall_nil
                   |repeat (apply Forall_cons; [lia|]); apply Forall_nil|vm_compute; reflexivity].
Qed.
Example prototype_cycle_diverges_ex : exists M key,
  hrep ex_heap3 ext0 M /\ holds (h_st ex_heap3) ext0 key nm_short /\ endless_chain M nm_short (fun _ => ex_obj).
Proof.
  destruct (mk_object_spec heap_init ext0 sempty (hrep_init ext0)) as (h1 & v & E & Rv & _ & _ & H1 & _).
  { unfold small. vm_compute. repeat split; discriminate || reflexivity. }
  assert (E1 : mk_object heap_init = OK (ex_heap1, ex_obj)) by (vm_compute; reflexivity).
  rewrite E1 in E. injection E as <- <-. change (h_next heap_init) with 4096 in *.
  destruct (set_prop_spec ex_heap1 ext0 _ ex_obj 4096 [] None proto_name ex_obj H1 (supd_same _ _ _) Rv proto_ok) as (h2 & E2 & H2 & _).
  { unfold small. vm_compute. repeat split; discriminate || reflexivity. }
  { discriminate. }
  assert (E3 : obj_set ex_heap1 ext0 ex_obj proto_name ex_obj = OK (ex_heap3, E_OK)) by (vm_compute; reflexivity).
  unfold obj_set in E3. rewrite E3 in E2. injection E2 as <-.
  destruct (mk_string_holds (h_st ex_heap3) ext0 nm_short) as (st' & kv & Mk & Hh & _ & _ & _ & Sh).
  { repeat (apply Forall_cons; [unfold is_byte; lia|]); apply Forall_nil. }
  { vm_compute; reflexivity. }
  { vm_compute; reflexivity. }
  rewrite (Sh ltac:(vm_compute; discriminate)) in Hh.
  eexists. exists kv. split; [exact H2|]. split; [exact Hh|]. intros i. exists 4096. eexists.
  split; [exact Rv|]. split; [apply supd_same|]. split; reflexivity.
Qed.
Definition ex_heap4 : heap * Z := R_get (heap_init, 0) (mk_object ex_heap2).
Definition ex_heap5 : heap := fst (R_get (heap_init, 0) (obj_set (fst ex_heap4) ext0 (snd ex_heap4) proto_name ex_obj)).
Example prototype_lookup_ex :
  (s <- mk_string (h_st ex_heap5) nm_long ;;
   get_v_proto 2 (with_st ex_heap5 (fst s)) ext0 (snd ex_heap4) (snd s)) = OK 7.
Proof. vm_compute. reflexivity. Qed.
