(** Structures as objects, chr and mkstr (properties C71, C72, C73). *)
From Verif Require Import Base BaseFacts Txt_Model Value_Model Value_Spec Value_Proofs Float_Proofs Str_Model Str_Spec Str_Proofs Obj_Model Obj_Proofs.
From Verif Require Import Ops_Spec Ops_Proofs Ops_Proofs2 Conv_Model Data_Model Data_Spec Data_Proofs Obj_Spec Built_Model Built_Spec Built_Proofs.
Ltac Zify.zify_post_hook ::= idtac.

(** C71: a structure in memory becomes an object with the members in the order of the table, and
    the objects that were there stay as they are (no custom fields, which call C functions). *)
Theorem struct_becomes_object : forall m ext tab custom base defs l,
  struct_is m tab base defs l ->
  exists fuel, forall f, (fuel <= f)%nat -> forall h M, hrep h ext M -> small h (fcost (FObj l)) ->
    exists h' v M', struct_to_obj m ext tab custom f h base defs = OK (h', v, false) /\
      hrep h' ext M' /\ extends M M' /\ shows (h_st h') ext (beyond M M') v (FObj l) /\ grows (h_st h) (h_st h').
Proof.
  intros m ext tab custom base defs l S.
  destruct (proj1 (proj2 (memory_converts m ext tab custom)) base defs l S) as (F & H). exists F.
  intros f Hf h M Hr Hs. destruct (H f Hf h M Hr Hs) as (h' & v & M' & E & (D & G & _) & X & Sh).
  exists h', v, M'. auto.
Qed.
Print Assumptions struct_becomes_object.

Theorem no_struct_is_undefined : forall m ext tab custom f h base defs, base = 0 \/ defs = 0 ->
  struct_to_obj m ext tab custom (S f) h base defs = OK (h, V_UNDEFINED, false).
Proof.
  intros m ext tab custom f h base defs H. cbn [struct_to_obj]. replace ((base =? 0) || (defs =? 0)) with true by lia. reflexivity.
Qed.
Print Assumptions no_struct_is_undefined.

(** Every float is shown exactly. *)
Theorem floats_are_exact : forall b, 0 <= b < 2 ^ 32 -> float_is (mk_number (d_of_float b)) b.
Proof. intros b H. apply float_exact. exact H. Qed.
Print Assumptions floats_are_exact.

(** Example: an outer structure { int n = -2; inner *p; float x = 1.5; char *s = abc } with the
    inner structure { uint8 k = 200; void *q = 4096 }. *)
Definition ex_bytes : list (Z * list Z) :=
  [(1000, [254; 255; 255; 255; 0; 0; 0; 0] ++ le_bytes 8 2000 ++ [0; 0; 192; 63; 0; 0; 0; 0] ++ le_bytes 8 3000);
   (2000, [200; 0; 0; 0; 0; 0; 0; 0] ++ le_bytes 8 4096);
   (3000, bs "abc" ++ [0])].
Definition ex_mem : rawmem := fun a =>
  fold_right (fun x r => if (fst x <=? a) && (a <? fst x + zlen (snd x)) then nth_error (snd x) (Z.to_nat (a - fst x)) else r) None ex_bytes.
Definition mem_ (n : list Z) o t a := {| cm_name := n; cm_off := o; cm_type := t; cm_arg := a |}.
Definition ex_tab (d : Z) : list cmember :=
  if d =? 1 then [mem_ (bs "n") 0 3 0; mem_ (bs "p") 8 2 2; mem_ (bs "x") 16 6 0; mem_ (bs "s") 24 7 0]
  else if d =? 2 then [mem_ (bs "k") 0 14 0; mem_ (bs "q") 8 8 0] else [].
Definition ex_show : list (list Z * fval) :=
  [(bs "n", FInt (-2)); (bs "p", FObj [(bs "k", FInt 200); (bs "q", FPtr 4096)]); (bs "x", FFlt 1069547520); (bs "s", FText (bs "abc"))].

Ltac bytes_lit := intros i Hi; cbn in Hi; do 9 (destruct i as [|i]; [first [exfalso; lia | vm_compute; reflexivity]|]); lia.
Ltac all_lit := repeat (apply Forall_cons; [lia|]); apply Forall_nil.
Ltac word_lit l := let l := eval vm_compute in l in exists l; split; [reflexivity|]; split; [all_lit|]; split; [bytes_lit|vm_compute; reflexivity].
Ltac names_lit := split; [repeat (constructor; [cbn; intuition discriminate|]); constructor|repeat (constructor; [split; [repeat constructor; unfold is_byte; lia|split; [repeat constructor; discriminate|reflexivity]]|]); constructor].

Example ex_struct : struct_is ex_mem ex_tab 1000 1 ex_show.
Proof.
  assert (N : forall d, d = 1 \/ d = 2 -> NoDup (map cm_name (ex_tab d)) /\ Forall (fun c => name_ok (cm_name c)) (ex_tab d)).
  { intros d [-> | ->]; names_lit. }
  constructor; [discriminate|discriminate|apply N; auto|apply N; auto|].
  change (ex_tab 1) with [mem_ (bs "n") 0 3 0; mem_ (bs "p") 8 2 2; mem_ (bs "x") 16 6 0; mem_ (bs "s") 24 7 0].
  apply (ma_cons ex_mem ex_tab 1000 (mem_ (bs "n") 0 3 0)).
  { apply (fi_int ex_mem ex_tab 0 1000 4294967294). word_lit [254; 255; 255; 255]. }
  apply (ma_cons ex_mem ex_tab 1000 (mem_ (bs "p") 8 2 2)).
  { apply (fi_ptr ex_mem ex_tab 2 1008 2000); [word_lit (le_bytes 8 2000)|].
    constructor; [discriminate|discriminate|apply N; auto|apply N; auto|].
    change (ex_tab 2) with [mem_ (bs "k") 0 14 0; mem_ (bs "q") 8 8 0].
    apply (ma_cons ex_mem ex_tab 2000 (mem_ (bs "k") 0 14 0)); [apply (fi_uint8 ex_mem ex_tab 0 2000 200); word_lit [200]|].
    apply (ma_cons ex_mem ex_tab 2000 (mem_ (bs "q") 8 8 0)); [|constructor].
    apply (fi_pointer ex_mem ex_tab 0 2008 4096); [word_lit (le_bytes 8 4096)|reflexivity]. }
  apply (ma_cons ex_mem ex_tab 1000 (mem_ (bs "x") 16 6 0)).
  { apply (fi_float ex_mem ex_tab 0 1016 1069547520). word_lit [0; 0; 192; 63]. }
  apply (ma_cons ex_mem ex_tab 1000 (mem_ (bs "s") 24 7 0)); [|constructor].
  apply (fi_text ex_mem ex_tab 0 1024 3000); [word_lit (le_bytes 8 3000)|].
  split; [discriminate|]. split; [let l := eval vm_compute in (bs "abc") in change (bs "abc") with l; all_lit|]. bytes_lit.
Qed.

(** C72: chr makes the one-byte string of a number from 0 to 255, and null of a larger one. *)
Theorem chr_of_a_byte : forall st ext v n, int_value v n -> 0 <= n < 256 -> zlen (so st) < 2 ^ 48 ->
  exists w, chr st v = OK (st, w) /\ holds st ext w [n].
Proof.
  intros st ext v n I H S. unfold chr, get_int, get_double. rewrite (range_int 0 (2 ^ 32 - 1) v n I) by lia. cbn [bind].
  destruct (int_value_number v n I ltac:(lia)) as (_ & -> & _).
  assert (E : s32 n = n) by (apply Str_Proofs2.s32_small; lia). rewrite E.
  replace (0 <=? n) with true by lia. replace (n <=? 255) with true by lia. cbn [andb].
  assert (B : bytes_ok [n]) by (constructor; [unfold is_byte; lia|constructor]).
  destruct (mk_string_holds st ext [n] B S ltac:(cbn; lia)) as (st' & w & Mk & Hh & _ & _ & _ & Sh).
  rewrite (Sh ltac:(cbn; lia)) in *. exists w. auto.
Qed.
Print Assumptions chr_of_a_byte.
Theorem chr_of_a_large_number : forall st v n, int_value v n -> 256 <= n < 2 ^ 32 -> chr st v = OK (st, V_NULL).
Proof.
  intros st v n I H. unfold chr, get_int, get_double. rewrite (range_int 0 (2 ^ 32 - 1) v n I) by lia. cbn [bind].
  replace (is_number v && (0 <=? s32 n) && (s32 n <=? 255)) with false; [reflexivity|].
  assert (D : s32 n < 0 \/ 256 <= s32 n).
  { unfold s32. rewrite Z.mod_small by lia. cbv zeta. destruct (n <? 2 ^ 31) eqn:?; lia. }
  destruct (is_number v); cbn [andb]; lia.
Qed.
Print Assumptions chr_of_a_large_number.
(** The conversion to an integer comes before the tests: a negative number, or a value that is
    no number, is undefined behaviour. *)
Theorem chr_is_defined_refuted : exists v w, int_value v (-1) /\ kind_of w = KUndefined /\ forall st, chr st v = UB /\ chr st w = UB.
Proof.
  exists (d_of_Z (-1)), V_UNDEFINED. split; [apply of_Z_int; lia|]. split; [vm_compute; reflexivity|]. intros st. split; vm_compute; reflexivity.
Qed.
Print Assumptions chr_is_defined_refuted.
Example ex_chr : chr strs_init (d_of_Z 65) = mk_string strs_init (bs "A") /\ int_value (d_of_Z 65) 65.
Proof. split; [vm_compute; reflexivity|apply of_Z_int; lia]. Qed.

(** C73: mkstr(ptr, offset, len, copy). A copy keeps the bytes of the moment for every later
    content [ext'] of the memory; without copying the string is whatever the memory contains. *)
Definition mkstr_args (ptr off len : Z) (p o n : Z) : Prop :=
  is_foreign ptr = true /\ get_ptr ptr = p /\ int_value off o /\ 0 <= o < 2 ^ 31 /\ int_value len n /\ 0 <= n < 2 ^ 31.
Lemma get_int_small v n : int_value v n -> 0 <= n < 2 ^ 31 -> get_int v = OK n.
Proof.
  intros I H. unfold get_int, get_double. rewrite (range_int 0 (2 ^ 32 - 1) v n I) by lia. cbn [bind]. f_equal.
  apply Str_Proofs2.s32_small. lia.
Qed.
Lemma int_not_undefined v n : int_value v n -> - 2 ^ 53 < n < 2 ^ 53 -> (v =? V_UNDEFINED) = false /\ is_number v = true.
Proof.
  intros I H. destruct (int_value_number v n I H) as (_ & N & _). split; [|exact N].
  destruct (v =? V_UNDEFINED) eqn:E; [|reflexivity]. apply Z.eqb_eq in E. subst v. vm_compute in N. discriminate.
Qed.

Theorem mkstr_copies : forall fuel m st ptr off len copy p o n d,
  mkstr_args ptr off len p o n -> is_truthy st copy = OK true -> data_at m (p + o) n d -> zlen (so st) < 2 ^ 48 ->
  exists st' v, mkstr fuel m st [ptr; off; len; copy] = OK (st', v, E_OK) /\ grows st st' /\ forall ext', holds st' ext' v d.
Proof.
  intros fuel m st ptr off len copy p o n d (F & P & Io & Ho & In & Hn) T (Q & B & L & A) S. unfold mkstr. rewrite F. cbn [negb].
  destruct (int_not_undefined off o Io ltac:(lia)) as [-> ->]. destruct (int_not_undefined len n In ltac:(lia)) as [_ ->].
  cbn [negb andb]. rewrite T. cbn [bind]. rewrite (get_int_small off o Io Ho). cbn [bind]. rewrite (get_int_small len n In Hn). cbn [bind].
  rewrite P. replace (u64 n) with n by (unfold u64; rewrite Z.mod_small; lia). unfold mk_string_at.
  replace (n =? 2 ^ 64 - 1) with false by lia. replace (p + o =? 0) with false by lia.
  replace (Z.to_nat n) with (length d) by (unfold zlen in L; lia). rewrite (rd_n_spec d m (p + o) A). cbn [bind].
  destruct (mk_string_holds st (fun _ => 0) d B S ltac:(lia)) as (st' & v & Mk & _). rewrite Mk. cbn [bind].
  exists st', v. split; [reflexivity|]. split; [eapply mk_string_grows; exact Mk|]. intros ext'.
  destruct (mk_string_holds st ext' d B S ltac:(lia)) as (st2 & v2 & Mk2 & Hh & _). rewrite Mk in Mk2. injection Mk2 as <- <-. exact Hh.
Qed.
Print Assumptions mkstr_copies.

Theorem mkstr_aliases : forall fuel m st ptr off len copy p o n,
  mkstr_args ptr off len p o n -> 0 < n -> is_truthy st copy = OK false -> is_u64 (p + o) -> zlen (sf st) < 2 ^ 48 ->
  exists st' v, mkstr fuel m st [ptr; off; len; copy] = OK (st', v, E_OK) /\ grows st st' /\
    forall ext', (forall i, 0 <= i < n -> is_byte (ext' (p + o + i))) ->
      holds st' ext' v (map (fun i => ext' (p + o + Z.of_nat i)) (seq 0 (Z.to_nat n))).
Proof.
  intros fuel m st ptr off len copy p o n (F & P & Io & Ho & In & Hn) N T U S. unfold mkstr. rewrite F. cbn [negb].
  destruct (int_not_undefined off o Io ltac:(lia)) as [-> ->]. destruct (int_not_undefined len n In ltac:(lia)) as [_ ->].
  cbn [negb andb]. rewrite T. cbn [bind]. rewrite (get_int_small off o Io Ho). cbn [bind]. rewrite (get_int_small len n In Hn). cbn [bind].
  rewrite P. replace (u64 n) with n by (unfold u64; rewrite Z.mod_small; lia).
  replace (n =? 2 ^ 64 - 1) with false by lia.
  destruct (mk_foreign_holds st (fun _ => 0) (p + o) n ltac:(lia) U S ltac:(intros; unfold is_byte; lia)) as (st' & v & Mk & _ & _ & G).
  rewrite Mk. cbn [bind]. exists st', v. split; [reflexivity|]. split; [exact G|]. intros ext' Hb.
  destruct (mk_foreign_holds st ext' (p + o) n ltac:(lia) U S Hb) as (st2 & v2 & Mk2 & Hh & _). rewrite Mk in Mk2. injection Mk2 as <- <-. exact Hh.
Qed.
Print Assumptions mkstr_aliases.

(** With two and three arguments: no offset, no copying. *)
Theorem mkstr_short_forms : forall fuel m st ptr off len o, int_value off o -> o = 0 ->
  mkstr fuel m st [ptr; off; len] = mkstr fuel m st [ptr; len] /\
  mkstr fuel m st [ptr; off; len] = mkstr fuel m st [ptr; off; len; V_UNDEFINED].
Proof.
  intros fuel m st ptr off len o I ->. split; [|reflexivity]. unfold mkstr.
  destruct (int_not_undefined off 0 I ltac:(lia)) as [-> ->]. rewrite Z.eqb_refl. cbn [negb andb].
  rewrite (get_int_small off 0 I ltac:(lia)). reflexivity.
Qed.
Print Assumptions mkstr_short_forms.

(** Wrong arguments are a type error and make no string. *)
Theorem mkstr_type_errors : forall fuel m st args,
  (length args < 2 \/ 4 < length args)%nat \/ is_foreign (nth 0 args 0) = false \/
  (length args = 2%nat /\ is_number (nth 1 args 0) = false) \/
  ((3 <= length args)%nat /\ (is_number (nth 2 args 0) = false \/
                       (is_number (nth 1 args 0) = false /\ nth 1 args 0 <> V_UNDEFINED))) ->
  mkstr fuel m st args = OK (st, V_UNDEFINED, E_TYPE).
Proof.
  intros fuel m st args H. unfold mkstr.
  destruct args as [|a [|b [|c [|d [|e l]]]]]; try reflexivity; cbn [length nth] in H;
    (destruct (is_foreign a) eqn:Ea; [|reflexivity]); cbn [negb].
  - destruct H as [H|[H|[[_ H]|[H _]]]]; [lia|discriminate| |lia]. rewrite Z.eqb_refl. cbn [negb andb]. rewrite H. reflexivity.
  - destruct H as [H|[H|[[H _]|[_ [H|[H1 H2]]]]]]; [lia|discriminate|lia| |].
    + rewrite H. destruct (negb (b =? V_UNDEFINED) && negb (is_number b)); reflexivity.
    + rewrite H1. replace (b =? V_UNDEFINED) with false by lia. reflexivity.
  - destruct H as [H|[H|[[H _]|[_ [H|[H1 H2]]]]]]; [lia|discriminate|lia| |].
    + rewrite H. destruct (negb (b =? V_UNDEFINED) && negb (is_number b)); reflexivity.
    + rewrite H1. replace (b =? V_UNDEFINED) with false by lia. reflexivity.
Qed.
Print Assumptions mkstr_type_errors.

(** The string has the requested length: not so for 4294967295, which means up to the NUL, and
    a negative length is undefined behaviour. *)
Theorem mkstr_length_refuted : exists m ptr len neg, int_value len (2 ^ 32 - 1) /\ int_value neg (-1) /\ is_foreign ptr = true /\
  mkstr 9 m strs_init [ptr; V_UNDEFINED; len; mk_boolean true] =
    ('(st, v) <- mk_string strs_init (bs "abc") ;; OK (st, v, E_OK)) /\
  mkstr 9 m strs_init [ptr; V_UNDEFINED; neg; mk_boolean true] = UB.
Proof.
  exists ex_mem, (fst (mk_foreign 3000)), (d_of_Z (2 ^ 32 - 1)), (d_of_Z (-1)). split; [apply of_Z_int; lia|]. split; [apply of_Z_int; lia|].
  split; [vm_compute; reflexivity|]. split; vm_compute; reflexivity.
Qed.
Print Assumptions mkstr_length_refuted.

Example ex_mkstr : mkstr_args (fst (mk_foreign 3000)) (d_of_Z 1) (d_of_Z 2) 3000 1 2 /\ data_at ex_mem 3001 2 (bs "bc") /\
  is_truthy strs_init (mk_boolean true) = OK true /\ is_truthy strs_init V_UNDEFINED = OK false.
Proof.
  split; [split; [vm_compute; reflexivity|]; split; [vm_compute; reflexivity|]; split; [apply of_Z_int; lia|]; split; [lia|]; split; [apply of_Z_int; lia|lia]|].
  split; [|split; vm_compute; reflexivity]. split; [discriminate|]. split; [let l := eval vm_compute in (bs "bc") in change (bs "bc") with l; all_lit|]. split; [reflexivity|]. bytes_lit.
Qed.
