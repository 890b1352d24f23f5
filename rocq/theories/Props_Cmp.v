(** C102: comparing and stripping texts. *)
From Verif Require Import Base BaseFacts SUtil_Model SUtil_Spec TokNum_Model Txt_Model Glob_Model Cmp_Model Cmp_Spec Cmp_Proofs.
From Coq Require Import ZifyBool.
Ltac Zify.zify_post_hook ::= idtac.

(** C102. mg_vcmp compares a counted text, which may hold NULs, with a C string by unsigned bytes, mg_vcasecmp without case. *)
Theorem vcmp_orders s s2 t : c_text s2 t -> zlen s < 2 ^ 31 -> zlen t < 2 ^ 31 ->
  (exists n, mg_vcmp s s2 = OK n /\ compares unsigned_key s t n) /\ (exists n, mg_vcasecmp s s2 = OK n /\ compares case_key s t n).
Proof. intros C L1 L2. split; [exact (vcmp_walks _ _ s s2 t strncmp_walks C L1 L2)|exact (vcmp_walks _ _ s s2 t ncasecmp_walks C L1 L2)]. Qed.
Print Assumptions vcmp_orders.
(** C102. mg_ncasecmp compares at most [len] bytes of two C strings without case (mg_casecmp: all of them). *)
Theorem ncasecmp_orders len s1 s2 t1 t2 : bytes_ok s1 -> bytes_ok s2 -> c_text s1 t1 -> c_text s2 t2 ->
  exists n, mg_ncasecmp len s1 s2 = OK n /\ compares case_key (firstn len t1) (firstn len t2) n.
Proof.
  intros B1 B2 (F1 & r1 & ->) (F2 & r2 & ->). apply Forall_app in B1, B2. destruct B1 as (B1 & _), B2 as (B2 & _).
  assert (P : forall t, Forall is_byte t -> Forall (fun c => c <> 0) t -> Forall (fun c => 0 < c) t).
  { intros t B F. rewrite Forall_forall in *. intros c I. specialize (B c I). specialize (F c I). unfold is_byte in B. lia. }
  destruct (ncasecmp_cstr len t1 t2 r1 r2 (P _ B1 F1) (P _ B2 F2)) as (n & E & T). exists n. split; [exact E|apply tri_compares; exact T].
Qed.
Print Assumptions ncasecmp_orders.
(** C102. mg_strncmp compares the first bytes of two counted texts by signed bytes. *)
Theorem strncmp_orders a b n : compares signed_key (firstn n a) (firstn n b) (mg_strncmp a b n).
Proof. apply tri_compares. apply strcmp_tri. Qed.
Print Assumptions strncmp_orders.
(** C102. mg_strcasecmp compares two ASCII texts without case. *)
Theorem strcasecmp_orders a b : ascii a -> ascii b -> exists n, mg_strcasecmp a b = OK n /\ compares case_key a b n.
Proof. intros A B. destruct (strcasecmp_tri a A b B) as (n & E & T). exists n. split; [exact E|apply tri_compares; exact T]. Qed.
Print Assumptions strcasecmp_orders.
(** C102. mg_strstrip removes the blanks around an ASCII text and nothing else. *)
Theorem strip_removes_blanks s : ascii s -> exists t, mg_strstrip s = OK t /\ stripped s t /\ forall t', stripped s t' -> t' = t.
Proof.
  intros A. destruct (strip_ok s A) as (t & E & S1). exists t. split; [exact E|]. split; [exact S1|]. intros t' S2. exact (strip_unique s t' t S2 S1).
Qed.
Print Assumptions strip_removes_blanks.

(** A counted text with a NUL inside, longer than the C string *)
Definition cx_s : list Z := bs "Load" ++ [0; 7].
Example cx_meets : c_text (bs "load" ++ [0; 99]) (bs "load") /\ zlen cx_s < 2 ^ 31 /\ zlen (bs "load") < 2 ^ 31.
Proof. split; [split; [vm_compute; repeat constructor; discriminate|exists [99]; reflexivity]|vm_compute; split; reflexivity]. Qed.
Example cx_runs : mg_vcmp cx_s (bs "load" ++ [0; 99]) = OK (-1) /\ mg_vcasecmp cx_s (bs "load" ++ [0; 99]) = OK 2 /\
  mg_vcasecmp (bs "LOAD") (bs "load" ++ [0]) = OK 0 /\ mg_vcmp (bs "lo") (bs "load" ++ [0]) = OK (-2) /\
  mg_ncasecmp 3 (bs "foobar" ++ [0]) (bs "FOOD" ++ [0]) = OK 0 /\ mg_ncasecmp 9 (bs "foo" ++ [0]) (bs "FOOD" ++ [0]) = OK (-100).
Proof. vm_compute. repeat split. Qed.
Example cx_holds : exists n, mg_vcasecmp cx_s (bs "load" ++ [0; 99]) = OK n /\ compares case_key cx_s (bs "load") n.
Proof. destruct cx_meets as (H1 & H2 & H3). exact (proj2 (vcmp_orders _ _ _ H1 H2 H3)). Qed.
Example cx_ncase : exists n, mg_ncasecmp 9 (bs "foo" ++ [0]) (bs "FOOD" ++ [0]) = OK n /\ compares case_key (bs "foo") (bs "FOOD") n.
Proof.
  apply (ncasecmp_orders 9 _ _ (bs "foo") (bs "FOOD")); try (vm_compute; repeat constructor; congruence);
    (split; [vm_compute; repeat constructor; discriminate|exists []; reflexivity]).
Qed.
Example cx_strncmp : mg_strncmp (bs "abX") (bs "abY") 2 = 0 /\ mg_strncmp (bs "abX") (bs "abY") 3 = -1 /\ mg_strncmp [200] (bs "a") 5 = -1 /\
  compares signed_key [200] (bs "a") (-1).
Proof. split; [reflexivity|]. split; [reflexivity|]. split; [reflexivity|]. exact (strncmp_orders [200] (bs "a") 5). Qed.
Example cx_ascii : ascii (bs "GeT") /\ ascii (bs "gETs") /\ mg_strcasecmp (bs "GeT") (bs "gETs") = OK (-1) /\ mg_strcasecmp (bs "GeT") (bs "gET") = OK 0.
Proof. split; [vm_compute; repeat constructor; congruence|]. split; [vm_compute; repeat constructor; congruence|]. vm_compute. split; reflexivity. Qed.
Example cx_strip : ascii ([9; 32] ++ bs "a b" ++ [13; 10]) /\ mg_strstrip ([9; 32] ++ bs "a b" ++ [13; 10]) = OK (bs "a b") /\ mg_strstrip [32; 32] = OK [].
Proof. split; [vm_compute; repeat constructor; congruence|]. vm_compute. split; reflexivity. Qed.
Example cx_strip_holds : stripped ([9; 32] ++ bs "a b" ++ [13; 10]) (bs "a b").
Proof.
  destruct cx_strip as (A & E & _). destruct (strip_removes_blanks _ A) as (t & E' & S1 & _). rewrite E in E'.
  match type of E' with OK ?x = OK ?y => assert (K : x = y) by congruence end. rewrite <- K in S1. exact S1.
Qed.

(** ** What does not hold *)
Lemma vcmp_len s : mg_vcmp s [0] = OK (int_of (zlen s)) /\ mg_vcasecmp s [0] = OK (int_of (zlen s)).
Proof.
  unfold mg_vcmp, mg_vcasecmp, vcmp_with. cbn [c_strlen]. change (0 =? 0) with true. cbn iota. cbn [bind]. cbv zeta.
  pose proof (zlen_nonneg s). replace (zlen s <? 0) with false by lia. change (Z.to_nat 0) with O. cbn [c_strncmp mg_ncasecmp bind].
  change (0 =? 0) with true. cbn iota. rewrite Z.sub_0_r. split; reflexivity.
Qed.
Lemma long_text m : 0 <= m -> exists s : list Z, zlen s = m.
Proof. intros H. exists (repeat 97 (Z.to_nat m)). unfold zlen. rewrite repeat_length. lia. Qed.
(** Zero means equal: false for lengths from 2^32, the difference of the lengths is cut to an int. *)
Theorem vcmp_zero_is_equal_refuted : exists s s2 t, c_text s2 t /\ zlen s < 2 ^ 63 /\ mg_vcmp s s2 = OK 0 /\ mg_vcasecmp s s2 = OK 0 /\ zlen s <> zlen t.
Proof.
  destruct (long_text (2 ^ 32) ltac:(lia)) as (s & L). exists s, [0], []. destruct (vcmp_len s) as (E1 & E2).
  split; [split; [constructor|exists []; reflexivity]|]. split; [lia|]. rewrite E1, E2, L. split; [reflexivity|]. split; [reflexivity|]. change (zlen (@nil Z)) with 0. lia.
Qed.
Print Assumptions vcmp_zero_is_equal_refuted.
(** The comparisons agree on the order: false for bytes from 128. *)
Theorem orders_agree_refuted : exists s s2 t n1, c_text s2 t /\ bytes_ok s /\ mg_vcmp s s2 = OK n1 /\ 0 < n1 /\ mg_strcmp s t < 0.
Proof.
  exists [200], [97; 0], [97], 1. split; [split; [repeat constructor; discriminate|exists []; reflexivity]|].
  split; [repeat constructor; unfold is_byte; lia|]. split; [reflexivity|]. split; [lia|reflexivity].
Qed.
Print Assumptions orders_agree_refuted.
(** mg_strcasecmp and mg_strstrip are defined for all bytes: false, tolower and isspace are given negative numbers. *)
Theorem case_and_blanks_of_all_bytes_refuted : exists s, bytes_ok s /\ mg_strcasecmp s s = UB /\ mg_strstrip s = UB.
Proof. exists [195; 169]. split; [repeat constructor; unfold is_byte; lia|]. split; reflexivity. Qed.
Print Assumptions case_and_blanks_of_all_bytes_refuted.

(** ** The names of types in FFI signatures *)
From Verif Require Ffi_Model.
(** mjs_ffi.c:46-81 parse_cval_type with its calls of mg_vcmp, of which [Ffi_Model.assoc] is the abstraction *)
Fixpoint assoc_vcmp (l : list (list Z * Z)) (k : list Z) (d : Z) : R Z :=
  match l with [] => OK d | (n, v) :: l => r <- mg_vcmp k (n ++ [0]) ;; if r =? 0 then OK v else assoc_vcmp l k d end.
Lemma assoc_vcmp_ok k d : zlen k < 2 ^ 31 -> forall l, Forall (fun e => Forall (fun c => c <> 0) (fst e) /\ zlen (fst e) < 2 ^ 31) l ->
  assoc_vcmp l k d = OK (Ffi_Model.assoc l k d).
Proof.
  intros Lk. induction 1 as [|(n & v) l (F & Ln) Fl IH]; [reflexivity|]. cbn [fst] in F, Ln. cbn [assoc_vcmp Ffi_Model.assoc].
  destruct (vcmp_orders k (n ++ [0]) n) as ((r & E & (Eq & _)) & _); [split; [exact F|exists []; reflexivity]|exact Lk|exact Ln|].
  unfold unsigned_key in Eq. rewrite !map_id in Eq. rewrite E. cbn [bind]. destruct (list_eq_dec Z.eq_dec n k) as [->|N].
  - replace (r =? 0) with true by (symmetry; apply Z.eqb_eq; apply Eq; reflexivity). reflexivity.
  - replace (r =? 0) with false; [exact IH|]. symmetry. apply Z.eqb_neq. intros K. apply N. symmetry. apply Eq. exact K.
Qed.
(** C102. The model of FFI signatures looks names of types up as the code does. *)
Theorem type_lookup k d : zlen k < 2 ^ 31 -> assoc_vcmp Ffi_Model.type_names k d = OK (Ffi_Model.assoc Ffi_Model.type_names k d).
Proof.
  intros Lk. apply (assoc_vcmp_ok k d Lk). repeat apply Forall_cons; try apply Forall_nil; (split; [vm_compute; repeat constructor; discriminate|vm_compute; reflexivity]).
Qed.
Print Assumptions type_lookup.
Example cx_lookup : assoc_vcmp Ffi_Model.type_names (bs "char *") (-1) = OK Ffi_Model.T_CHAR_PTR /\ assoc_vcmp Ffi_Model.type_names (bs "char") (-1) = OK (-1).
Proof. vm_compute. split; reflexivity. Qed.
