(** Printing values: their texts, mjs_sprintf into a buffer, and print(). *)
From Verif Require Import Base BaseFacts Value_Model Value_Spec Value_Proofs Str_Model Str_Spec Str_Proofs SUtil_Model SUtil_Spec SUtil_Proofs
  Conv_Model NumText_Spec NumText_Proofs TokNum_Model Txt_Model Vm_Model Lang_Native Load_Spec Load_Proofs2 Print_Model Print_Spec Print_Proofs.
From Coq Require Import ZifyBool.
Ltac Zify.zify_post_hook ::= idtac.

(** C88: mjs_fprintf writes the text of the value. *)
Theorem fprintf_writes : forall st ext v t, is_u64 v -> shows st ext v t -> fprintf st ext v = OK t.
Proof. intros st ext v t U H. destruct (jprintf_shows st ext v t U H) as (ps & E & C). unfold fprintf. rewrite E. cbn [bind]. rewrite C. reflexivity. Qed.

(** C88: it has only one text. *)
Theorem text_unique : forall st ext v t t', is_u64 v -> shows st ext v t -> shows st ext v t' -> t = t'.
Proof. intros st ext v t t' U H H'. pose proof (fprintf_writes _ _ _ _ U H) as E. rewrite (fprintf_writes _ _ _ _ U H') in E. congruence. Qed.

(** C88: every value scripts can have has a text, but for numbers that are infinite or integral
    and beyond 64 bits: printing those is undefined. *)
Theorem text_total : forall st ext v, is_u64 v -> kind_of v <> KNone ->
  (kind_of v = KNumber -> printable v) -> (kind_of v = KBoolean -> v mod 2 ^ 48 < 2) -> (kind_of v = KFunction -> v mod 2 ^ 48 < 2 ^ 31) ->
  (kind_of v = KString -> exists d, holds st ext v d /\ bytes_ok d) -> exists t, shows st ext v t.
Proof.
  intros st ext v U NN HN HB HF HS. pose proof (Z.div_mod v (2 ^ 48) ltac:(lia)) as Dv. pose proof (Z.mod_pos_bound v (2 ^ 48) ltac:(lia)) as Mv.
  destruct (preds_kind v U) as (_ & P2 & P3 & P4 & _ & _ & _ & P8 & P9 & _). destruct (kind_of v) eqn:K.
  - destruct (num_shows_total v U (HN eq_refl)) as (t & Ht). exists t. apply SH_num; assumption.
  - specialize (HB eq_refl). cbn [kind_eqb] in P2. rewrite is_boolean_hi in P2 by exact U.
    assert (V : v = mk_boolean (v mod 2 ^ 48 =? 1)) by (rewrite mk_boolean_val; destruct (v mod 2 ^ 48 =? 1) eqn:E; lia).
    eexists. eapply SH_bool. exact V.
  - cbn [kind_eqb] in P3. unfold is_null in P3. eexists. apply SH_null. apply Z.eqb_eq. exact P3.
  - cbn [kind_eqb] in P4. unfold is_undefined in P4. eexists. apply SH_undef. apply Z.eqb_eq. exact P4.
  - destruct (HS eq_refl) as (d & Hd & B). destruct (bytes_show_total d B) as (t & Ht). exists t. eapply SH_str; eassumption.
  - eexists. apply SH_obj. exact K.
  - eexists. apply SH_arr. exact K.
  - cbn [kind_eqb] in P8. rewrite is_foreign_hi in P8 by exact U. destruct (hex_text_num (v mod 2 ^ 48)) as (t & _ & Ht); [lia|].
    eexists. eapply SH_ptr; [exact Mv| |exact Ht]. unfold mk_foreign, pointer_to_value. cbn [fst]. rewrite untag_mod, Z.mod_small by lia. unfold TAG_FOREIGN. rewrite lor_tag by lia. lia.
  - specialize (HF eq_refl). cbn [kind_eqb] in P9. rewrite is_function_hi in P9 by exact U. destruct (dec_text_num (v mod 2 ^ 48)) as (t & _ & Ht); [lia|].
    eexists. eapply SH_fun; [|rewrite mk_function_val; [|exact Mv]|exact Ht]; lia.
  - pose proof (kind_ffi_range v U K) as Rv. destruct (dec_text_num (2 ^ 64 - v)) as (t & _ & Ht); [lia|]. eexists. apply SH_sig; eassumption.
  - congruence.
Qed.
Theorem printing_undefined : forall st ext v, is_u64 v -> kind_of v = KNumber -> ~ printable v -> fprintf st ext v = UB.
Proof.
  intros st ext v U K N. unfold fprintf, jprintf. rewrite (proj1 (preds_kind v U)), K. cbn [kind_eqb]. rewrite (num_text_ub v U N). reflexivity.
Qed.

(** C89: mjs_sprintf into a buffer of size [n] writes as much of the text as fits, then the
    terminator, and nothing after it; into a buffer of size 0 it writes nothing. *)
Theorem sprintf_writes : forall st ext v t mem n, is_u64 v -> shows st ext v t -> t <> [] -> 0 < n <= zlen mem ->
  sprintf st ext v mem n = OK (printed mem n t).
Proof.
  intros st ext v t mem n U H Ht Hn. destruct (jprintf_shows st ext v t U H) as (ps & E & C). unfold sprintf. rewrite E. cbn [bind].
  destruct (print_all_ok mem n (proj1 Hn) (proj2 Hn) ps) as (o & Eo & Mo); [intros ->; apply Ht; rewrite <- C; reflexivity|].
  rewrite Eo. cbn [bind]. rewrite Mo, C. reflexivity.
Qed.
Theorem sprintf_size_zero : forall st ext v t mem, is_u64 v -> shows st ext v t -> sprintf st ext v mem 0 = OK mem.
Proof.
  intros st ext v t mem U H. destruct (jprintf_shows st ext v t U H) as (ps & E & _). unfold sprintf. rewrite E. cbn [bind]. rewrite print_all_zero. reflexivity.
Qed.

Lemma called_args m xs f base C : called m xs f base C -> Vm_Model.args m = OK xs.
Proof.
  intros H. assert (E : Vm_Model.args (set_err m E_OK) = OK xs) by (eapply look_args; [exact (called_look _ _ _ _ _ H)|apply H]). rewrite <- E. clear E. unfold Vm_Model.args.
  change (nargs (set_err m E_OK)) with (nargs m). destruct (nargs m) as [k| | |]; cbn [bind]; try reflexivity.
  generalize 0. induction (Z.to_nat k) as [|j IH]; intros i; [reflexivity|]. cbn [args_from]. change (arg (set_err m E_OK) i) with (arg m i).
  destruct (arg m i); cbn [bind]; try reflexivity. rewrite IH. reflexivity.
Qed.

(** C90: print(...) writes the texts of its arguments, a space after each, then a newline; it
    gives undefined and changes nothing else. *)
Theorem print_writes : forall m xs f base C ts, called m xs f base C -> Forall is_u64 xs -> Forall2 (shows (m_st m) (m_ext m)) xs ts ->
  exists m', print m = OK (m', concat (map (fun t => t ++ [32]) ts) ++ [10]) /\ gave m m' base V_UNDEFINED /\
    m_heap m' = m_heap m /\ m_err m' = m_err m.
Proof.
  intros m xs f base C ts H U S. unfold print.
  assert (A : Vm_Model.args m = OK xs).
  { eapply called_args. exact H. }
  rewrite A. cbn [bind].
  assert (T : print_args (m_st m) (m_ext m) xs = OK (concat (map (fun t => t ++ [32]) ts) ++ [10])).
  { clear H A. revert U. induction S as [|x t xs ts Hx Hxs IH]; intros U; [reflexivity|]. inversion_clear U as [|? ? Ux Uxs].
    cbn [print_args map concat]. rewrite (fprintf_writes _ _ _ _ Ux Hx). cbn [bind]. rewrite (IH Uxs). cbn [bind]. rewrite <- !app_assoc. reflexivity. }
  rewrite T. cbn [bind]. destruct (called_return m xs f base C V_UNDEFINED H) as (s & Ls & Er). rewrite Er. cbn [bind].
  eexists. split; [reflexivity|]. unfold gave. cbn. rewrite Ls. repeat split; reflexivity.
Qed.

(** C91: the text does not tell strings apart (the byte 1, and the four characters \x01), nor
    strings from other values. *)
Definition ext0 : extmem := fun _ => 0.
Definition str_1 : Z := match mk_string strs_init [1] with OK (_, v) => v | _ => 0 end.
Definition str_x01 : Z := match mk_string strs_init (bs "\x01") with OK (_, v) => v | _ => 0 end.
Definition str_null : Z := match mk_string strs_init (bs "null") with OK (_, v) => v | _ => 0 end.
Ltac held := split; [unfold is_u64; vm_compute; split; congruence|split; [vm_compute; reflexivity|eexists; split; [vm_compute; reflexivity|split; [discriminate|vm_compute; reflexivity]]]].
Theorem texts_differ_refuted : exists v w d d' t, v = str_1 /\ w = str_x01 /\ holds strs_init ext0 v d /\ holds strs_init ext0 w d' /\ d <> d' /\
  fprintf strs_init ext0 v = OK t /\ fprintf strs_init ext0 w = OK t.
Proof.
  exists str_1, str_x01, [1], (bs "\x01"), (bs "\x01"). split; [reflexivity|]. split; [reflexivity|]. split; [held|]. split; [held|].
  split; [discriminate|]. split; vm_compute; reflexivity.
Qed.
Theorem texts_tell_kinds_refuted : exists v d t, v = str_null /\ holds strs_init ext0 v d /\
  fprintf strs_init ext0 v = OK t /\ fprintf strs_init ext0 V_NULL = OK t.
Proof. exists str_null, (bs "null"), (bs "null"). split; [reflexivity|]. split; [held|]. split; vm_compute; reflexivity. Qed.
(** C91: mjs_sprintf of the empty string does not terminate the buffer. *)
Theorem sprintf_terminates_refuted : exists st v mem n, holds st ext0 v [] /\ 0 < n <= zlen mem /\ sprintf st ext0 v mem n = OK mem /\ ~ In 0 mem.
Proof.
  exists strs_init, (match mk_string strs_init [] with OK (_, v) => v | _ => 0 end), [65; 66; 67], 3. split; [held|].
  split; [change (zlen [65; 66; 67]) with 3; lia|]. split; [vm_compute; reflexivity|]. cbn [In]. intuition discriminate.
Qed.

(** Examples *)
Example print_string : shows strs_init ext0 str_1 (bs "\x01").
Proof.
  apply SH_str with [1]; [held|constructor; [unfold is_byte; lia|constructor]|]. change (bs "\x01") with ([92; 120; 48; 49] ++ []).
  constructor; [|constructor]. apply BS_hex; [lia|lia| | |reflexivity]; (split; [left; lia|split; vm_compute; congruence]).
Qed.
Example print_pointer : shows strs_init ext0 (fst (mk_foreign 4095)) (bs "<foreign_ptr@fff>").
Proof.
  change (bs "<foreign_ptr@fff>") with (bs "<foreign_ptr@" ++ bs "fff" ++ bs ">"). apply SH_ptr with 4095; [lia|reflexivity|].
  split; [discriminate|]. split; [|split; [reflexivity|discriminate]]. repeat constructor; try (right; lia); vm_compute; congruence.
Qed.
Example sprintf_cuts : sprintf strs_init ext0 (fst (mk_foreign 4095)) (repeat 7 10) 6 = OK (bs "<fore" ++ [0; 7; 7; 7; 7]).
Proof.
  assert (U : is_u64 (fst (mk_foreign 4095))) by (unfold is_u64; vm_compute; split; congruence).
  assert (N : bs "<foreign_ptr@fff>" <> []) by discriminate. assert (B : 0 < 6 <= zlen (repeat 7 10)) by (vm_compute; split; congruence).
  rewrite (sprintf_writes strs_init ext0 (fst (mk_foreign 4095)) (bs "<foreign_ptr@fff>") (repeat 7 10) 6 U print_pointer N B). reflexivity.
Qed.
Example printing_infinity : fprintf strs_init ext0 (32752 * 2 ^ 48) = UB.
Proof.
  apply printing_undefined; [unfold is_u64; lia|reflexivity|]. intros (H & _). apply (H false). vm_compute. reflexivity.
Qed.
(** print(null, true) in a new engine *)
Definition printing : vm :=
  let m := Props_Vm.ex_m in
  set_call (set_stack m (sk_push (sk_push (sk_push (m_stack m) V_NULL) V_NULL) (mk_boolean true))) (sk_push (m_call m) (vnum (zlen (sk_live (m_stack m)) + 1))).
Example print_two : exists m', print printing = OK (m', bs "null true " ++ [10]) /\ gave printing m' (sk_live (m_stack Props_Vm.ex_m)) V_UNDEFINED.
Proof.
  destruct (print_writes printing [V_NULL; mk_boolean true] V_NULL (sk_live (m_stack Props_Vm.ex_m)) (sk_live (m_call Props_Vm.ex_m)) [bs "null"; bs "true"]) as (m' & E & G & _).
  - split; [reflexivity|]. split; [reflexivity|]. vm_compute. reflexivity.
  - constructor; [unfold is_u64; vm_compute; split; congruence|]. constructor; [unfold is_u64; vm_compute; split; congruence|constructor].
  - constructor; [apply SH_null; reflexivity|]. constructor; [apply (SH_bool _ _ _ true); reflexivity|constructor].
  - exists m'. split; [exact E|exact G].
Qed.
