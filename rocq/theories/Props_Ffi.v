(** C42, C52-C63: the foreign function interface. *)
From Verif Require Import Base BaseFacts Value_Model Value_Spec Value_Proofs Float_Proofs Str_Model Str_Spec Txt_Model
  Ffi_Model Ffi_Spec Ffi_Proofs Ffi_Proofs4 Ffi_Proofs5 Ffi_Call_Spec Ffi_Call_Proofs Ffi_Cb_Proofs.

(** a resolver that knows every name *)
Definition all77 : list Z -> Z := fun _ => 77.
Definition read (s : String.string) : R (sig * Z * Z) := ffi_parse (Some all77) (bs s) E_OK.

(** C42: a signature is valid exactly when its types are acceptable; the arguments are
    counted; a signature that is not acceptable is marked invalid and an error is set. *)
Theorem signature_validation : forall k g err,
  (good_sig k g -> validate g k err = (set_valid g (s_cnt g + zlen (arg_types g)) true, err)) /\
  (~ good_sig k g -> exists n e, validate g k err = (set_valid g n false, e) /\ e <> E_OK).
Proof. intros k g err. split; [apply validate_good | apply validate_bad]. Qed.
Print Assumptions signature_validation.
(** Validation alone accepts two callbacks; the parser does not (see [any_text]). *)
Theorem validation_single_callback_refuted : exists g,
  s_valid (fst (validate g SigFunc E_OK)) = true /\ count T_CALLBACK (arg_types g) = 2%nat.
Proof. exists (set_types sig_init [T_NONE; T_CALLBACK; T_CALLBACK; T_USERDATA; 0; 0; 0]). split; reflexivity. Qed.
Print Assumptions validation_single_callback_refuted.
Example validation_example :
  let g := set_types sig_init [T_INT; T_CALLBACK; T_USERDATA; T_CHAR_PTR; 0; 0; 0] in
  good_sig SigFunc g /\ ~ good_sig SigCallback g /\ validate g SigFunc E_OK = (set_valid g 3 true, E_OK).
Proof.
  assert (E : validate (set_types sig_init [T_INT; T_CALLBACK; T_USERDATA; T_CHAR_PTR; 0; 0; 0]) SigCallback E_OK =
              (set_valid (set_types sig_init [T_INT; T_CALLBACK; T_USERDATA; T_CHAR_PTR; 0; 0; 0]) 0 false, E_TYPE)) by reflexivity.
  cbv zeta. split; [| split; [| reflexivity]].
  - cbn. unfold data_type. split; [auto |]. split; [repeat constructor; tauto |]. split; [cbn; lia | tauto].
  - intros H. apply (validate_good _ _ E_OK) in H. rewrite E in H. discriminate.
Qed.

(** C52: whatever the text and the resolver, ffi() stays inside the text and terminates. It
    yields a signature with at most one callback that can be called, or an error, or the
    program aborts. *)
Theorem any_text : forall resolve txt err,
  ffi_parse resolve txt err = Abort \/
  (exists g, ffi_parse resolve txt err = OK (g, E_OK, err) /\ s_valid g = true /\ callable g /\ s_fn g <> FnNull /\
     match s_cb g with Some c => s_valid c = true /\ good_sig SigCallback c /\ s_fn c <> FnNull | None => True end) \/
  (exists g r e, ffi_parse resolve txt err = OK (g, r, e) /\ r <> E_OK /\ e <> E_OK /\ s_valid g = false).
Proof.
  intros resolve txt err. destruct (ffi_parse_safe resolve txt err) as [H | (g & r & e & E & [(-> & -> & V & G & N & L & F & C & B) | H])]; [left; exact H | right; left | right; right; eauto 6].
  exists g. split; [exact E |]. split; [exact V |]. split; [| split; [exact F | exact B]].
  destruct (upto_prefix (tl (s_types g))) as [rest Er]. fold (arg_types g) in Er.
  assert (K : (count T_CALLBACK (arg_types g) <= count T_CALLBACK (tl (s_types g)))%nat) by (rewrite Er, count_app; lia).
  split; [exact G |]. split; [exact N |]. split; [exact L |]. split; [destruct (s_cb g); cbn in C; lia |].
  intros I Q. rewrite Q in C. cbn in C. apply count_In in I. lia.
Qed.
Print Assumptions any_text.
(** It does abort for some texts: a function pointer at the top, and a callback with an
    argument after void. *)
Theorem ffi_never_aborts_refuted : exists txt, read txt = Abort.
Proof. exists "void (*f)(int)"%string. vm_compute. reflexivity. Qed.
Print Assumptions ffi_never_aborts_refuted.
Theorem ffi_callback_never_aborts_refuted : exists txt, read ("void f(" ++ txt ++ ", userdata)") = Abort.
Proof. exists "void (*)(userdata, void, userdata)"%string. vm_compute. reflexivity. Qed.
Print Assumptions ffi_callback_never_aborts_refuted.
(** Texts that are not C declarations are accepted. *)
Theorem only_declarations_accepted_refuted : exists t1 t2 g1 g2,
  (t1 = "void foo(int, void, int)" /\ t2 = "void foo(,int)")%string /\
  read t1 = OK (g1, E_OK, E_OK) /\ arg_types g1 = [T_INT] /\ read t2 = OK (g2, E_OK, E_OK) /\ arg_types g2 = [].
Proof.
  do 2 eexists. eexists (mksig None [0; T_INT; 0; T_INT; 0; 0; 0] (FnC 77) 1 false true), (mksig None [0; 0; 0; 0; 0; 0; 0] (FnC 77) 0 false true).
  split; [split; reflexivity |]. vm_compute. repeat split.
Qed.
Print Assumptions only_declarations_accepted_refuted.
Example any_text_example : exists g, read "int f(char *, int)" = OK (g, E_OK, E_OK) /\ arg_types g = [T_CHAR_PTR; T_INT].
Proof. eexists (mksig None [T_INT; T_CHAR_PTR; T_INT; 0; 0; 0; 0] (FnC 77) 2 false true). vm_compute. split; reflexivity. Qed.

(** C53: a well-formed C declaration, however it is spaced, is accepted exactly when its types
    are supported and its name is known, and it is read as written. *)
Theorem declarations_read_as_written : forall resolve d, decl_ok d ->
  exists g r e, ffi_parse (Some resolve) (dtext d) E_OK = OK (g, r, e) /\
    ((means resolve d g /\ r = E_OK /\ e = E_OK) \/
     ((forall h, ~ means resolve d h) /\ r <> E_OK /\ e <> E_OK /\ s_valid g = false)).
Proof. exact decl_parsed. Qed.
Print Assumptions declarations_read_as_written.
Section Example_decl.
  Let pc a n b t := {| p_pre := bs a; p_name := bs n; p_post := bs b; p_type := t |}.
  Let cb := {| c_ret := pc "" "void" " " T_NONE; c_in := bs "*"; c_gap := []; c_args := [pc "" "int" "" T_INT; pc " " "userdata" "" T_USERDATA]; c_tail := [] |}.
  Let d := {| d_ret := pc " " "char *" "" T_CHAR_PTR; d_name := bs "on_event"; d_gap := bs " "; d_args := [Plain (pc " " "double" " " T_DOUBLE); Callback cb; Plain (pc " " "userdata" "" T_USERDATA)]; d_tail := bs ";" |}.
  Example declaration_example : dtext d = bs " char *on_event ( double ,void (*)(int, userdata), userdata);" /\ decl_ok d /\
    exists g, means all77 d g /\ s_cnt g = 3 /\ arg_types g = [T_DOUBLE; T_CALLBACK; T_USERDATA].
  Proof.
    assert (P : forall a n b t, spaces (bs a) -> spaces (bs b) -> names_type (bs n) t -> piece_ok (pc a n b t)) by (intros; repeat split; assumption).
    assert (Sp : spaces (bs "") /\ spaces (bs " ")) by (split; repeat constructor). destruct Sp as [S0 S1].
    split; [reflexivity |]. split.
    - unfold decl_ok. cbn [d d_ret d_name d_gap d_args d_tail]. split; [apply P; try assumption; unfold names_type; tauto |].
      split; [right; reflexivity |]. split; [discriminate |]. split.
      { unfold name_char. let l := eval vm_compute in (bs "on_event") in change (bs "on_event") with l. repeat constructor; lia. }
      split; [exact S1 |]. split.
      { constructor; [apply P; try assumption; unfold names_type; tauto |]. constructor; [| constructor; [apply P; try assumption; unfold names_type; tauto | constructor]].
        split; [apply P; try assumption; unfold names_type; tauto |]. split; [let l := eval vm_compute in (bs "*") in change (c_in cb) with l; repeat constructor; discriminate |].
        split; [exact S0 |]. split; [exact S0 |]. split; [| right; cbn; unfold T_INT, T_USERDATA, T_NONE; intuition discriminate].
        constructor; [apply P; try assumption; unfold names_type; tauto |]. constructor; [apply P; try assumption; unfold names_type; tauto | constructor]. }
      split; [right; cbn; unfold T_DOUBLE, T_CALLBACK, T_USERDATA, T_NONE; intuition discriminate |].
      let l := eval vm_compute in (bs ";") in change (bs ";") with l. repeat constructor; discriminate.
    - eexists. split.
      + eapply (means_intro all77 d (Some (cb_sig cb (ImplW 2)))); [cbn; lia | discriminate | | ].
        * cbn. unfold data_type. split; [tauto |]. split; [repeat constructor; tauto |]. split; [cbn; lia |]. split; intros _; auto.
        * cbn [callbacks flat_map d d_args app]. exists (ImplW 2). split; [| reflexivity]. split; [cbn; lia |]. split; [| reflexivity].
          cbn. unfold data_type. split; [tauto |]. split; [repeat constructor; tauto | reflexivity].
      + split; reflexivity.
  Qed.
End Example_decl.

(** C54: when the prototype is supported, the C function is called once, with the declared
    arguments in the registers of their types, and its result is returned. A callback comes
    with a userdata word that identifies the JS function and its userdata. *)
Theorem arguments_reach_c : forall cfun st ext cbs g junk vs err l0,
  callable g -> supported (hd 0 (s_types g)) (arg_types g) -> (6 <= length junk)%nat ->
  takes_all st ext WNull WNull (arg_types g) vs l0 ->
  (forall ps, cret_ok st (hd 0 (s_types g)) (cfun (s_fn g) ps)) ->
  exists fw cw cbs' l o ps, registered cbs g vs fw cw cbs' /\ takes_all st ext fw cw (arg_types g) vs l /\
    ffi_call2 cfun st cbs g junk vs err = OK o /\ o_ret o = E_OK /\ o_err o = err /\ o_cbs o = cbs' /\
    o_call o = Some (s_fn g, ps) /\ firstn (length vs) ps = map natural l /\
    gives st ext (hd 0 (s_types g)) (cfun (s_fn g) ps) (o_strs o) (o_val o).
Proof.
  intros cfun st ext cbs g junk vs err l0 Hg Hs Hj T Hc.
  apply (call2_called cfun st ext cbs g junk vs err l0 Hg Hj T (map natural) Hc).
  intros fw cw l rc Hrc Tl. exact (call_supported st ext fw cw _ _ l _ rc Tl (arity g junk Hg Hj) Hrc junk Hj Hs).
Qed.
Print Assumptions arguments_reach_c.
(** C55: for the other prototypes the C function is not called at all, and yet the call
    succeeds. *)
Theorem unsupported_not_called : forall cfun st ext cbs g junk vs err l0,
  callable g -> unsupported (hd 0 (s_types g)) (arg_types g) -> (6 <= length junk)%nat ->
  takes_all st ext WNull WNull (arg_types g) vs l0 ->
  exists o, ffi_call2 cfun st cbs g junk vs err = OK o /\ o_ret o = E_OK /\ o_err o = err /\ o_call o = None.
Proof. intros cfun st ext cbs g junk vs err l0 Hg Hu Hj T. exact (call2_not_called cfun st ext cbs g junk vs err l0 Hg Hj T Hu). Qed.
Print Assumptions unsupported_not_called.
(** C56: with a float argument and a double result, or the other way around, all arguments are
    passed as words: the C function finds none of its floating point arguments. *)
Theorem crossed_passed_as_words : forall cfun st ext cbs g junk vs err l0,
  callable g -> crossed (hd 0 (s_types g)) (arg_types g) -> (6 <= length junk)%nat ->
  takes_all st ext WNull WNull (arg_types g) vs l0 ->
  (forall ps, cret_ok st (hd 0 (s_types g)) (cfun (s_fn g) ps)) ->
  exists fw cw l o ps, takes_all st ext fw cw (arg_types g) vs l /\
    ffi_call2 cfun st cbs g junk vs err = OK o /\ o_ret o = E_OK /\ o_err o = err /\
    o_call o = Some (s_fn g, ps) /\ firstn (length vs) ps = map PW l /\ map PW l <> map natural l.
Proof.
  intros cfun st ext cbs g junk vs err l0 Hg Hs Hj T Hc.
  destruct (call2_called cfun st ext cbs g junk vs err l0 Hg Hj T (map PW) Hc) as (fw & cw & cbs' & l & o & ps & _ & Tl & E & E1 & E2 & _ & E3 & E4 & _).
  { intros fw cw l rc Hrc Tl. exact (call_crossed st ext fw cw _ _ l _ rc Tl (arity g junk Hg Hj) Hrc junk Hj Hs). }
  exists fw, cw, l, o, ps. repeat split; try assumption.
  assert (X : existsb is_d l = true \/ existsb is_f l = true).
  { destruct (takes_classes _ _ _ _ _ _ _ Tl) as (A & B & _). destruct Hs as [(_ & I & _) | (_ & I & _)]; [right; apply B, I | left; apply A, I]. }
  clear - X. intros Q. destruct X as [X | X]; apply existsb_exists in X; destruct X as (a & Ia & Ha);
    assert (Y : PW a = natural a) by (clear Ha; induction l as [| b l IH]; [destruct Ia |]; cbn [map] in Q; injection Q as Q1 Q2; destruct Ia as [<- | Ia]; [exact Q1 | apply IH; assumption]);
    destruct a; discriminate.
Qed.
Print Assumptions crossed_passed_as_words.
(** Every signature is of one of the three sorts. *)
Theorem prototypes_are_classified : forall ret ts, supported ret ts \/ unsupported ret ts \/ crossed ret ts.
Proof. exact three_cases. Qed.
Print Assumptions prototypes_are_classified.

Section Examples_call.
  Let sg r ts := mksig None (padded (r :: ts)) (FnC 77) (zlen ts) false true.
  Let ext : extmem := fun _ => 0.
  Let junk := repeat (CW WNull) 6.
  Let cfun : fnptr -> list passed -> cret := fun _ _ => {| cr_bits := 7; cr_text := [] |}.
  Let cbs0 := {| cl_next := 1; cl_list := [] |}.
  Let one := mk_number (d_of_Z 1).
  Let d_one : takes strs_init ext WNull WNull T_DOUBLE one (CD one).
  Proof. apply (tk_double strs_init ext WNull WNull one). { vm_compute. split; congruence. } intros N. apply isnan_spec in N; [vm_compute in N; discriminate | vm_compute; split; congruence]. Qed.
  Let f_one : takes strs_init ext WNull WNull T_FLOAT one (CF one).
  Proof. apply (tk_float strs_init ext WNull WNull one). { vm_compute. split; congruence. } intros N. apply isnan_spec in N; [vm_compute in N; discriminate | vm_compute; split; congruence]. Qed.
  Let can r ts : in_list [T_NONE; T_INT; T_BOOL; T_DOUBLE; T_FLOAT; T_VOID_PTR; T_CHAR_PTR] r = true ->
    forallb (in_list [T_INT; T_BOOL; T_VOID_PTR; T_CHAR_PTR; T_MG_STR_PTR; T_DOUBLE; T_FLOAT]) ts = true -> Nat.leb (length ts) 6 = true ->
    callable (sg r ts) /\ arg_types (sg r ts) = ts.
  Proof.
    intros R D0 L0. apply Nat.leb_le in L0. assert (D : Forall data_type ts) by (apply Forall_forall; intros x Hx; apply data_type_iff; rewrite forallb_forall in D0; apply D0, Hx).
    assert (No : forall x, ~ data_type x -> ~ In x ts) by (intros x Hx Hi; apply Hx; rewrite Forall_forall in D; apply D, Hi).
    assert (NC : ~ In T_CALLBACK ts) by (apply No; unfold data_type; intuition discriminate). assert (NU : ~ In T_USERDATA ts) by (apply No; unfold data_type; intuition discriminate).
    assert (V : ts = upto_void ts) by (symmetry; apply Ffi_Proofs3.upto_id, No; unfold data_type; intuition discriminate).
    assert (A : arg_types (sg r ts) = ts).
    { unfold arg_types, sg, padded. cbn [s_types app tl]. rewrite Ffi_Proofs3.upto_pad. symmetry. exact V. }
    assert (NCU : count T_CALLBACK ts = 0%nat /\ count T_USERDATA ts = 0%nat).
    { split; [destruct (count T_CALLBACK ts) eqn:E; [reflexivity | exfalso; apply NC, count_In; lia] | destruct (count T_USERDATA ts) eqn:E; [reflexivity | exfalso; apply NU, count_In; lia]]. }
    split; [| exact A]. unfold callable, good_sig. rewrite A. destruct NCU as [-> N2]. repeat split; try lia; try tauto.
    - apply in_list_spec. exact R.
    - eapply Forall_impl; [| exact D]. cbv beta. tauto.
    - cbn [sg s_types]. unfold padded. rewrite app_length, repeat_length. cbn [length]. lia.
  Qed.
  (** int f(int, double) is supported *)
  Example supported_example : let g := sg T_INT [T_INT; T_DOUBLE] in let vs := [mk_number (d_of_Z 5); one] in
    callable g /\ supported (hd 0 (s_types g)) (arg_types g) /\ (exists l0, takes_all strs_init ext WNull WNull (arg_types g) vs l0) /\
    (forall ps, cret_ok strs_init (hd 0 (s_types g)) (cfun (s_fn g) ps)) /\
    exists o, ffi_call2 cfun strs_init cbs0 g junk vs E_OK = OK o /\ o_val o = mk_number (d_of_Z 7) /\
      o_call o = Some (FnC 77, [PW (CW (WInt 5)); PD (CD one)]).
  Proof.
    intros g vs. destruct (can T_INT [T_INT; T_DOUBLE] eq_refl eq_refl eq_refl) as [C A].
    split; [exact C |]. unfold g. rewrite A. split; [right; left; cbn; intuition (discriminate || lia) |]. split.
    { exists [CW (WInt 5); CD one]. constructor; [apply (tk_int strs_init ext WNull WNull 5); lia |]. constructor; [exact d_one | constructor]. }
    split; [intros ps; split; discriminate |]. eexists. split; [vm_compute; reflexivity |]. split; vm_compute; reflexivity.
  Qed.
  (** void f(double, int, int, int) is not *)
  Example unsupported_example : let g := sg T_NONE [T_DOUBLE; T_BOOL; T_BOOL; T_BOOL] in let vs := [one; mk_boolean true; mk_boolean true; mk_boolean true] in
    callable g /\ unsupported (hd 0 (s_types g)) (arg_types g) /\ (exists l0, takes_all strs_init ext WNull WNull (arg_types g) vs l0).
  Proof.
    intros g vs. destruct (can T_NONE [T_DOUBLE; T_BOOL; T_BOOL; T_BOOL] eq_refl eq_refl eq_refl) as [C A].
    split; [exact C |]. unfold g. rewrite A. split; [right; left; cbn; intuition (discriminate || lia) |].
    exists [CD one; CW (WInt 1); CW (WInt 1); CW (WInt 1)]. constructor; [exact d_one |]. repeat (constructor; [apply (tk_bool strs_init ext WNull WNull true) |]). constructor.
  Qed.
  (** double f(float) *)
  Example crossed_example : let g := sg T_DOUBLE [T_FLOAT] in
    callable g /\ crossed (hd 0 (s_types g)) (arg_types g) /\ (exists l0, takes_all strs_init ext WNull WNull (arg_types g) [one] l0) /\
    (forall ps, cret_ok strs_init (hd 0 (s_types g)) (cfun (s_fn g) ps)).
  Proof.
    intros g. destruct (can T_DOUBLE [T_FLOAT] eq_refl eq_refl eq_refl) as [C A].
    split; [exact C |]. unfold g. rewrite A. split; [left; cbn; intuition discriminate |]. split; [| intros ps; split; discriminate].
    exists [CF one]. constructor; [exact f_one | constructor].
  Qed.

  (** C57: with another number of arguments nothing is called and a TypeError is reported. *)
  Theorem wrong_arity_not_called : forall cfun st cbs g junk vs err, callable g -> length vs <> length (arg_types g) ->
    ffi_call2 cfun st cbs g junk vs err =
      OK {| o_ret := E_TYPE; o_err := (if err =? E_OK then E_TYPE else err); o_val := V_UNDEFINED; o_cbs := cbs; o_strs := st; o_call := None |}.
  Proof. exact call2_arity. Qed.
  (** C58: but a value of the wrong type for an int does not stop the call: the error comes
      after the C function has been called with 0. *)
  Theorem type_error_not_called_refuted : exists g vs o, callable g /\ length vs = length (arg_types g) /\
    ffi_call2 cfun strs_init cbs0 g junk vs E_OK = OK o /\ o_ret o = E_TYPE /\ o_err o = E_TYPE /\
    exists ps, o_call o = Some (s_fn g, PW (CW (WInt 0)) :: ps).
  Proof.
    exists (sg T_NONE [T_INT]), [V_UNDEFINED]. eexists.
    destruct (can T_NONE [T_INT] eq_refl eq_refl eq_refl) as [C A].
    split; [exact C |]. split; [reflexivity |]. split; [vm_compute; reflexivity |]. split; [reflexivity |]. split; [reflexivity |]. eexists. reflexivity.
  Qed.
End Examples_call.
Print Assumptions wrong_arity_not_called.
Print Assumptions type_error_not_called_refuted.

(** C59: a callback without doubles, or with two arguments, receives the arguments that C
    passed, if no int is negative. *)
Theorem callback_arguments_arrive : forall st ext cbs e i xs ws ds,
  good_sig SigCallback (ce_sig e) -> s_cnt (ce_sig e) = zlen (arg_types (ce_sig e)) -> length (s_types (ce_sig e)) = 7%nat ->
  impl_of (hd 0 (s_types (ce_sig e))) (arg_types (ce_sig e)) = Some i ->
  (In T_DOUBLE (arg_types (ce_sig e)) -> length (arg_types (ce_sig e)) = 2%nat) ->
  find (fun c => ce_id c =? ce_id e) (cl_list cbs) = Some e ->
  loads (ce_id e) (arg_types (ce_sig e)) xs ws ds -> no_negative xs -> zlen (so st) + texts_len xs < 2 ^ 48 ->
  exists st' vs, cb_enter st cbs i ws ds = OK (st', ce_func e, vs) /\ Forall2 (arrives st' ext (ce_userdata e)) xs vs.
Proof. intros st ext cbs e i xs ws ds. exact (cb_delivers st ext cbs e i xs ws ds). Qed.
Print Assumptions callback_arguments_arrive.

Section Examples_cb.
  Let sgc ts i := mksig None (padded (T_NONE :: ts)) (FnImpl i) (zlen ts) true true.
  Let ent s := {| ce_id := 9; ce_func := mk_function 5; ce_userdata := mk_number (d_of_Z 42); ce_sig := s |}.
  Let cbsof s := {| cl_next := 10; cl_list := [ent s] |}.
  Let wi n := {| cw_bits := n; cw_cb := None; cw_text := []; cw_mgtext := [] |}.
  Let wu := {| cw_bits := 4096; cw_cb := Some 9; cw_text := []; cw_mgtext := [] |}.
  Let ext : extmem := fun _ => 0.

  Example callback_example : let s := sgc [T_INT; T_USERDATA; T_BOOL] (ImplW 2) in
    good_sig SigCallback s /\ impl_of (hd 0 (s_types s)) (arg_types s) = Some (ImplW 2) /\
    loads 9 (arg_types s) [XInt 7; XUserdata; XBool true] [wi 7; wu; wi 1] [] /\
    cb_enter strs_init (cbsof s) (ImplW 2) [wi 7; wu; wi 1] [] = OK (strs_init, mk_function 5, [mk_number (d_of_Z 7); mk_number (d_of_Z 42); mk_boolean true]).
  Proof.
    intros s. split; [| split; [reflexivity |]].
    - cbn. unfold data_type. split; [tauto |]. split; [repeat constructor; tauto | reflexivity].
    - split; [| vm_compute; reflexivity]. change (arg_types s) with [T_INT; T_USERDATA; T_BOOL].
      constructor; [constructor; [lia | left; reflexivity] |]. constructor; [constructor; reflexivity |]. constructor; [apply (ir_bool 9 true); reflexivity |]. constructor.
  Qed.

  (** C60: a negative int arrives as another number, however the register was filled. *)
  Theorem negative_int_arrives_refuted : exists n ws, n < 0 /\
    (forall id w, in_reg id T_INT (XInt n) w -> cw_bits w <> n) /\
    let s := sgc [T_INT; T_USERDATA] (ImplW 2) in loads 9 (arg_types s) [XInt n; XUserdata] ws [] /\
    cb_enter strs_init (cbsof s) (ImplW 2) ws [] = OK (strs_init, mk_function 5, [mk_number (d_of_Z 4294967295); mk_number (d_of_Z 42)]).
  Proof.
    exists (-1), [wi 4294967295; wu]. split; [lia |]. split.
    - intros id w H. destruct (reg_not_negative id (-1) w H ltac:(lia)) as [-> | ->]; lia.
    - cbv zeta. split; [| vm_compute; reflexivity]. change (arg_types (sgc [T_INT; T_USERDATA] (ImplW 2))) with [T_INT; T_USERDATA].
      constructor; [constructor; [lia | left; reflexivity] |]. constructor; [constructor; reflexivity |]. constructor.
  Qed.
  (** C61: a callback (userdata, int, double) is accepted, and its int arrives as a denormal
      of the double's bits and its double as 0. *)
  Theorem three_arguments_arrive_refuted : exists ts i ws ds vs,
    ts = [T_USERDATA; T_INT; T_DOUBLE] /\ impl_of T_NONE ts = Some i /\
    loads 9 ts [XUserdata; XInt 7; XDouble (d_of_Z 3)] ws ds /\
    cb_enter strs_init (cbsof (sgc ts i)) i ws ds = OK (strs_init, mk_function 5, vs) /\
    ~ Forall2 (arrives strs_init ext (mk_number (d_of_Z 42))) [XUserdata; XInt 7; XDouble (d_of_Z 3)] vs.
  Proof.
    exists [T_USERDATA; T_INT; T_DOUBLE], ImplWPD, [wu; wi 7], [d_of_Z 3]. eexists. split; [reflexivity |]. split; [reflexivity |]. split; [| split].
    - constructor; [constructor; reflexivity |]. constructor; [constructor; [lia | left; reflexivity] |]. apply ld_double; [vm_compute; split; congruence | | constructor].
      intros N. apply isnan_spec in N; [vm_compute in N; discriminate | vm_compute; split; congruence].
    - vm_compute. reflexivity.
    - intros F. inversion F as [| ? ? ? ? _ F1]; subst. inversion F1 as [| ? ? ? ? H7 _]; subst. inversion H7.
  Qed.
  (** C62: the same function and userdata given again with another callback type keep the
      first type: the function is called with arguments of the wrong type. *)
  Theorem callback_type_follows_call_refuted : exists g1 g2 vs o1 o2 cs,
    callable g1 /\ callable g2 /\ s_cb g2 = Some cs /\
    ffi_call2 (fun _ _ => {| cr_bits := 0; cr_text := [] |}) strs_init {| cl_next := 1; cl_list := [] |} g1 (repeat (CW WNull) 6) vs E_OK = OK o1 /\
    ffi_call2 (fun _ _ => {| cr_bits := 0; cr_text := [] |}) strs_init (o_cbs o1) g2 (repeat (CW WNull) 6) vs E_OK = OK o2 /\
    (forall e, In e (cl_list (o_cbs o2)) -> ce_sig e <> cs) /\
    (* C calls the function as the second declaration says *)
    loads 1 (arg_types cs) [XBool true; XUserdata] [wi 1; {| cw_bits := 4096; cw_cb := Some 1; cw_text := []; cw_mgtext := [] |}] [] /\
    cb_enter strs_init (o_cbs o2) (ImplW 2) [wi 1; {| cw_bits := 4096; cw_cb := Some 1; cw_text := []; cw_mgtext := [] |}] [] =
      OK (strs_init, mk_function 5, [mk_number (d_of_Z 1); mk_number (d_of_Z 42)]).
  Proof.
    set (c1 := sgc [T_INT; T_USERDATA] (ImplW 2)). set (c2 := sgc [T_BOOL; T_USERDATA] (ImplW 2)).
    set (fs c := mksig (Some c) (padded [T_NONE; T_CALLBACK; T_USERDATA]) (FnC 77) 2 false true).
    assert (Cal : forall c, callable (fs c)).
    { intros c. unfold callable, good_sig. change (arg_types (fs c)) with [T_CALLBACK; T_USERDATA]. cbn. unfold data_type.
      split; [| repeat split; try (cbn; lia); discriminate]. split; [tauto |]. split; [repeat constructor; tauto |]. split; [cbn; lia | tauto]. }
    exists (fs c1), (fs c2), [mk_function 5; mk_number (d_of_Z 42)]. eexists. eexists. exists c2.
    split; [apply Cal |]. split; [apply Cal |]. split; [reflexivity |]. split; [vm_compute; reflexivity |]. split; [vm_compute; reflexivity |]. split; [| split].
    - cbn [o_cbs cl_list In]. intros e [<- | []]. cbn [ce_sig]. intros Q. vm_compute in Q. discriminate Q.
    - change (arg_types c2) with [T_BOOL; T_USERDATA]. constructor; [apply (ir_bool 1 true); reflexivity |]. constructor; [constructor; reflexivity |]. constructor.
    - vm_compute. reflexivity.
  Qed.
End Examples_cb.
Print Assumptions negative_int_arrives_refuted.
Print Assumptions three_arguments_arrive_refuted.
Print Assumptions callback_type_follows_call_refuted.

(** C63: ffi_cb_free of a JS function removes exactly the first callback registered for it
    and the userdata and returns 1, or returns 0 and changes nothing. *)
Theorem cb_free_removes_one : forall cbs f u err, is_u64 f -> kind_of f = KFunction ->
  (exists a e b, cl_list cbs = a ++ e :: b /\ ce_func e = f /\ ce_userdata e = u /\
     (forall x, In x a -> ~ (ce_func x = f /\ ce_userdata x = u)) /\
     cb_free cbs f u err = ({| cl_next := cl_next cbs; cl_list := a ++ b |}, err, mk_number (d_of_Z 1))) \/
  ((forall x, In x (cl_list cbs) -> ~ (ce_func x = f /\ ce_userdata x = u)) /\
     cb_free cbs f u err = (cbs, err, mk_number (d_of_Z 0))).
Proof.
  intros [nx l] f u err U K. unfold cb_free. cbn [cl_list cl_next]. destruct (preds_kind f U) as (_ & _ & _ & _ & _ & _ & _ & _ & P & _). rewrite P, K. cbn [kind_eqb].
  assert (M : forall x, matches f u x = true <-> ce_func x = f /\ ce_userdata x = u) by (intros x; unfold matches; rewrite andb_true_iff, !Z.eqb_eq; reflexivity).
  destruct (existsb (matches f u) l) eqn:Ex.
  - left. assert (S0 : exists a e b, l = a ++ e :: b /\ matches f u e = true /\ forall y, In y a -> matches f u y = false).
    { clear - Ex. induction l as [| x l IH]; [discriminate |]. cbn [existsb] in Ex. destruct (matches f u x) eqn:E.
      - exists [], x, l. split; [reflexivity |]. split; [exact E | intros y []].
      - destruct (IH Ex) as (a & e & b & -> & H1 & H2). exists (x :: a), e, b. split; [reflexivity |]. split; [exact H1 |]. intros y [<- | Hy]; [exact E | apply H2, Hy]. }
    destruct S0 as (a & e & b & -> & H1 & H2). exists a, e, b. apply M in H1 as H3. destruct H3 as [H3 H4]. split; [reflexivity |]. split; [exact H3 |]. split; [exact H4 |]. split.
    + intros x Hx Q. apply M in Q. rewrite (H2 x Hx) in Q. discriminate.
    + change (if kind_eqb KFunction KFunction then ?a else ?b) with a. rewrite (remove_first_app _ _ _ _ H2 H1). reflexivity.
  - right. pose proof (existsb_out _ _ Ex) as H. split; [intros x Hx Q; apply M in Q; rewrite (H x Hx) in Q; discriminate |].
    rewrite (remove_first_none _ _ H). reflexivity.
Qed.
Print Assumptions cb_free_removes_one.
(** A callback registered for a C function pointer or an FFI function cannot be freed. *)
Theorem cb_free_frees_refuted : exists g f u o, callable g /\
  ffi_call2 (fun _ _ => {| cr_bits := 0; cr_text := [] |}) strs_init {| cl_next := 1; cl_list := [] |} g (repeat (CW WNull) 6) [f; u] E_OK = OK o /\
  o_ret o = E_OK /\ (exists e, cl_list (o_cbs o) = [e] /\ ce_func e = f /\ ce_userdata e = u) /\
  cb_free (o_cbs o) f u E_OK = (o_cbs o, E_TYPE, mk_number (d_of_Z 0)).
Proof.
  set (c := mksig None (padded [T_NONE; T_USERDATA]) (FnImpl (ImplW 1)) 1 true true).
  exists (mksig (Some c) (padded [T_NONE; T_CALLBACK; T_USERDATA]) (FnC 77) 2 false true), (fst (mk_foreign 4096)), V_NULL. eexists. split.
  { unfold callable, good_sig. change (arg_types (mksig (Some c) (padded [T_NONE; T_CALLBACK; T_USERDATA]) (FnC 77) 2 false true)) with [T_CALLBACK; T_USERDATA]. cbn. unfold data_type.
      split; [| repeat split; try (cbn; lia); discriminate]. split; [tauto |]. split; [repeat constructor; tauto |]. split; [cbn; lia | tauto]. }
  split; [vm_compute; reflexivity |]. split; [reflexivity |]. split; [eexists; split; [reflexivity | split; reflexivity] |]. vm_compute. reflexivity.
Qed.
Print Assumptions cb_free_frees_refuted.
Example cb_free_example : let e := {| ce_id := 1; ce_func := mk_function 5; ce_userdata := V_NULL; ce_sig := sig_init |} in
  kind_of (mk_function 5) = KFunction /\
  cb_free {| cl_next := 2; cl_list := [e] |} (mk_function 5) V_NULL E_OK = ({| cl_next := 2; cl_list := [] |}, E_OK, mk_number (d_of_Z 1)).
Proof. vm_compute. split; reflexivity. Qed.
