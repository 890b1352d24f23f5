(** Calls of C functions by scripts, memory reached through pointers, mjs_apply (properties C74, C75, C76). *)
From Verif Require Import Base BaseFacts Value_Model Value_Spec Value_Proofs Float_Proofs Str_Model Str_Spec Str_Proofs2 Conv_Model Obj_Model Arr_Model.
From Verif Require Import SUtil_Spec Arr_Proofs Ops_Spec Ops_Proofs Ops_Proofs2 TokNum_Model Data_Model Data_Spec Bcode_Model Txt_Model Vm_Model Vm_Spec Vm_Proofs Vm_Proofs2 Host_Proofs Props_Vm.
Ltac Zify.zify_post_hook ::= idtac.

(** C74: a C function called with arguments [vs] and object [this] finds exactly these with
    mjs_nargs, mjs_arg and mjs_get_this; what it passes to mjs_return takes the place of the
    function and the arguments, whatever it does to heap, memory and error code; everything else
    of the caller is as before and execution goes on behind the call. *)
Theorem c_function_call : forall w exec k m bp i func this vs base A,
  is_foreign func = true -> at_call m func this vs base A -> 0 <= bp_start bp + i < 2 ^ 31 ->
  exists m1,
    nargs m1 = OK (zlen vs) /\ args m1 = OK vs /\ (forall j, 0 <= j -> arg m1 j = OK (nth (Z.to_nat j) vs V_UNDEFINED)) /\
    m_this m1 = this /\ m_heap m1 = m_heap m /\ m_mem m1 = m_mem m /\ m_err m1 = m_err m /\
    forall v h mem e, call_native w exec k (get_ptr func) m1 = return_v (set_err (set_mem (set_heap m1 h) mem) e) v ->
      exists m2, do_call w exec k m bp i = OK (Go m2 bp i) /\ sk_live (m_stack m2) = v :: base /\
        sk_live (m_call m2) = sk_live (m_call m) /\ sk_live (m_scopes m2) = sk_live (m_scopes m) /\
        sk_live (m_loops m2) = sk_live (m_loops m) /\ sk_live (m_arg m2) = A /\ m_this m2 = m_this m /\
        m_heap m2 = h /\ m_mem m2 = mem /\ m_err m2 = e.
Proof.
  intros w exec k m bp i func this vs base A Hf Ha Hi.
  destruct (c_call w exec k m bp i func this vs base A Hf Ha Hi) as (m1 & I & H1 & H2 & H3 & H4 & _ & H5). exists m1.
  split; [exact (inside_nargs _ _ _ _ I)|]. split; [exact (inside_args _ _ _ _ I)|].
  split; [intros j Hj; exact (inside_arg _ _ _ _ j I Hj)|]. auto.
Qed.
Print Assumptions c_function_call.

(** The methods of strings and arrays are called with the arguments and the object of the script. *)
Definition array_methods : list (Z * (heap -> extmem -> Z -> list Z -> R (heap * Z * Z))) :=
  [(F_PUSH, array_push_builtin); (F_SPLICE, array_splice)].
Definition string_methods : list (Z * (strs -> extmem -> Z -> list Z -> R (strs * Z * Z))) :=
  [(F_CHAR_CODE_AT, string_char_code_at); (F_INDEX_OF, string_index_of); (F_SLICE, string_slice)].
Lemma set_err_same m : set_err m (m_err m) = m.
Proof. destruct m; reflexivity. Qed.
Lemma prepend_err m e : prepend m e = set_err m (if (e =? E_OK) || negb (m_err m =? E_OK) then m_err m else e).
Proof.
  unfold prepend. destruct (e =? E_OK); cbn [orb]; [symmetry; apply set_err_same|].
  destruct (m_err m =? E_OK); cbn [negb]; [reflexivity|symmetry; apply set_err_same].
Qed.
Theorem array_method_call : forall w exec k m bp i p f this vs base A h v e,
  In (p, f) array_methods -> at_call m (foreign_fn p) this vs base A -> 0 <= bp_start bp + i < 2 ^ 31 ->
  m_err m = E_OK -> f (m_heap m) (m_ext m) this vs = OK (h, v, e) ->
  exists m2, do_call w exec k m bp i = OK (Go m2 bp i) /\ sk_live (m_stack m2) = v :: base /\ m_heap m2 = h /\ m_err m2 = e /\
    m_mem m2 = m_mem m /\ m_this m2 = m_this m /\ sk_live (m_call m2) = sk_live (m_call m) /\
    sk_live (m_scopes m2) = sk_live (m_scopes m) /\ sk_live (m_loops m2) = sk_live (m_loops m) /\ sk_live (m_arg m2) = A.
Proof.
  intros w exec k m bp i p f this vs base A h v e Hp Ha Hi He Hf.
  assert (X : is_foreign (foreign_fn p) = true /\ get_ptr (foreign_fn p) = p).
  { destruct Hp as [Hp|[Hp|[]]]; injection Hp as <- _; split; vm_compute; reflexivity. }
  destruct X as [X1 X2].
  destruct (c_call w exec k m bp i (foreign_fn p) this vs base A X1 Ha Hi) as (m1 & I & H1 & H2 & H3 & H4 & H6 & H5).
  destruct (H5 v h (m_mem m1) e) as (m2 & R & R1 & R2 & R3 & R4 & R5 & R6 & R7 & R8 & R9).
  - rewrite X2. assert (Q : call_native w exec k p m1 = arr_builtin f m1).
    { destruct k; destruct Hp as [Hp|[Hp|[]]]; injection Hp as <- <-; reflexivity. }
    rewrite Q. unfold arr_builtin. rewrite (inside_args _ _ _ _ I). cbn [bind]. unfold m_ext. rewrite H4. fold (m_ext m). rewrite H2, H1, Hf. cbn [bind].
    rewrite prepend_err. cbn [m_err set_heap]. rewrite H3, He.
    replace (if (e =? E_OK) || negb (E_OK =? E_OK) then E_OK else e) with e; [rewrite <- H4; destruct m1; reflexivity|].
    rewrite Z.eqb_refl. cbn [negb]. rewrite orb_false_r. destruct (e =? E_OK) eqn:Q2; [apply Z.eqb_eq in Q2; exact Q2|reflexivity].
  - exists m2. repeat split; congruence.
Qed.
Print Assumptions array_method_call.
Theorem string_method_call : forall w exec k m bp i p f this vs base A st v e,
  In (p, f) string_methods -> at_call m (foreign_fn p) this vs base A -> 0 <= bp_start bp + i < 2 ^ 31 ->
  m_err m = E_OK -> f (m_st m) (m_ext m) this vs = OK (st, v, e) ->
  exists m2, do_call w exec k m bp i = OK (Go m2 bp i) /\ sk_live (m_stack m2) = v :: base /\ m_heap m2 = with_st (m_heap m) st /\ m_err m2 = e /\
    m_mem m2 = m_mem m /\ m_this m2 = m_this m /\ sk_live (m_call m2) = sk_live (m_call m) /\
    sk_live (m_scopes m2) = sk_live (m_scopes m) /\ sk_live (m_loops m2) = sk_live (m_loops m) /\ sk_live (m_arg m2) = A.
Proof.
  intros w exec k m bp i p f this vs base A st v e Hp Ha Hi He Hf.
  assert (X : is_foreign (foreign_fn p) = true /\ get_ptr (foreign_fn p) = p).
  { destruct Hp as [Hp|[Hp|[Hp|[]]]]; injection Hp as <- _; split; vm_compute; reflexivity. }
  destruct X as [X1 X2].
  destruct (c_call w exec k m bp i (foreign_fn p) this vs base A X1 Ha Hi) as (m1 & I & H1 & H2 & H3 & H4 & H6 & H5).
  destruct (H5 v (with_st (m_heap m) st) (m_mem m1) e) as (m2 & R & R1 & R2 & R3 & R4 & R5 & R6 & R7 & R8 & R9).
  - rewrite X2. assert (Q : call_native w exec k p m1 = str_builtin f m1).
    { destruct k; destruct Hp as [Hp|[Hp|[Hp|[]]]]; injection Hp as <- <-; reflexivity. }
    rewrite Q. unfold str_builtin. rewrite (inside_args _ _ _ _ I). cbn [bind]. unfold m_ext, m_st. rewrite H4. fold (m_ext m). rewrite H2. fold (m_st m). rewrite H1, Hf. cbn [bind].
    rewrite prepend_err. unfold set_st. cbn [m_err set_heap]. rewrite H2, H3, He.
    replace (if (e =? E_OK) || negb (E_OK =? E_OK) then E_OK else e) with e; [rewrite <- H4; destruct m1; reflexivity|].
    rewrite Z.eqb_refl. cbn [negb]. rewrite orb_false_r. destruct (e =? E_OK) eqn:Q2; [apply Z.eqb_eq in Q2; exact Q2|reflexivity].
  - exists m2. repeat split; congruence.
Qed.
Print Assumptions string_method_call.

(** Example: a script calls a C function with the arguments 4 and 5. *)
Definition ex_caller : vm :=
  set_arg (set_stack (set_code ex_m no_code) {| sk_live := [vnum 5; vnum 4; fst (mk_foreign 4096); V_NULL]; sk_stale := []; sk_cap := 64 |})
          {| sk_live := [vnum 2; V_UNDEFINED]; sk_stale := []; sk_cap := 64 |}.
Example ex_at_call : at_call ex_caller (fst (mk_foreign 4096)) V_UNDEFINED [vnum 4; vnum 5] [V_NULL] [] /\
  is_foreign (fst (mk_foreign 4096)) = true /\ (forall m, h_cfunc w0 4096 m = return_v m (vnum 7)).
Proof. split; [|split; [vm_compute; reflexivity|intros; reflexivity]]. repeat split. Qed.

(** C75: p[n] = b writes the byte [b] at the address p + n and nothing else, and the value of the
    assignment is b; p[n] reads the byte. *)
Theorem byte_written : forall m S p obj n key b val old,
  sk_live (m_stack m) = val :: obj :: key :: S -> is_foreign obj = true -> get_ptr obj = p -> is_object obj = false ->
  int_value key n -> 0 <= n < 2 ^ 31 -> int_value val b -> 0 <= b <= 255 -> m_mem m (p + n) = Some old ->
  exists m', assign m = OK m' /\ sk_live (m_stack m') = val :: S /\ m_err m' = m_err m /\ m_heap m' = m_heap m /\
    m_mem m' (p + n) = Some b /\ forall a, a <> p + n -> m_mem m' a = m_mem m a.
Proof.
  intros m S p obj n key b val old HS Hf Hp Ho Hk Hn Hv Hb Hm. unfold assign, pop. rewrite HS.
  cbn [m_stack set_stack sk_live sk_stale sk_cap]. rewrite Ho, Hf.
  assert (G : forall v x, int_value v x -> 0 <= x < 2 ^ 31 -> get_int v = OK x).
  { intros v x Hx Bx. unfold get_int, get_double. rewrite (range_int 0 (2 ^ 32 - 1) v x Hx) by lia. cbn [bind]. f_equal. apply s32_small. lia. }
  rewrite (G key n Hk Hn). cbn [bind]. rewrite (G val b Hv ltac:(lia)). cbn [bind].
  destruct (int_value_number key n Hk ltac:(lia)) as (_ & -> & _). destruct (int_value_number val b Hv ltac:(lia)) as (_ & -> & _).
  cbn [negb orb]. replace (b <? 0) with false by lia. replace (255 <? b) with false by lia. cbn [orb]. rewrite Hp. unfold wr.
  cbn [m_mem set_stack]. rewrite Hm. cbn [bind]. eexists. split; [reflexivity|].
  cbn [m_stack push set_stack set_mem sk_push sk_live m_err m_heap m_mem]. repeat split.
  - unfold rset. rewrite Z.eqb_refl. reflexivity.
  - intros a Ha. unfold rset. replace (a =? p + n) with false by lia. reflexivity.
Qed.
Print Assumptions byte_written.
Theorem larger_value_rejected : forall m S obj n key b val,
  sk_live (m_stack m) = val :: obj :: key :: S -> is_foreign obj = true -> is_object obj = false -> m_err m = E_OK ->
  int_value key n -> 0 <= n < 2 ^ 31 -> int_value val b -> 256 <= b < 2 ^ 32 ->
  exists m', assign m = OK m' /\ sk_live (m_stack m') = V_UNDEFINED :: S /\ m_err m' = E_TYPE /\ m_mem m' = m_mem m.
Proof.
  intros m S obj n key b val HS Hf Ho He Hk Hn Hv Hb. unfold assign, pop. rewrite HS.
  cbn [m_stack set_stack sk_live sk_stale sk_cap]. rewrite Ho, Hf. unfold get_int, get_double.
  rewrite (range_int 0 (2 ^ 32 - 1) key n Hk) by lia. cbn [bind]. rewrite (range_int 0 (2 ^ 32 - 1) val b Hv) by lia. cbn [bind].
  destruct (int_value_number key n Hk ltac:(lia)) as (_ & -> & _). destruct (int_value_number val b Hv ltac:(lia)) as (_ & -> & _).
  cbn [negb orb]. assert (D : (s32 b <? 0) || (255 <? s32 b) = true).
  { unfold s32. rewrite Z.mod_small by lia. cbv zeta. destruct (b <? 2 ^ 31) eqn:?; lia. }
  rewrite D. unfold prepend. cbn [m_err set_stack]. rewrite He. rewrite Z.eqb_refl. change (E_TYPE =? E_OK) with false. cbv iota.
  eexists. split; [reflexivity|]. repeat split.
Qed.
Print Assumptions larger_value_rejected.
Theorem byte_read : forall m S p obj n key b prev,
  sk_live (m_stack m) = obj :: key :: S -> is_foreign obj = true -> is_string obj = false -> is_array obj = false -> get_ptr obj = p ->
  int_value key n -> 0 <= n < 2 ^ 31 -> m_mem m (p + n) = Some b ->
  exists m', do_get m prev = OK m' /\ sk_live (m_stack m') = vnum b :: S /\ m_err m' = m_err m /\ m_mem m' = m_mem m /\ m_heap m' = m_heap m.
Proof.
  intros m S p obj n key b prev HS Hf Hs Ha Hp Hk Hn Hm. unfold do_get, pop. rewrite HS. cbn [m_stack set_stack sk_live sk_stale sk_cap].
  match goal with |- context [getprop_builtin ?x obj key] => set (m1 := x) end.
  destruct (int_to_string (m_st m1) (m_ext m1) key n Hk ltac:(lia)) as (t & T & Nt).
  assert (Sk : is_string key = false).
  { destruct (int_value_dec key n Hk ltac:(lia)) as (U & _ & _). destruct (int_value_number key n Hk ltac:(lia)) as (_ & N & _).
    destruct (preds_kind key U) as (P3 & _ & _ & _ & P4 & _). rewrite P4. rewrite P3 in N. destruct (kind_of key); cbn in *; congruence. }
  unfold getprop_builtin, name_text. rewrite Sk, T. cbn [bind]. rewrite Hs.
  destruct (numeral_digits n t Nt) as [D V].
  assert (NA : (zlen t =? 5) && bytes_eqb (firstn 5 (t ++ [0])) (bs "apply") = false).
  { destruct D as [D1 D2]. destruct t as [|c t]; [congruence|]. pose proof (Forall_inv D2) as Hc. cbn beta in Hc.
    cbn [app firstn]. change (bs "apply") with [97; 112; 112; 108; 121]. cbn [bytes_eqb]. replace (c =? 97) with false by lia. apply andb_false_r. }
  rewrite NA, Ha, Hf. unfold getprop_foreign. rewrite cstr_to_ulong_digits by (try assumption; lia). rewrite V, s32_small by lia.
  rewrite Hp. unfold rd. change (m_mem m1) with (m_mem m). rewrite Hm. cbn [bind].
  eexists. split; [reflexivity|]. repeat split.
Qed.
Print Assumptions byte_read.
(** Any index: not so, a negative one is undefined behaviour when written. *)
Theorem any_index_refuted : exists m key val, int_value key (-1) /\ int_value val 7 /\
  sk_live (m_stack m) = [val; fst (mk_foreign 4096); key] /\ m_mem m 4095 = Some 0 /\ assign m = UB.
Proof.
  exists (set_mem (set_stack ex_m {| sk_live := [vnum 7; fst (mk_foreign 4096); vnum (-1)]; sk_stale := []; sk_cap := 64 |}) (fun _ => Some 0)), (d_of_Z (-1)), (d_of_Z 7).
  split; [apply of_Z_int; lia|]. split; [apply of_Z_int; lia|]. split; [vm_compute; reflexivity|]. split; vm_compute; reflexivity.
Qed.
Print Assumptions any_index_refuted.
Example ex_byte : let obj := fst (mk_foreign 4096) in let m := set_mem (set_stack ex_m {| sk_live := [d_of_Z 255; obj; d_of_Z 2]; sk_stale := []; sk_cap := 64 |}) (fun _ => Some 0) in
  is_foreign obj = true /\ is_object obj = false /\ is_string obj = false /\ is_array obj = false /\ get_ptr obj = 4096 /\
  int_value (d_of_Z 255) 255 /\ int_value (d_of_Z 2) 2 /\ m_mem m (4096 + 2) = Some 0.
Proof.
  cbv zeta. do 5 (split; [vm_compute; reflexivity|]). split; [apply of_Z_int; lia|]. split; [apply of_Z_int; lia|reflexivity].
Qed.

(** C76: whatever function the host calls with mjs_apply and whatever happens in it, [this] is
    afterwards what it was before. *)
Theorem apply_keeps_this : forall fuel w m func this vs m' r,
  apply fuel w m func this vs = OK (m', r) -> m_this m' = m_this m.
Proof.
  intros fuel w m func this vs m' r H. unfold apply, apply_with in H.
  destruct (_ && _); [injection H as <- _; reflexivity|]. cbv zeta in H. bd H. apply ok_pair in H. destruct H as [<- _]. reflexivity.
Qed.
Print Assumptions apply_keeps_this.
Example ex_apply_this : exists m' r, apply 9 w0 (set_this (set_stack ex_m {| sk_live := []; sk_stale := []; sk_cap := 640 |}) (vnum 3)) (fst (mk_foreign 4096)) (vnum 8) [vnum 1] = OK (m', r) /\ m_this m' = vnum 3.
Proof.
  set (x := match apply 9 w0 (set_this (set_stack ex_m {| sk_live := []; sk_stale := []; sk_cap := 640 |}) (vnum 3)) (fst (mk_foreign 4096)) (vnum 8) [vnum 1] with OK x => x | _ => (ex_m, 0) end).
  exists (fst x), (snd x). split; vm_compute; reflexivity.
Qed.
