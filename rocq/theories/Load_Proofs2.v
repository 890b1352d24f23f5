(** The running C function, its arguments, and mjs_load around the execution of the file. *)
From Verif Require Import Base BaseFacts Value_Model Value_Spec Value_Proofs Data_Model Str_Model Str_Spec Str_Proofs Str_Proofs2 Float_Proofs Lit_Proofs
  Ops_Model Ops_Spec Ops_Proofs Ops_Proofs2 TokNum_Model Txt_Model Obj_Model Obj_Spec Obj_Proofs Obj_Proofs2 Conv_Model Num_Model Varint_Model Varint_Proofs Bcode_Model Bcode_Proofs
  Vm_Model Vm_Spec Vm_Proofs Vm_Proofs2 Vm_Proofs4 Tok_Spec Parse_Model Expr_Spec Run_Spec Expr_Proofs1 Expr_Proofs3 Expr_Proofs4 Expr_Proofs5 Lang_Spec Lang_Code Lang_Spec2 Lang_Exec1 Lang_Key Lang_Exec2 Lang_Exec3 Lang_Exec4 Lang_Exec5 Lang_Native Lang_Exec6 Lang_Exec7 Lang_Exec8 Lang_Exec9 Props_Bcode Run_Model Lex_Proofs Expr_Proofs6 Lang_Proofs7 Lang_Exec10 Lang_Spec5 Lang_Fail1 Lang_Fail2 Lang_Fail3 Lang_Fail4 Lang_Spec3 Lang_Spec4 Lang_Spec6 Lang_Apply Props_Lang Load_Model Load_Spec Load_Proofs.
From Coq Require Import ZifyBool.
Ltac Zify.zify_post_hook ::= idtac.

(** ** Strings as C strings *)
Lemma until_nul_all d : no_nul d -> until_nul (d ++ [0]) = d.
Proof. induction 1 as [|c d Hc _ IH]; [reflexivity|]. cbn [app until_nul]. replace (c =? 0) with false by lia. rewrite IH. reflexivity. Qed.
Lemma get_cstring_ok st ext v d : holds st ext v d -> nul_terminated st ext v d -> no_nul d -> get_cstring st ext v = OK (Some d).
Proof.
  intros (_ & _ & l & G & Nl & _) (l2 & G2 & Rd) N. rewrite G in G2. injection G2 as <-. unfold get_cstring. rewrite G. cbn [bind].
  assert (E : (x <- loc_read st ext v l (zlen d + 1) ;; OK (if (nth (Z.to_nat (zlen d)) x 1 =? 0) && (zlen (until_nul x) =? zlen d) then Some (sub x 0 (zlen d)) else None)) = OK (Some d)).
  { rewrite Rd. cbn [bind]. rewrite until_nul_all by exact N. rewrite Z.eqb_refl, andb_true_r.
    replace (Z.to_nat (zlen d)) with (length d) by (unfold zlen; lia). rewrite app_nth2, Nat.sub_diag by lia. change (nth 0 [0] 1 =? 0) with true. cbv iota.
    unfold sub. change (Z.to_nat 0) with 0%nat. rewrite skipn_O. rewrite ?Z.sub_0_r. replace (Z.to_nat (zlen d)) with (length d) by (unfold zlen; lia).
    rewrite firstn_app, firstn_all, Nat.sub_diag, firstn_O, app_nil_r. reflexivity. }
  destruct l; [exact E|exact E|exact E|exact E|congruence] || (destruct l; try exact E; congruence).
Qed.

(** ** The frame *)
Lemma called_look m xs f base C : called m xs f base C ->
  look (m_code m) (m_mem m) (m_res m) (set_err m E_OK) (rev xs ++ f :: base) (vnum (zlen base + 1) :: C) (sk_live (m_arg m)) (sk_live (m_scopes m)) (sk_live (m_loops m)) (m_this m) (m_last m) (m_heap m).
Proof. intros (H1 & H2 & _). unfold look. cbn. repeat split; assumption. Qed.
Lemma called_pos m xs f base C : called m xs f base C -> getretvalpos m = OK (zlen base).
Proof. intros H. change (getretvalpos m) with (getretvalpos (set_err m E_OK)). eapply look_retpos; [apply (called_look _ _ _ _ _ H)|apply H]. Qed.
Lemma called_arg m xs f base C n : called m xs f base C -> 0 <= n -> arg m n = OK (nth (Z.to_nat n) xs V_UNDEFINED).
Proof.
  intros H Hn. assert (Lr : zlen (rev xs) = zlen xs) by (unfold zlen; rewrite rev_length; reflexivity).
  destruct (Z_lt_ge_dec n (zlen xs)) as [L|L].
  - change (arg m n) with (arg (set_err m E_OK) n). rewrite (look_arg_at _ _ _ _ _ _ _ _ _ _ _ _ _ _ n (called_look _ _ _ _ _ H)) by (try apply H; rewrite Lr; lia).
    rewrite rev_involutive. reflexivity.
  - unfold arg. rewrite (called_pos _ _ _ _ _ H). cbn [bind]. cbv zeta. unfold sk_size. destruct H as (H & _ & _). rewrite H, zlen_app, zlen_cons, Lr.
    replace (zlen base + 1 + n <? zlen xs + (1 + zlen base)) with false by lia. rewrite andb_false_r. rewrite nth_overflow; [reflexivity|unfold zlen in *; lia].
Qed.
Lemma called_return m xs f base C v : called m xs f base C ->
  exists s, sk_live s = base /\ return_v m v = OK (push (set_stack m s) v).
Proof.
  intros H. unfold return_v. rewrite (called_pos _ _ _ _ _ H). cbn [bind]. destruct H as (H & _ & Hb). pose proof (zlen_nonneg base). rewrite size_of_int_id by lia.
  assert (Ls : sk_live (m_stack m) = (rev xs ++ [f]) ++ base) by (rewrite <- app_assoc; exact H).
  rewrite (set_len_live _ _ _ base Ls eq_refl). cbn [bind]. eexists. split; [|reflexivity]. reflexivity.
Qed.

(** ** Values that are no objects *)
Lemma same_kind cd mem W s v a : rel cd (mext mem) W s -> vrep cd (mext mem) W v a ->
  is_object v = (match a with VObj _ | VArr _ => true | _ => false end) /\ is_string v = is_text a.
Proof. intros R V. destruct (kind_facts _ _ _ _ _ _ R V) as (_ & _ & H1 & H2 & _). split; assumption. Qed.

Lemma bind_bind {A B D} (a : R A) (g : A -> R B) (k : B -> R D) : bind (bind a g) k = bind a (fun x => bind (g x) k).
Proof. destruct a; reflexivity. Qed.
(** ** mjs_load without its ends: what it does between taking the arguments and returning *)
Definition middle (fs : files) (exec : vm -> list Z -> list Z -> R (vm * Z)) (execute : vm -> Z -> R (vm * Z)) (m : vm) (path : list Z) (custom : bool) : R (vm * Z * Z) :=
  bp <- loaded_part (c_parts (m_code m)) path ;;
  match bp with
  | None => exec_file fs exec m path
  | Some bp => if negb (exec_res m bp =? E_OK) || custom then
                 '(m, r) <- execute m (bp_start bp) ;; OK (m, r, m_err m)
               else OK (m, V_UNDEFINED, E_OK)
  end.
(** The state in which the file is executed. *)
Definition inside (m : vm) (xs : list Z) (vs : list val) : vm :=
  if has_global vs then set_scopes m (sk_push (m_scopes m) (nth 1 xs V_UNDEFINED)) else m.
Section Frame.
Context (fs : files) (ex : vm -> list Z -> list Z -> R (vm * Z)) (exe : vm -> Z -> R (vm * Z)).
Context (m : vm) (W : world) (s : state) (sc sc' : list nat) (th : val) (xs : list Z) (vs : list val) (f : Z) (base C : list Z) (path : list Z).
Context (Hc : called m xs f base C) (Hv : Forall2 (vrep (m_code m) (m_ext m) W) xs vs) (Hs : in_state m W s sc th)
        (Hp : exists r, vs = VPrim (AStr path) :: r) (Hn : no_nul path) (Hg : load_scopes sc vs = Some sc').
Lemma second_arg : is_object (nth 1 xs V_UNDEFINED) = has_global vs /\ (forall i, nth_error vs 1 = Some (VObj i) -> (i < length (w_addr W))%nat /\ nth 1 xs V_UNDEFINED = obj_at W i).
Proof.
  destruct Hp as (r & ->). destruct Hs as (_ & Rl & _). inversion Hv as [|x0 y0 xs1 vs1 V0 F1]; subst. destruct F1 as [|x1 y1 xs2 vs2 V1 F2]; [split; [reflexivity|discriminate]|].
  destruct (same_kind _ _ _ _ _ _ Rl V1) as [K _]. cbn [nth has_global nth_error]. split; [|intros i [= ->]; exact V1].
  rewrite K. destruct y1; try reflexivity. discriminate Hg.
Qed.
Lemma load_is : load fs ex exe m =
  ('(m2, res, ret) <- middle fs ex exe (inside m xs vs) path (has_global vs) ;;
   let m2 := prepend m2 ret in
   m3 <- (if has_global vs then '(_, sc) <- sk_pop (m_scopes m2) ;; OK (set_scopes m2 sc) else OK m2) ;; return_v m3 res).
Proof.
  unfold load. rewrite (called_arg _ _ _ _ _ 0 Hc) by lia. rewrite (called_arg _ _ _ _ _ 1 Hc) by lia. cbn [bind]. change (Z.to_nat 0) with 0%nat. change (Z.to_nat 1) with 1%nat.
  destruct second_arg as [-> _]. destruct Hp as (r & Ev). destruct Hs as (Hh & Rl & _). rewrite Ev in Hv. inversion Hv as [|x0 y0 xs1 vs1 V0 F1]; subst. cbn [nth].
  destruct (same_kind _ _ _ _ _ _ Rl V0) as [_ K]. rewrite K. cbn [is_text]. destruct V0 as [(H1 & H2 & _) _].
  unfold w_st in H1, H2. rewrite <- Hh in H1, H2. change (m_st m) with (h_st (m_heap m)). rewrite (get_cstring_ok _ _ _ _ H1 H2 Hn). cbn [bind]. unfold middle, inside.
  rewrite bind_bind. reflexivity.
Qed.
Lemma inside_state : in_state (inside m xs vs) W s sc' th.
Proof.
  destruct Hs as (Hh & Rl & [Sc Fs] & Vt). unfold inside. destruct second_arg as [_ Q]. destruct Hp as (r & Ev). rewrite Ev in *. cbn [has_global load_scopes nth_error] in *.
  destruct r as [|[a|i|i|ps b|z] r]; try (injection Hg as <-; exact (conj Hh (conj Rl (conj (conj Sc Fs) Vt)))); [|discriminate Hg].
  injection Hg as <-. destruct (Q i eq_refl) as [Hi Eo]. rewrite Eo. split; [exact Hh|]. split; [exact Rl|]. split; [|exact Vt].
  split; [|constructor; assumption]. change (obj_at W i :: chain m = obj_at W i :: map (obj_at W) sc). rewrite Sc. reflexivity.
Qed.
Lemma inside_room d : stack_room m (S d) -> stack_room (inside m xs vs) d.
Proof.
  unfold stack_room, inside. cbv zeta. intros (A1 & A2 & A3). destruct (has_global vs); cbn [set_scopes m_stack m_scopes m_loops sk_push sk_live]; rewrite ?zlen_cons; nia.
Qed.
Lemma inside_code : m_code (inside m xs vs) = m_code m /\ m_res (inside m xs vs) = m_res m /\ m_mem (inside m xs vs) = m_mem m /\ m_heap (inside m xs vs) = m_heap m /\ m_this (inside m xs vs) = m_this m.
Proof. unfold inside. destruct (has_global vs); repeat split; reflexivity. Qed.
(** The end, for any outcome that has left the stacks alone. *)
Lemma load_end m2 W' s' th' res ret e : middle fs ex exe (inside m xs vs) path (has_global vs) = OK (m2, res, ret) -> stacks_back (inside m xs vs) m2 -> in_state m2 W' s' sc' th' -> m_err (prepend m2 ret) = e ->
  exists m', load fs ex exe m = OK m' /\ m_err m' = e /\ gave m m' base res /\ in_state m' W' s' sc th' /\ m_code m' = m_code m2 /\ m_res m' = m_res m2 /\ m_heap m' = m_heap m2 /\ m_this m' = m_this m2.
Proof.
  intros Em (B1 & B2 & B3 & B4 & B5 & B6) (Hh & Rl & [Sc Fs] & Vt) Ee. rewrite load_is, Em. cbn [bind]. cbv zeta.
  assert (P : exists x, prepend m2 ret = set_err m2 x).
  { unfold prepend. destruct (ret =? E_OK); [exists (m_err m2); destruct m2; reflexivity|]. destruct (m_err m2 =? E_OK); [eexists; reflexivity|exists (m_err m2); destruct m2; reflexivity]. }
  destruct P as (x & P). rewrite P in *. cbn [set_err m_err] in Ee. subst x.
  assert (Q : exists s3, (if has_global vs then '(_, sc) <- sk_pop (m_scopes (set_err m2 e)) ;; OK (set_scopes (set_err m2 e) sc) else OK (set_err m2 e)) = OK (set_scopes (set_err m2 e) s3) /\ sk_live s3 = sk_live (m_scopes m) /\
    scopes_are W' (sk_live s3) sc).
  { unfold inside in B4. destruct (has_global vs) eqn:G.
    - cbn [set_scopes m_scopes sk_push sk_live] in B4. cbn [set_err m_scopes]. unfold sk_pop. rewrite B4. cbn [bind]. eexists. split; [reflexivity|]. cbn [sk_live]. split; [reflexivity|].
      destruct vs as [|? [|[] ?]]; try discriminate G. cbn [load_scopes] in Hg. injection Hg as <-. unfold chain in Sc. rewrite B4 in Sc. cbn [map] in Sc. injection Sc as _ Sc. split; [exact Sc|inversion Fs; assumption].
    - exists (m_scopes m2). split; [destruct m2; reflexivity|]. split; [exact B4|]. split; [|]. 
      + replace sc with sc'; [exact Sc|]. destruct vs as [|? [|[] ?]]; cbn [load_scopes has_global] in *; congruence.
      + replace sc with sc'; [exact Fs|]. destruct vs as [|? [|[] ?]]; cbn [load_scopes has_global] in *; congruence. }
  destruct Q as (s3 & -> & Q1 & Q2). cbn [bind].
  assert (Hi : sk_live (m_stack (inside m xs vs)) = sk_live (m_stack m) /\ sk_live (m_call (inside m xs vs)) = sk_live (m_call m) /\ sk_live (m_arg (inside m xs vs)) = sk_live (m_arg m) /\
    sk_live (m_loops (inside m xs vs)) = sk_live (m_loops m) /\ m_mem (inside m xs vs) = m_mem m) by (unfold inside; destruct (has_global vs); repeat split; reflexivity).
  destruct Hi as (I1 & I2 & I3 & I4 & I5). rewrite I1 in B1. rewrite I2 in B2. rewrite I3 in B3. rewrite I4 in B5. rewrite I5 in B6.
  assert (Hc2 : called (set_scopes (set_err m2 e) s3) xs f base C).
  { destruct Hc as (C1 & C2 & C3). split; [|split; [|exact C3]]; cbn [set_scopes set_err m_stack m_call]; congruence. }
  destruct (called_return _ _ _ _ _ res Hc2) as (s4 & L4 & Er). rewrite Er. eexists. split; [reflexivity|]. split; [reflexivity|].
  split; [unfold gave; cbn; rewrite L4; repeat split; assumption|]. split; [|repeat split; reflexivity].
  split; [exact Hh|]. split; [exact Rl|]. split; [exact Q2|exact Vt].
Qed.
End Frame.
