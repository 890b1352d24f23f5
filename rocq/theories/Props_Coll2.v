(** A session with collections: an example for C95. *)
From Verif Require Import Base BaseFacts Value_Model Value_Spec Value_Proofs Str_Model Str_Spec Str_Proofs Gc_Model Gc_Spec Gc_Proofs Gc_Proofs3 Gc_Proofs5
  TokNum_Model Txt_Model Tok_Model Tok_Spec Num_Model NumText_Spec Lit_Proofs Obj_Model Obj_Spec Bcode_Model Bcode_Proofs Vm_Model Vm_Spec Parse_Model Run_Model Expr_Spec Run_Spec
  Tok_Proofs2 Obj_Proofs Obj_Proofs2 Props_Obj Props_Vm Props_Expr Lang_Spec Lang_Code Lang_Spec2 Lang_Spec3 Props_Lang Props_Lang2 Iso_Spec Coll_Spec Coll_Spec2 Coll_Proofs Props_Coll Props_Gc.
From Coq Require Import ZifyBool.
Ltac Zify.zify_post_hook ::= idtac.


Definition coll_src : list Z := bs "this.k;".
Definition coll_tree : list stmt :=
  [(SExprs [(XDot XThis (bs "k"))])].
Definition coll_t0 : tokn := tk1 TOK_KEYWORD_THIS "this".
Definition coll_t1 : tokn := tk1 TOK_DOT ".".
Definition coll_t2 : tokn := tk1 TOK_IDENT "k".
Definition coll_t3 : tokn := tk1 TOK_SEMICOLON ";".
Definition coll_toks : list tokn := [coll_t0; coll_t1; coll_t2; coll_t3].
Lemma coll_source : source coll_src coll_toks.
Proof.
  unfold coll_src, coll_toks.
  keyword (bs "this") (bs ".k;").
  opr (bs ".") (bs "k;") TOK_DOT.
  word (bs "k") (bs ";"). { intros n H. vm_compute in H. intuition discriminate. }
  opr (bs ";") (bs "") TOK_SEMICOLON.
  apply src_end, gap_end; [intros c r H; discriminate|no_start|no_start].
Qed.
Lemma coll_stmts : stmts TOK_EOF 0 0 coll_toks coll_tree.
Proof.
  unfold coll_toks, coll_tree.
  eapply (ss_cons TOK_EOF 0 0 0 [coll_t0; coll_t1; coll_t2] [coll_t3] [] _ _); [eapply (s_exprs 0 0 [coll_t0; coll_t1; coll_t2] TOK_SEMICOLON _); [eapply (c_one 0 0 [coll_t0; coll_t1; coll_t2] _); [eapply (from8 12 0 0 2 2 [coll_t0; coll_t1; coll_t2] _); [side|side|side|side|eapply (lift 0 8 2 2 10 10 [coll_t0; coll_t1; coll_t2] _); [side|side|side|side|eapply (x_mem _ 10 10 [coll_t0; coll_t1; coll_t2] _); [eapply (m_intro _ _ 10 10 10 [coll_t0] [coll_t1; coll_t2] _ _); [eapply (p_this 10 coll_t0); [side]|eapply (t_dot _ _ 10 10 _ coll_t1 coll_t2 [] _); [side|side|eapply (t_none _ 10 _)]]]]]]|side|side|side]|side|side|side|side|exact (or_introl eq_refl)|eapply (ss_nil TOK_EOF 0)].
Qed.
Definition prog_coll : prog := {| g_path := bs "k.js"; g_src := coll_src; g_toks := coll_toks; g_tree := coll_tree |}.
Example coll_well_formed : well_formed prog_coll.
Proof. split; [unfold Tok_Spec.c_text; cbn [prog_coll g_src]; unfold coll_src; c_bytes|]. split; [apply coll_source|eexists; apply coll_stmts]. Qed.

(** The engine with the memory [ex_g] of C36: the object 8000 is [this], its property k is a string
    of the string heap after a dead string; the object 8008 is garbage. *)
Definition coll_heap : heap := {| h_st := {| so := str_heap ex_ds; so_size := 64; sf := []; s_need_gc := true |};
  h_objs := [(8000, 9000); (8008, 0)];
  Obj_Model.h_props := [(9000, {| pc_next := 9024; pc_name := ex_str 10; pc_val := ex_obj 8000 |}); (9024, {| pc_next := 0; pc_name := ex_k; pc_val := ex_str 10 |})];
  h_next := 10000 |}.
Definition coll_m : vm := {| m_heap := coll_heap; m_mem := fun _ => None; m_stack := sk_empty; m_call := sk_empty; m_arg := sk_empty; m_scopes := sk_empty;
  m_loops := sk_empty; m_err := E_OK; m_this := ex_obj 8000; m_last := 4607182418800017408; m_code := no_code; m_off := 0; m_res := [] |}.
Definition coll_s : state := {| objs := [[(ex_hello, VObj 0); (bs "k", VPrim (AStr ex_hello))]; []]; left := 1000000 |}.
Definition coll_store : store := fun o => if o =? 8000 then Some [(ex_hello, ex_obj 8000); (bs "k", ex_str 10)] else if o =? 8008 then Some [] else None.
Definition coll_W : world := {| w_heap := coll_heap; w_addr := [8000; 8008]; w_store := coll_store |}.

Lemma word_id v : word (fun x => x) v = v.
Proof. unfold word. destruct (is_ref v); [|reflexivity]. rewrite (Z.div_mod v (2 ^ 48)) at 3 by lia. lia. Qed.
Example coll_depicts : depicts (fun x => x) ex_g [] [] coll_m.
Proof.
  constructor.
  - repeat split; intros; try lia.
  - intros o p. split.
    + intros H. cbn [coll_m m_heap coll_heap h_objs aget] in H. destruct (8000 =? o) eqn:E; [apply Z.eqb_eq in E; subst o; injection H as <-|].
      { split; [lia|]. split; [lia|]. split; [vm_compute; auto|]. split; [intros []|reflexivity]. }
      destruct (8008 =? o) eqn:E2; [|discriminate H]. apply Z.eqb_eq in E2. subst o. injection H as <-.
      split; [lia|]. split; [lia|]. split; [vm_compute; auto|]. split; [intros []|reflexivity].
    + intros (_ & _ & I & _ & E). vm_compute in I. destruct I as [<-|[<-|[]]]; vm_compute in E; injection E as <-; reflexivity.
  - intros a c. rewrite !word_id. split.
    + intros H. cbn [coll_m m_heap coll_heap Obj_Model.h_props aget] in H. destruct (9000 =? a) eqn:E; [apply Z.eqb_eq in E; subst a; injection H as <-|].
      { cbn [pc_next pc_name pc_val]. split; [lia|]. split; [lia|]. split; [vm_compute; auto|]. split; [intros []|]. repeat split. }
      destruct (9024 =? a) eqn:E2; [|discriminate H]. apply Z.eqb_eq in E2. subst a. injection H as <-.
      cbn [pc_next pc_name pc_val]. split; [lia|]. split; [lia|]. split; [vm_compute; auto|]. split; [intros []|]. repeat split.
    + intros (_ & _ & I & _ & E1 & E2 & E3). destruct c as [n k v]. cbn [pc_next pc_name pc_val] in *.
      vm_compute in I. destruct I as [<-|[<-|[]]]; vm_compute in E1, E2, E3; injection E1 as <-; injection E2 as <-; injection E3 as <-; reflexivity.
  - reflexivity.
  - split; [reflexivity|]. intros [|k] v H; discriminate H.
  - split; [reflexivity|]. intros [|k] v H; discriminate H.
  - split; [reflexivity|]. intros [|k] v H; discriminate H.
  - rewrite word_id. reflexivity.
  - rewrite word_id. reflexivity.
Qed.
Lemma coll_hello ext : name_of (h_st coll_heap) ext (ex_str 10) ex_hello.
Proof.
  destruct (str_reads ex_g ex_ds [] [] [10000] 10 ex_hello ext heap_ok_example) as [H1 H2]; [exists [ex_garbage], []; split; reflexivity|].
  change (65528 * 2 ^ 48 + 10) with (ex_str 10) in *. assert (T : is_str_o (ex_str 10)) by reflexivity. pose proof (proj1 H1) as U.
  split; [exact (holds_so _ _ ext _ _ eq_refl T H1)|]. split; [exact (nul_so _ _ ext _ _ U eq_refl T H2)|]. intros L. vm_compute in L. exfalso. apply L. reflexivity.
Qed.
Lemma coll_k ext : name_of (h_st coll_heap) ext ex_k (bs "k").
Proof.
  split; [|split].
  - split; [unfold is_u64; vm_compute; split; [discriminate|reflexivity]|]. split; [reflexivity|]. eexists. split; [vm_compute; reflexivity|]. split; [discriminate|]. vm_compute. reflexivity.
  - eexists. split; [vm_compute; reflexivity|]. vm_compute. reflexivity.
  - intros _. vm_compute. reflexivity.
Qed.
Lemma hello_bytes : bytes_ok ex_hello /\ Forall (fun c => c <> 0) ex_hello.
Proof. split; unfold bytes_ok, ex_hello; repeat apply Forall_cons; try apply Forall_nil; unfold is_byte; lia. Qed.
Example coll_in_state : in_state coll_m coll_W coll_s [] (VObj 0).
Proof.
  split; [reflexivity|]. split; [|split; [split; [reflexivity|constructor]|split; [cbn; lia|reflexivity]]].
  set (ext := m_ext coll_m). set (cd := m_code coll_m). clearbody ext. split; [|split; [|split; [|cbn [coll_s left coll_W w_heap coll_heap h_next w_st]; split; [lia|split; [lia|split; [lia|vm_compute; reflexivity]]]]]].
  - exists (fun o => if o =? 8000 then Obj_Model.h_props coll_heap else []). split; [|split; [|split; [|split]]].
    + intros o. cbn [coll_W w_store w_heap]. unfold coll_store. cbn [coll_heap h_objs aget]. rewrite (Z.eqb_sym 8000 o), (Z.eqb_sym 8008 o). destruct (o =? 8000); [split; discriminate|]. destruct (o =? 8008); [split; discriminate|tauto].
    + intros o mp H. cbn [coll_W w_store w_heap] in *. unfold coll_store in H. destruct (o =? 8000) eqn:E.
      * apply Z.eqb_eq in E. subst o. injection H as <-. destruct hello_bytes as [B1 B2]. split; [|split].
        -- exists 9000. split; [reflexivity|]. split; [cbn; repeat split; discriminate|]. constructor; [split; [apply coll_hello|reflexivity]|].
           constructor; [split; [apply coll_k|reflexivity]|constructor].
        -- repeat constructor; cbn; intuition discriminate.
        -- constructor; [repeat split; auto|]. constructor; [|constructor]. repeat split; unfold bytes_ok, bs; cbn; repeat constructor; unfold is_byte; lia.
      * destruct (o =? 8008) eqn:E2; [|discriminate H]. apply Z.eqb_eq in E2. subst o. injection H as <-. split; [exists 0; split; [reflexivity|split; [reflexivity|constructor]]|]. split; constructor.
    + intros o1 o2 m1 m2 a N H1 H2 I1 I2. destruct (o1 =? 8000) eqn:E1; [|destruct I1]. destruct (o2 =? 8000) eqn:E2; [|destruct I2]. lia.
    + intros a c H. cbn [coll_W w_heap coll_heap Obj_Model.h_props aget h_next] in *. destruct (9000 =? a) eqn:E; [lia|]. destruct (9024 =? a) eqn:E2; [lia|discriminate H].
    + intros o p H. cbn [coll_W w_heap coll_heap h_objs aget h_next] in *. destruct (8000 =? o) eqn:E; [lia|]. destruct (8008 =? o) eqn:E2; [lia|discriminate H].
  - repeat constructor; cbn; intuition discriminate.
  - cbn [coll_W w_addr coll_s objs]. destruct hello_bytes as [B1 _]. constructor; [|constructor; [|constructor]].
    + exists [(ex_hello, ex_obj 8000); (bs "k", ex_str 10)]. split; [reflexivity|]. constructor; [split; [reflexivity|split; [cbn; lia|reflexivity]]|].
      constructor; [split; [reflexivity|split; [apply coll_hello|exact B1]]|constructor].
    + exists []. split; [reflexivity|constructor].
Qed.
Example coll_told : option_map (map fst) (told 10 50 [] (VObj 0) [prog_coll; prog_coll] coll_s) = Some [VPrim (AStr ex_hello); VPrim (AStr ex_hello)].
Proof. vm_compute. reflexivity. Qed.
(** The hypotheses of [session_agrees], [collection_possible] and [session_goes_on] are met: the
    engine can be collected, then both programs run and give the string. *)
Example coll_holds : exists m1 outs m', collected coll_m m1 /\ session Props_Vm.w0 coll_m [prog_coll; prog_coll] outs m' /\ length outs = 2%nat /\
  Forall (fun out => name_of (h_st (m_heap (fst out))) (m_ext (fst out)) (snd out) ex_hello) outs.
Proof.
  destruct (collection_possible _ _ _ _ _ _ _ heap_ok_example coll_depicts) as (m1 & _ & _ & _ & _ & _ & Co & _ & _).
  pose proof coll_told as T. destruct (told 10 50 [] (VObj 0) [prog_coll; prog_coll] coll_s) as [l|] eqn:E; [|discriminate T]. injection T as T.
  assert (Wf : Forall well_formed [prog_coll; prog_coll]) by (repeat (apply Forall_cons; [exact coll_well_formed|]); apply Forall_nil).
  assert (C1 : compiles prog_coll (code_of prog_coll)) by (apply (compiles_at 500); vm_compute; reflexivity).
  assert (Cp : Forall2 compiles [prog_coll; prog_coll] [code_of prog_coll; code_of prog_coll]) by (repeat (apply Forall2_cons; [exact C1|]); apply Forall2_nil).
  assert (Cr : code_room coll_m (total [code_of prog_coll; code_of prog_coll])) by (exists []; split; [reflexivity|vm_compute; reflexivity]).
  assert (Sr : stack_room coll_m 50) by (vm_compute; repeat split).
  destruct (session_goes_on Props_Vm.w0 10 50 coll_m m1 _ _ coll_W coll_s l [] (VObj 0) Co Wf Cp E Cr Sr coll_in_state) as (outs & m' & Se & Ln).
  pose proof (ses_collect Props_Vm.w0 coll_m m1 _ _ _ Co Se) as Se'.
  destruct (session_agrees Props_Vm.w0 10 50 coll_m _ _ _ Se' _ coll_W coll_s l [] (VObj 0) Wf Cp E Cr Sr coll_in_state) as [F _].
  exists m1, outs, m'. split; [exact Co|]. split; [exact Se'|]. split; [exact Ln|].
  assert (X : Forall (fun x => fst x = VPrim (AStr ex_hello)) l).
  { apply Forall_forall. intros x Hx. apply (in_map fst) in Hx. rewrite T in Hx. destruct Hx as [<-|[<-|[]]]; reflexivity. }
  clear -F X. induction F as [|out x outs l A F IH]; [constructor|]. inversion X as [|? ? X1 X2]; subst. constructor; [|apply IH, X2].
  destruct A as (W & t & sc & th & v & R & (HW & _) & V & _ & Sv). rewrite X1 in Sv. destruct v as [| |a| |]; cbn [same_val] in Sv; try contradiction. subst a.
  rewrite HW. apply V.
Qed.
