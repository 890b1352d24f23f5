(** Programs of the language run as the interpreter says (C68 to C70). *)
From Verif Require Import Base BaseFacts Value_Model Value_Spec Value_Proofs Data_Model Str_Model Str_Spec Str_Proofs Str_Proofs2 Float_Proofs Lit_Proofs
  Ops_Model Ops_Spec Ops_Proofs Ops_Proofs2 TokNum_Model Txt_Model Obj_Model Obj_Spec Obj_Proofs Obj_Proofs2 Conv_Model Num_Model Varint_Model Varint_Proofs Bcode_Model Bcode_Proofs
  Vm_Model Vm_Spec Vm_Proofs Vm_Proofs2 Vm_Proofs4 Tok_Spec Parse_Model Expr_Spec Run_Spec Expr_Proofs1 Expr_Proofs3 Expr_Proofs4 Expr_Proofs5 Lang_Spec Lang_Code Lang_Spec2 Lang_Exec1 Lang_Exec2 Lang_Exec3 Lang_Exec4 Lang_Exec5 Lang_Exec6 Lang_Exec7 Lang_Exec8 Lang_Exec9 Props_Bcode Run_Model Lex_Proofs Expr_Proofs6 Lang_Proofs7 Lang_Exec10 Lang_Spec3 Props_Vm Props_Obj Parse_Proofs.
From Coq Require Import ZifyBool.
Ltac Zify.zify_post_hook ::= idtac.


(** C68. Every program of the grammar is accepted, and its code is that of its tree. *)
Theorem program_accepted path src ts l q : c_text src -> source src ts -> stmts TOK_EOF 0 q ts l ->
  exists f a c tail, length a = 4%nat /\ length c = 4%nat /\
    forall f', (f <= f')%nat -> mjs_parse f' path src = OK (header path a (le32 (zlen path + 13)) c ++ seqcode (map cst l) ++ OP_EXIT :: tail, E_OK).
Proof. apply mjs_parse_program. Qed.
Print Assumptions program_accepted.
Lemma compiled_code p code : well_formed p -> compiles p code ->
  exists a c tail, length a = 4%nat /\ length c = 4%nat /\ code = header (g_path p) a (le32 (zlen (g_path p) + 13)) c ++ seqcode (map cst (g_tree p)) ++ OP_EXIT :: tail.
Proof.
  intros (T & Sr & q & D) (f & H). destruct (program_accepted (g_path p) _ _ _ _ T Sr D) as (f2 & a & c & tail & La & Lc & H2).
  exists a, c, tail. split; [exact La|]. split; [exact Lc|]. specialize (H (max f f2) ltac:(lia)). specialize (H2 (max f f2) ltac:(lia)). congruence.
Qed.
(** More fuel gives the same code. *)
Lemma compiles_at f p code : mjs_parse f (g_path p) (g_src p) = OK (code, E_OK) -> compiles p code.
Proof.
  intros H. exists f. intros f' Hf. rewrite <- H. unfold mjs_parse in *. cbv zeta in *.
  match type of H with bind ?a _ = _ => destruct a as [r| | |] eqn:E; try discriminate H end.
  rewrite (Parse_Proofs.parse_mono _ _ _ _ _ Hf E). reflexivity.
Qed.
Theorem programs_compile p : well_formed p -> exists code, compiles p code.
Proof. intros (T & Sr & q & D). destruct (program_accepted (g_path p) _ _ _ _ T Sr D) as (f & a & c & tail & _ & _ & H). eexists. exists f. exact H. Qed.
Print Assumptions programs_compile.

(** C69. If the interpreter gives the program a value, mjs_exec gives it that value and leaves
    the engine in the interpreter's state, with nothing else changed. *)
Theorem program_result w m W s sc th p code rounds depth v s' : well_formed p -> compiles p code ->
  run_program rounds depth sc th (g_tree p) s = Some (v, s') ->
  code_room m (zlen code) -> stack_room m depth -> in_state m W s sc th ->
  exists f m' r W', (forall f', (f <= f')%nat -> mjs_exec f' w m (g_path p) (g_src p) = OK (m', r)) /\ m_err m' = E_OK /\
    in_state m' W' s' sc th /\ later W W' /\ vrep (m_code m') (m_ext m') W' r v /\ same_stacks m m' /\ m_code m' = commit (m_code m) code.
Proof.
  intros Wp Cp Hr Rm Sr St. destruct (compiled_code p code Wp Cp) as (a & c & tail & La & Lc & ->). destruct Cp as (f & HP). destruct Wp as (_ & _ & q & D).
  destruct (program_runs w (set_err m E_OK) W s sc th (g_tree p) rounds depth v s' (g_path p) a c tail
    (proj2 (proj2 (proj2 (proj2 (proj2 (proj2 (proj2 (proj2 (proj2 (proj2 (proj2 (proj2 (proj2 grammar_wf)))))))))))) _ _ _ _ _ D) Hr La Lc Rm Sr St) as (f2 & m' & r & W' & HR & H).
  exists (max f f2), m', r, W'. split; [|exact H].
  intros f' Hf. unfold mjs_exec. rewrite HP by lia. cbn [bind]. change (E_OK =? E_OK) with true. cbv iota. apply HR. lia.
Qed.
Print Assumptions program_result.

(** C70. The same for any number of programs run one after the other in one engine: the
    functions, objects and variables made by one are there in the next, and all results still
    represent their values at the end. *)
Lemma code_room_commit m m' d n : code_room m (zlen d + n) -> m_code m' = commit (m_code m) d -> code_room m' n.
Proof.
  intros (ds & E & H) Em. exists (ds ++ [d]). split; [rewrite Em, E, commits_snoc; reflexivity|].
  rewrite concat_app, zlen_app. cbn [concat]. rewrite app_nil_r. lia.
Qed.
Lemma code_room_less m n n' : code_room m n -> n' <= n -> code_room m n'.
Proof. intros (ds & E & H) L. exists ds. split; [exact E|lia]. Qed.
Lemma total_nonneg l : 0 <= total l.
Proof. induction l as [|d l IH]; [cbn; lia|]. change (total (d :: l)) with (zlen d + total l). pose proof (zlen_nonneg d). lia. Qed.
Theorem session_result w sc th rounds depth ps codes : Forall well_formed ps -> Forall2 compiles ps codes ->
  forall m W s vs s', run_all rounds depth sc th ps s = Some (vs, s') ->
  code_room m (total codes) -> stack_room m depth -> in_state m W s sc th ->
  exists f m' rs W', (forall f', (f <= f')%nat -> exec_all f' w m ps = OK (m', rs)) /\
    in_state m' W' s' sc th /\ later W W' /\ Forall2 (vrep (m_code m') (m_ext m') W') rs vs /\ same_stacks m m' /\
    (forall bp, part_of (m_code m) bp -> part_of (m_code m') bp).
Proof.
  intros F F2. revert F. induction F2 as [|p code ps codes Cp F2 IH]; intros F m W s vs s' Hr Rm Sr St.
  { cbn [run_all] in Hr. injection Hr as <- <-. exists 0%nat, m, [], W. split; [reflexivity|]. split; [exact St|]. split; [apply later_refl|]. split; [constructor|].
    split; [repeat split|]. auto. }
  pose proof (Forall_inv F) as Wp. pose proof (Forall_inv_tail F) as Fp.
  cbn [run_all] in Hr. destruct (run_program rounds depth sc th (g_tree p) s) as [[v s1]|] eqn:E1; [|discriminate Hr].
  destruct (run_all rounds depth sc th ps s1) as [[vs1 s2]|] eqn:E2; [|discriminate Hr]. injection Hr as <- <-.
  change (total (code :: codes)) with (zlen code + total codes) in Rm. pose proof (total_nonneg codes) as Pt.
  destruct (program_result w m W s sc th p code rounds depth v s1 Wp Cp E1 ltac:(eapply code_room_less; [exact Rm|lia]) Sr St)
    as (f1 & m1 & r & W1 & H1 & Er & St1 & L1 & V1 & S1 & C1).
  pose proof S1 as (T1 & T2 & T3 & T4 & T5 & T6 & T7).
  destruct (IH Fp m1 W1 s1 vs1 s2 E2) as (f2 & m2 & rs & W2 & H2 & St2 & L2 & V2 & S2 & C2).
  { eapply code_room_commit; [exact Rm|exact C1]. }
  { unfold stack_room in *. rewrite T1, T4, T5. exact Sr. }
  { exact St1. }
  pose proof S2 as (U1 & U2 & U3 & U4 & U5 & U6 & U7).
  exists (max f1 f2), m2, (r :: rs), W2. split.
  { intros f' Hf. cbn [exec_all]. rewrite H1 by lia. cbn [bind]. rewrite Er. change (E_OK =? E_OK) with true. cbv iota. rewrite H2 by lia. reflexivity. }
  split; [exact St2|]. split; [eapply later_trans; eassumption|]. split.
  { constructor; [|exact V2]. replace (m_ext m2) with (m_ext m1) by (unfold m_ext; rewrite U7; reflexivity).
    apply (vrep_code (m_code m1) (m_code m2) C2). eapply vrep_later; [exact L2|exact V1]. }
  split; [unfold same_stacks; rewrite U1, U2, U3, U4, U5, U6, U7; repeat split; assumption|].
  intros bp Hb. apply C2. rewrite C1. destruct Rm as (ds & Ed & _). rewrite Ed in Hb |- *. rewrite <- commits_snoc. apply part_stays. exact Hb.
Qed.
Print Assumptions session_result.

(** A new engine is in the state with one empty object, the global scope. *)
Theorem created_engine n : 0 <= n < 2 ^ 46 -> exists m W, create = OK m /\ in_state m W {| Lang_Spec.objs := [[]]; left := n |} [0%nat] undef /\
  sk_live (m_stack m) = [] /\ sk_live (m_loops m) = [] /\ zlen (sk_live (m_scopes m)) = 1 /\ m_code m = commits [].
Proof.
  intros Hn. set (ext := mext (fun _ => None)).
  destruct (mk_object_spec heap_init ext sempty (hrep_init _)) as (h1 & v & E & Rv & _ & _ & H1 & _).
  { unfold small. vm_compute. repeat split; discriminate || reflexivity. }
  unfold create. rewrite E. cbn [bind].
  set (h := Props_Obj.R_get heap_init (r <- mk_object heap_init ;; OK (fst r))).
  assert (E1 : mk_object heap_init = OK (h, 65521 * 2 ^ 48 + 4096)) by (vm_compute; reflexivity).
  assert (Nx : h_next h = 4104) by (vm_compute; reflexivity). assert (So : zlen (so (h_st h)) = 1) by (vm_compute; reflexivity).
  rewrite E1 in E. assert (h1 = h) by congruence. assert (v = 65521 * 2 ^ 48 + 4096) by congruence. subst h1 v. clear E E1. change (h_next heap_init) with 4096 in *. clearbody h.
  eexists _, {| w_heap := h; w_addr := [4096]; w_store := supd sempty 4096 [] |}. split; [reflexivity|].
  split; [|repeat split; reflexivity].
  split; [reflexivity|]. split.
  - split; [exact H1|]. cbn [w_addr w_heap Lang_Spec.objs left w_st]. split; [repeat constructor; intros []|]. split.
    + constructor; [|constructor]. exists []. split; [apply supd_same|constructor].
    + unfold w_st. cbn [w_heap]. rewrite Nx, So. lia.
  - split; [|reflexivity]. split; [reflexivity|]. repeat constructor.
Qed.
Print Assumptions created_engine.
