(** Loading files: examples, and what load does not guarantee. *)
From Verif Require Import Base Value_Model Value_Spec Str_Model Str_Spec Str_Proofs TokNum_Model Txt_Model Tok_Model Tok_Spec Num_Model NumText_Spec Lit_Proofs Obj_Model Obj_Spec Bcode_Model Bcode_Proofs Vm_Model Vm_Spec Parse_Model Run_Model Expr_Spec Run_Spec
  Tok_Proofs2 Obj_Proofs Obj_Proofs2 Props_Obj Props_Vm Props_Expr Lang_Spec Lang_Code Lang_Spec2 Lang_Spec3 Props_Lang Props_Lang2 Init_Model Init_Spec Props_Init Lang_Exec1 Lang_Exec2 Lang_Exec3 Lang_Exec4 Props_Init2 Load_Model Load_Spec Load_Proofs Load_Proofs2 Props_Load.
From Coq Require Import ZifyBool.
Ltac Zify.zify_post_hook ::= idtac.

(** * The hypotheses of [load_first] are met *)
Definition name_v (s : list Z) : Z := Props_Obj.R_get 0 (r <- mk_string (h_st heap_init) s ;; OK (snd r)).
(** load('e.js', JSON) in a new engine: the arguments are on the stack. *)
Definition calling (m : vm) (xs : list Z) : vm :=
  set_call (set_stack m {| sk_live := rev xs ++ [fst (mk_foreign 4096)]; sk_stale := []; sk_cap := 0 |}) {| sk_live := [vnum 1]; sk_stale := []; sk_cap := 0 |}.
Definition one_file (path src : list Z) : files := fun q => if bytes_eqb q path then Some src else None.
Example load_first_holds : exists m W xs code v s',
  load_call m W (new_state ex_natives 1000000) [0%nat] undef xs [VPrim (AStr (bs "e.js")); VObj 1] [] (g_path prog_five) [1%nat; 0%nat] /\
  one_file (bs "e.js") five_src (g_path prog_five) = Some (g_src prog_five) /\ well_formed prog_five /\ compiles prog_five code /\ unknown (m_code m) (g_path prog_five) /\
  code_room m (zlen code) /\ stack_room m 51 /\ run_program 10 50 [1%nat; 0%nat] undef (g_tree prog_five) (new_state ex_natives 1000000) = Some (v, s').
Proof.
  destruct (created_with_names ex_natives 1000000 natives_ok ltac:(lia)) as (m & W & E & (I1 & I2 & I3 & I4) & S1 & S2 & S3 & S4 & S5 & _ & C).
  destruct (run_program 10 50 [1%nat; 0%nat] undef (g_tree prog_five) (new_state ex_natives 1000000)) as [[v s']|] eqn:R.
  2:{ exfalso. assert (Q : match run_program 10 50 [1%nat; 0%nat] undef (g_tree prog_five) (new_state ex_natives 1000000) with None => False | _ => True end) by (vm_compute; exact I). rewrite R in Q. exact Q. }
  exists (calling m [name_v (bs "e.js"); obj_at W 1]), W, [name_v (bs "e.js"); obj_at W 1], (code_of prog_five), v, s'.
  assert (Ln : length (w_addr W) = 3%nat) by (rewrite (rel_len _ _ W _ I2); reflexivity).
  split; [|split; [reflexivity|split; [exact five_well_formed|split; [apply (compiles_at 500); vm_compute; reflexivity|split; [|split; [|split; [|reflexivity]]]]]]].
  - split; [exists (fst (mk_foreign 4096)), []; repeat split; vm_compute; reflexivity|]. split.
    + constructor; [|constructor; [split; [lia|reflexivity]|constructor]]. split; [|repeat constructor; unfold is_byte; cbn; lia].
      split; [|split; [|intros _; vm_compute; reflexivity]].
      * split; [vm_compute; split; congruence|]. split; [reflexivity|]. exists (PVal 1). split; [reflexivity|]. split; [discriminate|reflexivity].
      * exists (PVal 1). split; reflexivity.
    + split; [exact (conj I1 (conj I2 (conj I3 I4)))|]. split; [eexists; reflexivity|]. split; [repeat constructor; cbn; lia|reflexivity].
  - unfold unknown. change (m_code (calling m _)) with (m_code m). rewrite C. constructor.
  - exists []. split; [exact C|]. vm_compute. reflexivity.
  - unfold stack_room. cbn [calling set_call set_stack m_stack m_scopes m_loops sk_live]. rewrite S4, S5. vm_compute. repeat split; reflexivity.
Qed.

(** * On the engine *)
(** The result of the program run in [m] by mjs_exec with the files [fs]. *)
Definition lhost (fs : files) : host := loader Props_Vm.w0 4096 fs 1500.
Definition ran (fs : files) (m : vm) (src : list Z) : vm * Z := Props_Obj.R_get (m, 0) (mjs_exec 1500 (lhost fs) m (bs "<stdin>") src).
Definition lib : files := one_file (bs "lib.js") (bs "n = n + 1; let g = function() { return nosuch; }; n * 10;").
Definition m_one : vm := fst (ran lib full_engine (bs "let n = 0;")).
(** The file runs once and has its value; the second load gives undefined. *)
Example load_engine : map (fun src => match mjs_exec 1500 (lhost lib) m_one (bs "<stdin>") (bs src) with OK (m, r) => Some (m_err m, r) | _ => None end)
  ["load('lib.js');"; "load('lib.js'); n;"; "load('lib.js'); load('lib.js');"; "load('lib.js'); load('lib.js'); n;"; "let o = {n: 5}; load('lib.js'); load('lib.js', o); o.n + n;"; "load('no.js');"; "load(1);"]%string
  = [Some (E_OK, vnum 10); Some (E_OK, vnum 1); Some (E_OK, V_UNDEFINED); Some (E_OK, vnum 1); Some (E_OK, vnum 7); Some (E_FILE, V_UNDEFINED); Some (E_OK, V_UNDEFINED)].
Proof. vm_compute. reflexivity. Qed.

(** * What load does not guarantee *)
(** C87. A file that was loaded without error is not always left alone by a later load without
    a global object: if the host calls a function of the file with mjs_apply and it fails, the
    error becomes the outcome of the file (mjs_exec.c:987), and load runs the whole file again.
    [m1] has loaded the file, and the next load would not run it: n stays 1. In [m2], after the
    failed call of g, it does. *)
Definition m_loaded : vm := fst (ran lib m_one (bs "load('lib.js'); 0;")).
Definition g_of : Z := snd (ran lib m_loaded (bs "g;")).
Definition m_applied : vm := fst (Props_Obj.R_get (m_loaded, 0) (apply 1500 (lhost lib) (fst (ran lib m_loaded (bs "g;"))) g_of V_UNDEFINED [])).
Theorem loaded_file_runs_once_refuted : exists src m1 m2 m3 m4, src = bs "load('lib.js'); n;" /\
  mjs_exec 1500 (lhost lib) m_one (bs "<stdin>") src = OK (m1, vnum 1) /\ m_err m1 = E_OK /\
  mjs_exec 1500 (lhost lib) m_loaded (bs "<stdin>") src = OK (m2, vnum 1) /\ m_err m2 = E_OK /\
  apply 1500 (lhost lib) (fst (ran lib m_loaded (bs "g;"))) g_of V_UNDEFINED [] = OK (m3, V_UNDEFINED) /\ m_err m3 = E_REFERENCE /\
  mjs_exec 1500 (lhost lib) m3 (bs "<stdin>") src = OK (m4, vnum 2) /\ m_err m4 = E_OK.
Proof.
  exists (bs "load('lib.js'); n;"), (fst (ran lib m_one (bs "load('lib.js'); n;"))), (fst (ran lib m_loaded (bs "load('lib.js'); n;"))), m_applied, (fst (ran lib m_applied (bs "load('lib.js'); n;"))).
  split; [reflexivity|]. repeat (split; [vm_compute; reflexivity|]). vm_compute. reflexivity.
Qed.
Print Assumptions loaded_file_runs_once_refuted.
(** A file is loaded again while it is being executed (its outcome is not known then): files
    that load each other run until the stack is used up. Here the file counts to 3. *)
Definition cyc : files := one_file (bs "c.js") (bs "n = n + 1; if (n < 3) { load('c.js'); } n;").
Theorem running_file_is_not_loaded_refuted : exists src m, src = bs "load('c.js'); n;" /\
  mjs_exec 1500 (lhost cyc) m_one (bs "<stdin>") src = OK (m, vnum 3) /\ m_err m = E_OK /\ zlen (c_parts (m_code m)) = zlen (c_parts (m_code m_one)) + 2.
Proof. exists (bs "load('c.js'); n;"), (fst (ran cyc m_one (bs "load('c.js'); n;"))). repeat (split; [vm_compute; reflexivity|]). vm_compute. reflexivity. Qed.
Print Assumptions running_file_is_not_loaded_refuted.
(** A file that does not exist is no error if it has the name mjs_exec gives to programs. *)
Theorem missing_file_fails_refuted : exists src m, src = bs "load('<stdin>');" /\ lib (bs "<stdin>") = None /\
  mjs_exec 1500 (lhost lib) m_one (bs "<stdin>") src = OK (m, V_UNDEFINED) /\ m_err m = E_OK.
Proof. exists (bs "load('<stdin>');"), (fst (ran lib m_one (bs "load('<stdin>');"))). repeat (split; [vm_compute; reflexivity|]). vm_compute. reflexivity. Qed.
Print Assumptions missing_file_fails_refuted.
