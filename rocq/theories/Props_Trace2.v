From Verif Require Import Base BaseFacts Value_Model SUtil_Spec Bcode_Spec TokNum_Model Txt_Model Bcode_Model Str_Model Vm_Model Parse_Model Vm_Spec Bcode_Proofs Props_Bcode Props_Vm Trace_Model Trace_Spec Props_Trace.

(** A program of four lines that fails on the second, in a function called on the fourth. *)
Definition tr_src : list Z := bs "let f = function() {" ++ [10] ++ bs "  nosuch;" ++ [10] ++ bs "};" ++ [10] ++ bs "f();" ++ [10].
Definition tr_body : list Z := [11; 1; 102; 10; 23; 11; 1; 102; 9; 4; 12; 27; 11; 6; 110; 111; 115; 117; 99; 104; 9; 22; 30; 20; 12; 24; 5; 1; 11; 1; 102; 9; 22; 37; 29; 35].
Definition tr_code : list Z := layout 36 62 (bs "t.js") tr_body [(12, 2); (22, 3); (27, 4); (35, 5)].
Example tr_parses : mjs_parse 900 (bs "t.js") tr_src = OK (tr_code, E_OK).
Proof. vm_compute. reflexivity. Qed.
Definition tr_m : vm := match create with OK m => set_code m (commits [tr_code]) | _ => ex_m end.
Definition tr_c0 : conf := match enter tr_m 0 with OK c => c | _ => {| k_m := tr_m; k_bp := {| bp_start := 0; bp_data := [] |}; k_i := 0; k_op := 0 |} end.
Definition tr_c : conf := match active_run 17 50 w0 (save tr_m) tr_c0 [] with Some (c, _) => c | None => tr_c0 end.
Definition tr_fail : next := match instr w0 (fun m off => c <- enter m off ;; run 32 w0 (save m) off c) 32 (set_off (k_m tr_c) (k_i tr_c)) (k_bp tr_c) (k_i tr_c) OP_FIND_SCOPE (k_op tr_c) with OK n => n | _ => Done tr_m end.
Definition tr_fm : vm := match tr_fail with Go m _ _ => m | Done m => m end.
Definition tr_text : list Z := bs "  at t.js:2" ++ [10] ++ bs "  at t.js:4" ++ [10].
Example tr_line2 : line_of [tr_code] 37 (bs "  at t.js:2" ++ [10]).
Proof.
  exists (bs "t.js"), 2, (bs "2"). split; [|split; [exists (bs "2"); vm_compute; intuition (try discriminate); repeat constructor; discriminate|reflexivity]].
  apply (Located [tr_code] 37 0 36 62 (bs "t.js") tr_body [(12, 2)] [(22, 3); (27, 4); (35, 5)] 19).
  - reflexivity.
  - vm_compute. intuition discriminate.
  - vm_compute. split; [discriminate|reflexivity].
  - reflexivity.
  - repeat constructor; vm_compute; try discriminate; reflexivity.
  - repeat constructor.
  - intros e es H. injection H as <- <-. vm_compute. discriminate.
Qed.
Example tr_line4 : line_of [tr_code] 52 (bs "  at t.js:4" ++ [10]).
Proof.
  exists (bs "t.js"), 4, (bs "4"). split; [|split; [exists (bs "4"); vm_compute; intuition (try discriminate); repeat constructor; discriminate|reflexivity]].
  apply (Located [tr_code] 52 0 36 62 (bs "t.js") tr_body [(12, 2); (22, 3); (27, 4)] [(35, 5)] 34).
  - reflexivity.
  - vm_compute. intuition discriminate.
  - vm_compute. split; [discriminate|reflexivity].
  - reflexivity.
  - repeat constructor; vm_compute; try discriminate; reflexivity.
  - repeat constructor.
  - intros e es H. injection H as <- <-. vm_compute. discriminate.
Qed.
Example tr_holds : rounds w0 (save tr_m) 50 tr_c0 33 tr_c /\ active w0 (save tr_m) tr_c0 [] tr_c [52] /\ frames_at (calls (k_m tr_c0)) [] /\
  m_err (k_m tr_c) = E_OK /\ fails w0 (fun m off => c <- enter m off ;; run 32 w0 (save m) off c) 32 tr_c tr_fm {| bp_start := 0; bp_data := tr_code |} 38 /\
  (exists m', recover tr_fm (save tr_m) = OK m') /\ m_code tr_fm = commits [tr_code] /\ lines_of [tr_code] [37; 52] tr_text.
Proof.
  assert (A : active_run 17 50 w0 (save tr_m) tr_c0 [] = Some (tr_c, [52])) by (vm_compute; reflexivity).
  apply active_run_ok in A. destruct A as [A1 A2]. split; [exact A2|]. split; [exact A1|]. split; [constructor|].
  split; [vm_compute; reflexivity|]. split; [|split; [|split]].
  - exists OP_FIND_SCOPE. split; [vm_compute; reflexivity|]. split; [vm_compute; reflexivity|]. split; [vm_compute; reflexivity|].
    split; [vm_compute; discriminate|]. intros X. discriminate X.
  - destruct (recover tr_fm (save tr_m)) as [m'| | |] eqn:E; [exists m'; reflexivity| | |]; vm_compute in E; discriminate E.
  - vm_compute. reflexivity.
  - exists [bs "  at t.js:2" ++ [10]; bs "  at t.js:4" ++ [10]]. split; [|reflexivity].
    change (filter (fun a => negb (a =? EXIT_ADDR)) [37; 52]) with [37; 52].
    constructor; [apply tr_line2|constructor; [apply tr_line4|constructor]].
Qed.
Example tr_trace : execute_trace 50 w0 tr_m 0 = OK tr_text.
Proof. vm_compute. reflexivity. Qed.
Example tr_offsets : map (offset_by_frame (k_m tr_c)) [0; 1; 2; -1] = [OK 30; OK 52; OK (-1); OK (-1)].
Proof. vm_compute. reflexivity. Qed.

(** The trace does not always name the line that failed: on the last line of a program without a
    newline at its end every map entry is before the place, and line 1 is reported. *)
Definition last_src : list Z := bs "let a = 1;" ++ [10] ++ bs "let b = 2;" ++ [10] ++ bs "nosuch;".
Definition last_code : list Z := match mjs_parse 900 (bs "t.js") last_src with OK (c, _) => c | _ => [] end.
Definition last_m : vm := match create with OK m => set_code m (commits [last_code]) | _ => ex_m end.
Theorem trace_names_the_line_refuted : exists src, src = last_src /\ mjs_parse 900 (bs "t.js") src = OK (last_code, E_OK) /\
  execute_trace 50 w0 last_m 0 = OK (bs "  at t.js:1" ++ [10]) /\ mjs_parse 900 (bs "t.js") (src ++ [10]) <> OK (last_code, E_OK) /\
  (exists code, mjs_parse 900 (bs "t.js") (src ++ [10]) = OK (code, E_OK) /\
     execute_trace 50 w0 (set_code last_m (commits [code])) 0 = OK (bs "  at t.js:3" ++ [10])).
Proof.
  exists last_src. split; [reflexivity|]. split; [vm_compute; reflexivity|]. split; [vm_compute; reflexivity|]. split; [vm_compute; discriminate|].
  exists (match mjs_parse 900 (bs "t.js") (last_src ++ [10]) with OK (c, _) => c | _ => [] end).
  split; vm_compute; reflexivity.
Qed.
Print Assumptions trace_names_the_line_refuted.
