(** Where accepted programs do not mean what they mean in ECMAScript. Each theorem refutes the
    property its name states by a program and the result the engine gives it. *)
From Verif Require Import Base Value_Model Value_Spec Str_Model Str_Spec TokNum_Model Txt_Model Tok_Model Tok_Spec Num_Model NumText_Spec Lit_Proofs Obj_Model Obj_Spec Bcode_Model Bcode_Proofs Vm_Model Vm_Spec Parse_Model Run_Model Expr_Spec Run_Spec
  Tok_Proofs2 Obj_Proofs Obj_Proofs2 Props_Obj Props_Vm Props_Expr Lang_Spec Lang_Code Lang_Spec2 Lang_Spec3 Props_Lang Props_Lang2.

(** mjs_exec of the program on a new engine reports the error [e] and gives [r]. *)
Definition evaluates (src : list Z) (e r : Z) : Prop := exists m, mjs_exec 900 Props_Vm.w0 new_engine (bs "a.js") src = OK (m, r) /\ m_err m = e.
(** The parser's verdict. *)
Definition parses (src : list Z) (e : Z) : Prop := exists code, mjs_parse 900 (bs "a.js") src = OK (code, e).
Definition run_of (src : list Z) : vm * Z := Props_Obj.R_get (new_engine, 0) (mjs_exec 900 Props_Vm.w0 new_engine (bs "a.js") src).
Definition code_for (src : list Z) : list Z := match mjs_parse 900 (bs "a.js") src with OK (c, _) => c | _ => [] end.
Ltac ev src := exists src; split; [reflexivity|]; split; [exists (fst (run_of src)); split; vm_compute; reflexivity|vm_compute; discriminate].
Ltac pa src := exists src; split; [reflexivity|]; exists (code_for src); vm_compute; reflexivity.

(** The value of `x += 2` is the old value of x (mjs_exec.c:206 op_assign). *)
Theorem compound_assignment_gives_new_value_refuted : exists src, src = bs "let x = 1; let y = (x += 2); y;" /\ evaluates src E_OK (vnum 1) /\ (E_OK, vnum 1) <> (E_OK, vnum 3).
Proof. ev (bs "let x = 1; let y = (x += 2); y;"). Qed.
Print Assumptions compound_assignment_gives_new_value_refuted.
(** Functions are not closures: a variable of the function that made them is gone. *)
Theorem functions_remember_their_scope_refuted : exists src, src = bs "let mk = function() { let x = 5; return function() { return x; }; }; let g = mk(); g();" /\ evaluates src E_REFERENCE (V_UNDEFINED) /\ (E_REFERENCE, V_UNDEFINED) <> (E_OK, vnum 5).
Proof. ev (bs "let mk = function() { let x = 5; return function() { return x; }; }; let g = mk(); g();"). Qed.
Print Assumptions functions_remember_their_scope_refuted.
(** Scopes are those of the callers: f reads the variable x of g. *)
Theorem callers_variables_are_hidden_refuted : exists src, src = bs "let f = function() { return x; }; let g = function() { let x = 7; return f(); }; g();" /\ evaluates src E_OK (vnum 7) /\ (E_OK, vnum 7) <> (E_REFERENCE, V_UNDEFINED).
Proof. ev (bs "let f = function() { return x; }; let g = function() { let x = 7; return f(); }; g();"). Qed.
Print Assumptions callers_variables_are_hidden_refuted.
(** A break in a function ends the loop of its caller. *)
Theorem break_stays_in_its_function_refuted : exists src, src = bs "let n = 0; let f = function() { break; }; for (let i = 0; i < 3; i++) { n++; f(); } n;" /\ evaluates src E_OK (vnum 1) /\ (E_OK, vnum 1) <> (E_OK, vnum 3).
Proof. ev (bs "let n = 0; let f = function() { break; }; for (let i = 0; i < 3; i++) { n++; f(); } n;"). Qed.
Print Assumptions break_stays_in_its_function_refuted.
(** `let x;` in the body of a loop keeps the value of the round before. *)
Theorem let_makes_a_new_variable_refuted : exists src, src = bs "let i = 0; let r = 0; while (i < 2) { let x; if (x === 5) r = 1; x = 5; i++; } r;" /\ evaluates src E_OK (vnum 1) /\ (E_OK, vnum 1) <> (E_OK, vnum 0).
Proof. ev (bs "let i = 0; let r = 0; while (i < 2) { let x; if (x === 5) r = 1; x = 5; i++; } r;"). Qed.
Print Assumptions let_makes_a_new_variable_refuted.
(** `a[0] += 1` is a type error. *)
Theorem elements_can_be_changed_in_place_refuted : exists src, src = bs "let a = [1]; a[0] += 1; a[0];" /\ evaluates src E_TYPE (V_UNDEFINED) /\ (E_TYPE, V_UNDEFINED) <> (E_OK, vnum 2).
Proof. ev (bs "let a = [1]; a[0] += 1; a[0];"). Qed.
Print Assumptions elements_can_be_changed_in_place_refuted.
(** `++o.b` is compiled as an increment of o (`o.b++` is not). *)
Theorem prefix_increment_of_properties_refuted : exists src, src = bs "let o = {b: 1}; ++o.b; o.b;" /\ evaluates src E_TYPE (V_UNDEFINED) /\ (E_TYPE, V_UNDEFINED) <> (E_OK, vnum 2).
Proof. ev (bs "let o = {b: 1}; ++o.b; o.b;"). Qed.
Print Assumptions prefix_increment_of_properties_refuted.
(** Escapes in the names of an object literal are not decoded. *)
Theorem object_keys_are_decoded_refuted : exists src, src = bs "let o = {'\x61': 1}; o.a;" /\ evaluates src E_OK (V_UNDEFINED) /\ (E_OK, V_UNDEFINED) <> (E_OK, vnum 1).
Proof. ev (bs "let o = {'\x61': 1}; o.a;"). Qed.
Print Assumptions object_keys_are_decoded_refuted.
(** `let a b c;` is accepted. *)
Theorem names_need_commas_refuted : exists src, src = bs "let a b c;" /\ parses src E_OK.
Proof. pa (bs "let a b c;"). Qed.
Print Assumptions names_need_commas_refuted.
(** `a a;` is accepted as two statements. *)
Theorem statements_need_separators_refuted : exists src, src = bs "let a = 1; a a;" /\ parses src E_OK.
Proof. pa (bs "let a = 1; a a;"). Qed.
Print Assumptions statements_need_separators_refuted.
(** `f(f f)` is accepted. *)
Theorem arguments_need_commas_refuted : exists src, src = bs "let f = 1; f(f f);" /\ parses src E_OK.
Proof. pa (bs "let f = 1; f(f f);"). Qed.
Print Assumptions arguments_need_commas_refuted.
(** `[1 2]` is accepted. *)
Theorem elements_need_commas_refuted : exists src, src = bs "[1 2];" /\ parses src E_OK.
Proof. pa (bs "[1 2];"). Qed.
Print Assumptions elements_need_commas_refuted.
(** `{ let x = 1 }` is rejected. *)
Theorem semicolon_is_optional_before_brace_refuted : exists src, src = bs "{ let x = 1 }" /\ parses src E_SYNTAX.
Proof. pa (bs "{ let x = 1 }"). Qed.
Print Assumptions semicolon_is_optional_before_brace_refuted.
(** `if (x) x = 1; else x = 2;` is rejected. *)
Theorem else_after_semicolon_refuted : exists src, src = bs "let x = 1; if (x) x = 1; else x = 2;" /\ parses src E_SYNTAX.
Proof. pa (bs "let x = 1; if (x) x = 1; else x = 2;"). Qed.
Print Assumptions else_after_semicolon_refuted.
(** `if (false); { y = 2; }` is rejected. *)
Theorem body_may_be_empty_refuted : exists src, src = bs "let y = 1; if (false); { y = 2; } y;" /\ parses src E_SYNTAX.
Proof. pa (bs "let y = 1; if (false); { y = 2; } y;"). Qed.
Print Assumptions body_may_be_empty_refuted.
(** `if (c) return {a: 1};` is rejected. *)
Theorem return_of_an_object_refuted : exists src, src = bs "let f = function(c) { if (c) return {a: 1}; return 2; };" /\ parses src E_SYNTAX.
Proof. pa (bs "let f = function(c) { if (c) return {a: 1}; return 2; };"). Qed.
Print Assumptions return_of_an_object_refuted.
(** Unary plus does not convert: the value of `+'5'` is a string. *)
Theorem unary_plus_converts_refuted : exists src, text_of (mjs_exec 900 Props_Vm.w0 new_engine (bs "a.js") src) = OK (E_OK, bs "5") /\ src = bs "+'5';".
Proof. exists (bs "+'5';"). split; [vm_compute; reflexivity|reflexivity]. Qed.
Print Assumptions unary_plus_converts_refuted.
(** The escape for control-A is not the byte 1. *)
Theorem control_escape_refuted : exists src, src = bs "'\cA';" /\ text_of (mjs_exec 900 Props_Vm.w0 new_engine (bs "a.js") src) = OK (E_OK, [3]).
Proof. exists (bs "'\cA';"). split; [reflexivity|vm_compute; reflexivity]. Qed.
Print Assumptions control_escape_refuted.
