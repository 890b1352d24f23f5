(** Model of mjs_exec (src/mjs_exec.c:995-1077): parsing a program and running it. *)
From Verif Require Import Base Value_Model Bcode_Model Str_Model Vm_Model Parse_Model.

(** mjs_exec.c:995-1077 mjs_exec_internal and mjs_exec without the .jsc cache: the state and
    *res. On a parse error nothing is committed (mjs_parser.c:1020-1026) and the result is
    undefined; the text of the error is not kept. *)
Definition mjs_exec (fuel : nat) (w : host) (m : vm) (path src : list Z) : R (vm * Z) :=
  '(code, e) <- mjs_parse fuel path src ;;
  let m := set_err m e in
  if e =? E_OK then exec_code fuel w m code else OK (m, V_UNDEFINED).
