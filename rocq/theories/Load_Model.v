(** Model of mjs_load (src/mjs_builtin.c:28-100) and mjs_exec_file (src/mjs_exec.c:1083-1105):
    loading script files. *)
From Verif Require Import Base Value_Model Str_Model Bcode_Model Vm_Model Parse_Model Run_Model.

(** The files: cs_read_file gives the contents of a file or NULL. Simplification: the contents
    do not change, and what follows a NUL byte in a file is not part of it. *)
Definition files := list Z -> option (list Z).

(** mjs_core.h:105 exec_res of a part: the outcome of the execution that ended last, and
    MJS_ERRS_CNT as long as none has ended (mjs_bcode.c:143) *)
Definition ERRS_CNT := 9.
Fixpoint last_res (l : list (Z * Z)) (start : Z) : Z :=
  match l with [] => ERRS_CNT | (s, e) :: l => if s =? start then e else last_res l start end.
Definition exec_res (m : vm) (bp : part) : Z := last_res (m_res m) (bp_start bp).

(** mjs_builtin.c:32-49 mjs_get_loaded_file_bcode: the first part with the file name *)
Fixpoint loaded_part (ps : list part) (path : list Z) : R (option part) :=
  match ps with
  | [] => OK None
  | bp :: ps => n <- bcode_filename bp ;; if bytes_eqb path n then OK (Some bp) else loaded_part ps path
  end.

(** mjs_exec.c:1083-1105 mjs_exec_file: the state, *res and the code returned; [exec] is
    mjs_exec_internal *)
Definition exec_file (fs : files) (exec : vm -> list Z -> list Z -> R (vm * Z)) (m : vm) (path : list Z) : R (vm * Z * Z) :=
  match fs path with
  | None => OK (prepend m E_FILE, V_UNDEFINED, E_FILE)
  | Some src => '(m, r) <- exec m path src ;; OK (m, r, m_err m)
  end.

(** mjs_builtin.c:51-100 mjs_load, given mjs_exec_internal and mjs_execute. A path with a NUL
    byte in it makes mjs_get_cstring return NULL, which cs_read_file passes to fopen. The path
    is read again only for the text of the error, which is not kept. *)
Definition load (fs : files) (exec : vm -> list Z -> list Z -> R (vm * Z)) (execute : vm -> Z -> R (vm * Z)) (m : vm) : R vm :=
  arg0 <- arg m 0 ;;
  arg1 <- arg m 1 ;;
  if is_string arg0 then
    p <- get_cstring (m_st m) (m_ext m) arg0 ;;
    match p with
    | None => UB
    | Some path =>
      let custom := is_object arg1 in
      let m := if custom then set_scopes m (sk_push (m_scopes m) arg1) else m in
      bp <- loaded_part (c_parts (m_code m)) path ;;
      '(m, res, ret) <- (match bp with
                         | None => exec_file fs exec m path
                         | Some bp => if negb (exec_res m bp =? E_OK) || custom then
                                        '(m, r) <- execute m (bp_start bp) ;; OK (m, r, m_err m)
                                      else OK (m, V_UNDEFINED, E_OK)
                         end) ;;
      let m := prepend m ret in
      m <- (if custom then '(_, sc) <- sk_pop (m_scopes m) ;; OK (set_scopes m sc) else OK m) ;;
      return_v m res
    end
  else return_v m V_UNDEFINED.

(** A host whose C function at [addr] is mjs_load; loads are nested up to [k] deep, and [k]
    bounds the length of their executions. *)
Fixpoint loader (w : host) (addr : Z) (fs : files) (k : nat) : host :=
  match k with
  | O => {| h_cfunc := fun p m => if p =? addr then NoFuel else h_cfunc w p m; h_ffi := h_ffi w |}
  | S k => {| h_cfunc := fun p m => if p =? addr then load fs (mjs_exec k (loader w addr fs k)) (execute k (loader w addr fs k)) m
                                    else h_cfunc w p m; h_ffi := h_ffi w |}
  end.
