(** Model of the virtual machine: src/mjs_exec.c and the stacks of src/mjs_core.c.
    Simplifications: error texts and stack-trace texts are not kept (only the error code);
    the collector does not run between instructions (it is modelled in Gc_Model); cells come
    from the bump allocator of Obj_Model; allocation succeeds. *)
From Verif Require Import Base Value_Model Str_Model SUtil_Model Conv_Model Obj_Model Arr_Model
  Ops_Model TokNum_Model Num_Model Varint_Model Txt_Model Bcode_Model Data_Model.

(** A struct mbuf of mjs_val_t values: the live values, innermost (top) first; the values that
    still lie in the buffer above the length, lowest first; the allocated size in bytes. *)
Record stk := { sk_live : list Z; sk_stale : list Z; sk_cap : Z }.
Definition sk_empty : stk := {| sk_live := []; sk_stale := []; sk_cap := 0 |}.
(** mjs_core.c:347-349 mjs_stack_size *)
Definition sk_size (s : stk) : Z := zlen (sk_live s).
(** mjs_core.c:366-368 push_mjs_val: mbuf_append of 8 bytes *)
Definition sk_push (s : stk) (v : Z) : stk :=
  {| sk_live := v :: sk_live s; sk_stale := tl (sk_stale s);
     sk_cap := cap_after_insert (8 * sk_size s) (sk_cap s) 8 |}.
(** mjs_core.c:370-378 mjs_pop_val: the assertion that the stack is not empty *)
Definition sk_pop (s : stk) : R (Z * stk) :=
  match sk_live s with
  | [] => Abort
  | v :: r => OK (v, {| sk_live := r; sk_stale := v :: sk_stale s; sk_cap := sk_cap s |})
  end.
(** mjs_core.c:342-345 vtop *)
Definition sk_top (s : stk) : Z := match sk_live s with [] => V_UNDEFINED | v :: _ => v end.
(** mjs_core.c:351-355 vptr: the position of an index, counted from the bottom; negative
    indexes count from the top; [None] is NULL *)
Definition vptr (s : stk) (idx : Z) : option Z :=
  let i := if idx <? 0 then sk_size s + idx else idx in
  if (0 <=? i) && (i <? sk_size s) then Some i else None.
(** *p and *p = v for p = vptr(s, idx); NULL is not dereferenceable *)
Definition sk_get (s : stk) (idx : Z) : R Z :=
  match vptr s idx with
  | Some i => OK (nth (Z.to_nat (sk_size s - 1 - i)) (sk_live s) 0)
  | None => UB
  end.
Fixpoint replace (l : list Z) (n : nat) (v : Z) : list Z :=
  match l, n with
  | [], _ => []
  | _ :: r, O => v :: r
  | x :: r, S n => x :: replace r n v
  end.
Definition sk_set (s : stk) (idx v : Z) : R stk :=
  match vptr s idx with
  | Some i => OK {| sk_live := replace (sk_live s) (Z.to_nat (sk_size s - 1 - i)) v;
                    sk_stale := sk_stale s; sk_cap := sk_cap s |}
  | None => UB
  end.
(** m->len = n * sizeof(mjs_val_t): shorter, or longer over values still in the buffer.
    Beyond anything ever written there the contents are indeterminate: [UB]. *)
Definition sk_all (s : stk) : list Z := rev (sk_live s) ++ sk_stale s.
Definition sk_set_len (s : stk) (n : Z) : R stk :=
  if (0 <=? n) && (n <=? zlen (sk_all s)) then
    OK {| sk_live := rev (firstn (Z.to_nat n) (sk_all s));
          sk_stale := skipn (Z.to_nat n) (sk_all s); sk_cap := sk_cap s |}
  else UB.
(** while (mjs_stack_size(m) > n) mjs_pop_val(m), for a size_t n *)
Definition sk_shrink (s : stk) (n : Z) : R stk :=
  if n <? sk_size s then sk_set_len s n else OK s.

(** The engine: struct mjs (mjs_core.h:112-170) as far as the executor uses it. [m_mem] is the
    memory of the host program, which foreign pointers address. [m_res] records the exec_res
    of the parts by their start index, latest first. *)
Record vm := {
  m_heap : heap; m_mem : rawmem;
  m_stack : stk; m_call : stk; m_arg : stk; m_scopes : stk; m_loops : stk;
  m_err : Z; m_this : Z; m_last : Z; m_code : code; m_off : Z; m_res : list (Z * Z) }.

Definition set_heap (m : vm) (x : heap) : vm := {| m_heap := x; m_mem := m_mem m; m_stack := m_stack m; m_call := m_call m; m_arg := m_arg m; m_scopes := m_scopes m; m_loops := m_loops m; m_err := m_err m; m_this := m_this m; m_last := m_last m; m_code := m_code m; m_off := m_off m; m_res := m_res m |}.
Definition set_mem (m : vm) (x : rawmem) : vm := {| m_heap := m_heap m; m_mem := x; m_stack := m_stack m; m_call := m_call m; m_arg := m_arg m; m_scopes := m_scopes m; m_loops := m_loops m; m_err := m_err m; m_this := m_this m; m_last := m_last m; m_code := m_code m; m_off := m_off m; m_res := m_res m |}.
Definition set_stack (m : vm) (x : stk) : vm := {| m_heap := m_heap m; m_mem := m_mem m; m_stack := x; m_call := m_call m; m_arg := m_arg m; m_scopes := m_scopes m; m_loops := m_loops m; m_err := m_err m; m_this := m_this m; m_last := m_last m; m_code := m_code m; m_off := m_off m; m_res := m_res m |}.
Definition set_call (m : vm) (x : stk) : vm := {| m_heap := m_heap m; m_mem := m_mem m; m_stack := m_stack m; m_call := x; m_arg := m_arg m; m_scopes := m_scopes m; m_loops := m_loops m; m_err := m_err m; m_this := m_this m; m_last := m_last m; m_code := m_code m; m_off := m_off m; m_res := m_res m |}.
Definition set_arg (m : vm) (x : stk) : vm := {| m_heap := m_heap m; m_mem := m_mem m; m_stack := m_stack m; m_call := m_call m; m_arg := x; m_scopes := m_scopes m; m_loops := m_loops m; m_err := m_err m; m_this := m_this m; m_last := m_last m; m_code := m_code m; m_off := m_off m; m_res := m_res m |}.
Definition set_scopes (m : vm) (x : stk) : vm := {| m_heap := m_heap m; m_mem := m_mem m; m_stack := m_stack m; m_call := m_call m; m_arg := m_arg m; m_scopes := x; m_loops := m_loops m; m_err := m_err m; m_this := m_this m; m_last := m_last m; m_code := m_code m; m_off := m_off m; m_res := m_res m |}.
Definition set_loops (m : vm) (x : stk) : vm := {| m_heap := m_heap m; m_mem := m_mem m; m_stack := m_stack m; m_call := m_call m; m_arg := m_arg m; m_scopes := m_scopes m; m_loops := x; m_err := m_err m; m_this := m_this m; m_last := m_last m; m_code := m_code m; m_off := m_off m; m_res := m_res m |}.
Definition set_err (m : vm) (x : Z) : vm := {| m_heap := m_heap m; m_mem := m_mem m; m_stack := m_stack m; m_call := m_call m; m_arg := m_arg m; m_scopes := m_scopes m; m_loops := m_loops m; m_err := x; m_this := m_this m; m_last := m_last m; m_code := m_code m; m_off := m_off m; m_res := m_res m |}.
Definition set_this (m : vm) (x : Z) : vm := {| m_heap := m_heap m; m_mem := m_mem m; m_stack := m_stack m; m_call := m_call m; m_arg := m_arg m; m_scopes := m_scopes m; m_loops := m_loops m; m_err := m_err m; m_this := x; m_last := m_last m; m_code := m_code m; m_off := m_off m; m_res := m_res m |}.
Definition set_last (m : vm) (x : Z) : vm := {| m_heap := m_heap m; m_mem := m_mem m; m_stack := m_stack m; m_call := m_call m; m_arg := m_arg m; m_scopes := m_scopes m; m_loops := m_loops m; m_err := m_err m; m_this := m_this m; m_last := x; m_code := m_code m; m_off := m_off m; m_res := m_res m |}.
Definition set_code (m : vm) (x : code) : vm := {| m_heap := m_heap m; m_mem := m_mem m; m_stack := m_stack m; m_call := m_call m; m_arg := m_arg m; m_scopes := m_scopes m; m_loops := m_loops m; m_err := m_err m; m_this := m_this m; m_last := m_last m; m_code := x; m_off := m_off m; m_res := m_res m |}.
Definition set_off (m : vm) (x : Z) : vm := {| m_heap := m_heap m; m_mem := m_mem m; m_stack := m_stack m; m_call := m_call m; m_arg := m_arg m; m_scopes := m_scopes m; m_loops := m_loops m; m_err := m_err m; m_this := m_this m; m_last := m_last m; m_code := m_code m; m_off := x; m_res := m_res m |}.
Definition set_res (m : vm) (x : list (Z * Z)) : vm := {| m_heap := m_heap m; m_mem := m_mem m; m_stack := m_stack m; m_call := m_call m; m_arg := m_arg m; m_scopes := m_scopes m; m_loops := m_loops m; m_err := m_err m; m_this := m_this m; m_last := m_last m; m_code := m_code m; m_off := m_off m; m_res := x |}.

Definition m_st (m : vm) : strs := h_st (m_heap m).
Definition set_st (m : vm) (s : strs) : vm := set_heap m (with_st (m_heap m) s).
(** Host memory as read by the string functions. *)
Definition m_ext (m : vm) : extmem := fun a => match m_mem m a with Some b => b | None => 0 end.
Definition vnum (n : Z) : Z := mk_number (d_of_Z n).

(** mjs_core.c mjs_prepend_errorf: the first code stays; [E_OK] stands for no report *)
Definition prepend (m : vm) (e : Z) : vm :=
  if e =? E_OK then m else if m_err m =? E_OK then set_err m e else m.

(** mjs_core.c:380-382 mjs_push; 357-364 mjs_pop *)
Definition push (m : vm) (v : Z) : vm := set_stack m (sk_push (m_stack m) v).
Definition pop (m : vm) : Z * vm :=
  match sk_live (m_stack m) with
  | [] => (V_UNDEFINED, set_err m E_INTERNAL)
  | v :: r => (v, set_stack m {| sk_live := r; sk_stale := v :: sk_stale (m_stack m);
                                 sk_cap := sk_cap (m_stack m) |})
  end.

(** mjs_exec.c:30-49 call_stack_push_frame *)
Definition push_frame (m : vm) (offset retidx : Z) : R vm :=
  '(this, a) <- sk_pop (m_arg m) ;;
  let c := sk_push (m_call m) (m_this m) in
  let c := sk_push c (vnum offset) in
  let c := sk_push c (vnum (sk_size (m_scopes m))) in
  let c := sk_push c (vnum (sk_size (m_loops m))) in
  let c := sk_push c retidx in
  OK (set_call (set_this (set_arg m a) this) c).

(** (size_t) of an int *)
Definition size_of_int (n : Z) : Z := u64 n.

(** mjs_exec.c:53-81 call_stack_restore_frame: the return address and the state *)
Definition restore_frame (m : vm) : R (Z * vm) :=
  if sk_size (m_call m) <? 5 then Abort
  else
  '(v1, c) <- sk_pop (m_call m) ;; retidx <- get_int v1 ;;
  '(v2, c) <- sk_pop c ;; loopidx <- get_int v2 ;;
  '(v3, c) <- sk_pop c ;; scopeidx <- get_int v3 ;;
  '(v4, c) <- sk_pop c ;; addr <- get_int v4 ;;
  '(v5, c) <- sk_pop c ;;
  sc <- sk_shrink (m_scopes m) (size_of_int scopeidx) ;;
  lp <- sk_shrink (m_loops m) (size_of_int loopidx) ;;
  s <- sk_set_len (m_stack m) (size_of_int retidx) ;;
  OK (size_of_int addr, set_stack (set_loops (set_scopes (set_this (set_call m c) v5) sc) lp) s).

(** mjs_object.c:78-91 mjs_get_own_property_v with the error it reports *)
Definition own_v (m : vm) (obj key : Z) : R (vm * Z) :=
  '(p, ok) <- own_property_v (m_heap m) (m_ext m) obj key ;;
  OK (if ok : bool then m else set_err m E_TYPE, p).
(** mjs_object.c:153-156 mjs_set_v; a name that cannot be converted reports an error, the
    other failures only return a code, which the executor ignores *)
Definition set_v (m : vm) (obj key val : Z) : R vm :=
  t <- to_string (m_st m) (m_ext m) key ;;
  '(h, _) <- obj_set_v (m_heap m) (m_ext m) obj key val ;;
  OK (match t with Some _ => set_heap m h | None => set_err (set_heap m h) E_TYPE end).
(** mjs_object.c:119-137 mjs_get_v *)
Definition get_v (m : vm) (obj key : Z) : R (vm * Z) :=
  t <- to_string (m_st m) (m_ext m) key ;;
  v <- obj_get_v (m_heap m) (m_ext m) obj key ;;
  OK (match t with Some _ => m | None => set_err m E_TYPE end, v).

(** mjs_exec.c:83-93 mjs_find_scope, over the scopes from the innermost one *)
Fixpoint find_in (m : vm) (scopes : list Z) (key : Z) : R (vm * Z) :=
  match scopes with
  | [] => OK (set_err m E_REFERENCE, V_UNDEFINED)
  | s :: r => '(m, p) <- own_v m s key ;; if negb (p =? 0) then OK (m, s) else find_in m r key
  end.
Definition find_scope (m : vm) (key : Z) : R (vm * Z) := find_in m (sk_live (m_scopes m)) key.

(** do_op with the error it reports *)
Definition vm_op (m : vm) (a b op : Z) : R (vm * Z) :=
  '(st, v, e) <- do_op (m_st m) (m_ext m) a b op ;; OK (prepend (set_st m st) e, v).

(** mjs_exec.c:206-217 op_assign *)
Definition op_assign (m : vm) (op : Z) : R vm :=
  let '(val, m) := pop m in let '(obj, m) := pop m in let '(key, m) := pop m in
  if is_object obj && is_string key then
    '(m, v) <- get_v m obj key ;;
    '(m, w) <- vm_op m v val op ;;
    m <- set_v m obj key w ;;
    OK (push m v)
  else OK (set_err m E_TYPE).

(** mjs_exec.c:354-407 the ++ and -- operators; [post] keeps the old value *)
Definition incdec (m : vm) (op : Z) (post : bool) : R vm :=
  let '(obj, m) := pop m in let '(key, m) := pop m in
  if is_object obj && is_string key then
    '(m, v) <- get_v m obj key ;;
    '(m, w) <- vm_op m v (vnum 1) op ;;
    m <- set_v m obj key w ;;
    OK (push m (if post then v else w))
  else OK (set_err m E_TYPE).

(** mjs_exec.c:322-353 TOK_ASSIGN *)
Definition assign (m : vm) : R vm :=
  let '(val, m) := pop m in let '(obj, m) := pop m in let '(key, m) := pop m in
  if is_object obj then m <- set_v m obj key val ;; OK (push m val)
  else if is_foreign obj then
    ikey <- get_int key ;; ival <- get_int val ;;
    if negb (is_number key) then OK (push (prepend m E_TYPE) V_UNDEFINED)
    else if negb (is_number val) || (ival <? 0) || (255 <? ival) then
      OK (push (prepend m E_TYPE) V_UNDEFINED)
    else r <- wr (m_mem m) (get_ptr obj + ikey) ival ;; OK (push (set_mem m r) val)
  else OK (push (prepend m E_TYPE) val).

(** mjs_util.c:18-45 mjs_typeof *)
Definition type_text (t : mtype) : list Z :=
  match t with
  | TyNumber => bs "number" | TyBoolean => bs "boolean" | TyString => bs "string"
  | TyArray => bs "array" | TyObject => bs "object" | TyForeign => bs "foreign_ptr"
  | TyFunction => bs "function" | TyNull => bs "null" | TyUndefined => bs "undefined"
  end.

Definition in_list (x : Z) (l : list Z) : bool := existsb (Z.eqb x) l.
Definition arith_ops : list Z :=
  [TOK_MINUS; TOK_PLUS; TOK_MUL; TOK_DIV; TOK_REM; TOK_XOR; TOK_AND; TOK_OR;
   TOK_LSHIFT; TOK_RSHIFT; TOK_URSHIFT].
(** mjs_exec.c:409-421: the compound assignments and their operators *)
Definition assign_ops : list (Z * Z) :=
  [(TOK_MINUS_ASSIGN, TOK_MINUS); (TOK_PLUS_ASSIGN, TOK_PLUS); (TOK_MUL_ASSIGN, TOK_MUL);
   (TOK_DIV_ASSIGN, TOK_DIV); (TOK_REM_ASSIGN, TOK_REM); (TOK_AND_ASSIGN, TOK_AND);
   (TOK_OR_ASSIGN, TOK_OR); (TOK_XOR_ASSIGN, TOK_XOR); (TOK_LSHIFT_ASSIGN, TOK_LSHIFT);
   (TOK_RSHIFT_ASSIGN, TOK_RSHIFT); (TOK_URSHIFT_ASSIGN, TOK_URSHIFT)].

(** mjs_exec.c:243-434 exec_expr. TOK_DOT, TOK_UNARY_PLUS, TOK_COMMA and unknown operators
    do nothing. *)
Definition exec_expr (m : vm) (op : Z) : R vm :=
  if in_list op arith_ops then
    let '(b, m) := pop m in let '(a, m) := pop m in
    '(m, v) <- vm_op m a b op ;; OK (push m v)
  else if op =? TOK_UNARY_MINUS then
    let '(a, m) := pop m in OK (push m (un_minus a))
  else if op =? TOK_NOT then
    let '(a, m) := pop m in t <- is_truthy (m_st m) a ;; OK (push m (mk_boolean (negb t)))
  else if op =? TOK_TILDA then
    let '(a, m) := pop m in v <- un_tilda a ;; OK (push m v)
  else if (op =? TOK_EQ) || (op =? TOK_NE) then OK (set_err m E_NOT_IMPL)
  else if op =? TOK_EQ_EQ then
    let '(a, m) := pop m in let '(b, m) := pop m in
    e <- check_equal (m_st m) (m_ext m) a b ;; OK (push m (mk_boolean e))
  else if op =? TOK_NE_NE then
    let '(a, m) := pop m in let '(b, m) := pop m in
    e <- check_equal (m_st m) (m_ext m) a b ;; OK (push m (mk_boolean (negb e)))
  else if in_list op [TOK_LT; TOK_GT; TOK_LE; TOK_GE] then
    let '(b, m) := pop m in let '(a, m) := pop m in
    OK (push m (mk_boolean (rel_op (get_double a) (get_double b) op)))
  else if op =? TOK_ASSIGN then assign m
  else if op =? TOK_POSTFIX_PLUS then incdec m TOK_PLUS true
  else if op =? TOK_POSTFIX_MINUS then incdec m TOK_MINUS true
  else if op =? TOK_MINUS_MINUS then incdec m TOK_MINUS false
  else if op =? TOK_PLUS_PLUS then incdec m TOK_PLUS false
  else match aget assign_ops op with
  | Some o => op_assign m o
  | None =>
    if op =? TOK_KEYWORD_TYPEOF then
      let '(a, m) := pop m in
      t <- get_type a ;;
      '(st, v) <- mk_string (m_st m) (type_text t) ;;
      OK (push (set_st m st) v)
    else OK m
  end.

(** Addresses of the built-in C functions: any distinct addresses would do. *)
Definition F_CHAR_CODE_AT := 65536.
Definition F_INDEX_OF := 65552.
Definition F_SLICE := 65568.
Definition F_SPLICE := 65584.
Definition F_PUSH := 65600.
Definition F_APPLY := 65616.
Definition foreign_fn (p : Z) : Z := fst (mk_foreign p).

(** The text of a property name with the bytes that follow it in memory. *)
Definition name_text (m : vm) (key : Z) : R (option (list Z * Z)) :=
  if is_string key then
    '(l, n) <- get_string (m_st m) key ;;
    match l with
    | PNull => UB
    | PExt _ => d <- loc_read (m_st m) (m_ext m) key l (n + 16) ;; OK (Some (d, n))
    | _ => d <- loc_read (m_st m) (m_ext m) key l (n + 1) ;; OK (Some (d, n))
    end
  else
    t <- to_string (m_st m) (m_ext m) key ;;
    OK (match t with Some d => Some (d ++ [0], zlen d) | None => None end).

(** mjs_exec.c:473-488 getprop_builtin_array *)
Definition getprop_array (m : vm) (val : Z) (txt : list Z) : R (option Z) :=
  e1 <- cstr_eq txt (bs "splice") ;;
  if e1 : bool then OK (Some (foreign_fn F_SPLICE)) else
  e2 <- cstr_eq txt (bs "push") ;;
  if e2 : bool then OK (Some (foreign_fn F_PUSH)) else
  e3 <- cstr_eq txt (bs "length") ;;
  if e3 : bool then n <- array_length (m_heap m) (m_ext m) val ;; OK (Some (vnum n)) else OK None.
(** mjs_exec.c:490-504 getprop_builtin_foreign *)
Definition getprop_foreign (m : vm) (val : Z) (txt : list Z) (n : Z) : R (vm * Z) :=
  match cstr_to_ulong txt n with
  | None => OK (prepend m E_TYPE, V_UNDEFINED)
  | Some u => b <- rd (m_mem m) (get_ptr val + s32 u) ;; OK (m, vnum b)
  end.
(** mjs_exec.c:520-548 getprop_builtin: [None] when not handled *)
Definition getprop_builtin (m : vm) (val name : Z) : R (vm * option Z) :=
  t <- name_text m name ;;
  match t with
  | None => OK (set_err m E_TYPE, None)
  | Some (txt, n) =>
    if is_string val then
      '(st, r) <- getprop_string (m_st m) (m_ext m) val txt n ;;
      OK (set_st m st, match r with
                       | GP_val v => Some v
                       | GP_fn SF_char_code_at => Some (foreign_fn F_CHAR_CODE_AT)
                       | GP_fn SF_index_of => Some (foreign_fn F_INDEX_OF)
                       | GP_fn SF_slice => Some (foreign_fn F_SLICE)
                       | GP_no => None
                       end)
    else if (n =? 5) && bytes_eqb (firstn 5 txt) (bs "apply") then OK (m, Some (foreign_fn F_APPLY))
    else if is_array val then r <- getprop_array m val txt ;; OK (m, r)
    else if is_foreign val then '(m, v) <- getprop_foreign m val txt n ;; OK (m, Some v)
    else OK (m, None)
  end.

(** mjs_core.c:307-333 mjs_getretvalpos, mjs_nargs, mjs_arg *)
Definition getretvalpos (m : vm) : R Z :=
  match vptr (m_call m) (-1) with
  | None => Abort
  | Some _ =>
    v <- sk_get (m_call m) (-1) ;;
    if negb (is_number v) then Abort
    else n <- get_int v ;; if n - 1 <? sk_size (m_stack m) then OK (n - 1) else Abort
  end.
Definition nargs (m : vm) : R Z :=
  p <- getretvalpos m ;;
  let pos := p + 1 in let top := sk_size (m_stack m) in
  OK (if (0 <? pos) && (pos <? top) then top - pos else 0).
Definition arg (m : vm) (i : Z) : R Z :=
  p <- getretvalpos m ;;
  let pos := p + 1 in let top := sk_size (m_stack m) in
  if (0 <? pos) && (pos + i <? top) then sk_get (m_stack m) (pos + i) else OK V_UNDEFINED.
(** mjs_core.c:335-340 mjs_return *)
Definition return_v (m : vm) (v : Z) : R vm :=
  p <- getretvalpos m ;; s <- sk_set_len (m_stack m) (size_of_int p) ;; OK (push (set_stack m s) v).
(** All the arguments of the running C function *)
Fixpoint args_from (m : vm) (k : nat) (i : Z) : R (list Z) :=
  match k with
  | O => OK []
  | S k => a <- arg m i ;; r <- args_from m k (i + 1) ;; OK (a :: r)
  end.
Definition args (m : vm) : R (list Z) := n <- nargs m ;; args_from m (Z.to_nat n) 0.

(** The C functions modelled in Str_Model and Arr_Model: a report, then mjs_return *)
Definition str_builtin (f : strs -> extmem -> Z -> list Z -> R (strs * Z * Z)) (m : vm) : R vm :=
  a <- args m ;; '(st, v, e) <- f (m_st m) (m_ext m) (m_this m) a ;;
  return_v (prepend (set_st m st) e) v.
Definition arr_builtin (f : heap -> extmem -> Z -> list Z -> R (heap * Z * Z)) (m : vm) : R vm :=
  a <- args m ;; '(h, v, e) <- f (m_heap m) (m_ext m) (m_this m) a ;;
  return_v (prepend (set_heap m h) e) v.

(** mjs_exec.c:511: the elements of the argument array *)
Fixpoint items (m : vm) (arr : Z) (k : nat) (i : Z) : R (list Z) :=
  match k with
  | O => OK []
  | S k => v <- array_get (m_heap m) (m_ext m) arr (u64 i) ;; r <- items m arr k (i + 1) ;; OK (v :: r)
  end.

Definition EXIT_ADDR := 2147483647.
Fixpoint push_all_vals (m : vm) (vs : list Z) : vm :=
  match vs with [] => m | v :: r => push_all_vals (push m v) r end.

(** What the executor has to know about the host: the C function at an address, and
    mjs_ffi_call2. *)
Record host := { h_cfunc : Z -> vm -> R vm; h_ffi : vm -> R vm }.

(** mjs_exec.c:1122-1179 mjs_apply, given the C function calls and mjs_execute. The result
    pointer into the data stack dangles once the stack's buffer has been reallocated. *)
Definition apply_with (call : Z -> vm -> R vm) (ffi : vm -> R vm) (exec : vm -> Z -> R (vm * Z))
           (m : vm) (res0 func this : Z) (vs : list Z) : R (vm * Z) :=
  if negb (is_function func) && negb (is_foreign func) && negb (is_ffi_sig func) then
    OK (set_err m E_TYPE, res0)
  else
    let prev := m_this m in
    let m := push m func in
    let cap := sk_cap (m_stack m) in
    let pos := sk_size (m_stack m) - 1 in
    let retidx := vnum (sk_size (m_stack m)) in
    let m := push_all_vals m vs in
    let m := set_arg m (sk_push (m_arg m) this) in
    m <- push_frame m EXIT_ADDR retidx ;;
    '(m, r) <- (if is_foreign func || is_ffi_sig func then
                  m <- (if is_foreign func then call (get_ptr func) m else ffi m) ;;
                  if sk_cap (m_stack m) =? cap then
                    match nthz (sk_all (m_stack m)) pos with
                    | Some v => OK (m, v)
                    | None => UB
                    end
                  else UB
                else exec m (get_func_addr func)) ;;
    m <- (if negb (m_err m =? E_OK) then
            '(_, m) <- restore_frame m ;; OK (snd (pop m))
          else OK m) ;;
    OK (set_this m prev, r).

(** mjs_exec.c:506-519 mjs_apply_ *)
Definition apply_builtin (apply : vm -> Z -> Z -> Z -> list Z -> R (vm * Z)) (m : vm) : R vm :=
  let func := m_this m in
  v <- arg m 1 ;;
  vs <- (if is_array v then
           n <- array_length (m_heap m) (m_ext m) v ;; items m v (Z.to_nat (s32 n)) 0
         else OK []) ;;
  this <- arg m 0 ;;
  '(m, r) <- apply m V_UNDEFINED func this vs ;;
  return_v m r.

(** Calling the C function at an address: the built-in ones, or the host's. [k] bounds the
    nesting of apply within apply, [exec] is mjs_execute. *)
Fixpoint call_native (w : host) (exec : vm -> Z -> R (vm * Z)) (k : nat) (p : Z) (m : vm) : R vm :=
  if p =? F_CHAR_CODE_AT then str_builtin string_char_code_at m
  else if p =? F_INDEX_OF then str_builtin string_index_of m
  else if p =? F_SLICE then str_builtin string_slice m
  else if p =? F_SPLICE then arr_builtin array_splice m
  else if p =? F_PUSH then arr_builtin array_push_builtin m
  else if p =? F_APPLY then
    match k with
    | O => NoFuel
    | S k => apply_builtin (apply_with (call_native w exec k) (h_ffi w) exec) m
    end
  else h_cfunc w p m.

(** Where execution goes: on at an index of a part (before the i++), or to the end. *)
Inductive next := Go (m : vm) (bp : part) (i : Z) | Done (m : vm).

(** cs_varint_decode_unsafe(&code[i]); the value as an int and its length *)
Definition operand (bp : part) (i : Z) : R (Z * Z) :=
  '(n, l) <- varint_decode_unsafe (skipn (Z.to_nat i) (bp_data bp)) ;; OK (s32 n, l).
(** mjs_mk_string of n bytes of code at [i]. Simplification: n = -1, which makes
    mjs_mk_string take the length of the text, is treated as reading beyond the code. *)
Definition code_str (m : vm) (bp : part) (i n : Z) : R (vm * Z) :=
  if (0 <=? n) && (i + n <=? zlen (bp_data bp)) then
    '(st, v) <- mk_string (m_st m) (sub (bp_data bp) i n) ;; OK (set_st m st, v)
  else UB.
(** *mjs_bcode_part_get_by_offset(mjs, off): NULL is not dereferenceable *)
Definition the_part (m : vm) (off : Z) : R part :=
  r <- part_by_offset (m_code m) off ;; match r with Some bp => OK bp | None => UB end.

(** A number of property cells bounds the walk along a prototype chain without repetition. *)
Definition proto_fuel (m : vm) : nat := S (length (h_objs (m_heap m))).

(** OP_GET *)
Definition do_get (m : vm) (prev : Z) : R vm :=
  let '(obj, m) := pop m in let '(key, m) := pop m in
  '(m, r) <- getprop_builtin m obj key ;;
  '(m, val) <- (match r with
                | Some v => OK (m, v)
                | None => if is_object obj then
                            t <- to_string (m_st m) (m_ext m) key ;;
                            v <- get_v_proto (proto_fuel m) (m_heap m) (m_ext m) obj key ;;
                            OK (match t with Some _ => m | None => set_err m E_TYPE end, v)
                          else OK (prepend m E_TYPE, V_UNDEFINED)
                end) ;;
  OK (set_last (push m val) (if prev =? OP_FIND_SCOPE then V_UNDEFINED else obj)).

(** OP_CALL *)
Definition do_call (w : host) (exec : vm -> Z -> R (vm * Z)) (k : nat) (m : vm) (bp : part) (i : Z)
  : R next :=
  let retidx := sk_top (m_arg m) in
  n <- get_int retidx ;;
  let pos := n - 1 in
  '(_, a) <- sk_pop (m_arg m) ;;
  let m := set_arg m a in
  func <- sk_get (m_stack m) pos ;;
  if is_function func then
    m <- push_frame m (bp_start bp + i) retidx ;;
    let off := u64 (get_func_addr func - 1) in
    bp <- the_part m off ;;
    s <- sk_set (m_stack m) pos V_UNDEFINED ;;
    OK (Go (set_stack m s) bp (u64 (off - bp_start bp)))
  else if is_string func || is_ffi_sig func then
    m <- push_frame m (bp_start bp + i) retidx ;;
    m <- h_ffi w m ;;
    '(_, m) <- restore_frame m ;;
    OK (Go m bp i)
  else if is_foreign func then
    m <- push_frame m (bp_start bp + i) retidx ;;
    m <- call_native w exec k (get_ptr func) m ;;
    '(_, m) <- restore_frame m ;;
    OK (Go m bp i)
  else OK (Go (set_err m E_TYPE) bp i).

(** OP_FOR_IN_NEXT *)
Definition for_in_next (m : vm) : R vm :=
  match vptr (m_stack m) (-1) with
  | None => UB
  | Some _ =>
    obj <- sk_get (m_stack m) (-2) ;;
    if is_object obj then
      var <- sk_get (m_stack m) (-3) ;;
      it <- sk_get (m_stack m) (-1) ;;
      '(key, it) <- obj_next (m_heap m) obj it ;;
      s <- sk_set (m_stack m) (-1) it ;;
      let m := set_stack m s in
      if negb (key =? V_UNDEFINED) then
        '(m, scope) <- find_scope m var ;; set_v m scope var key
      else OK m
    else OK (set_err m E_TYPE)
  end.

(** OP_SETRETVAL. C leaves the order of vptr and mjs_pop open; the value is popped first. *)
Definition set_retval (m : vm) : R vm :=
  if sk_size (m_call m) <? 5 then OK (set_err m E_INTERNAL)
  else
    v <- sk_get (m_call m) (-1) ;; n <- get_int v ;;
    let '(r, m) := pop m in
    s <- sk_set (m_stack m) (n - 1) r ;;
    OK (set_stack m s).

(** OP_CONTINUE and OP_BREAK: the new state and index *)
Definition do_continue (m : vm) (i : Z) : R (vm * Z) :=
  if 3 <=? sk_size (m_loops m) then
    v <- sk_get (m_loops m) (-3) ;; n <- get_int v ;;
    if sk_size (m_scopes m) <? size_of_int n then Abort
    else
      sc <- sk_set_len (m_scopes m) n ;;
      a <- get_int (sk_top (m_loops m)) ;;
      OK (set_scopes m sc, u64 (a - 1))
  else OK (set_err m E_SYNTAX, i).
Definition do_break (m : vm) (i : Z) : R (vm * Z) :=
  if 3 <=? sk_size (m_loops m) then
    '(_, l) <- sk_pop (m_loops m) ;;
    '(va, l) <- sk_pop l ;; a <- get_int va ;;
    '(vs, l) <- sk_pop l ;; n <- get_int vs ;;
    if sk_size (m_scopes m) <? size_of_int n then Abort
    else sc <- sk_set_len (m_scopes m) n ;; OK (set_scopes (set_loops m l) sc, u64 (a - 1))
  else OK (set_err m E_SYNTAX, i).

(** mjs_exec.c:594-960: the instruction [op] at index [i] of [bp]; [prev] is the opcode before
    it. Indexes are size_t and wrap. *)
Definition instr (w : host) (exec : vm -> Z -> R (vm * Z)) (k : nat)
           (m : vm) (bp : part) (i op prev : Z) : R next :=
  let go m := OK (Go m bp i) in
  if op =? OP_BCODE_HEADER then
    n <- read_u32 (bp_data bp) (i + 1 + 4) ;; OK (Go m bp (u64 (i + n)))
  else if op =? OP_PUSH_NULL then go (push m V_NULL)
  else if op =? OP_PUSH_UNDEF then go (push m V_UNDEFINED)
  else if op =? OP_PUSH_FALSE then go (push m (mk_boolean false))
  else if op =? OP_PUSH_TRUE then go (push m (mk_boolean true))
  else if op =? OP_PUSH_OBJ then
    '(h, v) <- mk_object (m_heap m) ;; go (push (set_heap m h) v)
  else if op =? OP_PUSH_ARRAY then
    '(h, v) <- mk_array (m_heap m) ;; go (push (set_heap m h) v)
  else if op =? OP_PUSH_FUNC then
    '(n, l) <- operand bp (i + 1) ;;
    OK (Go (push m (mk_function (u64 (bp_start bp + i - n)))) bp (u64 (i + l)))
  else if op =? OP_PUSH_THIS then go (push m (m_this m))
  else if op =? OP_JMP then
    '(n, l) <- operand bp (i + 1) ;; OK (Go m bp (u64 (i + (n + l))))
  else if op =? OP_JMP_FALSE then
    '(n, l) <- operand bp (i + 1) ;;
    let '(v, m) := pop m in
    t <- is_truthy (m_st m) v ;;
    OK (if t : bool then Go m bp (u64 (i + l)) else Go (push m V_UNDEFINED) bp (u64 (i + l + n)))
  else if op =? OP_JMP_NEUTRAL_TRUE then
    '(n, l) <- operand bp (i + 1) ;;
    t <- is_truthy (m_st m) (sk_top (m_stack m)) ;;
    OK (Go m bp (if t : bool then u64 (i + l + n) else u64 (i + l)))
  else if op =? OP_JMP_NEUTRAL_FALSE then
    '(n, l) <- operand bp (i + 1) ;;
    t <- is_truthy (m_st m) (sk_top (m_stack m)) ;;
    OK (Go m bp (if t : bool then u64 (i + l) else u64 (i + l + n)))
  else if op =? OP_FIND_SCOPE then
    '(m, s) <- find_scope m (sk_top (m_stack m)) ;; go (push m s)
  else if op =? OP_CREATE then
    let '(obj, m) := pop m in let '(key, m) := pop m in
    '(m, p) <- own_v m obj key ;;
    if p =? 0 then m <- set_v m obj key V_UNDEFINED ;; go m else go m
  else if op =? OP_APPEND then
    let '(val, m) := pop m in let '(arr, m) := pop m in
    '(h, e) <- array_push (m_heap m) (m_ext m) arr val ;;
    let m := set_heap m h in
    go (if negb (e =? E_OK) then set_err m E_TYPE else m)
  else if op =? OP_GET then m <- do_get m prev ;; go m
  else if op =? OP_DEL_SCOPE then
    if 8 * sk_size (m_scopes m) <=? 1 then go (set_err m E_INTERNAL)
    else '(_, sc) <- sk_pop (m_scopes m) ;; go (set_scopes m sc)
  else if op =? OP_NEW_SCOPE then
    '(h, v) <- mk_object (m_heap m) ;;
    go (set_scopes (set_heap m h) (sk_push (m_scopes m) v))
  else if op =? OP_PUSH_SCOPE then
    if sk_size (m_scopes m) =? 0 then Abort else go (push m (sk_top (m_scopes m)))
  else if op =? OP_PUSH_STR then
    '(n, l) <- operand bp (i + 1) ;;
    '(m, v) <- code_str m bp (i + 1 + l) n ;; OK (Go (push m v) bp (u64 (i + (l + n))))
  else if op =? OP_PUSH_INT then
    '(n, l) <- varint_decode_unsafe (skipn (Z.to_nat (i + 1)) (bp_data bp)) ;;
    OK (Go (push m (mk_number (d_of_Z (Ops_Model.s64 n)))) bp (u64 (i + l)))
  else if op =? OP_PUSH_DBL then
    '(n, l) <- operand bp (i + 1) ;;
    let v := fst (strtod (skipn (Z.to_nat (i + 1 + l)) (bp_data bp))) in
    OK (Go (push m (mk_number v)) bp (u64 (i + (l + n))))
  else if op =? OP_FOR_IN_NEXT then m <- for_in_next m ;; go m
  else if op =? OP_RETURN then
    '(a, m) <- restore_frame m ;;
    if a =? EXIT_ADDR then OK (Done m)
    else bp <- the_part m a ;; OK (Go m bp (u64 (a - bp_start bp)))
  else if op =? OP_ARGS then
    let m := if prev =? OP_GET then m else set_last m V_UNDEFINED in
    go (set_arg m (sk_push (sk_push (m_arg m) (m_last m)) (vnum (sk_size (m_stack m)))))
  else if op =? OP_CALL then do_call w exec k m bp i
  else if op =? OP_SET_ARG then
    '(an, l1) <- operand bp (i + 1) ;;
    '(n, l2) <- operand bp (i + l1 + 1) ;;
    '(m, key) <- code_str m bp (i + 1 + l1 + l2) n ;;
    v <- arg m an ;;
    m <- set_v m (sk_top (m_scopes m)) key v ;;
    OK (Go m bp (u64 (i + (l1 + l2 + n))))
  else if op =? OP_SETRETVAL then m <- set_retval m ;; go m
  else if op =? OP_EXPR then
    match nthz (bp_data bp) (i + 1) with
    | None => UB
    | Some o => m <- exec_expr m o ;; OK (Go m bp (u64 (i + 1)))
    end
  else if op =? OP_DROP then go (snd (pop m))
  else if op =? OP_DUP then go (push m (sk_top (m_stack m)))
  else if op =? OP_SWAP then
    let '(a, m) := pop m in let '(b, m) := pop m in go (push (push m a) b)
  else if op =? OP_LOOP then
    '(o1, l1) <- operand bp (i + 1) ;;
    '(o2, l2) <- operand bp (i + 1 + l1) ;;
    let lp := sk_push (m_loops m) (vnum (sk_size (m_scopes m))) in
    let lp := sk_push lp (vnum (u64 (i + 1 + l1 + o1))) in
    let lp := sk_push lp (vnum (u64 (i + 1 + l1 + l2 + o2))) in
    OK (Go (set_loops m lp) bp (u64 (i + (l1 + l2))))
  else if op =? OP_CONTINUE then '(m, i) <- do_continue m i ;; OK (Go m bp i)
  else if op =? OP_BREAK then '(m, i) <- do_break m i ;; OK (Go m bp i)
  else if op =? OP_NOP then go m
  else if op =? OP_EXIT then OK (Go m bp (zlen (bp_data bp)))
  else OK (Go (set_err m E_INTERNAL) bp (zlen (bp_data bp))).

(** mjs_exec.c:558-562: the stack lengths saved on entry *)
Record saved := { v_stack : Z; v_call : Z; v_arg : Z; v_scopes : Z; v_loops : Z }.
Definition save (m : vm) : saved :=
  {| v_stack := sk_size (m_stack m); v_call := sk_size (m_call m); v_arg := sk_size (m_arg m);
     v_scopes := sk_size (m_scopes m); v_loops := sk_size (m_loops m) |}.

(** mjs_core.c:263-281 mjs_gen_stack_trace as far as it changes the call stack: all complete
    frames are popped. The length of the call stack bounds the number of rounds. *)
Fixpoint pop_frames (n : nat) (s : stk) : R stk :=
  match n with
  | O => OK s
  | S n =>
    if sk_size s <? 5 then OK s
    else s <- sk_set_len s (sk_size s - 5) ;; pop_frames n s
  end.

(** mjs_exec.c:962-977: after an error *)
Definition recover (m : vm) (sv : saved) : R vm :=
  c <- pop_frames (length (sk_live (m_call m))) (m_call m) ;;
  s <- sk_set_len (m_stack m) (v_stack sv) ;;
  c <- sk_set_len c (v_call sv) ;;
  a <- sk_set_len (m_arg m) (v_arg sv) ;;
  sc <- sk_set_len (m_scopes m) (v_scopes sv) ;;
  lp <- sk_set_len (m_loops m) (v_loops sv) ;;
  OK (push (set_loops (set_scopes (set_arg (set_call (set_stack m s) c) a) sc) lp) V_UNDEFINED).

(** Between two instructions: the engine, the part and index, the opcode executed last. *)
Record conf := { k_m : vm; k_bp : part; k_i : Z; k_op : Z }.

(** mjs_exec.c:572-979: one round of the loop; [inr] is the state at the label clean *)
Definition step (w : host) (exec : vm -> Z -> R (vm * Z)) (k : nat) (sv : saved) (c : conf)
  : R (conf + vm) :=
  if negb (k_i c <? zlen (bp_data (k_bp c))) then OK (inr (k_m c))
  else
  match nthz (bp_data (k_bp c)) (k_i c) with
  | None => UB
  | Some op =>
    r <- instr w exec k (set_off (k_m c) (k_i c)) (k_bp c) (k_i c) op (k_op c) ;;
    match r with
    | Done m => OK (inr m)
    | Go m bp i =>
      if negb (m_err m =? E_OK) then m <- recover m sv ;; OK (inr m)
      else OK (inl {| k_m := m; k_bp := bp; k_i := u64 (i + 1); k_op := op |})
    end
  end.

(** mjs_exec.c:985-992: exec_res of the part, the result *)
Definition finish (m : vm) (start : Z) : R (vm * Z) :=
  bp <- the_part m start ;;
  let m := set_res m ((bp_start bp, m_err m) :: m_res m) in
  let '(v, m) := pop m in
  OK (m, v).

(** mjs_exec.c:564-571: entry *)
Definition enter (m : vm) (off : Z) : R conf :=
  bp <- the_part m off ;;
  OK {| k_m := set_err m E_OK; k_bp := bp; k_i := u64 (off - bp_start bp); k_op := OP_MAX |}.

(** mjs_exec.c:550-993 mjs_execute: the state and the result. The fuel bounds the number of
    rounds and the nesting of calls from C; [NoFuel] stands for an execution that has not
    ended. *)
Fixpoint run (fuel : nat) (w : host) (sv : saved) (start : Z) (c : conf) : R (vm * Z) :=
  match fuel with
  | O => NoFuel
  | S f =>
    r <- step w (fun m off => c <- enter m off ;; run f w (save m) off c) f sv c ;;
    match r with
    | inl c => run f w sv start c
    | inr m => finish m start
    end
  end.
Definition execute (fuel : nat) (w : host) (m : vm) (off : Z) : R (vm * Z) :=
  c <- enter m off ;; run fuel w (save m) off c.

(** mjs_exec.c:1122-1179 mjs_apply called by the host *)
Definition apply (fuel : nat) (w : host) (m : vm) (func this : Z) (vs : list Z) : R (vm * Z) :=
  apply_with (call_native w (execute fuel w) fuel) (h_ffi w) (execute fuel w) m V_UNDEFINED func this vs.

(** mjs_core.c:72-114 mjs_create as far as the executor is concerned, with an empty global
    object (the built-in names are not modelled) *)
Definition create : R vm :=
  '(h, g) <- mk_object heap_init ;;
  OK {| m_heap := h; m_mem := fun _ => None; m_stack := sk_empty; m_call := sk_empty;
        m_arg := sk_empty; m_scopes := sk_push sk_empty g; m_loops := sk_empty;
        m_err := E_OK; m_this := V_UNDEFINED; m_last := V_UNDEFINED; m_code := no_code;
        m_off := 0; m_res := [] |}.
(** mjs_exec.c:995-1077: executing a piece of code that was just committed *)
Definition exec_code (fuel : nat) (w : host) (m : vm) (d : list Z) : R (vm * Z) :=
  execute fuel w (set_code m (commit (m_code m) d)) (c_len (m_code m)).
