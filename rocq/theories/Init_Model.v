(** Model of mjs_init_builtin (src/mjs_builtin.c:131-181) and of mjs_create with it. *)
From Verif Require Import Base Value_Model Str_Model Obj_Model TokNum_Model Txt_Model Bcode_Model Vm_Model.

(** Addresses of the C functions that are put into the global object. *)
Record natives := {
  n_load : Z; n_print : Z; n_ffi : Z; n_cb_free : Z; n_mkstr : Z; n_get_mjs : Z; n_die : Z; n_gc : Z;
  n_chr : Z; n_s2o : Z; n_stringify : Z; n_parse : Z; n_create : Z; n_isnan : Z }.

(** mjs_set(mjs, obj, name, ~0, v); its error code is ignored *)
Definition put_v (h : heap) (ext : extmem) (obj : Z) (name : list Z) (v : Z) : R heap :=
  '(h, _) <- obj_set h ext obj name v ;; OK h.
(** several mjs_set with mjs_mk_foreign_func one after the other *)
Fixpoint put_funcs (h : heap) (ext : extmem) (obj : Z) (l : list (list Z * Z)) : R heap :=
  match l with
  | [] => OK h
  | (name, p) :: l => h <- put_v h ext obj name (fst (mk_foreign p)) ;; put_funcs h ext obj l
  end.

(** mjs_builtin.c:131-181 mjs_init_builtin. An error that mk_foreign reports for a pointer of
    more than 48 bits is not kept. *)
Definition init_builtin (p : natives) (h : heap) (ext : extmem) (obj : Z) : R heap :=
  h <- put_v h ext obj (bs "global") obj ;;
  h <- put_funcs h ext obj
    [(bs "load", n_load p); (bs "print", n_print p); (bs "ffi", n_ffi p); (bs "ffi_cb_free", n_cb_free p);
     (bs "mkstr", n_mkstr p); (bs "getMJS", n_get_mjs p); (bs "die", n_die p); (bs "gc", n_gc p);
     (bs "chr", n_chr p); (bs "s2o", n_s2o p)] ;;
  '(h, v) <- mk_object h ;;
  h <- put_funcs h ext v [(bs "stringify", n_stringify p); (bs "parse", n_parse p)] ;;
  h <- put_v h ext obj (bs "JSON") v ;;
  '(h, v) <- mk_object h ;;
  h <- put_funcs h ext v [(bs "create", n_create p)] ;;
  h <- put_v h ext obj (bs "Object") v ;;
  h <- put_v h ext obj (bs "NaN") TAG_NAN ;;
  put_funcs h ext obj [(bs "isNaN", n_isnan p)].

(** mjs_core.c:72-114 mjs_create: the empty engine with the built-in names; the heap is empty
    memory at this point. *)
Definition create_all (p : natives) : R vm :=
  m <- create ;;
  h <- init_builtin p (m_heap m) (m_ext m) (sk_top (m_scopes m)) ;;
  OK (set_heap m h).
