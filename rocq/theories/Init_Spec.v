(** Specification of a new engine: what its global object contains. *)
From Verif Require Import Base Value_Model Str_Model TokNum_Model Txt_Model Vm_Model Expr_Spec Lang_Spec Init_Model.

Definition host_fn (p : Z) : val := VHost (fst (mk_foreign p)).
(** The names of the global object, the last one made first; 0, 1 and 2 are the global object,
    JSON and Object. *)
Definition globals (p : natives) : cell :=
  [(bs "isNaN", host_fn (n_isnan p)); (bs "NaN", VPrim (ANum TAG_NAN)); (bs "Object", VObj 2); (bs "JSON", VObj 1);
   (bs "s2o", host_fn (n_s2o p)); (bs "chr", host_fn (n_chr p)); (bs "gc", host_fn (n_gc p)); (bs "die", host_fn (n_die p));
   (bs "getMJS", host_fn (n_get_mjs p)); (bs "mkstr", host_fn (n_mkstr p)); (bs "ffi_cb_free", host_fn (n_cb_free p));
   (bs "ffi", host_fn (n_ffi p)); (bs "print", host_fn (n_print p)); (bs "load", host_fn (n_load p)); (bs "global", VObj 0)].
Definition json_names (p : natives) : cell := [(bs "parse", host_fn (n_parse p)); (bs "stringify", host_fn (n_stringify p))].
Definition object_names (p : natives) : cell := [(bs "create", host_fn (n_create p))].
(** The state of a new engine with room for [n] bytes. *)
Definition new_state (p : natives) (n : Z) : state := {| objs := [globals p; json_names p; object_names p]; left := n |}.
(** Pointers of 48 bits. *)
Definition addresses_ok (p : natives) : Prop :=
  Forall (fun a => 0 <= a < 2 ^ 48)
    [n_load p; n_print p; n_ffi p; n_cb_free p; n_mkstr p; n_get_mjs p; n_die p; n_gc p; n_chr p; n_s2o p; n_stringify p; n_parse p; n_create p; n_isnan p].
