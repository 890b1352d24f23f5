(** Model of src/mjs_object.c over a store of cells. *)
From Verif Require Import Base Value_Model Str_Model SUtil_Model Conv_Model.

(** Memory as an association list from addresses. *)
Fixpoint aget {A} (m : list (Z * A)) (a : Z) : option A :=
  match m with
  | [] => None
  | (k, x) :: r => if k =? a then Some x else aget r a
  end.
Fixpoint aset {A} (m : list (Z * A)) (a : Z) (y : A) : list (Z * A) :=
  match m with
  | [] => []
  | (k, x) :: r => if k =? a then (k, y) :: r else (k, x) :: aset r a y
  end.

(** mjs_object.h:21-30 struct mjs_property. *)
Record pcell := { pc_next : Z; pc_name : Z; pc_val : Z }.

(** The heap of cells: object cells hold the address of their first property.
    Simplification: a fresh cell gets the next never-used address; reuse of freed cells is
    the subject of GC_Model. Allocation succeeds while addresses stay below 2^47
    ([NoFuel] beyond, a limit of the model). *)
Record heap := { h_st : strs; h_objs : list (Z * Z); h_props : list (Z * pcell); h_next : Z }.
Definition heap_init : heap := {| h_st := strs_init; h_objs := []; h_props := []; h_next := 4096 |}.
Definition with_st (h : heap) (s : strs) : heap :=
  {| h_st := s; h_objs := h_objs h; h_props := h_props h; h_next := h_next h |}.
Definition with_objs (h : heap) (o : list (Z * Z)) : heap :=
  {| h_st := h_st h; h_objs := o; h_props := h_props h; h_next := h_next h |}.
Definition with_props (h : heap) (p : list (Z * pcell)) : heap :=
  {| h_st := h_st h; h_objs := h_objs h; h_props := p; h_next := h_next h |}.

(** mjs_gc.c:44-50 new_object, new_property: cells of 8 and 24 bytes. *)
Definition new_object (h : heap) : R (heap * Z) :=
  let a := h_next h in
  if a + 32 >? 2 ^ 47 then NoFuel
  else OK ({| h_st := h_st h; h_objs := (a, 0) :: h_objs h; h_props := h_props h; h_next := a + 8 |}, a).
Definition new_property (h : heap) : R (heap * Z) :=
  let a := h_next h in
  if a + 32 >? 2 ^ 47 then NoFuel
  else OK ({| h_st := h_st h; h_objs := h_objs h;
              h_props := (a, {| pc_next := 0; pc_name := 0; pc_val := 0 |}) :: h_props h;
              h_next := a + 24 |}, a).

(** mjs_object.c:35-43 mjs_mk_object; mjs_array.c:31-37 mjs_mk_array *)
Definition mk_object (h : heap) : R (heap * Z) :=
  '(h1, a) <- new_object h ;; v <- object_to_value a ;; OK (h1, v).
Definition mk_array (h : heap) : R (heap * Z) :=
  '(h1, v) <- mk_object h ;; OK (h1, array_of_object v).

(** Dereferencing: an address that is not an allocated cell is UB. *)
Definition obj_first (h : heap) (o : Z) : R Z :=
  match aget (h_objs h) o with Some p => OK p | None => UB end.
Definition prop_at (h : heap) (p : Z) : R pcell :=
  match aget (h_props h) p with Some c => OK c | None => UB end.

(** Walking a property list from [p] for the first cell satisfying [test]; result is its
    address or 0 (NULL). Fuel is the number of property cells. *)
Fixpoint walk (fuel : nat) (h : heap) (test : pcell -> R bool) (p : Z) : R Z :=
  if p =? 0 then OK 0
  else match fuel with
  | O => NoFuel
  | S f =>
    c <- prop_at h p ;;
    b <- test c ;;
    if b : bool then OK p else walk f h test (pc_next c)
  end.
Definition pfuel (h : heap) : nat := length (h_props h).

(** mjs_object.c:50-76 mjs_get_own_property: address of the property, or 0. The name is
    given by its bytes. *)
Definition own_property (h : heap) (ext : extmem) (obj : Z) (name : list Z) : R Z :=
  if negb (is_object obj) then OK 0
  else
    o <- get_object_struct obj ;;
    p <- obj_first h o ;;
    if zlen name <=? 5 then
      '(_, ss) <- mk_string (h_st h) name ;;
      walk (pfuel h) h (fun c => OK (pc_name c =? ss)) p
    else
      walk (pfuel h) h (fun c => k <- mjs_strcmp (h_st h) ext (pc_name c) name ;; OK (k =? 0)) p.

(** mjs_object.c:78-91 mjs_get_own_property_v (a conversion error counts as absent; the
    error it sets is reported). *)
Definition own_property_v (h : heap) (ext : extmem) (obj key : Z) : R (Z * bool) :=
  t <- to_string (h_st h) ext key ;;
  match t with
  | Some name => p <- own_property h ext obj name ;; OK (p, true)
  | None => OK (0, false)
  end.

(** mjs_object.c:103-137 mjs_get, mjs_get_v *)
Definition obj_get (h : heap) (ext : extmem) (obj : Z) (name : list Z) : R Z :=
  p <- own_property h ext obj name ;;
  if p =? 0 then OK V_UNDEFINED else c <- prop_at h p ;; OK (pc_val c).
Definition obj_get_v (h : heap) (ext : extmem) (obj key : Z) : R Z :=
  t <- to_string (h_st h) ext key ;;
  match t with Some name => obj_get h ext obj name | None => OK V_UNDEFINED end.

(** mjs_object.h:52 MJS_PROTO_PROP_NAME *)
Definition proto_name := [95; 95; 112].
(** mjs_object.c:139-145 mjs_get_v_proto: recursion on the chain, fuelled. *)
Fixpoint get_v_proto (fuel : nat) (h : heap) (ext : extmem) (obj key : Z) : R Z :=
  match fuel with
  | O => NoFuel
  | S f =>
    '(p, _) <- own_property_v h ext obj key ;;
    if negb (p =? 0) then c <- prop_at h p ;; OK (pc_val c)
    else
      '(_, pn) <- mk_string (h_st h) proto_name ;;
      '(q, _) <- own_property_v h ext obj pn ;;
      if q =? 0 then OK V_UNDEFINED
      else c <- prop_at h q ;; get_v_proto f h ext (pc_val c) key
  end.

Definition with_val (c : pcell) (v : Z) : pcell :=
  {| pc_next := pc_next c; pc_name := pc_name c; pc_val := v |}.
Definition with_next (c : pcell) (n : Z) : pcell :=
  {| pc_next := n; pc_name := pc_name c; pc_val := pc_val c |}.

(** mjs_object.c:158-212 mjs_set_internal: [key] is name_v when a value was given, [name]
    the bytes. Result: error code. *)
Definition set_prop (h : heap) (ext : extmem) (obj : Z) (key : option Z) (name : list Z) (val : Z)
  : R (heap * Z) :=
  p <- own_property h ext obj name ;;
  if p =? 0 then
    if negb (is_object obj) then OK (h, E_REFERENCE)
    else
      '(h1, kv) <- (match key with
                    | Some k => if is_string k then OK (h, k)
                                else '(s, v) <- mk_string (h_st h) name ;; OK (with_st h s, v)
                    | None => '(s, v) <- mk_string (h_st h) name ;; OK (with_st h s, v)
                    end) ;;
      '(h2, a) <- new_property h1 ;;
      o <- get_object_struct obj ;;
      first <- obj_first h2 o ;;
      OK (with_objs (with_props h2 (aset (h_props h2) a {| pc_next := first; pc_name := kv; pc_val := val |}))
                    (aset (h_objs h2) o a), E_OK)
  else
    c <- prop_at h p ;;
    OK (with_props h (aset (h_props h) p (with_val c val)), E_OK).
(** mjs_object.c:147-156 mjs_set, mjs_set_v *)
Definition obj_set (h : heap) (ext : extmem) (obj : Z) (name : list Z) (val : Z) : R (heap * Z) :=
  set_prop h ext obj None name val.
Definition obj_set_v (h : heap) (ext : extmem) (obj key val : Z) : R (heap * Z) :=
  t <- to_string (h_st h) ext key ;;
  match t with
  | Some name => set_prop h ext obj (Some key) name val
  | None => OK (h, E_TYPE)
  end.

(** mjs_object.c:221-245 mjs_del: -1 when absent. [prev] is the address of the previous
    cell, 0 for NULL. A removed cell keeps its fields. *)
Fixpoint del_walk (fuel : nat) (h : heap) (ext : extmem) (o prev p : Z) (name : list Z) : R (heap * Z) :=
  if p =? 0 then OK (h, -1)
  else match fuel with
  | O => NoFuel
  | S f =>
    c <- prop_at h p ;;
    '(l, n) <- get_string (h_st h) (pc_name c) ;;
    e <- (if n =? zlen name then
            d <- loc_read (h_st h) ext (pc_name c) l n ;; OK (strncmp d name =? 0)
          else OK false) ;;
    if e : bool then
      if prev =? 0 then OK (with_objs h (aset (h_objs h) o (pc_next c)), 0)
      else
        pc <- prop_at h prev ;;
        OK (with_props h (aset (h_props h) prev (with_next pc (pc_next c))), 0)
    else del_walk f h ext o p (pc_next c) name
  end.
Definition obj_del (h : heap) (ext : extmem) (obj : Z) (name : list Z) : R (heap * Z) :=
  if negb (is_object obj) then OK (h, -1)
  else
    o <- get_object_struct obj ;;
    p <- obj_first h o ;;
    del_walk (pfuel h) h ext o 0 p name.

(** mjs_object.c:247-266 mjs_next: key and new iterator. *)
Definition obj_next (h : heap) (obj it : Z) : R (Z * Z) :=
  p <- (if it =? V_UNDEFINED then
          o <- get_object_struct obj ;; obj_first h o
        else c <- prop_at h (get_ptr_raw it) ;; OK (pc_next c)) ;;
  if p =? 0 then OK (V_UNDEFINED, V_UNDEFINED)
  else c <- prop_at h p ;; OK (pc_name c, fst (mk_foreign p)).

(** mjs_object.c:268-281 mjs_op_create_object (Object.create): result value and error. *)
Definition create_object (h : heap) (ext : extmem) (args : list Z) : R (heap * Z * Z) :=
  a <- check_arg V_UNDEFINED args (Some 0%nat) TyObject ;;
  match a with
  | None => OK (h, V_UNDEFINED, E_TYPE)
  | Some proto =>
    '(h1, ret) <- mk_object h ;;
    '(h2, _) <- obj_set h1 ext ret proto_name proto ;;
    OK (h2, ret, E_OK)
  end.
