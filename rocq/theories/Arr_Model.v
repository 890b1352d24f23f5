(** Model of src/mjs_array.c. *)
From Verif Require Import Base Value_Model Str_Model SUtil_Model Conv_Model Obj_Model.

(** The key of an index: the stack buffer's previous contents do not matter (see
    [index_key_is_numeral]); zeros are used here. *)
Definition idx_name (i : Z) : R (list Z) := index_name (repeat 0 20) i.

(** mjs_array.c:43-69 mjs_array_get, mjs_array_get2: value and whether it exists *)
Definition array_get2 (h : heap) (ext : extmem) (arr i : Z) : R (Z * bool) :=
  if is_object arr then
    name <- idx_name i ;;
    p <- own_property h ext arr name ;;
    if p =? 0 then OK (V_UNDEFINED, false) else c <- prop_at h p ;; OK (pc_val c, true)
  else OK (V_UNDEFINED, false).
Definition array_get (h : heap) (ext : extmem) (arr i : Z) : R Z :=
  '(v, _) <- array_get2 h ext arr i ;; OK v.

(** mjs_array.c:71-91 mjs_array_length *)
Fixpoint length_walk (fuel : nat) (h : heap) (ext : extmem) (p len : Z) : R Z :=
  if p =? 0 then OK len
  else match fuel with
  | O => NoFuel
  | S f =>
    c <- prop_at h p ;;
    r <- str_to_ulong (h_st h) ext (pc_name c) ;;
    let len' := match r with
                | Some n => if (n >=? len) && (n <? 4294967295) then n + 1 else len
                | None => len
                end in
    length_walk f h ext (pc_next c) len'
  end.
Definition array_length (h : heap) (ext : extmem) (v : Z) : R Z :=
  if negb (is_object v) then OK 0
  else o <- get_object_struct v ;; p <- obj_first h o ;; length_walk (pfuel h) h ext p 0.

(** mjs_array.c:93-112 mjs_array_set, mjs_array_del *)
Definition array_set (h : heap) (ext : extmem) (arr i v : Z) : R (heap * Z) :=
  if is_object arr then name <- idx_name i ;; obj_set h ext arr name v else OK (h, E_TYPE).
Definition array_del (h : heap) (ext : extmem) (arr i : Z) : R heap :=
  name <- idx_name i ;; '(h1, _) <- obj_del h ext arr name ;; OK h1.

(** mjs_array.c:114-116 mjs_array_push *)
Definition array_push (h : heap) (ext : extmem) (arr v : Z) : R (heap * Z) :=
  n <- array_length h ext arr ;; array_set h ext arr n v.

(** mjs_array.c:118-144 mjs_array_push_internal: heap, result, error *)
Fixpoint push_all (h : heap) (ext : extmem) (arr : Z) (vs : list Z) : R (heap * Z) :=
  match vs with
  | [] => OK (h, E_OK)
  | v :: r => '(h1, e) <- array_push h ext arr v ;;
              if e =? E_OK then push_all h1 ext arr r else OK (h1, e)
  end.
Definition array_push_builtin (h : heap) (ext : extmem) (this : Z) (args : list Z) : R (heap * Z * Z) :=
  a <- check_arg this args None TyArray ;;
  match a with
  | None => OK (h, V_UNDEFINED, E_TYPE)
  | Some _ =>
    '(h1, e) <- push_all h ext this args ;;
    if e =? E_OK then n <- array_length h1 ext this ;; OK (h1, mk_number (d_of_Z n), E_OK)
    else OK (h1, V_UNDEFINED, e)
  end.

(** mjs_array.c:146-151 move_item *)
Definition move_item (h : heap) (ext : extmem) (arr from to : Z) : R heap :=
  cur <- array_get h ext arr from ;;
  '(h1, _) <- array_set h ext arr to cur ;;
  array_del h1 ext arr from.

(** The int index expressions of mjs_array_splice converted to unsigned long. *)
Definition ul (i : Z) : Z := u64 i.

(** mjs_array.c:206-213: copy [n] items from [i] on to [ret]. *)
Fixpoint splice_copy (n : nat) (h : heap) (ext : extmem) (this ret i : Z) : R (heap * Z) :=
  match n with
  | O => OK (h, E_OK)
  | S k => cur <- array_get h ext this (ul i) ;;
           '(h1, e) <- array_push h ext ret cur ;;
           if e =? E_OK then splice_copy k h1 ext this ret (i + 1) else OK (h1, e)
  end.
(** mjs_array.c:217-223, delta < 0: [n] steps from [i] upwards. *)
Fixpoint splice_down (n : nat) (h : heap) (ext : extmem) (this start delta i : Z) : R heap :=
  match n with
  | O => OK h
  | S k => h1 <- (if i >=? start - delta then move_item h ext this (ul i) (ul (i + delta))
                  else array_del h ext this (ul i)) ;;
           splice_down k h1 ext this start delta (i + 1)
  end.
(** mjs_array.c:225-227, delta > 0: [n] steps from [i] downwards. *)
Fixpoint splice_up (n : nat) (h : heap) (ext : extmem) (this delta i : Z) : R heap :=
  match n with
  | O => OK h
  | S k => h1 <- move_item h ext this (ul i) (ul (i + delta)) ;;
           splice_up k h1 ext this delta (i - 1)
  end.
(** mjs_array.c:231-234 *)
Fixpoint splice_new (h : heap) (ext : extmem) (this i : Z) (items : list Z) : R heap :=
  match items with
  | [] => OK h
  | v :: r => '(h1, _) <- array_set h ext this (ul i) v ;; splice_new h1 ext this (i + 1) r
  end.
(** mjs_array.c:153-238 mjs_array_splice: heap, result, error. arr_len is the unsigned long
    length stored in an int. *)
Definition array_splice (h : heap) (ext : extmem) (this : Z) (args : list Z) : R (heap * Z * Z) :=
  let nargs := zlen args in
  '(h0, ret) <- mk_array h ;;
  a0 <- check_arg this args None TyArray ;;
  match a0 with None => OK (h0, ret, E_TYPE) | Some _ =>
  al <- array_length h0 ext this ;;
  let arr_len := s32 al in
  a1 <- check_arg this args (Some 0%nat) TyNumber ;;
  match a1 with None => OK (h0, ret, E_TYPE) | Some sv =>
  si <- get_int sv ;;
  start <- normalize_idx si arr_len ;;
  a2 <- (if nargs >=? 2 then
           a2 <- check_arg this args (Some 1%nat) TyNumber ;;
           match a2 with
           | None => OK None
           | Some dv => dc <- get_int dv ;; OK (Some (dc, nargs - 2))
           end
         else OK (Some (arr_len - start, 0))) ;;
  match a2 with None => OK (h0, ret, E_TYPE) | Some (dc, newc) =>
  let del := if dc >? arr_len - start then arr_len - start else if dc <? 0 then 0 else dc in
  let delta := newc - del in
  '(h1, e) <- splice_copy (Z.to_nat del) h0 ext this ret start ;;
  if negb (e =? E_OK) then OK (h1, ret, e)
  else
  h2 <- (if delta <? 0 then splice_down (Z.to_nat (arr_len - start)) h1 ext this start delta start
         else if delta >? 0 then splice_up (Z.to_nat (arr_len - start)) h1 ext this delta (arr_len - 1)
         else OK h1) ;;
  h3 <- splice_new h2 ext this start (skipn 2 args) ;;
  OK (h3, ret, E_OK)
  end end end.
