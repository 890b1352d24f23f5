(** Model of the foreign function interface: src/mjs_ffi.c (signatures, calls, callbacks) and
    src/ffi/ffi.c (which prototype a call goes through).

    Simplifications: addresses of C functions and of callback implementations are abstract;
    the texts of error messages are not kept, only mjs->error; allocation succeeds; char is
    signed but the bytes from 128 on are no spaces, letters or digits (isspace and isalnum of
    glibc in the "C" locale). *)
From Verif Require Import Base Value_Model Str_Model Txt_Model.

(** mjs_ffi_public.h enum mjs_ffi_ctype *)
Definition T_NONE := 0. Definition T_USERDATA := 1. Definition T_CALLBACK := 2.
Definition T_INT := 3. Definition T_BOOL := 4. Definition T_DOUBLE := 5.
Definition T_FLOAT := 6. Definition T_CHAR_PTR := 7. Definition T_VOID_PTR := 8.
Definition T_MG_STR_PTR := 9. Definition T_MG_STR := 10. Definition T_INVALID := 11.
Definition CB_ARGS_MAX := 6. (* mjs_ffi.h:20 *)

(** mjs_ffi.h:25-28 enum ffi_sig_type *)
Inductive sig_type := SigFunc | SigCallback.
(** The callback implementations of mjs_ffi.c:443-518: six words with the userdata at position
    [k] (from 1), userdata and double, double and userdata. *)
Inductive cb_impl := ImplW (k : Z) | ImplWPD | ImplWDP.
Inductive fnptr := FnNull | FnC (addr : Z) | FnImpl (i : cb_impl).
(** mjs_ffi.h:33-70 struct mjs_ffi_sig *)
Inductive sig := mksig {
  s_cb : option sig; s_types : list Z; s_fn : fnptr; s_cnt : Z; s_callback : bool; s_valid : bool }.
(** mjs_ffi.c:1004-1006 mjs_ffi_sig_init *)
Definition sig_init : sig :=
  {| s_cb := None; s_types := repeat 0 7; s_fn := FnNull; s_cnt := 0; s_callback := false; s_valid := false |}.
Definition set_cb g x := {| s_cb := x; s_types := s_types g; s_fn := s_fn g; s_cnt := s_cnt g; s_callback := s_callback g; s_valid := s_valid g |}.
Definition set_types g x := {| s_cb := s_cb g; s_types := x; s_fn := s_fn g; s_cnt := s_cnt g; s_callback := s_callback g; s_valid := s_valid g |}.
Definition set_fn g x := {| s_cb := s_cb g; s_types := s_types g; s_fn := x; s_cnt := s_cnt g; s_callback := s_callback g; s_valid := s_valid g |}.
Definition set_callback g := {| s_cb := s_cb g; s_types := s_types g; s_fn := s_fn g; s_cnt := s_cnt g; s_callback := true; s_valid := s_valid g |}.
Definition set_valid g n b := {| s_cb := s_cb g; s_types := s_types g; s_fn := s_fn g; s_cnt := n; s_callback := s_callback g; s_valid := b |}.

(** mjs_core.c:129-155 mjs_prepend_errorf: the first error stays *)
Definition report (err e : Z) : Z := if err =? E_OK then e else err.

(** * Reading the signature: [t] is the memory from the start of the text on *)
Definition rd (t : list Z) (i : Z) : R Z := match nthz t i with Some c => OK c | None => UB end.

(** mjs_ffi.c:52, 116: skip spaces from [i], at most [n] of them *)
Fixpoint skip_sp (n : nat) (t : list Z) (i : Z) : R Z :=
  match n with O => OK i | S n => c <- rd t i ;; if is_space c then skip_sp n t (i + 1) else OK i end.
(** mjs_ffi.c:53, 138: skip spaces before [i] backwards *)
Fixpoint trim_end (n : nat) (t : list Z) (i : Z) : R Z :=
  match n with O => OK i | S n => c <- rd t (i - 1) ;; if is_space c then trim_end n t (i - 1) else OK i end.
(** mjs_ffi.c:82-87 find_paren *)
Fixpoint find_paren (n : nat) (t : list Z) (i : Z) : R (option Z) :=
  match n with O => OK None | S n => c <- rd t i ;; if c =? 40 then OK (Some i) else find_paren n t (i + 1) end.
(** mjs_ffi.c:89-100 find_closing_paren *)
Fixpoint find_closing (n : nat) (t : list Z) (i : Z) (nesting : Z) : R (option Z) :=
  match n with
  | O => OK None
  | S n => c <- rd t i ;;
           if c =? 40 then find_closing n t (i + 1) (nesting + 1)
           else if c =? 41 then if nesting - 1 =? 0 then OK (Some i) else find_closing n t (i + 1) (nesting - 1)
           else find_closing n t (i + 1) nesting
  end.
Definition dist (i j : Z) : nat := Z.to_nat (j - i).

(** mjs_ffi.c:46-81 parse_cval_type of the bytes from [s] to [e]; the type and mjs->error.
    mg_vcmp (mg_str.c:42-49) is zero exactly for equal texts. *)
Definition type_names : list (list Z * Z) :=
  map (fun '(s, n) => (bs s, n))
  [("void", T_NONE); ("userdata", T_USERDATA); ("int", T_INT); ("bool", T_BOOL); ("double", T_DOUBLE);
   ("float", T_FLOAT); ("char*", T_CHAR_PTR); ("char *", T_CHAR_PTR); ("void*", T_VOID_PTR);
   ("void *", T_VOID_PTR); ("struct mg_str", T_MG_STR); ("struct mg_str *", T_MG_STR_PTR);
   ("struct mg_str*", T_MG_STR_PTR)]%string.
Fixpoint assoc (l : list (list Z * Z)) (k : list Z) (d : Z) : Z :=
  match l with [] => d | (n, v) :: l => if list_eq_dec Z.eq_dec n k then v else assoc l k d end.
Definition parse_cval_type (t : list Z) (s e err : Z) : R (Z * Z) :=
  s <- skip_sp (dist s e) t s ;;
  e <- trim_end (dist s e) t e ;;
  let ty := assoc type_names (sub t s (e - s)) T_INVALID in
  OK (ty, if ty =? T_INVALID then report err E_TYPE else err).

Definition is_alnum (c : Z) : bool := is_digit c || ((97 <=? c) && (c <=? 122)) || ((65 <=? c) && (c <=? 90)).
(** mjs_ffi.c:138-142: from [i] back over spaces, then over the characters of a name, not
    beyond [cur] ([n] is [i - cur]); the position reached and the length of the name *)
Fixpoint back_spaces (n : nat) (t : list Z) (i : Z) : R (nat * Z) :=
  match n with
  | O => OK (O, i)
  | S k => c <- rd t i ;; if is_space c then back_spaces k t (i - 1) else OK (n, i)
  end.
Fixpoint back_name (n : nat) (t : list Z) (i len : Z) : R (Z * Z) :=
  match n with
  | O => OK (i, len)
  | S n => c <- rd t i ;; if is_alnum c || (c =? 95) then back_name n t (i - 1) (len + 1) else OK (i, len)
  end.
(** the bytes before a NUL *)
Fixpoint c_str (l : list Z) : list Z := match l with [] => [] | c :: l => if c =? 0 then [] else c :: c_str l end.

(** mjs_ffi.c:1020-1029 mjs_ffi_sig_set_val_type *)
Definition set_val_type (g : sig) (idx ty : Z) : option sig :=
  if idx <? 7 then Some (set_types g (blit (s_types g) idx [ty])) else None.

(** mjs_ffi.c:1031-1144 mjs_ffi_sig_validate: the signature and mjs->error *)
Definition in_list (l : list Z) (x : Z) : bool := existsb (Z.eqb x) l.
Definition ret_ok (k : sig_type) (ty : Z) : bool :=
  match k with
  | SigFunc => in_list [T_NONE; T_INT; T_BOOL; T_DOUBLE; T_FLOAT; T_VOID_PTR; T_CHAR_PTR] ty
  | SigCallback => in_list [T_NONE; T_INT; T_BOOL; T_DOUBLE; T_FLOAT; T_VOID_PTR] ty
  end.
(** the loop over the argument types: [inl (callback_idx, userdata_idx, cnt)] or the error *)
Fixpoint check_args (k : sig_type) (tys : list Z) (i cb ud cnt : Z) : (Z * Z * Z) + (Z * Z) :=
  match tys with
  | [] => inl (cb, ud, cnt)
  | ty :: tys =>
    if ty =? T_USERDATA then
      if negb (ud =? 0) then inr (E_TYPE, cnt) else check_args k tys (i + 1) cb i (cnt + 1)
    else if ty =? T_CALLBACK then
      match k with SigCallback => inr (E_TYPE, cnt) | SigFunc => check_args k tys (i + 1) i ud (cnt + 1) end
    else if in_list [T_INT; T_BOOL; T_VOID_PTR; T_CHAR_PTR; T_MG_STR_PTR; T_DOUBLE; T_FLOAT] ty then
      check_args k tys (i + 1) cb ud (cnt + 1)
    else if ty =? T_NONE then inl (cb, ud, cnt)
    else inr (E_INTERNAL, cnt)
  end.
Definition validate (g : sig) (k : sig_type) (err : Z) : sig * Z :=
  let bad n e := (set_valid g n false, report err e) in
  if negb (ret_ok k (hd 0 (s_types g))) then bad (s_cnt g) E_TYPE
  else match check_args k (tl (s_types g)) 1 0 0 (s_cnt g) with
  | inr (e, n) => bad n e
  | inl (cb, ud, n) =>
    match k with
    | SigFunc => if ((0 <? cb) && (0 <? ud)) || ((cb =? 0) && (ud =? 0)) then (set_valid g n true, err) else bad n E_TYPE
    | SigCallback => if ud =? 0 then bad n E_TYPE else (set_valid g n true, err)
    end
  end.

(** mjs_ffi.c:1146-1158 *)
Definition word_or_void (ty : Z) : bool := in_list [T_NONE; T_INT; T_BOOL] ty.
(** mjs_ffi.c:529-604 get_cb_impl_by_signature; [None] is NULL. The loop runs over all six
    argument types. *)
Fixpoint cb_scan (tys : list Z) (i doubles floats ud : Z) : R (Z * Z * Z) :=
  match tys with
  | [] => OK (doubles, floats, ud)
  | ty :: tys =>
    if ty =? T_DOUBLE then cb_scan tys (i + 1) (doubles + 1) floats ud
    else if ty =? T_FLOAT then cb_scan tys (i + 1) doubles (floats + 1) ud
    else if ty =? T_USERDATA then if ud =? 0 then cb_scan tys (i + 1) doubles floats i else Abort
    else cb_scan tys (i + 1) doubles floats ud
  end.
Definition cb_impl_for (g : sig) : R (option cb_impl) :=
  if negb (s_valid g) then OK None
  else
    '(dfs, ud) <- cb_scan (tl (s_types g)) 1 0 0 0 ;;
    let '(doubles, floats) := dfs in
    if 0 <? floats then OK None
    else if negb (0 <? ud) then Abort
    else if (s_cnt g <=? CB_ARGS_MAX) && word_or_void (hd 0 (s_types g)) then
      if doubles =? 0 then if in_list [1; 2; 3; 4; 5; 6] ud then OK (Some (ImplW ud)) else Abort
      else if doubles =? 1 then
        if ud =? 1 then OK (Some ImplWPD) else if ud =? 2 then OK (Some ImplWDP) else OK None
      else OK None
    else OK None.

(** mjs_ffi.c:219-235: from [i] to the next separator; whether a parenthesis was seen *)
Fixpoint scan_arg (n : nat) (t : list Z) (i level : Z) (fp : bool) : R (Z * bool) :=
  match n with
  | O => UB
  | S n =>
    c <- rd t i ;;
    if c =? 0 then OK (i, fp)
    else if (0 <? level) || (negb (c =? 44) && negb (c =? 41)) then
      if c =? 40 then scan_arg n t (i + 1) (level + 1) true
      else if c =? 41 then scan_arg n t (i + 1) (level - 1) fp
      else scan_arg n t (i + 1) level fp
    else OK (i, fp)
  end.
(** mjs_ffi.c:275: skip blanks *)
Fixpoint skip_blanks (n : nat) (t : list Z) (i : Z) : R Z :=
  match n with O => UB | S n => c <- rd t i ;; if c =? 32 then skip_blanks n t (i + 1) else OK i end.

(** The result: the signature, the return code, mjs->error. *)
Definition sres : Type := R (sig * Z * Z).
(** mjs_ffi.c:212-281 the loop over the arguments, at most [n] times; [rec] parses the
    signature of a callback *)
Fixpoint args_loop (rec : Z -> Z -> Z -> sres) (n : nat) (t : list Z) (ab al cur tmp_e vt : Z) (g : sig) (err : Z) : sres :=
  match n with
  | O => NoFuel
  | S n =>
    if negb (tmp_e - ab <? al) then OK (g, E_OK, err)
    else
      '(te, fp) <- scan_arg (length t) t cur 0 false ;;
      if te =? cur then OK (g, E_OK, err)
      else
        let next g ty err :=
          match set_val_type g vt ty with
          | None => OK (g, E_TYPE, report err E_TYPE)
          | Some g =>
            c <- rd t te ;;
            if c =? 44 then cur <- skip_blanks (length t) t (te + 1) ;; args_loop rec n t ab al cur te (vt + 1) g err
            else OK (g, E_OK, err)
          end in
        if fp then
          match s_cb g with
          | Some _ => OK (g, E_TYPE, report err E_TYPE)
          | None =>
            '(cb, r, err) <- rec cur (te - cur) err ;;
            if negb (r =? E_OK) then OK (g, r, err) else next (set_cb g (Some cb)) T_CALLBACK err
          end
        else
          '(ty, err) <- parse_cval_type t cur te err ;;
          if ty =? T_INVALID then OK (g, E_TYPE, err) else next g ty err
  end.

(** mjs_ffi.c:103-309 mjs_parse_ffi_signature of the [len] bytes at [s]. [dlsym] is the
    resolver; its result 0 is NULL. *)
Fixpoint parse_sig (fuel : nat) (dlsym : option (list Z -> Z)) (t : list Z) (k : sig_type) (s len err : Z) : sres :=
  match fuel with
  | O => NoFuel
  | S fuel =>
    let e := s + len in
    '(g, r, err) <-
      (let fail g e err := OK (g, e, report err e) in
       cur <- skip_sp (dist s e) t s ;;
       p1 <- find_paren (dist cur e) t cur ;;
       match p1 with
       | None => fail sig_init E_TYPE err
       | Some p1 =>
         if p1 - s <? 2 then fail sig_init E_TYPE err
         else
           c1 <- find_closing (dist (p1 + 1) e) t (p1 + 1) 1 ;;
           match c1 with
           | None => fail sig_init E_TYPE err
           | Some c1 =>
             p2 <- find_paren (dist (c1 + 1) e) t (c1 + 1) ;;
             (* return type end, name, arguments; [None]: unbalanced *)
             lay <- match p2 with
                    | None =>
                      '(n, i) <- back_spaces (dist cur (p1 - 1)) t (p1 - 1) ;;
                      '(i, l) <- back_name n t i 0 ;;
                      OK (Some (i + 1, Some (sub t (i + 1) l), p1 + 1, c1 - (p1 + 1)))
                    | Some p2 =>
                      c2 <- find_closing (dist (p2 + 1) e) t (p2 + 1) 1 ;;
                      OK (match c2 with Some c2 => Some (p1, None, p2 + 1, c2 - (p2 + 1)) | None => None end)
                    end ;;
             match lay with
             | None => fail sig_init E_TYPE err
             | Some (re, name, ab, al) =>
               let g := match name with None => set_callback sig_init | Some _ => sig_init end in
               '(rty, err) <- parse_cval_type t cur re err ;;
               if rty =? T_INVALID then OK (g, err, err)
               else
                 let g := set_types g (blit (s_types g) 0 [rty]) in
                 '(g, r, err) <-
                   match name with
                   | Some n =>
                     match dlsym with
                     | None => fail g E_TYPE err
                     | Some f => (* snprintf into 100 bytes *)
                       let a := f (firstn 99 (c_str n)) in
                       if a =? 0 then fail g E_TYPE err else OK (set_fn g (FnC a), E_OK, err)
                     end
                   | None => (* strchr(tmp_e, ')') *)
                     if existsb (Z.eqb 41) (c_str (skipn (Z.to_nat p1) t)) then OK (g, E_OK, err) else OK (g, E_TYPE, err)
                   end ;;
                 if negb (r =? E_OK) then OK (g, r, err)
                 else
                   '(g, r, err) <- args_loop (parse_sig fuel dlsym t SigCallback) (S (length t)) t ab al ab ab 1 g err ;;
                   if negb (r =? E_OK) then OK (g, r, err)
                   else
                     let '(g, err) := validate g k err in
                     if negb (s_valid g) then OK (g, E_TYPE, err)
                     else if s_callback g then
                       i <- cb_impl_for g ;;
                       match i with
                       | Some i => OK (set_fn g (FnImpl i), E_OK, err)
                       | None => fail g E_TYPE err
                       end
                     else OK (g, E_OK, err)
             end
           end
       end) ;;
    (* clean *)
    if negb (r =? E_OK) then OK (set_valid g (s_cnt g) false, r, report err r) else OK (g, r, err)
  end.
(** mjs_ffi.c:635-652 mjs_ffi_call: ffi(text). A signature value or undefined. *)
Definition ffi_parse (dlsym : option (list Z -> Z)) (txt : list Z) (err : Z) : sres :=
  parse_sig (S (length txt)) dlsym (txt ++ [0]) SigFunc 0 (zlen txt) err.

(** * ffi_call: src/ffi/ffi.c *)
(** A word: an int, a null pointer, a C pointer, the text of a string value, a struct mg_str
    describing it, a callback implementation, or a struct mjs_ffi_cb_args. *)
Inductive word := WInt (n : Z) | WNull | WPtr (p : Z) | WText (v : Z) | WMgStr (v : Z) | WFn (f : fnptr) | WCb (id : Z).
(** ffi.h:33-40 struct ffi_arg with its ctype (FFI_CTYPE_BOOL is not used for arguments).
    [CD] and [CF] hold a double; the rounding of [CF] to float is not modelled. *)
Inductive carg := CW (w : word) | CD (d : Z) | CF (d : Z).
Definition is_w a := match a with CW _ => true | _ => false end.
Definition is_d a := match a with CD _ => true | _ => false end.
Definition is_f a := match a with CF _ => true | _ => false end.
Inductive rclass := RWord | RBool | RFloat | RDouble.
(** what the macros W, D and F make of an argument: the same bits in another register *)
Inductive passed := PW (a : carg) | PD (a : carg) | PF (a : carg).
(** ffi.c:187-206 and the same for the other results: words only, at least four of them *)
Definition all_words (n : nat) (a : list carg) : list passed :=
  map PW (firstn (if Nat.leb n 4 then 4 else n) a).
(** ffi.c:207-254 and the same for doubles and for the other results; [q] tests for the
    class, [p] passes it; [None] is the result -1 *)
Definition mixed (q : carg -> bool) (p : carg -> passed) (n : nat) (a : list carg) : R (option (list passed)) :=
  match a with
  | a0 :: a1 :: a2 :: _ =>
    if Nat.leb n 2 then
      OK (Some (if q a0 && q a1 then [p a0; p a1] else if q a0 then [p a0; PW a1] else [PW a0; p a1]))
    else if Nat.eqb n 3 then
      if is_w a0 && is_w a1 && q a2 then OK (Some [PW a0; PW a1; p a2])
      else if is_w a0 && q a1 && is_w a2 then OK (Some [PW a0; p a1; PW a2])
      else if is_w a0 && q a1 && q a2 then OK (Some [PW a0; p a1; p a2])
      else if q a0 && is_w a1 && is_w a2 then OK (Some [p a0; PW a1; PW a2])
      else if q a0 && is_w a1 && q a2 then OK (Some [p a0; PW a1; p a2])
      else if q a0 && q a1 && is_w a2 then OK (Some [p a0; p a1; PW a2])
      else if q a0 && q a1 && q a2 then OK (Some [p a0; p a1; p a2])
      else Abort
    else OK None
  | _ => UB
  end.
(** ffi.c:168-566 ffi_call: [a] is the array of six arguments, of which the first [n] are set;
    the parameters of the C function called, [None] if it is not called *)
Definition ffi_call (n : nat) (r : rclass) (a : list carg) : R (option (list passed)) :=
  if Nat.leb 7 n then OK None
  else
    let ds := existsb is_d (firstn n a) in
    let fs := existsb is_f (firstn n a) in
    if ds && fs then OK None
    else match r with
    | RWord | RBool =>
      if ds then mixed is_d PD n a else if fs then mixed is_f PF n a else OK (Some (all_words n a))
    | RDouble => if ds then mixed is_d PD n a else OK (Some (all_words n a))
    | RFloat => if fs then mixed is_f PF n a else OK (Some (all_words n a))
    end.

(** * Calls: mjs_ffi.c:654-965 mjs_ffi_call2 *)
(** mjs_ffi.h:78-84 struct mjs_ffi_cb_args; [ce_id] is its address *)
Record centry := { ce_id : Z; ce_func : Z; ce_userdata : Z; ce_sig : sig }.
(** mjs->ffi_cb_args, and the next address that calloc returns *)
Record cblist := { cl_next : Z; cl_list : list centry }.
(** mjs_ffi.c:518-527 ffi_get_matching *)
Definition matches (f u : Z) (c : centry) : bool := (ce_func c =? f) && (ce_userdata c =? u).
Definition get_matching (l : list centry) (f u : Z) : option centry := find (matches f u) l.

(** cbdata of mjs_ffi.c:662 and the arguments so far *)
Record cstate := { k_args : list carg; k_func : option (Z * nat); k_ud : option (Z * nat); k_ret : Z; k_err : Z }.
Inductive astep := Next (c : cstate) | Stop (ret err : Z).
Definition put (c : cstate) (a : carg) : cstate :=
  {| k_args := k_args c ++ [a]; k_func := k_func c; k_ud := k_ud c; k_ret := k_ret c; k_err := k_err c |}.
(** an error that does not stop the loop (mjs_ffi.c:764-770, 800-806) *)
Definition soft_err (c : cstate) : cstate :=
  {| k_args := k_args c; k_func := k_func c; k_ud := k_ud c; k_ret := E_TYPE; k_err := report (k_err c) E_TYPE |}.
(** the place of a callback or of its userdata is filled in later; until then it holds
    whatever was on the C stack, here a null word *)
Definition hole := CW WNull.
(** mjs_ffi.c:724-888 one argument *)
Definition conv_arg (st : strs) (ty arg : Z) (c : cstate) : R astep :=
  let stop := OK (Stop E_TYPE (report (k_err c) E_TYPE)) in
  let i := length (k_args c) in
  if ty =? T_NONE then stop
  else if ty =? T_USERDATA then
    match k_ud c with
    | Some _ => stop
    | None => OK (Next (put {| k_args := k_args c; k_func := k_func c; k_ud := Some (arg, i); k_ret := k_ret c; k_err := k_err c |} hole))
    end
  else if ty =? T_INT then
    if is_number arg then n <- get_int arg ;; OK (Next (put c (CW (WInt n))))
    else if is_boolean arg then OK (Next (put c (CW (WInt (if get_bool arg then 1 else 0)))))
    else _ <- get_type arg ;; OK (Next (put (soft_err c) (CW (WInt 0))))
  else if ty =? T_MG_STR_PTR then
    if negb (is_string arg) then _ <- get_type arg ;; stop
    else _ <- get_string st arg ;; OK (Next (put c (CW (WMgStr arg))))
  else if ty =? T_BOOL then
    if is_number arg then n <- get_int arg ;; OK (Next (put c (CW (WInt (if n =? 0 then 0 else 1)))))
    else if is_boolean arg then OK (Next (put c (CW (WInt (if get_bool arg then 1 else 0)))))
    else _ <- get_type arg ;; OK (Next (put (soft_err c) (CW (WInt 0))))
  else if ty =? T_DOUBLE then OK (Next (put c (CD (get_double arg))))
  else if ty =? T_FLOAT then OK (Next (put c (CF (get_double arg))))
  else if ty =? T_CHAR_PTR then
    if is_string arg then _ <- get_string st arg ;; OK (Next (put c (CW (WText arg))))
    else if is_null arg then OK (Next (put c (CW WNull)))
    else _ <- get_type arg ;; stop
  else if ty =? T_VOID_PTR then
    if is_string arg then _ <- get_string st arg ;; OK (Next (put c (CW (WText arg))))
    else if is_foreign arg then OK (Next (put c (CW (WPtr (get_ptr arg)))))
    else if is_null arg then OK (Next (put c (CW WNull)))
    else stop
  else if ty =? T_CALLBACK then
    if is_function arg || is_foreign arg || is_ffi_sig arg then
      OK (Next (put {| k_args := k_args c; k_func := Some (arg, i); k_ud := k_ud c; k_ret := k_ret c; k_err := k_err c |} hole))
    else stop
  else if ty =? T_INVALID then stop
  else Abort.
Fixpoint conv_args (st : strs) (tys args : list Z) (c : cstate) : R astep :=
  match args with
  | [] => OK (Next c)
  | arg :: args =>
    match tys with
    | [] => UB
    | ty :: tys => s <- conv_arg st ty arg c ;;
                   match s with Next c => conv_args st tys args c | Stop r e => OK (Stop r e) end
    end
  end.

(** What a C function returns: the word or double, and the text at a returned pointer. *)
Record cret := { cr_bits : Z; cr_text : list Z }.
(** What is seen of a call: the code returned, mjs->error, the result, the callbacks, the
    strings, and the parameters the C function was called with *)
Record outcome := { o_ret : Z; o_err : Z; o_val : Z; o_cbs : cblist; o_strs : strs; o_call : option (fnptr * list passed) }.
Definition rclass_of (ty : Z) : option rclass :=
  if ty =? T_DOUBLE then Some RDouble else if ty =? T_FLOAT then Some RFloat else if ty =? T_BOOL then Some RBool
  else if in_list [T_USERDATA; T_INT; T_CHAR_PTR; T_VOID_PTR; T_NONE] ty then Some RWord else None.
(** mjs_ffi.c:932-957 *)
Definition result_value (st : strs) (ty : Z) (r : cret) : R (strs * Z) :=
  if ty =? T_CHAR_PTR then
    if cr_bits r =? 0 then OK (st, V_NULL) else mk_string st (cr_text r)
  else if ty =? T_VOID_PTR then OK (st, fst (mk_foreign (cr_bits r)))
  else if ty =? T_INT then OK (st, mk_number (d_of_Z (s32 (cr_bits r))))
  else if ty =? T_BOOL then OK (st, mk_boolean (negb (cr_bits r =? 0)))
  else if (ty =? T_DOUBLE) || (ty =? T_FLOAT) then OK (st, mk_number (cr_bits r))
  else OK (st, V_UNDEFINED).
(** [g] is the called signature, [junk] the rest of the array of arguments, [cfun] the C
    functions. The return types that mjs_ffi.c:688-711 leaves res.ctype unset for are UB. *)
Definition ffi_call2 (cfun : fnptr -> list passed -> cret) (st : strs) (cbs : cblist) (g : sig) (junk : list carg)
           (args : list Z) (err : Z) : R outcome :=
  let fail r e := OK {| o_ret := r; o_err := e; o_val := V_UNDEFINED; o_cbs := cbs; o_strs := st; o_call := None |} in
  let rty := hd 0 (s_types g) in
  if rty =? T_INVALID then fail E_TYPE (report err E_TYPE)
  else match rclass_of rty with
  | None => UB
  | Some rc =>
    if negb (zlen args =? s_cnt g) then fail E_TYPE (report err E_TYPE)
    else
      s <- conv_args st (tl (s_types g)) args {| k_args := []; k_func := None; k_ud := None; k_ret := E_OK; k_err := err |} ;;
      match s with
      | Stop r e => fail r e
      | Next c =>
        '(cbs, a) <-
          match k_func c, k_ud c with
          | Some (f, fi), Some (u, ui) =>
            match s_cb g with
            | None => UB (* psig->cb_sig is NULL *)
            | Some cs =>
              let '(cbs, e) :=
                match get_matching (cl_list cbs) f u with
                | Some e => (cbs, e)
                | None => let e := {| ce_id := cl_next cbs; ce_func := f; ce_userdata := u; ce_sig := cs |} in
                          ({| cl_next := cl_next cbs + 1; cl_list := cl_list cbs ++ [e] |}, e)
                end in
              OK (cbs, blit (blit (k_args c) (Z.of_nat fi) [CW (WFn (s_fn cs))]) (Z.of_nat ui) [CW (WCb (ce_id e))])
            end
          | None, None => OK (cbs, k_args c)
          | _, _ => Abort
          end ;;
        call <- ffi_call (length args) rc (firstn 6 (a ++ junk)) ;;
        let r := match call with Some ps => cfun (s_fn g) ps | None => {| cr_bits := 0; cr_text := [] |} end in
        '(st, v) <- result_value st rty r ;;
        (* mjs_mk_foreign reports a pointer of more than 48 bits *)
        let e := if (rty =? T_VOID_PTR) && snd (mk_foreign (cr_bits r)) then report (k_err c) E_TYPE else k_err c in
        OK {| o_ret := k_ret c; o_err := e; o_val := v; o_cbs := cbs; o_strs := st;
              o_call := match call with Some ps => Some (s_fn g, ps) | None => None end |}
      end
  end.

(** mjs_ffi.c:971-995 mjs_ffi_cb_free: the list, mjs->error and the result *)
Fixpoint remove_first (p : centry -> bool) (l : list centry) : option (list centry) :=
  match l with
  | [] => None
  | c :: l => if p c then Some l else match remove_first p l with Some l => Some (c :: l) | None => None end
  end.
Definition cb_free (cbs : cblist) (f u err : Z) : cblist * Z * Z :=
  if is_function f then
    match remove_first (matches f u) (cl_list cbs) with
    | Some l => ({| cl_next := cl_next cbs; cl_list := l |}, err, mk_number (d_of_Z 1))
    | None => (cbs, err, mk_number (d_of_Z 0))
    end
  else (cbs, report err E_TYPE, mk_number (d_of_Z 0)).

(** * Callbacks: mjs_ffi.c:312-518 *)
(** A word that a callback receives: its 64 bits, and what they mean as a pointer *)
Record cword := { cw_bits : Z; cw_cb : option Z; cw_text : list Z; cw_mgtext : list Z }.
Definition no_word : cword := {| cw_bits := 0; cw_cb := None; cw_text := []; cw_mgtext := [] |}.
(** The six slots of struct ffi_cb_data. In the calling convention of x86-64 words and doubles
    travel in separate registers: [ws] and [ds] are their contents. *)
Inductive slot := SW (w : cword) | SD (d : Z) | SZ.
Definition reg (ws : list cword) (i : nat) : cword := nth i ws no_word.
Definition cb_slots (i : cb_impl) (ws : list cword) (ds : list Z) : list slot * cword :=
  match i with
  | ImplW k => (map (fun j => SW (reg ws j)) (seq 0 6), reg ws (Z.to_nat (k - 1)))
  | ImplWPD => ([SW (reg ws 0); SD (nth 0%nat ds 0); SZ; SZ; SZ; SZ], reg ws 0)
  | ImplWDP => ([SD (nth 0%nat ds 0); SW (reg ws 0); SZ; SZ; SZ; SZ], reg ws 0)
  end.
(** the slot as a word and as a double: the same 64 bits *)
Definition slot_w (s : slot) : cword := match s with SW w => w | SD d => {| cw_bits := d; cw_cb := None; cw_text := []; cw_mgtext := [] |} | SZ => no_word end.
Definition slot_d (s : slot) : Z := match s with SW w => cw_bits w | SD d => d | SZ => 0 end.
(** mjs_ffi.c:343-385 one argument for the JS function. Reading a text through a pointer that
    is a double is undefined. Floats do not occur: such signatures get no implementation.
    The error that mjs_mk_foreign reports for a pointer of more than 48 bits is not kept. *)
Definition js_arg (st : strs) (e : centry) (ty : Z) (s : slot) : R (strs * Z) :=
  let w := slot_w s in
  if ty =? T_USERDATA then OK (st, ce_userdata e)
  else if ty =? T_INT then OK (st, mk_number (d_of_Z (cw_bits w)))
  else if ty =? T_BOOL then OK (st, mk_boolean (negb (cw_bits w =? 0)))
  else if ty =? T_CHAR_PTR then
    match s with SD _ => UB | _ => mk_string st (if cw_bits w =? 0 then [] else cw_text w) end
  else if ty =? T_VOID_PTR then OK (st, fst (mk_foreign (cw_bits w)))
  else if ty =? T_DOUBLE then OK (st, mk_number (slot_d s))
  else if ty =? T_MG_STR_PTR then
    match s with SW _ => if cw_bits w =? 0 then UB else mk_string st (cw_mgtext w) | _ => UB end
  else Abort.
Fixpoint js_args (st : strs) (e : centry) (tys : list Z) (ss : list slot) : R (strs * list Z) :=
  match tys with
  | [] => OK (st, [])
  | ty :: tys =>
    match ss with
    | [] => UB
    | s :: ss => '(st, v) <- js_arg st e ty s ;; '(st, vs) <- js_args st e tys ss ;; OK (st, v :: vs)
    end
  end.
(** C calls an implementation: the JS function and its arguments *)
Definition cb_enter (st : strs) (cbs : cblist) (i : cb_impl) (ws : list cword) (ds : list Z) : R (strs * Z * list Z) :=
  let '(slots, u) := cb_slots i ws ds in
  match cw_cb u with
  | None => UB
  | Some id =>
    match find (fun c => ce_id c =? id) (cl_list cbs) with
    | None => UB (* freed *)
    | Some e =>
      if 0 <? s_cnt (ce_sig e) then
        '(st, vs) <- js_args st e (firstn (Z.to_nat (s_cnt (ce_sig e))) (tl (s_types (ce_sig e)))) slots ;;
        OK (st, ce_func e, vs)
      else Abort
    end
  end.
