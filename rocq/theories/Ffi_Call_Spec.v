(** Specification of calls of C functions and of callbacks, independent of how they are
    carried out. *)
From Verif Require Import Base Value_Model Value_Spec Str_Model Ffi_Model Ffi_Spec.

(** * From JS values to C arguments *)
(** [takes st ext fw cw t v a]: a parameter of type [t] given the value [v] is the C argument
    [a]. [fw] is the C function that stands for the JS callback, [cw] the userdata that C
    passes back to it. *)
Inductive takes (st : strs) (ext : extmem) (fw cw : word) : Z -> Z -> carg -> Prop :=
| tk_int n : 0 <= n < 2 ^ 32 -> takes st ext fw cw T_INT (mk_number (d_of_Z n)) (CW (WInt (s32 n)))
| tk_int_bool b : takes st ext fw cw T_INT (mk_boolean b) (CW (WInt (if b then 1 else 0)))
| tk_bool b : takes st ext fw cw T_BOOL (mk_boolean b) (CW (WInt (if b then 1 else 0)))
| tk_bool_int n : 0 <= n < 2 ^ 32 -> takes st ext fw cw T_BOOL (mk_number (d_of_Z n)) (CW (WInt (if n =? 0 then 0 else 1)))
| tk_double d : is_u64 d -> ~ ieee_nan d -> takes st ext fw cw T_DOUBLE (mk_number d) (CD d)
| tk_float d : is_u64 d -> ~ ieee_nan d -> takes st ext fw cw T_FLOAT (mk_number d) (CF d)
| tk_text v b : is_u64 v -> kind_of v = KString -> str_bytes st ext v = OK b -> takes st ext fw cw T_CHAR_PTR v (CW (WText v))
| tk_no_text : takes st ext fw cw T_CHAR_PTR V_NULL (CW WNull)
| tk_mg v b : is_u64 v -> kind_of v = KString -> str_bytes st ext v = OK b -> takes st ext fw cw T_MG_STR_PTR v (CW (WMgStr v))
| tk_ptr_text v b : is_u64 v -> kind_of v = KString -> str_bytes st ext v = OK b -> takes st ext fw cw T_VOID_PTR v (CW (WText v))
| tk_ptr p : 0 <= p < 2 ^ 48 -> takes st ext fw cw T_VOID_PTR (fst (mk_foreign p)) (CW (WPtr p))
| tk_no_ptr : takes st ext fw cw T_VOID_PTR V_NULL (CW WNull)
| tk_userdata v : takes st ext fw cw T_USERDATA v (CW cw)
| tk_callback v : is_u64 v -> kind_of v = KFunction -> takes st ext fw cw T_CALLBACK v (CW fw).
Inductive takes_all (st : strs) (ext : extmem) (fw cw : word) : list Z -> list Z -> list carg -> Prop :=
| ta_nil : takes_all st ext fw cw [] [] []
| ta_cons t v a ts vs l : takes st ext fw cw t v a -> takes_all st ext fw cw ts vs l ->
    takes_all st ext fw cw (t :: ts) (v :: vs) (a :: l).

(** A C argument as a C function of its own type expects it: words in general registers,
    doubles and floats in floating point registers. *)
Definition natural (a : carg) : passed := match a with CW _ => PW a | CD _ => PD a | CF _ => PF a end.

(** The prototypes that exist: words only; or at most three arguments with doubles but no
    floats anywhere; or the same with floats. *)
Definition supported (ret : Z) (ts : list Z) : Prop :=
  (~ In T_DOUBLE ts /\ ~ In T_FLOAT ts) \/
  ((length ts <= 3)%nat /\ In T_DOUBLE ts /\ ~ In T_FLOAT ts /\ ret <> T_FLOAT) \/
  ((length ts <= 3)%nat /\ In T_FLOAT ts /\ ~ In T_DOUBLE ts /\ ret <> T_DOUBLE).
(** The prototypes that do not exist *)
Definition unsupported (ret : Z) (ts : list Z) : Prop :=
  (In T_DOUBLE ts /\ In T_FLOAT ts) \/
  ((3 < length ts)%nat /\ In T_DOUBLE ts /\ ret <> T_FLOAT) \/
  ((3 < length ts)%nat /\ In T_FLOAT ts /\ ret <> T_DOUBLE).
(** A float argument with a double result or the other way around *)
Definition crossed (ret : Z) (ts : list Z) : Prop :=
  (ret = T_DOUBLE /\ In T_FLOAT ts /\ ~ In T_DOUBLE ts) \/ (ret = T_FLOAT /\ In T_DOUBLE ts /\ ~ In T_FLOAT ts).

(** The value of the argument of type [t] *)
Fixpoint arg_of (t : Z) (ts vs : list Z) : option Z :=
  match ts, vs with
  | t' :: ts, v :: vs => if t' =? t then Some v else arg_of t ts vs
  | _, _ => None
  end.
(** [registered cbs g vs fw cw cbs']: how a call of [g] with [vs] registers its callback. *)
Definition registered (cbs : cblist) (g : sig) (vs : list Z) (fw cw : word) (cbs' : cblist) : Prop :=
  match arg_of T_CALLBACK (arg_types g) vs, arg_of T_USERDATA (arg_types g) vs with
  | Some f, Some u =>
    exists cs e, s_cb g = Some cs /\ fw = WFn (s_fn cs) /\ cw = WCb (ce_id e) /\ ce_func e = f /\ ce_userdata e = u /\
      In e (cl_list cbs') /\
      (* known already, or new *)
      (cbs' = cbs \/
       ((forall x, In x (cl_list cbs) -> ~ (ce_func x = f /\ ce_userdata x = u)) /\ ce_sig e = cs /\
        cl_list cbs' = cl_list cbs ++ [e] /\ ce_id e = cl_next cbs /\ cl_next cbs' = cl_next cbs + 1))
  | _, _ => cbs' = cbs
  end.

(** * From C results to JS values *)
Inductive gives (st : strs) (ext : extmem) : Z -> cret -> strs -> Z -> Prop :=
| gv_void r : gives st ext T_NONE r st V_UNDEFINED
| gv_int n r : - 2 ^ 31 <= n < 2 ^ 31 -> cr_bits r mod 2 ^ 32 = n mod 2 ^ 32 -> gives st ext T_INT r st (mk_number (d_of_Z n))
| gv_bool r : gives st ext T_BOOL r st (mk_boolean (negb (cr_bits r =? 0)))
| gv_double r : gives st ext T_DOUBLE r st (mk_number (cr_bits r))
| gv_float r : gives st ext T_FLOAT r st (mk_number (cr_bits r))
| gv_null r : cr_bits r = 0 -> gives st ext T_CHAR_PTR r st V_NULL
| gv_text r st' v : cr_bits r <> 0 -> str_bytes st' ext v = OK (cr_text r) -> gives st ext T_CHAR_PTR r st' v
| gv_ptr r v : get_ptr v = cr_bits r -> gives st ext T_VOID_PTR r st v.

(** * Signatures that can be called *)
Definition callable (g : sig) : Prop :=
  good_sig SigFunc g /\ s_cnt g = zlen (arg_types g) /\ length (s_types g) = 7%nat /\
  (count T_CALLBACK (arg_types g) <= 1)%nat /\ (In T_CALLBACK (arg_types g) -> s_cb g <> None).
(** C results that have a meaning in JS *)
Definition cret_ok (st : strs) (t : Z) (r : cret) : Prop :=
  (t = T_CHAR_PTR -> bytes_ok (cr_text r) /\ zlen (so st) < 2 ^ 48 /\ zlen (cr_text r) < 2 ^ 64) /\
  (t = T_VOID_PTR -> 0 <= cr_bits r < 2 ^ 48).

(** * Callbacks: from C arguments to JS values *)
(** What C passes: an int, a bool, a text (a null pointer is no text), a pointer, a struct
    mg_str, a double, and the userdata that came with the function pointer *)
Inductive cval := XInt (n : Z) | XBool (b : bool) | XText (s : option (list Z)) | XPtr (p : Z) | XMg (s : list Z) | XDouble (d : Z) | XUserdata.
(** An int sits in the low half of its register, extended one way or the other. *)
Inductive in_reg (id : Z) : Z -> cval -> cword -> Prop :=
| ir_int n w : - 2 ^ 31 <= n < 2 ^ 31 -> cw_bits w = n mod 2 ^ 32 \/ cw_bits w = n mod 2 ^ 64 -> in_reg id T_INT (XInt n) w
| ir_bool (b : bool) w : cw_bits w = (if b then 1 else 0) -> in_reg id T_BOOL (XBool b) w
| ir_null w : cw_bits w = 0 -> in_reg id T_CHAR_PTR (XText None) w
| ir_text w : cw_bits w <> 0 -> bytes_ok (cw_text w) -> in_reg id T_CHAR_PTR (XText (Some (cw_text w))) w
| ir_ptr w : 0 <= cw_bits w < 2 ^ 48 -> in_reg id T_VOID_PTR (XPtr (cw_bits w)) w
| ir_mg w : cw_bits w <> 0 -> bytes_ok (cw_mgtext w) -> in_reg id T_MG_STR_PTR (XMg (cw_mgtext w)) w
| ir_userdata w : cw_cb w = Some id -> in_reg id T_USERDATA XUserdata w.
(** The calling convention: words in one sequence of registers, doubles in another *)
Inductive loads (id : Z) : list Z -> list cval -> list cword -> list Z -> Prop :=
| ld_nil ws ds : loads id [] [] ws ds
| ld_word t x w ts xs ws ds : in_reg id t x w -> loads id ts xs ws ds -> loads id (t :: ts) (x :: xs) (w :: ws) ds
| ld_double d ts xs ws ds : is_u64 d -> ~ ieee_nan d -> loads id ts xs ws ds -> loads id (T_DOUBLE :: ts) (XDouble d :: xs) ws (d :: ds).
(** The JS value for a C argument; negative ints are left out *)
Inductive arrives (st : strs) (ext : extmem) (userdata : Z) : cval -> Z -> Prop :=
| av_int n : 0 <= n -> arrives st ext userdata (XInt n) (mk_number (d_of_Z n))
| av_bool b : arrives st ext userdata (XBool b) (mk_boolean b)
| av_null v : str_bytes st ext v = OK [] -> arrives st ext userdata (XText None) v
| av_text s v : str_bytes st ext v = OK s -> arrives st ext userdata (XText (Some s)) v
| av_ptr p v : get_ptr v = p -> kind_of v = KForeign -> arrives st ext userdata (XPtr p) v
| av_mg s v : str_bytes st ext v = OK s -> arrives st ext userdata (XMg s) v
| av_double d : arrives st ext userdata (XDouble d) d
| av_userdata : arrives st ext userdata XUserdata userdata.
(** space that the texts need *)
Definition text_len (x : cval) : Z := match x with XText (Some s) => zlen s | XMg s => zlen s | _ => 0 end.
Fixpoint texts_len (xs : list cval) : Z := match xs with [] => 0 | x :: xs => text_len x + 11 + texts_len xs end.
Definition no_negative (xs : list cval) : Prop := forall n, In (XInt n) xs -> 0 <= n.
