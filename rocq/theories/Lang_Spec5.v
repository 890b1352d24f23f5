(** Specification of programs that fail: which error ends them, and in which state. *)
From Verif Require Import Base Value_Model Str_Model Ops_Model Obj_Model TokNum_Model Vm_Model Parse_Model Run_Model Expr_Spec Lang_Spec Lang_Spec3.

(** A failure: the code of the error, the value of [this] where it happened, and the state that
    is left: nothing that was done before the error is undone. *)
Definition failure : Type := Z * val * state.
(** The first of two failures in the order of evaluation. *)
Definition first (a b : option failure) : option failure := match a with Some x => Some x | None => b end.

(** * Errors of single operations *)
(** Undefined, null, booleans, numbers and functions have no properties. *)
Definition bare (v : val) : bool :=
  match v with VPrim (AStr _) => false | VPrim _ | VFun _ _ => true | _ => false end.
(** Reading the property [k] of [o]. *)
Definition get_error (o k : val) : option Z :=
  if bare o then match key_name k with Some n => if name_eqb n n_apply then None else Some E_TYPE | None => None end else None.
(** Arithmetic is for two numbers, + also for two strings; pointers are not covered. The
    operators == and != are not implemented. *)
Definition arith : list Z :=
  [TOK_MINUS; TOK_PLUS; TOK_MUL; TOK_DIV; TOK_REM; TOK_XOR; TOK_AND; TOK_OR; TOK_LSHIFT; TOK_RSHIFT; TOK_URSHIFT].
Definition number_like (v : val) : bool := match v with VPrim (ANum _) | VHost _ => true | _ => false end.
Definition is_text (v : val) : bool := match v with VPrim (AStr _) => true | _ => false end.
Definition bin_error (op : Z) (a b : val) : option Z :=
  if (op =? TOK_EQ) || (op =? TOK_NE) then Some E_NOT_IMPL
  else if existsb (Z.eqb op) arith then
    if number_like a && number_like b then None
    else if is_text a && is_text b && (op =? TOK_PLUS) then None
    else Some E_TYPE
  else None.
(** Computing with the property [k] of [o] and the value [v]: only objects and arrays have
    properties to change, and only by names, not by numbers. When the operator does not fit, the
    property is undefined afterwards. *)
Definition modify_error (s : state) (o k : val) (op : Z) (v : val) : option state :=
  match o with
  | VObj i | VArr i =>
    if is_text k then
      let? n := text_key k in
      let? _ := nth_error (objs s) i in
      let? _ := bin_error op (match own s i n with Some x => x | None => undef end) v in
      set_own s i n undef
    else Some s
  | _ => Some s
  end.
Definition assign_error (s : state) (op : Z) (o k v : val) : option state :=
  if op =? TOK_ASSIGN then match o with VPrim _ | VFun _ _ => Some s | _ => None end
  else let? b := compound_op op in modify_error s o k b v.
Definition inc_error (s : state) (op : Z) (o k : val) : option state :=
  if (op =? TOK_PLUS_PLUS) || (op =? TOK_POSTFIX_PLUS) then modify_error s o k TOK_PLUS (vint 1)
  else if (op =? TOK_MINUS_MINUS) || (op =? TOK_POSTFIX_MINUS) then modify_error s o k TOK_MINUS (vint 1)
  else None.

(** * Programs *)
(** Failures of everything up to some nesting depth, next to the evaluator of Lang_Spec. *)
Record failer := {
  fe : list nat -> val -> lx -> state -> option failure;
  fr : list nat -> val -> lx -> state -> option failure;
  fa : list nat -> val -> list lx -> state -> option failure;
  fs : list nat -> val -> stmt -> state -> option failure }.

Section Fail.
Context (E : evaluator) (F : failer) (rounds : nat).

(** A variable that no scope has. *)
Definition fail_ref (sc : list nat) (th : val) (r : lx) (s : state) : option failure :=
  match r with
  | XVar x => let? s := use_name x s in match find_var s sc x with None => Some (E_REFERENCE, th, s) | Some _ => None end
  | XDot o x => fe F sc th o s
  | XIdx o k => first (fe F sc th o s) (let? (_, s) := ev E sc th o s in fe F sc th k s)
  | _ => None
  end.
Definition fail_args (sc : list nat) (th : val) (l : list lx) (s : state) : option failure :=
  match l with
  | [] => None
  | e :: l => first (fe F sc th e s) (let? (_, s) := ev E sc th e s in fa F sc th l s)
  end.
Fixpoint fail_fill (sc : list nat) (th : val) (i : nat) (l : list (list Z * lx)) (s : state) : option failure :=
  match l with
  | [] => None
  | (n, e) :: l =>
    let? s := use_name n s in
    first (fe F sc th e s) (let? (v, s) := ev E sc th e s in let? s := set_own s i n v in fail_fill sc th i l s)
  end.
Fixpoint fail_fill_arr (sc : list nat) (th : val) (i : nat) (l : list lx) (s : state) : option failure :=
  match l with
  | [] => None
  | e :: l => first (fe F sc th e s) (let? (v, s) := ev E sc th e s in let? s := append s i v in fail_fill_arr sc th i l s)
  end.
Fixpoint fail_list (sc : list nat) (th : val) (l : list stmt) (s : state) : option failure :=
  match l with
  | [] => None
  | a :: l => first (fs F sc th a s) (let? (o, s) := ex E sc th a s in match o with ONormal _ => fail_list sc th l s | _ => None end)
  end.
(** Calling [f] with [t] as [this]: what is no function cannot be called (strings and C functions
    are not covered), and the body of a function may fail. *)
Definition fail_call (sc : list nat) (th f t : val) (vs : list val) (s : state) : option failure :=
  match f with
  | VFun ps b =>
    let? (i, s) := new_cell s in
    let? s := bind_pars i ps vs s in fail_list (i :: sc) t b s
  | VHost _ | VPrim (AStr _) => None
  | _ => Some (E_TYPE, th, s)
  end.
Definition fail1 (sc : list nat) (th : val) (e : lx) (s : state) : option failure :=
  match e with
  | XConst _ | XThis | XFun _ _ _ => None
  | XVar x => fail_ref sc th e s
  | XUn _ a => fe F sc th a s
  | XBin op a b =>
    first (fe F sc th a s) (let? (v, s) := ev E sc th a s in
    first (fe F sc th b s) (let? (w, s) := ev E sc th b s in
    let? c := bin_error op v w in Some (c, th, s)))
  | XAnd a b => first (fe F sc th a s) (let? (v, s) := ev E sc th a s in if v_truthy v then fe F sc th b s else None)
  | XOr a b => first (fe F sc th a s) (let? (v, s) := ev E sc th a s in if v_truthy v then None else fe F sc th b s)
  | XCond c a b => first (fe F sc th c s) (let? (v, s) := ev E sc th c s in fe F sc th (if v_truthy v then a else b) s)
  | XAsg op r e =>
    first (fr F sc th r s) (let? (o, k, s) := ev_ref E sc th r s in
    first (fe F sc th e s) (let? (v, s) := ev E sc th e s in
    let? s := assign_error s op o k v in Some (E_TYPE, th, s)))
  | XInc op r =>
    first (fr F sc th r s) (let? (o, k, s) := ev_ref E sc th r s in
    let? s := inc_error s op o k in Some (E_TYPE, th, s))
  | XDot _ _ | XIdx _ _ =>
    first (fr F sc th e s) (let? (o, k, s) := ev_ref E sc th e s in let? c := get_error o k in Some (c, th, s))
  | XCall f l =>
    first (fe F sc th f s) (let? (v, t, s) := eval_callee E sc th f s in
    first (fa F sc th l s) (let? (vs, s) := ev_args E sc th l s in fail_call sc th v t vs s))
  | XObj l => let? (i, s) := new_cell s in fail_fill sc th i l s
  | XArr l => let? (i, s) := new_cell s in fail_fill_arr sc th i l s
  end.
Fixpoint fail_all (sc : list nat) (th : val) (l : list lx) (s : state) : option failure :=
  match l with
  | [] => None
  | e :: l => first (fe F sc th e s) (let? (_, s) := ev E sc th e s in fail_all sc th l s)
  end.
Definition fail_let (sc : list nat) (th : val) (x : list Z) (e : option lx) (s : state) : option failure :=
  let? s := declare sc x s in
  match e with None => None | Some e => let? s := use_name x s in fe F sc th e s end.
Fixpoint fail_lets (sc : list nat) (th : val) (l : list (list Z * option lx)) (s : state) : option failure :=
  match l with
  | [] => None
  | (x, e) :: l => first (fail_let sc th x e s) (let? (_, s) := eval_let E sc th x e s in fail_lets sc th l s)
  end.
Fixpoint fail_loop (sc : list nat) (th : val) (c : lx) (step : option lx) (b : list stmt) (n : nat) (s : state) : option failure :=
  match n with
  | O => None
  | S n =>
    first (fe F sc th c s) (let? (v, s) := ev E sc th c s in
    if v_truthy v then
      first (fail_list sc th b s) (let? (o, s) := ex_list E sc th b undef s in
      match o with
      | ONormal _ | OContinue =>
        first (match step with None => None | Some u => fe F sc th u s end)
              (let? s := match step with None => Some s | Some u => let? (_, s) := ev E sc th u s in Some s end in
               fail_loop sc th c step b n s)
      | _ => None
      end)
    else None)
  end.
(** The rounds of for-in; the variable must exist when there is a name for it. *)
Fixpoint fail_each (sc : list nat) (th : val) (x : list Z) (b : list stmt) (ks : list (list Z)) (s : state) : option failure :=
  match ks with
  | [] => None
  | k :: ks =>
    match find_var s sc x with
    | None => Some (E_REFERENCE, th, s)
    | Some i =>
      let? s := set_own s i x (VPrim (AStr k)) in
      first (fail_list sc th b s) (let? (o, s) := ex_list E sc th b undef s in
      match o with ONormal _ | OContinue => fail_each sc th x b ks s | _ => None end)
    end
  end.
Definition fail_exec (sc : list nat) (th : val) (a : stmt) (s : state) : option failure :=
  match a with
  | SEmpty | SBreak | SContinue | SReturn None => None
  | SExprs l => fail_all sc th l s
  | SLet l => fail_lets sc th l s
  | SBlock l => let? (i, s) := new_cell s in fail_list (i :: sc) th l s
  | SIf c a b =>
    first (fe F sc th c s) (let? (v, s) := ev E sc th c s in
    if v_truthy v then fs F sc th a s else match b with Some b => fs F sc th b s | None => None end)
  | SWhile c b => let? (i, s) := new_cell s in fail_loop (i :: sc) th c None b rounds s
  | SFor i0 c u b =>
    let? (i, s) := new_cell s in
    first (fs F (i :: sc) th i0 s) (let? (_, s) := ex E (i :: sc) th i0 s in fail_loop (i :: sc) th c (Some u) b rounds s)
  | SForIn d x e b =>
    let? (i, s) := new_cell s in
    let? s := (if d then declare (i :: sc) x s else Some s) in
    let? s := use_name x s in
    first (fe F (i :: sc) th e s) (let? (v, s) := ev E (i :: sc) th e s in
    match v with
    | VObj j | VArr j => let? c := nth_error (objs s) j in fail_each (i :: sc) th x b (map fst c) s
    | _ => Some (E_TYPE, th, s)
    end)
  | SReturn (Some e) => fe F sc th e s
  end.
End Fail.

Fixpoint fails_at (rounds : nat) (d : nat) : failer :=
  match d with
  | O => {| fe := fun _ _ _ _ => None; fr := fun _ _ _ _ => None; fa := fun _ _ _ _ => None; fs := fun _ _ _ _ => None |}
  | S d => let E := at_depth rounds d in let F := fails_at rounds d in
           {| fe := fail1 E F; fr := fail_ref E F; fa := fail_args E F; fs := fail_exec E F rounds |}
  end.
(** The failure that ends a program. *)
Definition fail_program (rounds depth : nat) (sc : list nat) (th : val) (l : list stmt) (s : state) : option failure :=
  fail_list (at_depth rounds depth) (fails_at rounds depth) sc th l s.
