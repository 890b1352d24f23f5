(** Specification of running programs of the language: how the values and objects of the
    interpreter of Lang_Spec are represented in the engine. *)
From Verif Require Import Base Value_Model Value_Spec Str_Model Str_Spec Str_Proofs Num_Model Obj_Model Obj_Spec Bcode_Model Bcode_Proofs Vm_Model Vm_Spec Expr_Spec Run_Spec TokNum_Model Lang_Spec Lang_Code.

(** Trees that the grammar produces: constants are literals, operators are what their place
    requires. *)
Definition constant (e : expr) : Prop :=
  match e with
  | EInt n => 0 <= n < 2 ^ 63
  | EDec txt p => literal txt p /\ forall q, num_stop q -> fst (strtod (txt ++ q)) = p
  | EStr s => bytes_ok s
  | EBool _ | ENull | EUndef => True
  | _ => False
  end.
Definition all {A} (P : A -> Prop) (l : list A) : Prop := fold_right (fun x p => P x /\ p) True l.
Fixpoint wfx (e : lx) : Prop :=
  match e with
  | XConst e => constant e
  | XThis | XVar _ => True
  | XUn op a => In op prefix_ops /\ wfx a
  | XBin op a b => (1 <= prec op <= 8)%nat /\ wfx a /\ wfx b
  | XAnd a b | XOr a b => wfx a /\ wfx b
  | XCond c a b => wfx c /\ wfx a /\ wfx b
  | XAsg op r e => In op assign_toks /\ wfx r /\ wfx e
  | XInc op r => wfx r
  | XDot o _ => wfx o
  | XIdx o k => wfx o /\ wfx k
  | XCall f l => wfx f /\ all wfx l
  | XObj l => all (fun p => wfx (snd p)) l
  | XArr l => all wfx l
  | XFun _ _ b => all wfs b
  end
with wfs (s : stmt) : Prop :=
  match s with
  | SEmpty | SBreak | SContinue | SReturn None => True
  | SExprs l => all wfx l
  | SLet l => all (fun p => match snd p with Some e => wfx e | None => True end) l
  | SBlock l => all wfs l
  | SIf c a b => wfx c /\ wfs a /\ match b with Some b => wfs b | None => True end
  | SWhile c b => wfx c /\ all wfs b
  | SFor i c u b => wfs i /\ wfx c /\ wfx u /\ all wfs b /\ match i with SExprs _ | SLet _ => True | _ => False end
  | SForIn d x e b => wfx e /\ all wfs b
  | SReturn (Some e) => wfx e
  end.

(** The engine's heap, the address of every object of the interpreter, and the contents of
    all objects of the heap. *)
Record world := { w_heap : heap; w_addr : list Z; w_store : store }.
Definition w_st (W : world) : strs := h_st (w_heap W).

(** [bp] is a piece of the code: found from every offset in it. *)
Definition part_of (cd : code) (bp : part) : Prop :=
  0 <= bp_start bp /\ bp_start bp + zlen (bp_data bp) < 2 ^ 31 - 1 /\
  forall k, 0 <= k < zlen (bp_data bp) -> part_by_offset cd (bp_start bp + k) = OK (Some bp).
(** [v] is a function whose code, in the code [cd], is that of the parameters and the body. *)
Definition fun_at (cd : code) (v : Z) (ps : list (list Z)) (b : list stmt) : Prop :=
  exists bp pre rest, part_of cd bp /\ bp_data bp = pre ++ bracket ps (seqcode (map cst b)) ++ rest /\ pre <> [] /\
    v = mk_function (bp_start bp + zlen pre) /\ all wfs b.

Definition obj_at (W : world) (i : nat) : Z := 65521 * 2 ^ 48 + nth i (w_addr W) 0.
Definition arr_at (W : world) (i : nat) : Z := 65532 * 2 ^ 48 + nth i (w_addr W) 0.
(** The value [v] of the engine is the value [a] of the interpreter. *)
Definition vrep (cd : code) (ext : extmem) (W : world) (v : Z) (a : val) : Prop :=
  match a with
  | VPrim (AStr s) => name_of (w_st W) ext v s /\ bytes_ok s
  | VPrim a => rep (w_st W) ext v a
  | VObj i => (i < length (w_addr W))%nat /\ v = obj_at W i
  | VArr i => (i < length (w_addr W))%nat /\ v = arr_at W i
  | VFun ps b => fun_at cd v ps b
  | VHost p => v = p /\ is_u64 p /\ kind_of p = KForeign
  end.
Definition entry_is (cd : code) (ext : extmem) (W : world) (x : list Z * Z) (y : list Z * val) : Prop :=
  fst x = fst y /\ vrep cd ext W (snd x) (snd y).
Definition cell_is (cd : code) (ext : extmem) (W : world) (o : Z) (c : cell) : Prop :=
  exists mp, w_store W o = Some mp /\ Forall2 (entry_is cd ext W) mp c.
(** Every object of the interpreter is represented; there is room for what is left. *)
Definition rel (cd : code) (ext : extmem) (W : world) (s : state) : Prop :=
  hrep (w_heap W) ext (w_store W) /\ NoDup (w_addr W) /\ Forall2 (cell_is cd ext W) (w_addr W) (objs s) /\
  0 <= left s /\ 0 < h_next (w_heap W) /\ h_next (w_heap W) + left s + 128 <= 2 ^ 47 /\ zlen (so (w_st W)) + left s + 128 < 2 ^ 48.
(** The scopes and the current [this]. *)
Definition scopes_are (W : world) (vs : list Z) (sc : list nat) : Prop :=
  vs = map (obj_at W) sc /\ Forall (fun i => (i < length (w_addr W))%nat) sc.

(** The property cells stay where they are in the lists; only their values change. *)
Definition kept (h h' : heap) : Prop :=
  forall a c, aget (h_props h) a = Some c -> exists c', aget (h_props h') a = Some c' /\ pc_name c' = pc_name c /\ pc_next c' = pc_next c.
(** A later world: the addresses stay, new ones are new; other objects have not changed. *)
Definition later (W W' : world) : Prop :=
  (exists e, w_addr W' = w_addr W ++ e /\ Forall (fun o => w_store W o = None) e) /\
  (forall o, w_store W o <> None -> w_store W' o <> None) /\
  (forall o, w_store W o <> None -> ~ In o (w_addr W) -> w_store W' o = w_store W o) /\
  grows (w_st W) (w_st W') /\ kept (w_heap W) (w_heap W').

(** The engine [m] is in the state [s] of the interpreter, with the scopes [sc] and the value
    [th] of [this]. *)
Definition in_state (m : vm) (W : world) (s : state) (sc : list nat) (th : val) : Prop :=
  m_heap m = w_heap W /\ rel (m_code m) (m_ext m) W s /\ scopes_are W (chain m) sc /\ vrep (m_code m) (m_ext m) W (m_this m) th.
(** The stacks have room for programs of nesting depth [d] (the sizes must fit an int). *)
Definition stack_room (m : vm) (d : nat) : Prop :=
  let n := Z.of_nat d * (Z.of_nat d + 16) in
  zlen (sk_live (m_stack m)) + n < 2 ^ 31 /\ zlen (sk_live (m_scopes m)) + n < 2 ^ 31 /\ zlen (sk_live (m_loops m)) + n < 2 ^ 31.
(** The code of [m] was committed piece by piece, and [n] more bytes fit (code offsets must
    fit an int). *)
Definition code_room (m : vm) (n : Z) : Prop := exists ds, m_code m = commits ds /\ zlen (concat ds) + n < 2 ^ 31 - 1.
(** Everything on the stacks is as before. *)
Definition same_stacks (m m' : vm) : Prop :=
  sk_live (m_stack m') = sk_live (m_stack m) /\ sk_live (m_call m') = sk_live (m_call m) /\ sk_live (m_arg m') = sk_live (m_arg m) /\
  sk_live (m_scopes m') = sk_live (m_scopes m) /\ sk_live (m_loops m') = sk_live (m_loops m) /\ m_this m' = m_this m /\ m_mem m' = m_mem m.
