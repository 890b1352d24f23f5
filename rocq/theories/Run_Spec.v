(** Specification of running a program: how values are represented, which variables a state
    has, and what running code may change. *)
From Verif Require Import Base Value_Model Value_Spec Str_Model Str_Spec Str_Proofs Obj_Model Obj_Spec Bcode_Model Bcode_Proofs Vm_Model Vm_Spec Expr_Spec.

(** The value [v] of the engine is [a]. *)
Definition rep (st : strs) (ext : extmem) (v : Z) (a : aval) : Prop :=
  match a with
  | ANum p => v = p /\ is_u64 p /\ is_number p = true
  | ABool b => v = mk_boolean b
  | ANull => v = V_NULL
  | AUndef => v = V_UNDEFINED
  | AStr s => holds st ext v s /\ bytes_ok s
  end.

(** The variables of [env] are visible in the state, with the values of [env]. [M] is the
    contents of its objects. *)
Definition env_ok (m : vm) (M : store) (env : list Z -> option aval) : Prop :=
  hrep (m_heap m) (m_ext m) M /\
  forall x a, env x = Some a -> name_ok x /\ x <> apply_name /\
    exists s v, resolves M x (chain m) s v /\ s / 2 ^ 48 = 65521 /\ rep (m_st m) (m_ext m) v a.

(** From [m] to [m'] at most [n] bytes of string memory are added; nothing else changes
    but the data stack, the last object read and the offset. *)
Definition effect (m m' : vm) (n : Z) : Prop :=
  same_frame m m' /\ m_heap m' = with_st (m_heap m) (m_st m') /\ grows (m_st m) (m_st m') /\
  zlen (so (m_st m')) <= zlen (so (m_st m)) + n.

(** The code held so far was committed piece by piece; [n] bytes more fit. *)
Definition code_ok (m : vm) (n : Z) : Prop :=
  exists ds, m_code m = commits ds /\ zlen (concat ds) + n < 2 ^ 64.
