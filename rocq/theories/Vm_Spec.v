(** Specification vocabulary for the virtual machine. *)
From Verif Require Import Base Value_Model Obj_Spec Bcode_Model Vm_Model.

(** How many values each of the five stacks holds: data, call, argument, scope, loop. *)
Definition lengths (m : vm) : list nat :=
  [length (sk_live (m_stack m)); length (sk_live (m_call m)); length (sk_live (m_arg m));
   length (sk_live (m_scopes m)); length (sk_live (m_loops m))].

(** Values of the three stacks that a call must give back. *)
Definition calls (m : vm) : list Z := sk_live (m_call m).
Definition chain (m : vm) : list Z := sk_live (m_scopes m).
Definition loops (m : vm) : list Z := sk_live (m_loops m).

(** The instruction about to be executed. *)
Definition op_at (c : conf) : option Z := nthz (bp_data (k_bp c)) (k_i c).
(** The value a call instruction calls: the argument stack holds the position after it. *)
Definition callee (m : vm) : R Z := n <- get_int (sk_top (m_arg m)) ;; sk_get (m_stack m) (n - 1).

(** What the body of a function called in state [m0] does not do from [c] to [c']: remove a
    scope of its caller, break or continue a loop of its caller, return (that is the end of the
    body), call a C function that leaves the call, scope or loop stack changed. Stacks and code
    stay below the limits of the int type that their sizes and offsets are stored in. *)
Definition own_business (m0 : vm) (c c' : conf) : Prop :=
  zlen (chain (k_m c)) < 2 ^ 31 /\ zlen (loops (k_m c)) < 2 ^ 31 /\
  0 <= bp_start (k_bp c) + k_i c < 2 ^ 31 - 1 /\
  (op_at c = Some OP_DEL_SCOPE -> zlen (chain m0) < zlen (chain (k_m c))) /\
  (op_at c = Some OP_BREAK \/ op_at c = Some OP_CONTINUE -> zlen (loops m0) + 3 <= zlen (loops (k_m c))) /\
  (op_at c = Some OP_RETURN -> zlen (calls m0) + 5 < zlen (calls (k_m c))) /\
  (op_at c = Some OP_CALL -> forall f, callee (k_m c) = OK f -> is_function f = false ->
     calls (k_m c') = calls (k_m c) /\ chain (k_m c') = chain (k_m c) /\ loops (k_m c') = loops (k_m c)).

(** Any number of instructions of such a body, calls of other functions included. *)
Inductive body (w : host) (exec : vm -> Z -> R (vm * Z)) (k : nat) (sv : saved) (m0 : vm) : conf -> conf -> Prop :=
| body_end c : body w exec k sv m0 c c
| body_step c c1 c2 : step w exec k sv c = OK (inl c1) -> own_business m0 c c1 ->
    body w exec k sv m0 c1 c2 -> body w exec k sv m0 c c2.

(** The scope object [s] has the variable [n] with value [x]; it has no such variable. *)
Definition has_var (M : store) (n : list Z) (s x : Z) : Prop :=
  exists o mp, refers s o /\ M o = Some mp /\ lookup mp n = Some x.
Definition lacks_var (M : store) (n : list Z) (s : Z) : Prop :=
  exists o mp, refers s o /\ M o = Some mp /\ lookup mp n = None.
(** [s] is the innermost scope of the chain (innermost first) that has the variable. *)
Definition resolves (M : store) (n : list Z) (scopes : list Z) (s x : Z) : Prop :=
  exists inner outer, scopes = inner ++ s :: outer /\ Forall (lacks_var M n) inner /\ has_var M n s x.
(** The name apply, which property reads of every value treat specially. *)
Definition apply_name : list Z := [97; 112; 112; 108; 121].

(** Any number of instructions, none of which depends on how calls from C are executed. *)
Inductive steps (w : host) (sv : saved) : conf -> conf -> Prop :=
| steps_end c : steps w sv c c
| steps_next c c1 c2 : (forall exec k, step w exec k sv c = OK (inl c1)) -> steps w sv c1 c2 -> steps w sv c c2.
(** The next instructions are [d]; [c'] is after them, in the same part. *)
Definition next_code (c : conf) (d : list Z) : Prop :=
  exists pre rest, bp_data (k_bp c) = pre ++ d ++ rest /\ k_i c = zlen pre.
Definition after_code (c c' : conf) (d : list Z) : Prop :=
  k_bp c' = k_bp c /\ k_i c' = k_i c + zlen d.
(** Everything but the data stack, the heap, the last object and the offset is as before. *)
Definition same_frame (m m' : vm) : Prop :=
  m_call m' = m_call m /\ m_arg m' = m_arg m /\ m_scopes m' = m_scopes m /\ m_loops m' = m_loops m /\
  m_err m' = m_err m /\ m_this m' = m_this m /\ m_code m' = m_code m /\ m_mem m' = m_mem m /\ m_res m' = m_res m.
