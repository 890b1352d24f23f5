(** Specification of stack traces: where an offset is, and which calls are active. *)
From Verif Require Import Base Value_Model Str_Model SUtil_Spec Bcode_Spec TokNum_Model Txt_Model Bcode_Model Vm_Model Vm_Spec.

(** In code made of the parts [ds], the offset [off] is in the instructions of a part with the
    file name [f], and [n] is the line of the last map entry before it (line 1 if there is none
    before it, or if all are). *)
Inductive located (ds : list (list Z)) (off : Z) : list Z -> Z -> Prop :=
| Located i hd total f bytecode before after o :
    nth_error ds i = Some (layout hd total f bytecode (before ++ after)) -> ~ In 0 f ->
    0 <= o < zlen bytecode -> off = zlen (concat (firstn i ds)) + code_start f + o ->
    Forall entry_ok (before ++ after) -> Forall (fun e => fst e < o) before ->
    (forall e es, after = e :: es -> o <= fst e) ->
    located ds off f (match after with [] => 1 | _ => last_line before end).
(** The line of a trace for an offset: two blanks, at, the file, a colon, the line. *)
Definition line_of (ds : list (list Z)) (off : Z) (t : list Z) : Prop :=
  exists f n u, located ds off f n /\ int_text 10 n false 0 u /\ t = bs "  at " ++ f ++ bs ":" ++ u ++ [10].

(** Where the call stack says its calls were made, innermost first: frames of five values, the
    fourth being the offset of the call; a call from C has the offset [EXIT_ADDR]. *)
Inductive frames_at : list Z -> list Z -> Prop :=
| F_nil : frames_at [] []
| F_cons r nl ns this a l s : 0 <= a < 2 ^ 31 -> 0 <= nl < 2 ^ 31 -> 0 <= ns < 2 ^ 31 -> frames_at l s ->
    frames_at (r :: vnum nl :: vnum ns :: vnum a :: this :: l) (a :: s).

(** Instructions executed one after the other, and the offsets of the call instructions whose
    functions have not returned yet, innermost first. Functions written in C give the call stack
    back; code and stacks stay below the limits of the int type. How calls from C are executed
    ([exec] and [k]) may differ from one instruction to the next, as it does in [run]. *)
Definition site (c : conf) : Z := bp_start (k_bp c) + k_i c.
Inductive active (w : host) (sv : saved) : conf -> list Z -> conf -> list Z -> Prop :=
| A_end c l : active w sv c l c l
| A_call c l c1 c2 l2 f exec k : step w exec k sv c = OK (inl c1) -> op_at c = Some OP_CALL -> callee (k_m c) = OK f ->
    is_function f = true -> 0 <= site c < 2 ^ 31 - 1 -> zlen (chain (k_m c)) < 2 ^ 31 -> zlen (loops (k_m c)) < 2 ^ 31 ->
    active w sv c1 (site c :: l) c2 l2 -> active w sv c l c2 l2
| A_return c a l c1 c2 l2 exec k : step w exec k sv c = OK (inl c1) -> op_at c = Some OP_RETURN ->
    active w sv c1 l c2 l2 -> active w sv c (a :: l) c2 l2
| A_native c l c1 c2 l2 f exec k : step w exec k sv c = OK (inl c1) -> op_at c = Some OP_CALL -> callee (k_m c) = OK f ->
    is_function f = false -> calls (k_m c1) = calls (k_m c) ->
    active w sv c1 l c2 l2 -> active w sv c l c2 l2
| A_other c l c1 c2 l2 exec k : step w exec k sv c = OK (inl c1) -> op_at c <> Some OP_CALL -> op_at c <> Some OP_RETURN ->
    active w sv c1 l c2 l2 -> active w sv c l c2 l2.

(** The instruction at [c] fails, leaving the state [m] and the index [i] (of its last byte) in
    the part [bp]; a function written in C that fails gives the call stack back. *)
Definition fails (w : host) (exec : vm -> Z -> R (vm * Z)) (k : nat) (c : conf) (m : vm) (bp : part) (i : Z) : Prop :=
  exists op, op_at c = Some op /\ k_i c < zlen (bp_data (k_bp c)) /\
    instr w exec k (set_off (k_m c) (k_i c)) (k_bp c) (k_i c) op (k_op c) = OK (Go m bp i) /\ m_err m <> E_OK /\
    (op = OP_CALL -> forall f, callee (k_m c) = OK f -> is_foreign f = true \/ is_string f = true \/ is_ffi_sig f = true -> calls m = calls (k_m c)).

(** The lines of a trace for these offsets: calls from C have none. *)
Definition lines_of (ds : list (list Z)) (offs : list Z) (t : list Z) : Prop :=
  exists ts, Forall2 (line_of ds) (filter (fun a => negb (a =? EXIT_ADDR)) offs) ts /\ t = concat ts.

(** Rounds of the loop of mjs_execute, with the fuel left. *)
Inductive rounds (w : host) (sv : saved) : nat -> conf -> nat -> conf -> Prop :=
| R_end n c : rounds w sv n c n c
| R_next n c c1 n2 c2 : step w (fun m off => c <- enter m off ;; run n w (save m) off c) n sv c = OK (inl c1) ->
    rounds w sv n c1 n2 c2 -> rounds w sv (S n) c n2 c2.
