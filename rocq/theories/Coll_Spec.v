(** Collections between programs: when the memory of the collector and the state of the executor
    are the same engine. *)
From Verif Require Import Base Value_Model Value_Spec Str_Model Str_Spec Obj_Model Gc_Model Gc_Spec Bcode_Model Vm_Model.

(** [phi a]: where the cell is that the executor has at [a] (the executor gives every cell an
    address of its own; the allocator chooses freely, and uses freed cells again). *)
Definition placing (phi : Z -> Z) : Prop :=
  phi 0 = 0 /\ (forall a, 0 <= a < 2 ^ 48 -> 0 <= phi a < 2 ^ 48) /\
  (forall a b, 0 <= a < 2 ^ 48 -> 0 <= b < 2 ^ 48 -> phi a = phi b -> a = b).
(** A value as a word of memory. *)
Definition is_ref (v : Z) : bool := (v / 2 ^ 48 =? 65521) || (v / 2 ^ 48 =? 65532).
Definition word (phi : Z -> Z) (v : Z) : Z := if is_ref v then v / 2 ^ 48 * 2 ^ 48 + phi (v mod 2 ^ 48) else v.

(** The array [bl] (base, number) holds the values [vs], oldest first. *)
Definition array_is (phi : Z -> Z) (g : gstate) (bl : Z * Z) (vs : list Z) : Prop :=
  snd bl = zlen vs /\ forall k v, nth_error vs k = Some v -> g_mem g (fst bl + 8 * Z.of_nat k) = Some (word phi v).
(** The engine [m] is the one with memory [g], whose free cells are [flo] (objects) and [flp]
    (properties): the same cells with the same contents, strings, stacks and values. Nothing
    is said of further roots, cells for signatures, and callbacks, which [g] may have. *)
Record depicts (phi : Z -> Z) (g : gstate) (flo flp : list Z) (m : vm) : Prop := {
  d_place : placing phi;
  d_obj : forall o p, aget (h_objs (m_heap m)) o = Some p <->
            0 < o < 2 ^ 48 /\ 0 <= p < 2 ^ 48 /\ In (phi o) (acells (g_obj g)) /\ ~ In (phi o) flo /\ g_mem g (phi o) = Some (phi p);
  d_prop : forall a c, aget (Obj_Model.h_props (m_heap m)) a = Some c <->
            0 < a < 2 ^ 48 /\ 0 <= pc_next c < 2 ^ 48 /\ In (phi a) (acells (g_prop g)) /\ ~ In (phi a) flp /\
            g_mem g (phi a) = Some (phi (pc_next c)) /\ g_mem g (phi a + 8) = Some (word phi (pc_name c)) /\
            g_mem g (phi a + 16) = Some (word phi (pc_val c));
  d_str : so (h_st (m_heap m)) = g_str g;
  d_scopes : array_is phi g (g_scopes g) (rev (sk_live (m_scopes m)));
  d_stack : array_is phi g (g_stack g) (rev (sk_live (m_stack m)));
  d_call : array_is phi g (g_call g) (rev (sk_live (m_call m)));
  d_this : g_mem g (g_vals g) = Some (word phi (m_this m));
  d_last : g_mem g (g_vals g + 16) = Some (word phi (m_last m)) }.
(** What a collection does not look at. *)
Definition same_rest (m m' : vm) : Prop :=
  m_mem m' = m_mem m /\ m_code m' = m_code m /\ m_arg m' = m_arg m /\ m_loops m' = m_loops m /\ m_err m' = m_err m /\ m_off m' = m_off m /\
  m_res m' = m_res m /\ h_next (m_heap m') = h_next (m_heap m) /\ sf (h_st (m_heap m')) = sf (h_st (m_heap m)).
