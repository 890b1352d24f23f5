(** Sessions in which collections happen between programs. *)
From Verif Require Import Base Value_Model Str_Model Obj_Model Gc_Model Gc_Spec Bcode_Model Vm_Model Run_Spec Expr_Spec Lang_Spec Lang_Code Lang_Spec2 Run_Model Lang_Spec3 Iso_Spec Coll_Spec.

(** The engine [m] is collected and is [m'] afterwards: some memory [g] is that of [m], the
    collector makes [g'] of it, and [g'] is the memory of [m']. *)
Definition collected (m m' : vm) : Prop :=
  exists phi g ds flo flp fls g' ds' flo' flp' fls',
    heap_ok g ds flo flp fls /\ depicts phi g flo flp m /\
    (exists f, mjs_gc f g = OK g') /\
    heap_ok g' ds' flo' flp' fls' /\ depicts phi g' flo' flp' m' /\ same_rest m m'.
(** [session w m ps outs m']: starting from [m] the host executes the programs [ps] in turn, with any
    number of collections before, between and after them. [outs] has the engine and the value
    after each program. *)
Inductive session (w : host) : vm -> list prog -> list (vm * Z) -> vm -> Prop :=
| ses_end m : session w m [] [] m
| ses_collect m m1 ps outs m' : collected m m1 -> session w m1 ps outs m' -> session w m ps outs m'
| ses_exec m m1 r p ps outs m' :
    (exists F, forall f, (F <= f)%nat -> mjs_exec f w m (g_path p) (g_src p) = OK (m1, r)) -> m_err m1 = E_OK ->
    session w m1 ps outs m' -> session w m (p :: ps) ((m1, r) :: outs) m'.
(** The interpreter's value and state after each program. There are no collections here. *)
Fixpoint told (rounds depth : nat) (sc : list nat) (th : val) (ps : list prog) (s : state) : option (list (val * state)) :=
  match ps with
  | [] => Some []
  | p :: ps => let? (v, s) := run_program rounds depth sc th (g_tree p) s in
               let? l := told rounds depth sc th ps s in Some ((v, s) :: l)
  end.
(** What the engine has is what the interpreter has, but for the numbers of objects. *)
Definition agrees (out : vm * Z) (x : val * state) : Prop :=
  exists W t sc th v R, in_state (fst out) W t sc th /\ vrep (m_code (fst out)) (m_ext (fst out)) W (snd out) v /\
    same_state R (snd x) t /\ same_val R (fst x) v.
