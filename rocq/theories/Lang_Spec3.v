(** Specification of sessions: several programs run one after the other. *)
From Verif Require Import Base Value_Model Str_Model Str_Spec TokNum_Model Tok_Spec Tok_Model Lex_Proofs Vm_Model Parse_Model Run_Model Expr_Spec Lang_Spec.

(** A program with its file name, its tokens and its tree. *)
Record prog := { g_path : list Z; g_src : list Z; g_toks : list tokn; g_tree : list stmt }.
(** The text is the tokens and the tokens are the tree. *)
Definition well_formed (p : prog) : Prop :=
  c_text (g_src p) /\ source (g_src p) (g_toks p) /\ exists q, stmts TOK_EOF 0 q (g_toks p) (g_tree p).
(** With enough fuel the parser accepts the program and gives this code. *)
Definition compiles (p : prog) (code : list Z) : Prop :=
  exists f, forall f', (f <= f')%nat -> mjs_parse f' (g_path p) (g_src p) = OK (code, E_OK).
Definition total (codes : list (list Z)) : Z := fold_right (fun c n => zlen c + n) 0 codes.
(** The interpreter on all programs: their values. *)
Fixpoint run_all (rounds depth : nat) (sc : list nat) (th : val) (ps : list prog) (s : state) : option (list val * state) :=
  match ps with
  | [] => Some ([], s)
  | p :: ps => let? (v, s) := run_program rounds depth sc th (g_tree p) s in
               let? (vs, s) := run_all rounds depth sc th ps s in Some (v :: vs, s)
  end.
(** The engine on all programs, as long as there is no error: their results. *)
Fixpoint exec_all (fuel : nat) (w : host) (m : vm) (ps : list prog) : R (vm * list Z) :=
  match ps with
  | [] => OK (m, [])
  | p :: ps => '(m, r) <- mjs_exec fuel w m (g_path p) (g_src p) ;;
               if m_err m =? E_OK then '(m, rs) <- exec_all fuel w m ps ;; OK (m, r :: rs) else Abort
  end.
