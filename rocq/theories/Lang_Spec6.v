(** Specification of sessions whose programs and calls may fail. *)
From Verif Require Import Base Value_Model Str_Model Str_Spec TokNum_Model Vm_Model Parse_Model Run_Model Expr_Spec Lang_Spec Lang_Spec3 Lang_Spec4 Lang_Spec5.

(** The failure of a call by the host: of the body of a function, or because there is no
    function to call (C functions are not covered). [this] is as before after it. *)
Definition fail_host (rounds depth : nat) (sc : list nat) (f t : val) (vs : list val) (s : state) : option (Z * state) :=
  match f with
  | VFun ps b =>
    let? (i, s) := new_cell s in
    let? s := bind_pars i ps vs s in
    let? (c, _, s) := fail_list (at_depth rounds depth) (fails_at rounds depth) (i :: sc) t b s in Some (c, s)
  | VHost _ => None
  | _ => Some (E_TYPE, s)
  end.

(** What the host gets: the error (E_OK if there is none) and the value. *)
Definition reply : Type := Z * val.
(** A program: its failure, or its value. *)
Definition run_reply (rounds depth : nat) (sc : list nat) (th : val) (l : list stmt) (s : state) : option (reply * val * state) :=
  match fail_program rounds depth sc th l s with
  | Some (c, th, s) => Some ((c, undef), th, s)
  | None => let? (v, s) := run_program rounds depth sc th l s in Some ((E_OK, v), th, s)
  end.
Definition call_reply (rounds depth : nat) (sc : list nat) (f t : val) (vs : list val) (s : state) : option (reply * state) :=
  match fail_host rounds depth sc f t vs s with
  | Some (c, s) => Some ((c, undef), s)
  | None => let? (v, s) := host_call rounds depth sc f t vs s in Some ((E_OK, v), s)
  end.
(** All steps of a host; it goes on after failures. *)
Fixpoint play (rounds depth : nat) (sc : list nat) (th : val) (l : list act) (vs : list reply) (s : state) : option (list reply * val * state) :=
  match l with
  | [] => Some (vs, th, s)
  | Run p :: l => let? (r, th, s) := run_reply rounds depth sc th (g_tree p) s in play rounds depth sc th l (vs ++ [r]) s
  | Call f t ns :: l =>
    let us := map snd vs in
    let? f := nth_error us f in let? t := nth_error us t in let? xs := all_of us ns in
    let? (r, s) := call_reply rounds depth sc f t xs s in play rounds depth sc th l (vs ++ [r]) s
  end.
(** The engine's part: the errors mjs_exec and mjs_apply return and their results. *)
Fixpoint exec_play (fuel : nat) (w : host) (m : vm) (l : list act) (rs : list (Z * Z)) : R (vm * list (Z * Z)) :=
  match l with
  | [] => OK (m, rs)
  | Run p :: l => '(m, r) <- mjs_exec fuel w m (g_path p) (g_src p) ;; exec_play fuel w m l (rs ++ [(m_err m, r)])
  | Call f t ns :: l =>
    let us := map snd rs in
    match nth_error us f, nth_error us t, all_of us ns with
    | Some f, Some t, Some xs => '(m, r) <- apply fuel w m f t xs ;; exec_play fuel w m l (rs ++ [(m_err m, r)])
    | _, _, _ => Abort
    end
  end.
