From Verif Require Import Base BaseFacts Value_Model Str_Model Ops_Model TokNum_Model Num_Model Tok_Model Bcode_Model Bcode_Proofs Parse_Model.

(** * More fuel changes nothing *)
Definition le {A} (m1 m2 : R A) : Prop := forall r, m1 = OK r -> m2 = OK r.
Lemma le_refl {A} (m : R A) : le m m. Proof. intros r H. exact H. Qed.
Lemma le_bind {A B} (m1 m2 : R A) (k1 k2 : A -> R B) : le m1 m2 -> (forall a, le (k1 a) (k2 a)) -> le (bind m1 k1) (bind m2 k2).
Proof. intros H K r E. destruct m1 as [a| | |]; try discriminate. rewrite (H a eq_refl). exact (K a r E). Qed.
Lemma le_andthen m1 m2 k1 k2 : le m1 m2 -> (forall s, le (k1 s) (k2 s)) -> le (andthen m1 k1) (andthen m2 k2).
Proof.
  intros H K r E. destruct m1 as [[s e]| | |]; try discriminate. rewrite (H _ eq_refl). cbn [andthen] in *.
  destruct (e =? E_OK); [exact (K s r E)|exact E].
Qed.
Lemma le_undepth m1 m2 : le m1 m2 -> le (undepth m1) (undepth m2).
Proof. intros H r E. destruct m1 as [[s e]| | |]; try discriminate. rewrite (H _ eq_refl). exact E. Qed.

Ltac le_tac H :=
  lazymatch goal with
  | |- le ?m ?m => apply le_refl
  | |- le (bind _ _) (bind _ _) => apply le_bind; [le_tac H|intros ?; le_tac H]
  | |- le (andthen _ _) (andthen _ _) => apply le_andthen; [le_tac H|intros ?; le_tac H]
  | |- le (undepth _) (undepth _) => apply le_undepth; le_tac H
  | |- le (if ?b then _ else _) _ => destruct b; le_tac H
  | |- le (let '(_, _) := ?x in _) _ => destruct x; le_tac H
  | |- le (match ?x with Some _ => _ | None => _ end) _ => destruct x; le_tac H
  | |- _ => apply H
  end.

Lemma rule_mono rec1 rec2 : (forall n s, le (rec1 n s) (rec2 n s)) -> forall n s, le (rule rec1 n s) (rule rec2 n s).
Proof.
  intros H n s. destruct n; cbn [rule];
    unfold parse_statement_list, parse_stmts, parse_semis, parse_block, parse_function, parse_fun_args,
      parse_object_literal, parse_obj_loop, parse_array_literal, parse_arr_loop, parse_literal,
      parse_call_dot_mem, parse_mem_loop, parse_args_loop, parse_postfix, parse_unary, parse_ltr,
      parse_ternary, parse_assignment, parse_let, parse_let_loop, parse_block_or_stmt, parse_for_in,
      parse_for, parse_while, parse_if, parse_return, parse_statement, parse_comma, loop_body; cbv zeta; le_tac H.
Qed.
Lemma parse_S f : forall n s, le (parse f n s) (parse (S f) n s).
Proof.
  induction f as [|f IH]; intros n s; [intros r H; discriminate H|]. cbn [parse]. apply rule_mono. exact IH.
Qed.
Lemma parse_mono f f' n s r : (f <= f')%nat -> parse f n s = OK r -> parse f' n s = OK r.
Proof. intros H. induction H as [|f' H IH]; intros E; [exact E|]. apply parse_S. apply IH. exact E. Qed.
