(** The code of a tree, and facts about tokens and parser states. *)
From Verif Require Import Base BaseFacts Value_Model Str_Model Str_Spec Ops_Model TokNum_Model Num_Model Txt_Model Tok_Spec Tok_Model
  Bcode_Model Bcode_Proofs Str_Proofs Parse_Model Parse_Proofs Expr_Spec Expr_Proofs Lit_Proofs Expr_Proofs1 Expr_Proofs2 Props_Str Str_Proofs3 Lang_Spec.
From Verif Require Export Lang_Code.
Ltac Zify.zify_post_hook ::= Z.div_mod_to_equations.

(** * Tokens *)
Definition nxt (t : tstate) : tstate := match pnext t with OK t' => t' | _ => t end.
Fixpoint adv (t : tstate) (ts : list tokn) : tstate := match ts with [] => t | _ :: ts => adv (nxt t) ts end.
Lemma adv_app t ts1 ts2 : adv t (ts1 ++ ts2) = adv (adv t ts1) ts2.
Proof. revert t. induction ts1 as [|k ts1 IH]; intros t; cbn [app adv]; [reflexivity|apply IH]. Qed.
Lemma ahead_next t k ts : ahead t (k :: ts) -> pnext t = OK (nxt t) /\ t_prev (nxt t) = lx_tok k /\ ahead (nxt t) ts /\ t_tok t = lx_tok k /\
  (lx_tok k <> TOK_EOF -> tok_text t = lx_text k).
Proof.
  cbn [ahead]. intros (Sh & t' & N & P & A). unfold nxt. rewrite N. split; [reflexivity|]. destruct Sh as [E Sh']. rewrite P. repeat split; auto.
  intros NE. apply shows_text; [split; assumption|exact NE].
Qed.
Lemma ahead_adv ts1 : forall t ts2, ahead t (ts1 ++ ts2) -> ahead (adv t ts1) ts2.
Proof.
  induction ts1 as [|k ts1 IH]; intros t ts2 A; [exact A|]. cbn [app adv] in *. apply IH. apply (ahead_next _ _ _ A).
Qed.
Lemma last_tok_cons k ts : ts <> [] -> last_tok (k :: ts) = last_tok ts.
Proof.
  intros H. unfold last_tok. cbn [rev]. destruct (rev ts) as [|x l] eqn:E; [|reflexivity].
  apply (f_equal (@rev _)) in E. rewrite rev_involutive in E. cbn in E. contradiction.
Qed.
Lemma last_tok_app ts1 ts2 : ts2 <> [] -> last_tok (ts1 ++ ts2) = last_tok ts2.
Proof.
  intros H. induction ts1 as [|k ts1 IH]; [reflexivity|]. cbn [app]. rewrite last_tok_cons; [exact IH|]. intros E. apply app_eq_nil in E. tauto.
Qed.
Lemma last_tok_1 k : last_tok [k] = lx_tok k.
Proof. reflexivity. Qed.
Lemma adv_prev ts : forall t rest, ahead t (ts ++ rest) -> ts <> [] -> t_prev (adv t ts) = last_tok ts.
Proof.
  induction ts as [|k ts IH]; intros t rest A H; [contradiction|]. cbn [app] in A. destruct (ahead_next _ _ _ A) as (_ & P & A' & _). cbn [adv].
  destruct ts as [|k' ts]; [exact P|]. rewrite last_tok_cons by discriminate. apply (IH _ rest A'). discriminate.
Qed.
Lemma hd_app ts k rest : hd_tok (ts ++ k :: rest) TOK_EOF = hd_tok ts (lx_tok k).
Proof. destruct ts; reflexivity. Qed.
Lemma ahead_hd t ts k rest : ahead t (ts ++ k :: rest) -> t_tok t = hd_tok ts (lx_tok k).
Proof. destruct ts as [|k' ts]; cbn [app hd_tok]; intros A; apply (ahead_next _ _ _ A). Qed.

(** * What may follow *)
Definition lrank (k : Z) : nat :=
  match prec k with
  | O => if k =? TOK_LOGICAL_AND then 9%nat
         else if k =? TOK_LOGICAL_OR then 10%nat
         else if k =? TOK_QUESTION then 11%nat
         else if existsb (Z.eqb k) ([TOK_OPEN_BRACKET; TOK_OPEN_PAREN; TOK_DOT] ++ inc_toks ++ assign_toks) then 0%nat else 13%nat
  | n => n
  end.
Ltac in_cases H := cbn [In app] in H;
  repeat match type of H with _ \/ _ => destruct H as [<-|H] | False => destruct H end.
Lemma findtok_in l k : findtok l k = true <-> In k l.
Proof.
  unfold findtok. rewrite existsb_exists. split.
  - intros (x & I & E). apply Z.eqb_eq in E. subst. exact I.
  - intros I. exists k. split; [exact I|apply Z.eqb_refl].
Qed.
Lemma findtok_out l k : findtok l k = false <-> ~ In k l.
Proof. rewrite <- findtok_in. destruct (findtok l k); intuition congruence. Qed.
Lemma lrank_stops c k : (1 <= c <= 10)%nat -> (c < lrank k)%nat -> findtok (ops_of (level_of c)) k = false.
Proof.
  intros Hc Hr. apply findtok_out. intros I. revert Hr. apply Nat.nlt_ge.
  do 11 (destruct c as [|c]; [try lia; cbn [level_of ops_of] in I; unfold s_comparison_ops, s_equality_ops in I; in_cases I;
    apply Nat.leb_le; vm_compute; reflexivity|]). lia.
Qed.
Lemma lrank_mem k : (0 < lrank k)%nat ->
  findtok s_assign_ops k = false /\ findtok s_postfix_ops k = false /\ (k =? TOK_OPEN_BRACKET) = false /\
  (k =? TOK_OPEN_PAREN) = false /\ (k =? TOK_DOT) = false /\ (k =? TOK_PLUS_PLUS) = false /\ (k =? TOK_MINUS_MINUS) = false.
Proof.
  intros H.
  assert (X : forall l, Forall (fun k => lrank k = 0%nat) l -> findtok l k = false).
  { intros l F. apply findtok_out. intros I. rewrite Forall_forall in F. rewrite (F k I) in H. lia. }
  assert (Y : forall x, lrank x = 0%nat -> (k =? x) = false).
  { intros x E. apply Z.eqb_neq. intros ->. lia. }
  repeat split; try (apply Y; vm_compute; reflexivity); apply X; repeat constructor.
Qed.
Lemma lrank_top k : ~ In k joins -> lrank k = 13%nat.
Proof.
  intros N. unfold joins in N. rewrite !in_app_iff in N.
  assert (F : forall x, k = x -> In x joins -> False) by (intros x -> I; apply N; unfold joins in I; rewrite !in_app_iff in I; exact I).
  unfold lrank, prec.
  repeat match goal with
  | |- context [existsb (Z.eqb k) ?l] =>
      let E := fresh in destruct (existsb (Z.eqb k) l) eqn:E;
      [exfalso; apply existsb_in in E; cbn [In app inc_toks assign_toks] in E;
       repeat match type of E with _ \/ _ => destruct E as [E|E] | False => destruct E end; (eapply F; [symmetry; exact E|vm_compute; tauto])|]
  | |- context [k =? ?x] =>
      let E := fresh in destruct (k =? x) eqn:E; [exfalso; apply Z.eqb_eq in E; (eapply F; [exact E|vm_compute; tauto])|]
  end. reflexivity.
Qed.
Lemma lrank_prec op l : prec op = l -> (1 <= l <= 8)%nat -> lrank op = l /\ findtok (ops_of (level_of l)) op = true /\ 0 <= op < 256 /\
  short_op (level_of l) = None /\ (op =? TOK_EOF) = false /\ op <> TOK_DOT /\ findtok s_postfix_ops op = false.
Proof.
  intros Hp Hl. destruct (prec_rank op l Hp Hl) as (_ & H). split; [|exact H]. unfold lrank. rewrite Hp. destruct l; [lia|reflexivity].
Qed.

Definition prims : list Z :=
  [TOK_NUM; TOK_STR; TOK_KEYWORD_TRUE; TOK_KEYWORD_FALSE; TOK_KEYWORD_NULL; TOK_KEYWORD_UNDEFINED; TOK_IDENT; TOK_KEYWORD_THIS;
   TOK_OPEN_PAREN; TOK_OPEN_CURLY; TOK_OPEN_BRACKET; TOK_KEYWORD_FUNCTION].
Definition xstarts : list Z := prims ++ prefix_ops ++ inc_toks.

(** * Parser states *)
Lemma st_eq s t a b d t' a' b' d' : st s t a b d -> t = t' -> a = a' -> b = b' -> d = d' -> st s t' a' b' d'.
Proof. intros H -> -> -> ->. exact H. Qed.
Lemma next_st s t a b d k ts : st s t a b d -> ahead t (k :: ts) -> exists s', pnext1 s = OK s' /\ st s' (nxt t) a b d.
Proof. intros S A. destruct (ahead_next _ _ _ A) as (N & _). exact (pnext1_st _ _ _ _ _ _ S N). Qed.
Lemma expect_st s t a b d k ts x : st s t a b d -> ahead t (k :: ts) -> lx_tok k = x -> exists s', expect s x = OK (s', E_OK) /\ st s' (nxt t) a b d.
Proof.
  intros S A K. destruct (next_st _ _ _ _ _ _ _ S A) as (s' & E & S'). exists s'. split; [|exact S'].
  unfold expect. rewrite (st_tk _ _ _ _ _ S). destruct (ahead_next _ _ _ A) as (_ & _ & _ & -> & _). rewrite K, Z.eqb_refl, E. reflexivity.
Qed.
Lemma reach_andok s (K : nat -> ps -> pres) Q : reach (fun f => K f s) Q -> reach (fun f => andthen (OK (s, E_OK)) (K f)) Q.
Proof. intros H. exact H. Qed.
(** Pushing the cursor back into the code, and forth. *)
Lemma set_cur_st s t a c b d : st s t (a ++ c) b d -> st (set_cur s (zlen a)) t a (c ++ b) d.
Proof. intros (E & (C1 & C2) & D). split; [exact E|]. split; [|exact D]. split; cbn [set_cur with_g p_g g_code g_cur]; [rewrite C1, app_assoc; reflexivity|reflexivity]. Qed.
Lemma set_cur_fwd s t a c b d : st s t a (c ++ b) d -> st (set_cur s (zlen (a ++ c))) t (a ++ c) b d.
Proof. intros (E & (C1 & C2) & D). split; [exact E|]. split; [|exact D]. split; cbn [set_cur with_g p_g g_code g_cur]; [rewrite C1, app_assoc; reflexivity|reflexivity]. Qed.

Lemma dropcode_cons c cs : dropcode (c :: cs) = OP_DROP :: c ++ dropcode cs.
Proof. reflexivity. Qed.
Lemma seqcode_cons c cs : seqcode (c :: cs) = c ++ dropcode cs.
Proof. reflexivity. Qed.
