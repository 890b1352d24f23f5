(** C110: texts of json_asprintf. *)
From Verif Require Import Base BaseFacts TokNum_Model Txt_Model ErrMem_Model Avp_Spec Props_ErrMem Asp_Model Asp_Spec.
From Coq Require Import ZifyBool.
Ltac Zify.zify_post_hook ::= idtac.

Lemma nuls_concat ps : Forall no_nuls ps -> Forall (fun c => c <> 0) (concat ps).
Proof. induction 1 as [|p ps H _ IH]; cbn [concat]; [constructor|]. apply Forall_app. split; [exact H|exact IH]. Qed.
Lemma step ok kept buf p : Forall no_nuls kept -> result kept buf ->
  exists buf', json_sprinter ok buf p = OK (buf', zlen p) /\ result (if ok then kept ++ [p] else kept) buf'.
Proof.
  intros F H. unfold json_sprinter. assert (match buf with None => OK [] | Some b => read_cstr b end = OK (concat kept)) as ->.
  { destruct kept as [|q kept]; cbn [result] in H; subst buf; [reflexivity|]. apply read_ok; [apply nuls_concat, F|]. exists []. reflexivity. }
  cbn [bind]. eexists. split; [reflexivity|]. destruct ok; [|exact H].
  destruct (kept ++ [p]) as [|q l] eqn:E; [destruct kept; discriminate E|]. cbn [result]. rewrite <- E, concat_app. cbn [concat]. rewrite app_nil_r, <- app_assoc. reflexivity.
Qed.
Lemma all_stored ps : forall oks kept buf, Forall no_nuls kept -> Forall no_nuls ps -> result kept buf ->
  exists more buf', stored oks ps more /\ print_all oks buf ps = OK (buf', zlen (concat ps)) /\ result (kept ++ more) buf'.
Proof.
  induction ps as [|p ps IH]; intros oks kept buf Fk Fp H; cbn [print_all].
  - exists [], buf. split; [constructor|]. rewrite app_nil_r. split; [reflexivity|exact H].
  - inversion Fp as [|? ? N Fps]; subst. destruct (step (oks O) kept buf p Fk H) as (b1 & -> & H1). cbn [bind]. destruct (oks O) eqn:E.
    + destruct (IH (fun k => oks (S k)) (kept ++ [p]) b1) as (more & b2 & S2 & -> & H2); [apply Forall_app; split; [exact Fk|constructor; [exact N|constructor]]|exact Fps|exact H1|].
      cbn [bind]. exists (p :: more), b2. split; [apply st_keep; assumption|]. cbn [concat]. rewrite zlen_app. split; [reflexivity|]. rewrite <- app_assoc in H2. exact H2.
    + destruct (IH (fun k => oks (S k)) kept b1 Fk Fps H1) as (more & b2 & S2 & -> & H2). cbn [bind]. exists more, b2. split; [apply st_drop; assumption|]. cbn [concat]. rewrite zlen_app. split; [reflexivity|exact H2].
Qed.
(** C110. Whatever realloc answers, the text is the pieces for which there was memory, in order, in a block of just its size; json_vprintf
    returns the length of all pieces. *)
Theorem asprintf_stores oks ps : Forall no_nuls ps ->
  exists kept buf, stored oks ps kept /\ json_asprintf oks ps = OK buf /\ result kept buf /\ print_all oks None ps = OK (buf, zlen (concat ps)).
Proof.
  intros F. destruct (all_stored ps oks [] None ltac:(constructor) F eq_refl) as (kept & buf & S1 & E & H). exists kept, buf. unfold json_asprintf. rewrite E. split; [exact S1|]. split; [reflexivity|]. split; [exact H|reflexivity].
Qed.
Print Assumptions asprintf_stores.
Lemma stored_all ps : forall oks kept, (forall k, oks k = true) -> stored oks ps kept -> kept = ps.
Proof.
  induction ps as [|p ps IH]; intros oks kept A H; inversion H as [|? ? ? ? E S1|? ? ? ? E S1]; subst; [reflexivity| |rewrite A in E; discriminate E].
  f_equal. apply (IH (fun k => oks (S k))); [intros k; apply A|exact S1].
Qed.
(** C110. With memory the text is all pieces. *)
Theorem asprintf_whole oks p ps : (forall k, oks k = true) -> Forall no_nuls (p :: ps) -> json_asprintf oks (p :: ps) = OK (Some (concat (p :: ps) ++ [0])).
Proof.
  intros A F. destruct (asprintf_stores oks (p :: ps) F) as (kept & buf & S1 & -> & H & _). rewrite (stored_all _ _ _ A S1) in H. cbn [result] in H. subst buf. reflexivity.
Qed.
Print Assumptions asprintf_whole.

Definition ex_ps : list (list Z) := [bs "{"; bs "a"; bs ":"; bs "12"; bs "}"].
Example ex_ps_ok : Forall no_nuls ex_ps.
Proof. repeat apply Forall_cons; try apply Forall_nil; unfold no_nuls; vm_compute; repeat constructor; discriminate. Qed.
Example ex_asp : json_asprintf (fun _ => true) ex_ps = OK (Some (bs "{a:12}" ++ [0])).
Proof. exact (asprintf_whole (fun _ => true) (bs "{") [bs "a"; bs ":"; bs "12"; bs "}"] (fun _ => eq_refl) ex_ps_ok). Qed.
(** Lack of memory gives NULL: false, a piece in the middle is left out, and the length returned is that of all pieces. *)
Theorem asprintf_out_of_memory_noticed_refuted : exists oks ps buf n, Forall no_nuls ps /\ (exists k, (k < length ps)%nat /\ oks k = false) /\ print_all oks None ps = OK (Some buf, n) /\
  buf = bs "{a:}" ++ [0] /\ concat ps = bs "{a:12}" /\ n = zlen (concat ps).
Proof.
  exists (fun k => negb (Nat.eqb k 3)), ex_ps, (bs "{a:}" ++ [0]), 6. split; [exact ex_ps_ok|]. split; [exists 3%nat; split; [cbn; lia|reflexivity]|]. repeat split; vm_compute; reflexivity.
Qed.
Print Assumptions asprintf_out_of_memory_noticed_refuted.
(** All pieces are stored if there is memory: false for pieces with a NUL, which the next piece overwrites. *)
Theorem asprintf_any_bytes_refuted : exists ps buf, json_asprintf (fun _ => true) ps = OK (Some buf) /\ buf <> concat ps ++ [0].
Proof. exists [[97; 0; 98]; [99]], [97; 99; 0]. split; [vm_compute; reflexivity|vm_compute; discriminate]. Qed.
Print Assumptions asprintf_any_bytes_refuted.
