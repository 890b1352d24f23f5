(** The callbacks build the tree. *)
From Verif Require Import Base BaseFacts Value_Model Value_Spec Str_Model Str_Spec Str_Proofs SUtil_Model SUtil_Spec SUtil_Proofs TokNum_Model Num_Model Conv_Model
  Obj_Model Obj_Spec Obj_Proofs Obj_Proofs2 Arr_Model Arr_Spec Arr_Proofs Arr_Proofs2 Vm_Proofs4 Json_Model Json_Spec Json_Proofs Json_Proofs2 Json_Proofs3 Props_Arr.
Ltac Zify.zify_post_hook ::= Z.div_mod_to_equations.

(** * Room needed *)
Fixpoint jcost (t : jt) : Z :=
  match t with
  | TStr s => 200 + zlen s
  | TArr l => 200 + (fix go (l : list jt) : Z := match l with [] => 0 | x :: r => 20 + jcost x + go r end) l
  | TObj l => 200 + (fix go (l : list (list Z * jt)) : Z := match l with [] => 0 | (k, x) :: r => zlen k + jcost x + go r end) l
  | _ => 200
  end.
Fixpoint acost (l : list jt) : Z := match l with [] => 0 | x :: r => 20 + jcost x + acost r end.
Fixpoint ocost (l : list (list Z * jt)) : Z := match l with [] => 0 | (k, x) :: r => zlen k + jcost x + ocost r end.
Lemma jcost_arr l : jcost (TArr l) = 200 + acost l. Proof. reflexivity. Qed.
Lemma jcost_obj l : jcost (TObj l) = 200 + ocost l. Proof. reflexivity. Qed.
Lemma doc_cost : (forall t x, denotes t x -> 0 <= jcost t <= 300 * zlen x - 40) /\ (forall l y, elems l y -> 0 <= acost l <= 300 * zlen y) /\
  (forall l y, members l y -> 0 <= ocost l <= 300 * zlen y).
Proof.
  apply doc_mut; intros;
    repeat match goal with W : ws ?w |- _ => match goal with _ : 0 <= zlen w |- _ => fail 1 | _ => pose proof (zlen_nonneg w) end end.
  - cbn [jcost]. vm_compute. intuition discriminate.
  - cbn [jcost]. vm_compute. intuition discriminate.
  - cbn [jcost]. vm_compute. intuition discriminate.
  - cbn [jcost]. destruct (ws_head (TNum d) x (D_num d x H)) as (c & r & -> & _). rewrite zlen_cons. pose proof (zlen_nonneg r). lia.
  - cbn [jcost]. destruct (items_val l H) as [_ L]. rewrite zlen_cons, zlen_app. unfold zlen in *. cbn [length]. lia.
  - rewrite jcost_arr. cbn [acost]. rewrite zlen_cons, zlen_app. change (zlen [93]) with 1. lia.
  - rewrite jcost_arr. rewrite zlen_cons, zlen_app. change (zlen [93]) with 1. lia.
  - rewrite jcost_obj. cbn [ocost]. rewrite zlen_cons, zlen_app. change (zlen [125]) with 1. lia.
  - rewrite jcost_obj. rewrite zlen_cons, zlen_app. change (zlen [125]) with 1. lia.
  - cbn [acost]. rewrite !zlen_app. lia.
  - cbn [acost]. rewrite !zlen_app, zlen_cons. lia.
  - cbn [ocost]. repeat (rewrite zlen_app || rewrite zlen_cons). pose proof (zlen_nonneg k). lia.
  - cbn [ocost]. repeat (rewrite zlen_app || rewrite zlen_cons). pose proof (zlen_nonneg k). lia.
Qed.

(** * Trees built between two addresses *)
Inductive rb (ext : extmem) (lo hi : Z) (st : strs) (M : store) : Z -> jt -> Prop :=
| B_null : rb ext lo hi st M V_NULL TNull
| B_bool b : rb ext lo hi st M (mk_boolean b) (TBool b)
| B_num d : rb ext lo hi st M (mk_number d) (TNum d)
| B_str v s : holds st ext v s -> rb ext lo hi st M v (TStr s)
| B_arr v o m vs l : lo <= o < hi -> is_arr_ref v o -> M o = Some m -> arr m (lf vs) (fun _ => None) ->
    rbs ext lo hi st M vs l -> rb ext lo hi st M v (TArr l)
| B_obj v o m vs l : lo <= o < hi -> is_obj_ref v o -> M o = Some m -> m = mbuild [] (combine (map fst l) vs) ->
    rbs ext lo hi st M vs (map snd l) -> rb ext lo hi st M v (TObj l)
with rbs (ext : extmem) (lo hi : Z) (st : strs) (M : store) : list Z -> list jt -> Prop :=
| BS_nil : rbs ext lo hi st M [] []
| BS_cons v t vs l : rb ext lo hi st M v t -> rbs ext lo hi st M vs l -> rbs ext lo hi st M (v :: vs) (t :: l).
Scheme rb_mut := Minimality for rb Sort Prop with rbs_mut := Minimality for rbs Sort Prop.
Combined Scheme rb_both from rb_mut, rbs_mut.
Lemma rb_repr ext lo hi st M : (forall v t, rb ext lo hi st M v t -> repr st ext M v t) /\ (forall vs l, rbs ext lo hi st M vs l -> reprs st ext M vs l).
Proof.
  apply rb_both; intros.
  - apply R_null.
  - apply R_bool.
  - apply R_num.
  - apply R_str; assumption.
  - eapply R_arr; eassumption.
  - eapply R_obj; eassumption.
  - apply RS_nil.
  - apply RS_cons; assumption.
Qed.
Lemma rb_keep ext lo hi lo' hi' st st' M M' : lo' <= lo -> hi <= hi' -> grows st st' -> (forall x, lo <= x < hi -> M' x = M x) ->
  (forall v t, rb ext lo hi st M v t -> rb ext lo' hi' st' M' v t) /\ (forall vs l, rbs ext lo hi st M vs l -> rbs ext lo' hi' st' M' vs l).
Proof.
  intros L1 L2 G Q. apply rb_both; intros.
  - apply B_null.
  - apply B_bool.
  - apply B_num.
  - apply B_str. eapply holds_grows; eassumption.
  - apply (B_arr ext lo' hi' st' M' v o m vs l); try assumption; [lia|]. rewrite Q by assumption. assumption.
  - apply (B_obj ext lo' hi' st' M' v o m vs l); try assumption; [lia|]. rewrite Q by assumption. assumption.
  - apply BS_nil.
  - apply BS_cons; assumption.
Qed.
Lemma reprs_length ext lo hi st M vs l : rbs ext lo hi st M vs l -> length vs = length l.
Proof. induction 1; cbn [length]; congruence. Qed.

(** * Callbacks *)
Definition JC (h : heap) (res : Z) (fr : list Z) (er : bool) : jctx := {| j_h := h; j_res := res; j_frames := fr; j_err := er |}.
Lemma run_cb_app ext a : forall c b, run_cb ext c (a ++ b) = (c' <- run_cb ext c a ;; run_cb ext c' b).
Proof.
  induction a as [|e a IH]; intros c b; [reflexivity|]. cbn [app run_cb]. destruct (frozen_cb ext c e); cbn [bind]; auto.
Qed.

(** Storing a value in the innermost frame. *)
Lemma cb_child ext h M h0 res fr up er o m k v (b : bool) K : hrep h ext M -> refers fr o -> M o = Some m -> name_ok k -> k <> [] ->
  0 <= K -> small h (K + zlen k + 64) ->
  exists h', cb_value ext (JC h0 res (fr :: up) er) h (Some k) v b = OK (JC h' res (if b then v :: fr :: up else fr :: up) er) /\
    hrep h' ext (supd M o (mput m k v)) /\ grows (h_st h) (h_st h') /\ h_next h <= h_next h' /\ small h' K.
Proof.
  intros H R Mo Nk Ne HK S. pose proof (zlen_nonneg k).
  destruct (set_prop_spec h ext M fr o m None k v H Mo R Nk) as (h' & E & H' & G & N1 & N2 & N3); [eapply small_le; [exact S|lia]|discriminate|].
  exists h'. destruct k as [|k0 k]; [congruence|]. unfold cb_value, JC. cbn [j_frames j_res j_err].
  destruct (refers_object fr o R) as (-> & _). unfold obj_set. rewrite E. cbn [bind].
  split; [reflexivity|]. split; [assumption|]. split; [assumption|]. split; [assumption|].
  unfold small in *. destruct Nk as (_ & _ & Lk). lia.
Qed.

Scheme evs_mut := Minimality for evs Sort Prop
with aevs_mut := Minimality for aevs Sort Prop
with oevs_mut := Minimality for oevs Sort Prop.
Combined Scheme ev_mut from evs_mut, aevs_mut, oevs_mut.

Section Build.
  Context (ext : extmem).
  Definition child_ok (nm : option (list Z)) (t : jt) (es : list ev) : Prop :=
    forall k, nm = Some k -> name_ok k -> k <> [] ->
    forall h M res fr up er o m K, hrep h ext M -> refers fr o -> M o = Some m -> o < h_next h -> 0 <= K -> small h (K + zlen k + jcost t) ->
    exists h' M' v, run_cb ext (JC h res (fr :: up) er) es = OK (JC h' res (fr :: up) er) /\ hrep h' ext M' /\
      M' o = Some (mput m k v) /\ (forall x, x < h_next h -> x <> o -> M' x = M x) /\ grows (h_st h) (h_st h') /\
      h_next h <= h_next h' /\ small h' K /\ rb ext (h_next h) (h_next h') (h_st h') M' v t.
  Definition arrs_ok (i : Z) (l : list jt) (es : list ev) : Prop :=
    forall h M res fr up er o m vs0 K, hrep h ext M -> refers fr o -> M o = Some m -> o < h_next h -> 0 <= K -> small h (K + acost l) ->
    arr m (lf vs0) (fun _ => None) -> zlen vs0 = i -> i + zlen l < 2 ^ 63 ->
    exists h' M' vs m', run_cb ext (JC h res (fr :: up) er) es = OK (JC h' res (fr :: up) er) /\ hrep h' ext M' /\
      M' o = Some m' /\ arr m' (lf (vs0 ++ vs)) (fun _ => None) /\ (forall x, x < h_next h -> x <> o -> M' x = M x) /\ grows (h_st h) (h_st h') /\
      h_next h <= h_next h' /\ small h' K /\ rbs ext (h_next h) (h_next h') (h_st h') M' vs l.
  Definition objs_ok (l : list (list Z * jt)) (es : list ev) : Prop :=
    forall h M res fr up er o m K, hrep h ext M -> refers fr o -> M o = Some m -> o < h_next h -> 0 <= K -> small h (K + ocost l) ->
    exists h' M' vs, run_cb ext (JC h res (fr :: up) er) es = OK (JC h' res (fr :: up) er) /\ hrep h' ext M' /\
      M' o = Some (mbuild m (combine (map fst l) vs)) /\ (forall x, x < h_next h -> x <> o -> M' x = M x) /\ grows (h_st h) (h_st h') /\
      h_next h <= h_next h' /\ small h' K /\ rbs ext (h_next h) (h_next h') (h_st h') M' vs (map snd l).

  Lemma jcost_pos t : 200 <= jcost t.
  Proof.
    revert t. fix IH 1. intros [|b|d|s|l|l]; try (cbn [jcost]; lia).
    - cbn [jcost]. pose proof (zlen_nonneg s). lia.
    - rewrite jcost_arr. enough (0 <= acost l) by lia. induction l as [|x l IHl]; cbn [acost]; [lia|]. pose proof (IH x). lia.
    - rewrite jcost_obj. enough (0 <= ocost l) by lia. induction l as [|[k x] l IHl]; cbn [ocost]; [lia|]. pose proof (IH x). pose proof (zlen_nonneg k). lia.
  Qed.

  (** A value that needs no object. *)
  Lemma child_prim k t e v : jcost t = 200 -> name_ok k -> k <> [] ->
    (forall c, frozen_cb ext c e = cb_value ext c (j_h c) (Some k) v false) ->
    (forall lo hi st M, rb ext lo hi st M v t) -> child_ok (Some k) t [e].
  Proof.
    intros J Nk Ne E Rb k' Ek _ _ h M res fr up er o m K H R Mo Ho HK S. injection Ek as <-. rewrite J in S.
    destruct (cb_child ext h M h res fr up er o m k v false K H R Mo Nk Ne HK) as (h' & E' & H' & G & N & S'); [eapply small_le; [exact S|lia]|].
    exists h', (supd M o (mput m k v)), v. cbn [run_cb]. rewrite E. cbn [j_h JC]. fold (JC h res (fr :: up) er). rewrite E'. cbn [bind].
    split; [reflexivity|]. split; [assumption|]. split; [apply supd_same|]. split; [intros x _ Hx; apply supd_other; assumption|]. auto.
  Qed.

  Lemma arr_ref v o : refers v o -> v / 2 ^ 48 = 65532 -> is_arr_ref v o.
  Proof. intros (Ho & [-> | ->]) Q; [lia|]. split; [assumption|reflexivity]. Qed.
  Lemma obj_ref v o : refers v o -> v / 2 ^ 48 = 65521 -> is_obj_ref v o.
  Proof. intros (Ho & [-> | ->]) Q; [|lia]. split; [assumption|reflexivity]. Qed.
  Lemma rbs_keep lo hi lo' hi' st st' M M' vs l : lo' <= lo -> hi <= hi' -> grows st st' -> (forall x, lo <= x < hi -> M' x = M x) ->
    rbs ext lo hi st M vs l -> rbs ext lo' hi' st' M' vs l.
  Proof. intros. eapply (proj2 (rb_keep ext lo hi lo' hi' st st' M M' H H0 H1 H2)). assumption. Qed.
  Lemma rb_keep1 lo hi lo' hi' st st' M M' v t : lo' <= lo -> hi <= hi' -> grows st st' -> (forall x, lo <= x < hi -> M' x = M x) ->
    rb ext lo hi st M v t -> rb ext lo' hi' st' M' v t.
  Proof. intros. eapply (proj1 (rb_keep ext lo hi lo' hi' st st' M M' H H0 H1 H2)). assumption. Qed.

  (** The inside of a new array or object, from the state after it was stored. *)
  Lemma arr_inside l es h2 M2 res v frs er n0 K : arrs_ok 0 l es -> hrep h2 ext M2 -> refers v n0 -> v / 2 ^ 48 = 65532 -> M2 n0 = Some [] ->
    n0 < h_next h2 -> 0 <= K -> small h2 (K + acost l) -> zlen l < 2 ^ 63 ->
    exists h' M', run_cb ext (JC h2 res (v :: frs) er) (es ++ [EvArrEnd]) = OK (JC h' res frs er) /\ hrep h' ext M' /\
      (forall x, x < h_next h2 -> x <> n0 -> M' x = M2 x) /\ grows (h_st h2) (h_st h') /\ h_next h2 <= h_next h' /\ small h' K /\
      rb ext n0 (h_next h') (h_st h') M' v (TArr l).
  Proof.
    intros A H R Q Mn Ln HK S Ll.
    destruct (A h2 M2 res v frs er n0 [] [] K H R Mn Ln HK S arr_nil eq_refl ltac:(lia)) as (h' & M' & vs & m' & E & H' & M'n & A' & Fr & G & N & S' & Rb).
    exists h', M'. rewrite run_cb_app, E. cbn [bind run_cb frozen_cb JC j_frames].
    split; [reflexivity|]. split; [assumption|]. split; [assumption|]. split; [assumption|]. split; [assumption|]. split; [assumption|].
    eapply (B_arr ext n0 (h_next h') (h_st h') M' v n0 m' vs l); [lia|apply arr_ref; assumption|assumption|exact A'|].
    eapply rbs_keep; [| | | |exact Rb]; [lia|lia|apply grows_refl|reflexivity].
  Qed.
  Lemma obj_inside l es h2 M2 res v frs er n0 K : objs_ok l es -> hrep h2 ext M2 -> refers v n0 -> v / 2 ^ 48 = 65521 -> M2 n0 = Some [] ->
    n0 < h_next h2 -> 0 <= K -> small h2 (K + ocost l) ->
    exists h' M', run_cb ext (JC h2 res (v :: frs) er) (es ++ [EvObjEnd]) = OK (JC h' res frs er) /\ hrep h' ext M' /\
      (forall x, x < h_next h2 -> x <> n0 -> M' x = M2 x) /\ grows (h_st h2) (h_st h') /\ h_next h2 <= h_next h' /\ small h' K /\
      rb ext n0 (h_next h') (h_st h') M' v (TObj l).
  Proof.
    intros A H R Q Mn Ln HK S.
    destruct (A h2 M2 res v frs er n0 [] K H R Mn Ln HK S) as (h' & M' & vs & E & H' & M'n & Fr & G & N & S' & Rb).
    exists h', M'. rewrite run_cb_app, E. cbn [bind run_cb frozen_cb JC j_frames].
    split; [reflexivity|]. split; [assumption|]. split; [assumption|]. split; [assumption|]. split; [assumption|]. split; [assumption|].
    eapply (B_obj ext n0 (h_next h') (h_st h') M' v n0 _ vs l); [lia|apply obj_ref; assumption|exact M'n|reflexivity|].
    eapply rbs_keep; [| | | |exact Rb]; [lia|lia|apply grows_refl|reflexivity].
  Qed.
  Lemma acost_pos l : 0 <= acost l.
  Proof. induction l as [|x l IH]; cbn [acost]; [lia|]. pose proof (jcost_pos x). lia. Qed.
  Lemma ocost_pos l : 0 <= ocost l.
  Proof. induction l as [|[k x] l IH]; cbn [ocost]; [lia|]. pose proof (jcost_pos x). pose proof (zlen_nonneg k). lia. Qed.
  Lemma acost_len l : zlen l <= acost l.
  Proof. induction l as [|x l IH]; cbn [acost]; [reflexivity|]. rewrite zlen_cons. pose proof (jcost_pos x). lia. Qed.

  Lemma build : (forall nm t es, evs nm t es -> child_ok nm t es) /\ (forall i l es, aevs i l es -> arrs_ok i l es) /\ (forall l es, oevs l es -> objs_ok l es).
  Proof.
    apply ev_mut.
    - intros nm k Ek Nk Ne. subst nm. refine (child_prim k TNull (EvNull (Some k)) V_NULL eq_refl Nk Ne _ _ k eq_refl Nk Ne); intros; [reflexivity|apply B_null].
    - intros nm b k Ek Nk Ne. subst nm. refine (child_prim k (TBool b) _ (mk_boolean b) eq_refl Nk Ne _ _ k eq_refl Nk Ne); intros; [destruct b; reflexivity|apply B_bool].
    - intros nm d buf n E k Ek Nk Ne. subst nm. refine (child_prim k (TNum d) _ (mk_number d) eq_refl Nk Ne _ _ k eq_refl Nk Ne); intros; [|apply B_num].
      cbn [frozen_cb]. rewrite E. reflexivity.
    - intros nm s tok E Bs Ls k Ek Nk Ne h M res fr up er o m K H R Mo Ho HK S. subst nm. cbn [jcost] in S. pose proof (zlen_nonneg s). pose proof (zlen_nonneg k).
      destruct (mk_string_holds (h_st h) ext s Bs) as (st' & v & Mk & Hh & _); [unfold small in S; lia|lia|].
      pose proof (mk_string_grows _ _ _ _ Mk) as G0. destruct (mk_string_room _ _ _ _ Mk ltac:(lia)) as [Rm _].
      pose proof (hrep_grows h ext M st' H G0) as HS.
      destruct (cb_child ext (with_st h st') M h res fr up er o m k v false K HS R Mo Nk Ne HK) as (h' & E' & H' & G & N & S').
      { unfold small in *. cbn [with_st h_st h_next]. lia. }
      cbn [with_st h_st h_next] in *.
      exists h', (supd M o (mput m k v)), v. cbn [run_cb frozen_cb j_h JC]. rewrite E, Mk. cbn [bind]. fold (JC h res (fr :: up) er). rewrite E'. cbn [bind].
      split; [reflexivity|]. split; [assumption|]. split; [apply supd_same|]. split; [intros x _ Hx; apply supd_other; assumption|].
      split; [eapply grows_trans; eassumption|]. split; [assumption|]. split; [assumption|]. apply B_str. eapply holds_grows; eassumption.
    - intros nm l es _ IH k Ek Nk Ne h M res fr up er o m K H R Mo Ho HK S. subst nm. rewrite jcost_arr in S. pose proof (zlen_nonneg k) as Zk. pose proof (acost_pos l) as Za.
      destruct (mk_array_spec h ext M H) as (h1 & v & E1 & Rv & Q & Mn & H1 & St1 & N1); [eapply small_le; [exact S|lia]|].
      destruct (cb_child ext h1 (supd M (h_next h) []) h res fr up er o m k v true (K + acost l) H1 R) as (h2 & E2 & H2 & G2 & N2 & S2);
        [rewrite supd_other by lia; assumption|assumption|assumption|lia|unfold small in *; rewrite St1, N1; lia|].
      set (M2 := supd (supd M (h_next h) []) o (mput m k v)) in *.
      destruct (arr_inside l es h2 M2 res v (fr :: up) er (h_next h) K IH H2 Rv Q) as (h3 & M3 & E3 & H3 & Fr & G3 & N3 & S3 & Rb).
      { unfold M2. rewrite supd_other by lia. apply supd_same. } { lia. } { assumption. } { assumption. }
      { pose proof (acost_len l). unfold small in *. lia. }
      exists h3, M3, v. cbn [run_cb frozen_cb j_h JC]. rewrite E1. cbn [bind]. fold (JC h res (fr :: up) er). rewrite E2. cbn [bind]. rewrite E3.
      split; [reflexivity|]. split; [assumption|]. split; [rewrite Fr by lia; unfold M2; apply supd_same|].
      split; [intros x Hx Hn; rewrite Fr by lia; unfold M2; rewrite !supd_other by lia; reflexivity|].
      split; [eapply grows_trans; [rewrite <- St1; exact G2|exact G3]|]. split; [lia|]. split; assumption.
    - intros nm l es _ IH k Ek Nk Ne h M res fr up er o m K H R Mo Ho HK S. subst nm. rewrite jcost_obj in S. pose proof (zlen_nonneg k) as Zk. pose proof (ocost_pos l) as Za.
      destruct (mk_object_spec h ext M H) as (h1 & v & E1 & Rv & Q & Mn & H1 & St1 & N1); [eapply small_le; [exact S|lia]|].
      destruct (cb_child ext h1 (supd M (h_next h) []) h res fr up er o m k v true (K + ocost l) H1 R) as (h2 & E2 & H2 & G2 & N2 & S2);
        [rewrite supd_other by lia; assumption|assumption|assumption|lia|unfold small in *; rewrite St1, N1; lia|].
      set (M2 := supd (supd M (h_next h) []) o (mput m k v)) in *.
      destruct (obj_inside l es h2 M2 res v (fr :: up) er (h_next h) K IH H2 Rv Q) as (h3 & M3 & E3 & H3 & Fr & G3 & N3 & S3 & Rb).
      { unfold M2. rewrite supd_other by lia. apply supd_same. } { lia. } { assumption. } { assumption. }
      exists h3, M3, v. cbn [run_cb frozen_cb j_h JC]. rewrite E1. cbn [bind]. fold (JC h res (fr :: up) er). rewrite E2. cbn [bind]. rewrite E3.
      split; [reflexivity|]. split; [assumption|]. split; [rewrite Fr by lia; unfold M2; apply supd_same|].
      split; [intros x Hx Hn; rewrite Fr by lia; unfold M2; rewrite !supd_other by lia; reflexivity|].
      split; [eapply grows_trans; [rewrite <- St1; exact G2|exact G3]|]. split; [lia|]. split; assumption.
    - intros i h M res fr up er o m vs0 K H R Mo Ho HK S A Hi Hl. exists h, M, [], m. rewrite app_nil_r. cbn [acost] in S. rewrite Z.add_0_r in S.
      split; [reflexivity|]. split; [assumption|]. split; [assumption|]. split; [assumption|]. split; [reflexivity|]. split; [apply grows_refl|].
      split; [lia|]. split; [assumption|apply BS_nil].
    - intros i d t l es es' Nd _ IH1 _ IH2 h M res fr up er o m vs0 K H R Mo Ho HK S A Hi Hl. cbn [acost] in S. rewrite zlen_cons in Hl.
      pose proof (zlen_nonneg vs0) as Z1. pose proof (zlen_nonneg l) as Z2. pose proof (acost_pos l) as Z3. pose proof (jcost_pos t) as Z4.
      destruct (numeral_name i d Nd ltac:(lia)) as [Nn L19].
      assert (Dn : d <> []) by (destruct Nd as (X & _); exact X).
      destruct (IH1 d eq_refl Nn Dn h M res fr up er o m (K + acost l) H R Mo Ho) as (h1 & M1 & v & E1 & H1 & M1o & Fr1 & G1 & N1 & S1 & Rb1);
        [lia|eapply small_le; [exact S|lia]|].
      destruct (IH2 h1 M1 res fr up er o (mput m d v) (vs0 ++ [v]) K H1 R M1o ltac:(lia) HK S1) as (h2 & M2 & vs & m' & E2 & H2 & M2o & A2 & Fr2 & G2 & N2 & S2 & Rb2).
      { eapply arr_ext; [apply (arr_put m (lf vs0) _ i d v A); [lia|exact Nd]|]. intros j _. rewrite lf_snoc, Hi. reflexivity. }
      { rewrite zlen_app. change (zlen [v]) with 1. lia. } { lia. }
      exists h2, M2, (v :: vs), m'. rewrite run_cb_app, E1. cbn [bind]. rewrite E2.
      split; [reflexivity|]. split; [assumption|]. split; [assumption|].
      split; [replace (vs0 ++ v :: vs) with ((vs0 ++ [v]) ++ vs) by (rewrite <- app_assoc; reflexivity); exact A2|].
      split; [intros x Hx Hn; rewrite Fr2 by lia; apply Fr1; assumption|]. split; [eapply grows_trans; eassumption|]. split; [lia|]. split; [assumption|].
      apply BS_cons.
      + eapply rb_keep1; [| | | |exact Rb1]; [lia|lia|assumption|]. intros x Hx. apply Fr2; lia.
      + eapply rbs_keep; [| | | |exact Rb2]; [lia|lia|apply grows_refl|reflexivity].
    - intros h M res fr up er o m K H R Mo Ho HK S. exists h, M, []. cbn [ocost] in S. rewrite Z.add_0_r in S.
      split; [reflexivity|]. split; [assumption|]. split; [assumption|]. split; [reflexivity|]. split; [apply grows_refl|].
      split; [lia|]. split; [assumption|apply BS_nil].
    - intros k t l es es' Nn Dn _ IH1 _ IH2 h M res fr up er o m K H R Mo Ho HK S. cbn [ocost] in S.
      pose proof (ocost_pos l) as Z1. pose proof (jcost_pos t) as Z2. pose proof (zlen_nonneg k) as Z3.
      destruct (IH1 k eq_refl Nn Dn h M res fr up er o m (K + ocost l) H R Mo Ho) as (h1 & M1 & v & E1 & H1 & M1o & Fr1 & G1 & N1 & S1 & Rb1);
        [lia|eapply small_le; [exact S|lia]|].
      destruct (IH2 h1 M1 res fr up er o (mput m k v) K H1 R M1o ltac:(lia) HK S1) as (h2 & M2 & vs & E2 & H2 & M2o & Fr2 & G2 & N2 & S2 & Rb2).
      exists h2, M2, (v :: vs). rewrite run_cb_app, E1. cbn [bind]. rewrite E2.
      split; [reflexivity|]. split; [assumption|]. split; [exact M2o|].
      split; [intros x Hx Hn; rewrite Fr2 by lia; apply Fr1; assumption|]. split; [eapply grows_trans; eassumption|]. split; [lia|]. split; [assumption|].
      cbn [map snd]. apply BS_cons.
      + eapply rb_keep1; [| | | |exact Rb1]; [lia|lia|assumption|]. intros x Hx. apply Fr2; lia.
      + eapply rbs_keep; [| | | |exact Rb2]; [lia|lia|apply grows_refl|reflexivity].
  Qed.
End Build.

(** The whole document. *)
Lemma build_root ext t es h M K : evs None t es -> hrep h ext M -> 0 <= K -> small h (K + jcost t) ->
  exists h' M' v, run_cb ext (JC h V_UNDEFINED [] false) es = OK (JC h' v [] false) /\ hrep h' ext M' /\
    (forall x, x < h_next h -> M' x = M x) /\ grows (h_st h) (h_st h') /\ small h' K /\ repr (h_st h') ext M' v t.
Proof.
  intros Ev H HK S. destruct (build ext) as (_ & BA & BO).
  assert (PRIM : forall v e, es = [e] -> frozen_cb ext (JC h V_UNDEFINED [] false) e = OK (JC h v [] false) ->
     (forall st M, repr st ext M v t) -> exists h' M' v, run_cb ext (JC h V_UNDEFINED [] false) es = OK (JC h' v [] false) /\ hrep h' ext M' /\
    (forall x, x < h_next h -> M' x = M x) /\ grows (h_st h) (h_st h') /\ small h' K /\ repr (h_st h') ext M' v t).
  { intros v e -> E Rp. exists h, M, v. cbn [run_cb]. rewrite E. cbn [bind]. pose proof (jcost_pos t).
    split; [reflexivity|]. split; [assumption|]. split; [reflexivity|]. split; [apply grows_refl|]. split; [eapply small_le; [exact S|lia]|apply Rp]. }
  inversion Ev as [|? b|? d buf kk X0|? s tok X0 X1 X2|? l es0 X0|? l es0 X0]; subst.
  - eapply PRIM; [reflexivity|reflexivity|intros; apply R_null].
  - eapply PRIM; [reflexivity|destruct b; reflexivity|intros; apply R_bool].
  - eapply PRIM; [reflexivity| |intros; apply R_num]. cbn [frozen_cb]. rewrite X0. reflexivity.
  - cbn [jcost] in S. pose proof (zlen_nonneg s) as Z1.
    destruct (mk_string_holds (h_st h) ext s X1) as (st' & v & Mk & Hh & _); [unfold small in S; lia|lia|].
    pose proof (mk_string_grows _ _ _ _ Mk) as G0. destruct (mk_string_room _ _ _ _ Mk ltac:(lia)) as [Rm _].
    exists (with_st h st'), M, v. cbn [run_cb frozen_cb j_h JC]. rewrite X0, Mk. cbn [bind].
    split; [reflexivity|]. split; [apply hrep_grows; assumption|]. split; [reflexivity|]. split; [assumption|].
    split; [unfold small in *; cbn [with_st h_st h_next]; lia|]. apply R_str. assumption.
  - rewrite jcost_arr in S. pose proof (acost_pos l) as Z1.
    destruct (mk_array_spec h ext M H) as (h1 & v & E1 & Rv & Q & Mn & H1 & St1 & N1); [eapply small_le; [exact S|lia]|].
    destruct (arr_inside ext l es0 h1 (supd M (h_next h) []) v v [] false (h_next h) K (BA _ _ _ X0) H1 Rv Q) as (h3 & M3 & E3 & H3 & Fr & G3 & N3 & S3 & Rb).
    { apply supd_same. } { lia. } { assumption. } { unfold small in *. rewrite St1, N1. lia. } { pose proof (acost_len l). unfold small in *. lia. }
    exists h3, M3, v. cbn [run_cb frozen_cb j_h JC]. rewrite E1. cbn [bind].
    change (cb_value ext (JC h V_UNDEFINED [] false) h1 None v true) with (OK (JC h1 v [v] false)). cbn [bind]. rewrite E3.
    split; [reflexivity|]. split; [assumption|]. split; [intros x Hx; rewrite Fr by lia; apply supd_other; lia|].
    split; [rewrite <- St1; assumption|]. split; [assumption|]. apply (proj1 (rb_repr ext _ _ _ _) _ _ Rb).
  - rewrite jcost_obj in S. pose proof (ocost_pos l) as Z1.
    destruct (mk_object_spec h ext M H) as (h1 & v & E1 & Rv & Q & Mn & H1 & St1 & N1); [eapply small_le; [exact S|lia]|].
    destruct (obj_inside ext l es0 h1 (supd M (h_next h) []) v v [] false (h_next h) K (BO _ _ X0) H1 Rv Q) as (h3 & M3 & E3 & H3 & Fr & G3 & N3 & S3 & Rb).
    { apply supd_same. } { lia. } { assumption. } { unfold small in *. rewrite St1, N1. lia. }
    exists h3, M3, v. cbn [run_cb frozen_cb j_h JC]. rewrite E1. cbn [bind].
    change (cb_value ext (JC h V_UNDEFINED [] false) h1 None v true) with (OK (JC h1 v [v] false)). cbn [bind]. rewrite E3.
    split; [reflexivity|]. split; [assumption|]. split; [intros x Hx; rewrite Fr by lia; apply supd_other; lia|].
    split; [rewrite <- St1; assumption|]. split; [assumption|]. apply (proj1 (rb_repr ext _ _ _ _) _ _ Rb).
Qed.

Lemma hrep_range h ext M o m : hrep h ext M -> M o = Some m -> 0 < o < h_next h.
Proof.
  intros (C & A1 & A2 & _ & _ & A5) E. destruct (A2 o m E) as ((first & G & _) & _). eapply A5. exact G.
Qed.
Lemma json_parse_doc h ext M w x tail t : hrep h ext M -> ws w -> denotes t x -> fits 0 t -> stops t tail ->
  zlen (w ++ x ++ tail) < 2 ^ 31 -> small h (300 * zlen x) ->
  exists h' M' v, json_parse h ext (w ++ x ++ tail) = OK (h', Some v, false) /\ hrep h' ext M' /\
    (forall o m, M o = Some m -> M' o = Some m) /\ grows (h_st h) (h_st h') /\ repr (h_st h') ext M' v t.
Proof.
  intros H W D Fi St L S. destruct (proj1 (walk_doc None) t x D (walk_fuel (w ++ x ++ tail)) w None [] [] tail) as (es & Ev & Q); auto.
  - unfold walk_fuel. rewrite !app_length. lia.
  - rewrite !zlen_app in L. pose proof (zlen_nonneg w). pose proof (zlen_nonneg tail). lia.
  - split; [left; reflexivity|]. split; [vm_compute; discriminate|constructor].
  - pose proof (proj1 doc_cost t x D) as [J1 J2].
    destruct (build_root ext t es h M 0 Ev H ltac:(lia)) as (h' & M' & v & E & H' & Fr & G & _ & Rp); [eapply small_le; [exact S|lia]|].
    exists h', M', v. unfold json_parse, json_walk.
    assert (Ne : w ++ x ++ tail <> []).
    { destruct (ws_head t x D) as (c & r & -> & _). destruct w; discriminate. }
    destruct (w ++ x ++ tail) as [|c0 r0] eqn:Et; [congruence|]. rewrite <- Et in *. unfold fz_init. fold (F (w ++ x ++ tail) None [] []).
    rewrite Q. cbn [bind Z.ltb Z.compare F z_ev z_cur app]. fold (JC h V_UNDEFINED [] false). rewrite E. cbn [bind j_frames JC j_h j_res j_err].
    replace (zlen (w ++ x ++ tail) - zlen tail <? 0) with false by (rewrite !zlen_app; pose proof (zlen_nonneg w); pose proof (zlen_nonneg x); lia).
    split; [reflexivity|]. split; [assumption|]. split; [|auto]. intros o m Ho. rewrite Fr; [assumption|]. apply (hrep_range h ext M o m H Ho).
Qed.
