(** Documents and the callbacks made for them. *)
From Verif Require Import Base BaseFacts Value_Model Str_Model Str_Spec SUtil_Model SUtil_Spec SUtil_Proofs TokNum_Model Num_Model Conv_Model Obj_Model Obj_Spec Json_Model Json_Spec Json_Proofs Json_Proofs2.
Ltac Zify.zify_post_hook ::= Z.div_mod_to_equations.

(** * Numbers *)
Definition nodig (q : list Z) : Prop := match q with [] => True | c :: _ => ~ 48 <= c <= 57 end.
Lemma dec_run_app ds q : jdigits ds -> nodig q -> forall acc k, dec_run (ds ++ q) acc k = (dval acc ds, (k + length ds)%nat).
Proof.
  intros D N. induction D as [|c ds Hc D IH]; intros acc k; cbn [app dval length].
  - destruct q as [|c q]; cbn [dec_run]; [f_equal; lia|]. cbn [nodig] in N. replace (is_digit c) with false by (unfold is_digit; lia). f_equal. lia.
  - cbn [dec_run]. replace (is_digit c) with true by (unfold is_digit; lia). rewrite IH. f_equal. lia.
Qed.
Lemma skip_run_app ds q : jdigits ds -> nodig q -> skip_run j_digit (ds ++ q) = q.
Proof.
  intros D N. induction D as [|c ds Hc D IH]; cbn [app].
  - destruct q as [|c q]; cbn [skip_run]; [reflexivity|]. cbn [nodig] in N. replace (j_digit c) with false by (unfold j_digit; lia). reflexivity.
  - cbn [skip_run]. replace (j_digit c) with true by (unfold j_digit; lia). exact IH.
Qed.
Lemma need_run_app ds q : jdigits ds -> ds <> [] -> nodig q -> need_run j_digit (ds ++ q) = NDone q.
Proof.
  intros D N Q. destruct ds as [|c ds]; [congruence|]. cbn [app need_run].
  replace (j_digit c) with true by (apply Forall_inv in D; unfold j_digit; lia). f_equal. apply (skip_run_app (c :: ds)); assumption.
Qed.
Lemma skipn_app_len {A} (a b : list A) : skipn (length a) (a ++ b) = b.
Proof. rewrite skipn_app, skipn_all, Nat.sub_diag. reflexivity. Qed.

Lemma dval_app a b : forall z, dval z (a ++ b) = dval (dval z a) b.
Proof. induction a as [|x a IH]; intros z; cbn [app dval]; [reflexivity|apply IH]. Qed.

Definition exp_text (eo : list Z) (e : Z) : Prop :=
  eo = [] /\ e = 0 \/
  exists ec sg ep, (ec = 101 \/ ec = 69) /\ jdigits ep /\ ep <> [] /\
    (sg = [] /\ e = dval 0 ep \/ sg = [43] /\ e = dval 0 ep \/ sg = [45] /\ e = - dval 0 ep) /\ eo = ec :: sg ++ ep.
Lemma exp_part_text eo e c r : exp_text eo e -> stopc c -> exp_part 101 69 (eo ++ c :: r) = (e, length eo).
Proof.
  intros H [Nc Nh]. cbn [In] in Nh. destruct H as [[-> ->]|(ec & sg & ep & He & D & N & S & ->)].
  - cbn [app exp_part]. replace ((c =? 101) || (c =? 69)) with false by lia. reflexivity.
  - cbn [app exp_part]. replace ((ec =? 101) || (ec =? 69)) with true by lia. rewrite <- app_assoc.
    destruct S as [[-> ->]|[[-> ->]|[-> ->]]]; cbn [app].
    + destruct ep as [|x ep]; [congruence|]. cbn [app]. pose proof (Forall_inv D) as Hx. cbn beta in Hx.
      replace (x =? 45) with false by lia. replace (x =? 43) with false by lia.
      change (x :: ep ++ c :: r) with ((x :: ep) ++ c :: r). rewrite dec_run_app by assumption. cbn [length Nat.add]. reflexivity.
    + replace (43 =? 45) with false by lia. replace (43 =? 43) with true by lia. rewrite dec_run_app by assumption.
      destruct ep as [|x ep]; [congruence|]. cbn [length Nat.add]. reflexivity.
    + replace (45 =? 45) with true by lia. rewrite dec_run_app by assumption.
      destruct ep as [|x ep]; [congruence|]. cbn [length Nat.add]. reflexivity.
Qed.
Lemma num_exp_text eo e c r : exp_text eo e -> stopc c -> num_exp (eo ++ c :: r) = NDone (c :: r).
Proof.
  intros H [Nc Nh]. cbn [In] in Nh. destruct H as [[-> ->]|(ec & sg & ep & He & D & N & S & ->)].
  - cbn [app num_exp]. replace ((c =? 101) || (c =? 69)) with false by lia. reflexivity.
  - cbn [app num_exp]. replace ((ec =? 101) || (ec =? 69)) with true by lia. rewrite <- app_assoc.
    destruct S as [[-> ->]|[[-> ->]|[-> ->]]]; cbn [app].
    + destruct ep as [|x ep]; [congruence|]. cbn [app]. pose proof (Forall_inv D) as Hx. cbn beta in Hx.
      replace ((x =? 43) || (x =? 45)) with false by lia.
      change (x :: ep ++ c :: r) with ((x :: ep) ++ c :: r). apply need_run_app; assumption.
    + cbn [Z.eqb Pos.eqb orb]. apply need_run_app; assumption.
    + cbn [Z.eqb Pos.eqb orb]. apply need_run_app; assumption.
Qed.
Lemma exp_text_nodig eo e c r : exp_text eo e -> stopc c -> nodig (eo ++ c :: r) /\ hd 0 (eo ++ c :: r) <> 46 /\
  hd 0 (eo ++ c :: r) <> 120 /\ hd 0 (eo ++ c :: r) <> 88.
Proof.
  intros H [Nc Nh]. cbn [In] in Nh. destruct H as [[-> ->]|(ec & sg & ep & He & D & N & S & ->)]; cbn [app nodig hd].
  - lia.
  - lia.
Qed.
Definition frac_text (fo fr : list Z) : Prop := fo = [] /\ fr = [] \/ fo = 46 :: fr /\ jdigits fr /\ fr <> [].
Lemma strtod_dec_text ip fo fr eo e c r : jdigits ip -> ip <> [] -> frac_text fo fr -> exp_text eo e -> stopc c ->
  strtod_dec (ip ++ fo ++ eo ++ c :: r) = (scale10 (dval 0 (ip ++ fr)) (e - zlen fr), length (ip ++ fo ++ eo)).
Proof.
  intros D N F E C. destruct (exp_text_nodig eo e c r E C) as (Q1 & Q2 & _). unfold strtod_dec.
  rewrite dec_run_app; [|assumption|destruct F as [[-> _]|[-> _]]; [exact Q1|cbn; lia]]. cbn [Nat.add].
  rewrite skipn_app_len. destruct F as [[-> ->]|(-> & Df & Nf)].
  - cbn [app]. destruct (eo ++ c :: r) as [|x q] eqn:Eq; [destruct eo; discriminate|].
    cbn [hd] in Q2. replace (x =? 46) with false by lia. rewrite skipn_app_len. rewrite <- Eq, (exp_part_text eo e c r E C).
    rewrite !app_nil_r, app_length. unfold zlen. reflexivity.
  - cbn [app]. cbn [Z.eqb Pos.eqb]. rewrite dec_run_app by assumption.
    replace (skipn (length ip + 1 + (0 + length fr)) (ip ++ 46 :: fr ++ eo ++ c :: r)) with (eo ++ c :: r).
    2: { replace (length ip + 1 + (0 + length fr))%nat with (length (ip ++ 46 :: fr)) by (rewrite app_length; cbn [length]; lia).
         replace (ip ++ 46 :: fr ++ eo ++ c :: r) with ((ip ++ 46 :: fr) ++ (eo ++ c :: r)) by (rewrite <- app_assoc; reflexivity).
         rewrite skipn_app_len. reflexivity. }
    rewrite (exp_part_text eo e c r E C), dval_app. cbn [Nat.add]. fold (zlen fr). apply f_equal2; [reflexivity|].
    rewrite !app_length. cbn [length]. rewrite app_length. lia.
Qed.
Lemma strtod_text ip fo fr eo e c r : jdigits ip -> ip <> [] -> frac_text fo fr -> exp_text eo e -> stopc c ->
  strtod (ip ++ fo ++ eo ++ c :: r) = (scale10 (dval 0 (ip ++ fr)) (e - zlen fr), length (ip ++ fo ++ eo)).
Proof.
  intros D N F E C. rewrite <- strtod_dec_text with (c := c) (r := r) by assumption.
  unfold strtod. destruct ip as [|z ip]; [congruence|]. cbn [app].
  destruct (ip ++ fo ++ eo ++ c :: r) as [|x [|y q]] eqn:Eq; try reflexivity.
  replace ((z =? 48) && ((x =? 120) || (x =? 88)) && _) with false; [reflexivity|].
  assert (x <> 120 /\ x <> 88).
  { destruct ip as [|x' ip].
    - destruct (exp_text_nodig eo e c r E C) as (_ & _ & Q3 & Q4). destruct F as [[-> ->]|(-> & _)].
      + cbn [app] in Eq. rewrite Eq in Q3, Q4. cbn [hd] in Q3, Q4. auto.
      + cbn [app] in Eq. injection Eq as <- _. lia.
    - injection Eq as <- _. apply Forall_inv_tail in D. apply Forall_inv in D. cbn beta in D. lia. }
  replace ((x =? 120) || (x =? 88)) with false by lia. rewrite andb_false_r. reflexivity.
Qed.
Lemma num_scan_text (neg : bool) ip fo fr eo e c r : jdigits ip -> ip <> [] -> frac_text fo fr -> exp_text eo e -> stopc c ->
  num_scan ((if neg then [45] else []) ++ ip ++ fo ++ eo ++ c :: r) = NDone (c :: r).
Proof.
  intros D N F E C. unfold num_scan.
  assert (Q : match (if neg then [45] else []) ++ ip ++ fo ++ eo ++ c :: r with
              | c0 :: r0 => if c0 =? 45 then r0 else (if neg then [45] else []) ++ ip ++ fo ++ eo ++ c :: r
              | [] => (if neg then [45] else []) ++ ip ++ fo ++ eo ++ c :: r end = ip ++ fo ++ eo ++ c :: r).
  { destruct neg; [reflexivity|]. cbn [app]. destruct ip as [|z ip]; [congruence|]. cbn [app]. apply Forall_inv in D. cbn beta in D.
    replace (z =? 45) with false by lia. reflexivity. }
  cbv zeta. rewrite Q. clear Q.
  assert (G : nbind (need_run j_digit (ip ++ fo ++ eo ++ c :: r)) (fun l => nbind (num_frac l) num_exp) = NDone (c :: r)).
  { destruct (exp_text_nodig eo e c r E C) as (Q1 & Q2 & _).
    rewrite need_run_app; [|assumption|assumption|destruct F as [[-> _]|[-> _]]; [exact Q1|cbn; lia]].
    cbn [nbind]. destruct F as [[-> ->]|(-> & Df & Nf)]; cbn [app].
    - assert (NF : num_frac (eo ++ c :: r) = NDone (eo ++ c :: r)).
      { destruct (eo ++ c :: r) as [|x q]; [reflexivity|]. cbn [hd] in Q2. cbn [num_frac]. replace (x =? 46) with false by lia. reflexivity. }
      rewrite NF. cbn [nbind]. apply (num_exp_text eo e); assumption.
    - cbn [num_frac Z.eqb Pos.eqb]. rewrite need_run_app by assumption. cbn [nbind]. apply (num_exp_text eo e); assumption. }
  destruct ip as [|z ip]; [congruence|]. cbn [app] in *.
  destruct (ip ++ fo ++ eo ++ c :: r) as [|x q] eqn:Eq; [exact G|].
  replace ((z =? 48) && (x =? 120)) with false; [exact G|].
  assert (x <> 120).
  { destruct ip as [|x' ip].
    - destruct (exp_text_nodig eo e c r E C) as (_ & _ & Q3 & _). destruct F as [[-> ->]|(-> & _)].
      + cbn [app] in Eq. rewrite Eq in Q3. cbn [hd] in Q3. auto.
      + cbn [app] in Eq. injection Eq as <- _. lia.
    - injection Eq as <- _. apply Forall_inv_tail in D. apply Forall_inv in D. cbn beta in D. lia. }
  replace (x =? 120) with false by lia. rewrite andb_false_r. reflexivity.
Qed.
Lemma stop_not_ahead c : stopc c -> num_ahead c = false.
Proof. intros [_ H]. cbn [In] in H. unfold num_ahead. lia. Qed.
Lemma j_strtod_text (neg : bool) ip fo fr eo e c r : jdigits ip -> ip <> [] -> frac_text fo fr -> exp_text eo e -> stopc c ->
  j_strtod ((if neg then [45] else []) ++ ip ++ fo ++ eo ++ c :: r) =
  OK (scale10 (dval 0 (ip ++ fr)) (e - zlen fr) + (if neg then 2 ^ 63 else 0)).
Proof.
  intros D N F E C. unfold j_strtod.
  assert (Q : match (if neg then [45] else []) ++ ip ++ fo ++ eo ++ c :: r with
              | c0 :: r0 => if c0 =? 45 then (true, r0) else (false, (if neg then [45] else []) ++ ip ++ fo ++ eo ++ c :: r)
              | [] => (false, []) end = (neg, ip ++ fo ++ eo ++ c :: r)).
  { destruct neg; [reflexivity|]. cbn [app]. destruct ip as [|z ip]; [congruence|]. cbn [app]. apply Forall_inv in D. cbn beta in D.
    replace (z =? 45) with false by lia. reflexivity. }
  rewrite Q, (strtod_text ip fo fr eo e c r) by assumption.
  replace (ip ++ fo ++ eo ++ c :: r) with ((ip ++ fo ++ eo) ++ c :: r) by (rewrite <- !app_assoc; reflexivity).
  rewrite skipn_app_len. cbn [forallb]. rewrite stop_not_ahead by assumption. cbn [andb].
  f_equal. destruct neg; lia.
Qed.
Lemma number_parsed d x c r : number d x -> stopc c ->
  num_scan (x ++ c :: r) = NDone (c :: r) /\ j_strtod (x ++ c :: r) = OK d /\
  exists h t, x = h :: t /\ (h = 45 \/ 48 <= h <= 57).
Proof.
  intros H C. destruct H as [neg ip fr fo ep eo e D N F E].
  assert (E' : exp_text eo e) by (destruct E as [E|(ec & sg & E)]; [left; exact E|right; exists ec, sg, ep; exact E]).
  rewrite <- !app_assoc. split; [apply (num_scan_text neg ip fo fr eo e); assumption|].
  split; [apply (j_strtod_text neg ip fo fr eo e); assumption|].
  destruct neg; [exists 45; eexists; split; [reflexivity|lia]|]. destruct ip as [|z ip]; [congruence|].
  exists z. eexists. split; [reflexivity|]. apply Forall_inv in D. lia.
Qed.

(** * Callbacks for a tree *)
Inductive evs : option (list Z) -> jt -> list ev -> Prop :=
| EV_null nm : evs nm TNull [EvNull nm]
| EV_bool nm (b : bool) : evs nm (TBool b) [if b then EvTrue nm else EvFalse nm]
| EV_num nm d buf k : j_strtod buf = OK d -> evs nm (TNum d) [EvNum nm buf k]
| EV_str nm s tok : unescape tok = UDone s -> bytes_ok s -> zlen s < 2 ^ 31 -> evs nm (TStr s) [EvStr nm tok]
| EV_arr nm l es : aevs 0 l es -> evs nm (TArr l) (EvArr nm :: es ++ [EvArrEnd])
| EV_obj nm l es : oevs l es -> evs nm (TObj l) (EvObj nm :: es ++ [EvObjEnd])
with aevs : Z -> list jt -> list ev -> Prop :=
| AE_nil i : aevs i [] []
| AE_cons i d t l es es' : numeral 10 i d -> evs (Some d) t es -> aevs (i + 1) l es' -> aevs i (t :: l) (es ++ es')
with oevs : list (list Z * jt) -> list ev -> Prop :=
| OE_nil : oevs [] []
| OE_cons k t l es es' : name_ok k -> k <> [] -> evs (Some k) t es -> oevs l es' -> oevs ((k, t) :: l) (es ++ es').

Fixpoint afits (n i : Z) (l : list jt) : Prop :=
  match l with
  | [] => True
  | x :: r => (exists d, numeral 10 i d /\ n + zlen d + 2 <= 255 /\ fits (n + zlen d + 2) x) /\ afits n (i + 1) r
  end.
Fixpoint ofits (n : Z) (l : list (list Z * jt)) : Prop :=
  match l with
  | [] => True
  | (k, x) :: r => (k <> [] /\ last k 0 <> 46 /\ n + zlen k + 1 <= 255 /\ fits (n + zlen k + 1) x) /\ ofits n r
  end.
Lemma fits_arr n l : fits n (TArr l) = afits n 0 l.
Proof. cbn [fits]. generalize 0. induction l as [|x r IH]; intros i; [reflexivity|]. cbn [afits]. rewrite <- IH. reflexivity. Qed.
Lemma fits_obj n l : fits n (TObj l) = ofits n l.
Proof. cbn [fits]. induction l as [|[k x] r IH]; [reflexivity|]. cbn [ofits]. rewrite <- IH. reflexivity. Qed.

Definition F (cur : list Z) (nm : option (list Z)) (p : list Z) (es : list ev) : fz :=
  {| z_cur := cur; z_name := nm; z_path := p; z_ev := es |}.
Definition okp (p : list Z) : Prop := (p = [] \/ last p 0 <> 46) /\ zlen p <= 255 /\ nonul p.

Lemma call_back_fires l nm p es e : okp p -> call_back (F l nm p es) e = F l None p (es ++ [e nm]).
Proof.
  intros [[->|H] _]; unfold call_back, F; cbn [z_path z_cur z_name z_ev]; [reflexivity|].
  replace (last p 0 =? 46) with false by lia. rewrite orb_true_r. reflexivity.
Qed.
Lemma call_back_dot l nm p es e : call_back (F l nm (p ++ [46]) es) e = F l nm (p ++ [46]) es.
Proof.
  unfold call_back, F; cbn [z_path z_cur z_name z_ev]. rewrite last_last.
  replace (zlen (p ++ [46]) =? 0) with false by (unfold zlen; rewrite app_length; cbn [length]; lia). reflexivity.
Qed.
Lemma skip_ws_app w l : ws w -> skip_ws (w ++ l) = skip_ws l.
Proof.
  induction 1 as [|c w Hc _ IH]; [reflexivity|]. cbn [app skip_ws].
  replace (j_space c) with true by (destruct Hc as [->|[->|[->| ->]]]; reflexivity). exact IH.
Qed.
Lemma skip_ws_id c l : j_space c = false -> skip_ws (c :: l) = c :: l.
Proof. intros H. cbn [skip_ws]. rewrite H. reflexivity. Qed.
Lemma tas_hit w c l nm p es : ws w -> j_space c = false -> test_and_skip (F (w ++ c :: l) nm p es) c = (F l nm p es, 0).
Proof.
  intros W S. unfold test_and_skip. rewrite j_cur_eq. unfold F. cbn [z_cur at_cur z_name z_path z_ev].
  rewrite skip_ws_app, skip_ws_id by assumption. cbn [cur_ch tl]. rewrite Z.eqb_refl. reflexivity.
Qed.
Lemma j_cur_hit w c l nm p es : ws w -> j_space c = false -> j_cur (F (w ++ c :: l) nm p es) = (F (c :: l) nm p es, c).
Proof.
  intros W S. rewrite j_cur_eq. unfold F. cbn [z_cur at_cur z_name z_path z_ev]. rewrite skip_ws_app, skip_ws_id by assumption. reflexivity.
Qed.
Lemma tas_nil c l nm p es : j_space c = false -> test_and_skip (F (c :: l) nm p es) c = (F l nm p es, 0).
Proof. intros. apply (tas_hit []); [constructor|assumption]. Qed.
Lemma append_fits l nm p es s : zlen p + zlen s <= 255 -> append_path (F l nm p es) s = F l nm (p ++ s) es.
Proof.
  intros H. unfold append_path, with_path, F. cbn [z_path z_cur z_name z_ev]. rewrite firstn_all2; [reflexivity|]. unfold zlen in *. lia.
Qed.
Lemma truncate_back l nm p q es : truncate_path (F l nm (p ++ q) es) (length p) = F l nm p es.
Proof. unfold truncate_path, with_path, F. cbn [z_path z_cur z_name z_ev]. rewrite firstn_exact by reflexivity. reflexivity. Qed.

Lemma ws_head t x : denotes t x -> exists c r, x = c :: r /\ j_space c = false /\ c <> 93 /\ c <> 125.
Proof.
  intros H. destruct H; try (eexists; eexists; split; [reflexivity|]; split; [reflexivity|lia]).
  destruct (number_parsed d x 44 [] H) as (_ & _ & h & r & -> & Hh); [split; cbn [In]; lia|].
  exists h, r. split; [reflexivity|]. unfold j_space. lia.
Qed.
Lemma elems_len l y : elems l y -> zlen l <= zlen y.
Proof.
  induction 1 as [t w1 x w2 W1 D W2|t w1 x w2 l y W1 D W2 E IH]; destruct (ws_head t x D) as (c & r & -> & _); unfold zlen in *;
    repeat (rewrite app_length || cbn [length]); lia.
Qed.
Lemma ws_stop w c r t : ws w -> stopc c -> stops t (w ++ c :: r).
Proof.
  intros W C. destruct t; cbn [stops]; auto. destruct W as [|b w B W]; cbn [app]; eauto.
  exists b. eexists. split; [reflexivity|]. unfold jblank in B. split; cbn [In]; lia.
Qed.
Lemma skip_comma_hit w l nm p es : ws w -> skip_comma (F (w ++ 44 :: l) nm p es) = F l nm p es.
Proof. intros W. unfold skip_comma. rewrite (j_cur_hit w 44) by (assumption || reflexivity). reflexivity. Qed.
Lemma skip_comma_miss w c l nm p es : ws w -> j_space c = false -> c <> 44 -> skip_comma (F (w ++ c :: l) nm p es) = F (c :: l) nm p es.
Proof. intros W S N. unfold skip_comma. rewrite (j_cur_hit w c) by assumption. replace (c =? 44) with false by lia. reflexivity. Qed.

Lemma elem_open p i d : okp p -> numeral 10 i d -> 0 <= i < 2 ^ 63 -> zlen p + zlen d + 2 <= 255 ->
  exists b, elem_buf i = OK b /\ b = 91 :: d ++ [93] /\ elem_name (p ++ b) b = OK d /\ okp (p ++ b) /\ zlen b = zlen d + 2.
Proof.
  intros (_ & _ & Np) Nd Hi L. destruct (dec_text_ok i Hi) as (d' & E & N' & _).
  assert (d' = d) by (eapply numeral_unique; [|exact N'|exact Nd]; lia). subst d'.
  unfold elem_buf. rewrite E. cbn [bind]. eexists. split; [reflexivity|]. split; [reflexivity|].
  assert (Lb : zlen (91 :: d ++ [93]) = zlen d + 2) by (unfold zlen; cbn [length]; rewrite app_length; cbn [length]; lia).
  assert (Nb : nonul (91 :: d ++ [93])).
  { constructor; [lia|]. apply Forall_app. split; [|repeat constructor; lia].
    destruct Nd as (_ & Fd & _). eapply Forall_impl; [|exact Fd]. intros c [[X|X] _]; lia. }
  assert (Npb : nonul (p ++ 91 :: d ++ [93])) by (apply Forall_app; auto).
  split; [|split; [|exact Lb]].
  - unfold elem_name. rewrite until_nul_id by assumption.
    assert (Q : zlen (p ++ 91 :: d ++ [93]) - zlen (91 :: d ++ [93]) + 1 = zlen (p ++ [91])).
    { unfold zlen. rewrite !app_length. cbn [length]. lia. }
    rewrite Q. replace (zlen (p ++ [91]) <? 0) with false by (unfold zlen; lia). f_equal.
    replace (zlen (91 :: d ++ [93]) - 2) with (zlen d) by lia.
    replace (p ++ 91 :: d ++ [93]) with ((p ++ [91]) ++ d ++ [93]) by (rewrite <- app_assoc; reflexivity). apply sub_app_mid.
  - split; [right|split; [|assumption]].
    + replace (p ++ 91 :: d ++ [93]) with ((p ++ 91 :: d) ++ [93]) by (rewrite <- app_assoc; reflexivity). rewrite last_last. lia.
    + rewrite zlen_app, Lb. lia.
Qed.
Lemma last_ne p (k : list Z) : k <> [] -> last (p ++ k) 0 = last k 0.
Proof. apply last_app_ne. Qed.
Lemma plain_nonul k : plain k -> nonul k.
Proof.
  induction 1 as [|c r [U (N1 & N2 & N3)] _ IH]; [constructor|]. apply Forall_app. split; [|assumption].
  destruct U as [a Ha|a b Ha Hb|a b c Ha Hb Hc|a b c d Ha Hb Hc Hd]; unfold cont in *; repeat constructor; try lia.
Qed.
Lemma plain_bytes k : plain k -> bytes_ok k.
Proof.
  induction 1 as [|c r [U _] _ IH]; [constructor|]. apply Forall_app. split; [|assumption].
  destruct U as [a Ha|a b Ha Hb|a b c Ha Hb Hc|a b c d Ha Hb Hc Hd]; unfold cont in *; repeat constructor; unfold is_byte; lia.
Qed.
Lemma items_val l : Forall sitem_ok l -> bytes_ok (flat_map sitem_val l) /\ (length (flat_map sitem_val l) <= length (flat_map sitem_src l))%nat.
Proof.
  induction 1 as [|i l Hi _ [IH1 IH2]]; [split; [constructor|reflexivity]|]. cbn [flat_map]. rewrite !app_length.
  destruct i as [c|c|a b]; cbn [sitem_ok sitem_val sitem_src] in *.
  - split; [|lia]. apply Forall_app. split; [|assumption]. destruct Hi as [U _].
    destruct U as [a Ha|a b Ha Hb|a b c Ha Hb Hc|a b c d Ha Hb Hc Hd]; unfold cont in *; repeat constructor; unfold is_byte; lia.
  - destruct (short_esc c) as [v|] eqn:E; [|congruence]. split; [|cbn [length]; lia]. constructor; [|assumption].
    unfold short_esc in E. unfold is_byte.
    repeat match type of E with match ?x with _ => _ end = _ => destruct x; try discriminate end; injection E as <-; lia.
  - split; [|cbn [length]; lia]. constructor; [|assumption]. destruct Hi as [Ha Hb]. apply hexd_byte in Ha as Ba. apply hexd_byte in Hb as Bb.
    assert (H : forall x, hexd x <> None -> 0 <= hv x < 16).
    { intros x Hx. unfold hv. destruct (hexd x) as [y|] eqn:E; [|congruence]. unfold hexd in E.
      repeat match type of E with (if ?b then _ else _) = _ => destruct b eqn:? end; try discriminate; injection E as <-; lia. }
    pose proof (H a Ha). pose proof (H b Hb). unfold is_byte. lia.
Qed.
Lemma key_open g nm p es k w1 w2 l : ws w1 -> plain k -> ws w2 -> okp p -> zlen p + zlen k + 1 <= 255 -> k <> [] -> last k 0 <> 46 ->
  let f0 := F (34 :: k ++ 34 :: w2 ++ 58 :: l) nm (p ++ [46]) es in
  parse_key g f0 = OK (F (w2 ++ 58 :: l) nm (p ++ [46]) es, 0) /\ key_name (z_cur f0) (w2 ++ 58 :: l) = k /\
  okp ((p ++ [46]) ++ k).
Proof.
  intros W1 P W2 (_ & _ & Np) L Nk Lk. cbv zeta. split; [|split].
  - unfold parse_key. change (34 :: k ++ 34 :: w2 ++ 58 :: l) with ([] ++ 34 :: k ++ 34 :: w2 ++ 58 :: l).
    rewrite j_cur_hit by (constructor || reflexivity). change (j_alpha 34) with false. cbn [Z.eqb Pos.eqb].
    unfold parse_string. rewrite tas_nil by reflexivity. cbn [Z.ltb Z.compare].
    destruct (plain_items k P) as (it & Hi & E1 & _). unfold F at 1 2. cbn [z_cur]. rewrite <- E1.
    pose proof (items_length it Hi) as Li. rewrite scan_items; [|assumption|rewrite app_length; cbn [length]; lia].
    cbn [bind app]. rewrite call_back_dot. reflexivity.
  - unfold F. cbn [z_cur]. unfold key_name. cbn [Z.eqb Pos.eqb].
    replace (zlen (34 :: k ++ 34 :: w2 ++ 58 :: l) - zlen (w2 ++ 58 :: l) - 2) with (zlen k)
      by (unfold zlen; cbn [length]; rewrite (app_length k); cbn [length]; lia).
    apply (sub_app_mid [34] k).
  - split; [right; rewrite last_ne by assumption; assumption|]. split.
    + rewrite !zlen_app. unfold zlen in *. cbn [length]. lia.
    + apply Forall_app. split; [apply Forall_app; split; [assumption|repeat constructor; lia]|apply plain_nonul; assumption].
Qed.

Scheme denotes_mut := Minimality for denotes Sort Prop
with elems_mut := Minimality for elems Sort Prop
with members_mut := Minimality for members Sort Prop.
Combined Scheme doc_mut from denotes_mut, elems_mut, members_mut.

Definition val_ok g (t : jt) (x : list Z) : Prop :=
  forall n w nm p es rest, (2 * length x + 1 <= n)%nat -> zlen x < 2 ^ 31 -> ws w -> okp p -> fits (zlen p) t -> stops t rest ->
  exists es', evs nm t es' /\ parse_value n g (F (w ++ x ++ rest) nm p es) = OK (F rest None p (es ++ es'), 0).
Definition arr_ok g (l : list jt) (y : list Z) : Prop :=
  forall n i nm p es rest, (2 * length y + 2 <= n)%nat -> 0 <= i -> i + zlen y < 2 ^ 31 -> okp p -> afits (zlen p) i l ->
  exists es', aevs i l es' /\ arr_loop n g i (F (y ++ 93 :: rest) nm p es) = OK (F (93 :: rest) None p (es ++ es'), 0).
Definition obj_ok g (l : list (list Z * jt)) (y : list Z) : Prop :=
  forall n nm p es rest, (2 * length y + 2 <= n)%nat -> zlen y < 2 ^ 31 -> okp p -> ofits (zlen p) l ->
  exists es', oevs l es' /\ obj_loop n g (F (y ++ 125 :: rest) nm (p ++ [46]) es) = OK (F (125 :: rest) None (p ++ [46]) (es ++ es'), 0).

Lemma stop44 : stopc 44. Proof. split; cbn [In]; lia. Qed.
Lemma stop93 : stopc 93. Proof. split; cbn [In]; lia. Qed.
Lemma stop125 : stopc 125. Proof. split; cbn [In]; lia. Qed.

Lemma arr_elem g t x l w1 w2 tl_ y n i nm p es rest : ws w1 -> val_ok g t x -> denotes t x -> ws w2 ->
  (tl_ = w2 ++ 93 :: rest /\ y = 93 :: rest /\ l = [] \/ tl_ = w2 ++ 44 :: y) ->
  (2 * length x + 1 <= n)%nat -> zlen x < 2 ^ 31 -> 0 <= i < 2 ^ 31 -> okp p -> afits (zlen p) i (t :: l) ->
  exists es' d, numeral 10 i d /\ evs (Some d) t es' /\
    arr_loop (S n) g i (F (w1 ++ x ++ tl_) nm p es) = arr_loop n g (i + 1) (F y None p (es ++ es')).
Proof.
  intros W1 V D W2 T Hn Hx Hi P ((d & Nd & Ld & Fd) & _).
  destruct (ws_head t x D) as (c & r & Ex & Sc & C1 & _).
  destruct (elem_open p i d P Nd ltac:(lia) Ld) as (b & E1 & Eb & E2 & Pb & Lb).
  destruct (V n [] (Some d) (p ++ b) es tl_ Hn Hx) as (es' & Ev & Q).
  - constructor.
  - exact Pb.
  - rewrite zlen_app, Lb. replace (zlen p + (zlen d + 2)) with (zlen p + zlen d + 2) by lia. exact Fd.
  - destruct T as [(-> & _)| ->]; [apply ws_stop; [assumption|exact stop93]|apply ws_stop; [assumption|exact stop44]].
  - exists es', d. split; [assumption|]. split; [assumption|]. cbn [arr_loop].
    rewrite Ex in *. cbn [app] in *. rewrite j_cur_hit by assumption. replace (c =? 93) with false by lia.
    rewrite E1. cbn [bind]. cbv zeta. rewrite append_fits by lia. unfold F at 1 2. cbn [z_path]. rewrite E2. cbn [bind].
    unfold with_name. cbn [F z_cur z_name z_path z_ev]. fold (F (c :: r ++ tl_) (Some d) (p ++ b) es). rewrite Q. cbn [bind].
    cbn [Z.ltb Z.compare]. f_equal. unfold F at 1. cbn [z_path]. rewrite truncate_back.
    destruct T as [(-> & -> & _)| ->]; [apply skip_comma_miss; [assumption|reflexivity|lia]|apply skip_comma_hit; assumption].
Qed.
Lemma member_name n k t l : plain k -> ofits n ((k, t) :: l) -> 0 <= n -> name_ok k.
Proof.
  intros P ((_ & _ & L & _) & _) Hn. split; [apply plain_bytes; assumption|]. split; [apply plain_nonul; assumption|].
  eapply Z.le_lt_trans with 255; [lia|reflexivity].
Qed.
Lemma obj_elem g k t x l w1 w2 w3 w4 tl_ y n nm p es rest : ws w1 -> plain k -> ws w2 -> ws w3 -> val_ok g t x -> ws w4 ->
  (tl_ = w4 ++ 125 :: rest /\ y = 125 :: rest /\ l = [] \/ tl_ = w4 ++ 44 :: y) ->
  (2 * length x + 1 <= n)%nat -> zlen x < 2 ^ 31 -> okp p -> ofits (zlen p) ((k, t) :: l) ->
  exists es', evs (Some k) t es' /\
    obj_loop (S n) g (F (w1 ++ 34 :: k ++ 34 :: w2 ++ 58 :: w3 ++ x ++ tl_) nm (p ++ [46]) es) = obj_loop n g (F y None (p ++ [46]) (es ++ es')).
Proof.
  intros W1 Pk W2 W3 V W4 T Hn Hx P ((Nk & Lk & Lp & Fk) & _).
  destruct (key_open g nm p es k w1 w2 (w3 ++ x ++ tl_) W1 Pk W2 P ltac:(lia) Nk Lk) as (K1 & K2 & K3).
  destruct (V n w3 (Some k) ((p ++ [46]) ++ k) es tl_ Hn Hx W3 K3) as (es' & Ev & Q).
  - rewrite !zlen_app. change (zlen [46]) with 1. replace (zlen p + 1 + zlen k) with (zlen p + zlen k + 1) by lia. exact Fk.
  - destruct T as [(-> & _)| ->]; [apply ws_stop; [assumption|exact stop125]|apply ws_stop; [assumption|exact stop44]].
  - exists es'. split; [assumption|]. cbn [obj_loop]. rewrite j_cur_hit by (assumption || reflexivity). cbn [Z.eqb Pos.eqb]. cbv zeta.
    rewrite K1. cbn [bind Z.ltb Z.compare].
    assert (KN : key_name (z_cur (F (34 :: k ++ 34 :: w2 ++ 58 :: w3 ++ x ++ tl_) nm (p ++ [46]) es))
                   (z_cur (F (w2 ++ 58 :: w3 ++ x ++ tl_) nm (p ++ [46]) es)) = k) by exact K2.
    rewrite KN. unfold with_name. cbn [F z_cur z_name z_path z_ev]. fold (F (w2 ++ 58 :: w3 ++ x ++ tl_) (Some k) (p ++ [46]) es).
    rewrite append_fits by (rewrite zlen_app; change (zlen [46]) with 1; lia).
    rewrite tas_hit by (assumption || reflexivity). cbn [Z.ltb Z.compare]. rewrite Q. cbn [bind Z.ltb Z.compare]. f_equal.
    rewrite truncate_back.
    destruct T as [(-> & -> & _)| ->]; [apply skip_comma_miss; [assumption|reflexivity|lia]|apply skip_comma_hit; assumption].
Qed.

Lemma walk_doc g : (forall t x, denotes t x -> val_ok g t x) /\ (forall l y, elems l y -> arr_ok g l y) /\ (forall l y, members l y -> obj_ok g l y).
Proof.
  assert (LIT : forall s e rest nm p es, okp p -> j_expect (F (s ++ rest) nm p es) s e = (F rest None p (es ++ [e nm]), 0)).
  { intros s e rest nm p es P. unfold j_expect. unfold F at 1. cbn [z_cur].
    assert (X : forall s rest, expect_scan (s ++ rest) s = NDone rest).
    { clear. induction s as [|c s IH]; intros rest; [destruct rest; reflexivity|]. cbn [app expect_scan]. rewrite Z.eqb_refl. apply IH. }
    rewrite X. unfold at_cur. cbn [F z_name z_path z_ev]. fold (F rest nm p es). rewrite call_back_fires by assumption. reflexivity. }
  assert (LIT' : forall s c n rest w nm p es t e, okp p -> ws w -> j_space c = false -> s = c :: n ->
     (forall n', parse_value (S n') g (F (w ++ s ++ rest) nm p es) = let '(f, ch) := j_cur (F (w ++ s ++ rest) nm p es) in OK (j_expect f s e)) ->
     evs nm t [e nm] ->
     forall m, (1 <= m)%nat -> exists es', evs nm t es' /\ parse_value m g (F (w ++ s ++ rest) nm p es) = OK (F rest None p (es ++ es'), 0)).
  { intros s c n rest w nm p es t e P W Sc Es Pv Ev m Hm. destruct m as [|m]; [lia|]. exists [e nm]. split; [assumption|].
    rewrite Pv, Es. cbn [app]. rewrite j_cur_hit by assumption. change (c :: n ++ rest) with ((c :: n) ++ rest). rewrite LIT by assumption. reflexivity. }
  apply doc_mut; unfold val_ok, arr_ok, obj_ok.
  - intros n w nm p es rest Hn Hz W P _ _. apply (LIT' null_txt 110 (tl null_txt) rest w nm p es TNull EvNull); [assumption|assumption|reflexivity|reflexivity| |apply EV_null|lia].
    intros n'. cbn [parse_value null_txt app]. rewrite j_cur_hit by (assumption || reflexivity). reflexivity.
  - intros n w nm p es rest Hn Hz W P _ _. apply (LIT' true_txt 116 (tl true_txt) rest w nm p es (TBool true) EvTrue); [assumption|assumption|reflexivity|reflexivity| |apply (EV_bool nm true)|lia].
    intros n'. cbn [parse_value true_txt app]. rewrite j_cur_hit by (assumption || reflexivity). reflexivity.
  - intros n w nm p es rest Hn Hz W P _ _. apply (LIT' false_txt 102 (tl false_txt) rest w nm p es (TBool false) EvFalse); [assumption|assumption|reflexivity|reflexivity| |apply (EV_bool nm false)|lia].
    intros n'. cbn [parse_value false_txt app]. rewrite j_cur_hit by (assumption || reflexivity). reflexivity.
  - intros d x D n w nm p es rest Hn Hz W P _ (c & r & -> & C). destruct (number_parsed d x c r D C) as (N1 & N2 & h & q & Ex & Hh).
    destruct n as [|n]; [lia|]. eexists. split; [apply (EV_num nm d (x ++ c :: r) (zlen (x ++ c :: r) - zlen (c :: r))); assumption|].
    assert (Sp : j_space h = false) by (unfold j_space; lia).
    cbn [parse_value]. rewrite Ex. cbn [app]. rewrite j_cur_hit by assumption.
    replace (h =? 34) with false by lia. replace (h =? 123) with false by lia. replace (h =? 91) with false by lia.
    replace (h =? 110) with false by lia. replace (h =? 116) with false by lia. replace (h =? 102) with false by lia.
    replace ((h =? 45) || j_digit h) with true by (unfold j_digit; lia).
    unfold parse_number. change (h :: q ++ c :: r) with ([] ++ h :: q ++ c :: r) at 1. rewrite j_cur_hit by (constructor || assumption).
    unfold F at 1. cbn [z_cur]. rewrite Ex in N1. cbn [app] in N1. rewrite N1. cbv zeta. unfold at_cur. cbn [F z_cur z_name z_path z_ev].
    fold (F (c :: r) nm p es). rewrite call_back_fires by assumption. reflexivity.
  - intros l Fl n w nm p es rest Hn Hz W P _ _. destruct n as [|n]; [lia|].
    destruct (items_val l Fl) as [Bl Ll]. unfold zlen in Hz. cbn [length] in Hz. rewrite app_length in Hz.
    eexists. split; [apply (EV_str nm _ (flat_map sitem_src l)); [apply unescape_items; assumption|assumption|unfold zlen; lia]|].
    cbn [parse_value app]. rewrite j_cur_hit by (assumption || reflexivity). cbn [Z.eqb Pos.eqb].
    unfold parse_string. rewrite tas_nil by reflexivity. cbn [Z.ltb Z.compare]. unfold F at 1 2. cbn [z_cur]. rewrite <- app_assoc.
    cbn [app]. pose proof (items_length l Fl). rewrite scan_items; [|assumption|rewrite app_length; cbn [length]; lia].
    cbn [bind app]. rewrite call_back_fires by assumption. unfold at_cur. reflexivity.
  - intros w0 W0 n w nm p es rest Hn Hz W P _ _. destruct n as [|[|n]]; [lia|cbn [length] in Hn; lia|].
    eexists. split; [apply EV_arr; apply AE_nil|]. cbn [app]. rewrite <- app_assoc. cbn [app]. cbn [parse_value].
    rewrite j_cur_hit by (assumption || reflexivity). cbn [Z.eqb Pos.eqb]. cbv zeta. rewrite call_back_fires by assumption.
    rewrite tas_nil by reflexivity. cbn [Z.ltb Z.compare]. cbn [arr_loop]. rewrite j_cur_hit by (assumption || reflexivity).
    cbn [Z.eqb Pos.eqb bind Z.ltb Z.compare]. rewrite tas_nil by reflexivity. cbn [Z.ltb Z.compare F z_path].
    replace (F rest None p (es ++ [EvArr nm])) with (F rest None (p ++ []) (es ++ [EvArr nm])) by (rewrite app_nil_r; reflexivity).
    rewrite truncate_back, call_back_fires by assumption. rewrite <- app_assoc. reflexivity.
  - intros l y E IH n w nm p es rest Hn Hz W P Fi _. rewrite fits_arr in Fi. cbn [length] in Hn. rewrite app_length in Hn. cbn [length] in Hn.
    destruct n as [|n]; [lia|]. unfold zlen in Hz. cbn [length] in Hz. rewrite app_length in Hz. cbn [length] in Hz.
    destruct (IH n 0 None p (es ++ [EvArr nm]) rest ltac:(lia) ltac:(lia) ltac:(unfold zlen; lia) P Fi) as (es' & Ev & Q).
    eexists. split; [apply EV_arr; exact Ev|]. cbn [app]. rewrite <- app_assoc. cbn [app]. cbn [parse_value].
    rewrite j_cur_hit by (assumption || reflexivity). cbn [Z.eqb Pos.eqb]. cbv zeta. rewrite call_back_fires by assumption.
    rewrite tas_nil by reflexivity. cbn [Z.ltb Z.compare]. rewrite Q. cbn [bind Z.ltb Z.compare].
    rewrite tas_nil by reflexivity. cbn [Z.ltb Z.compare].
    replace (F rest None p ((es ++ [EvArr nm]) ++ es')) with (F rest None (p ++ []) ((es ++ [EvArr nm]) ++ es')) by (rewrite app_nil_r; reflexivity).
    cbn [F z_path]. fold (F rest None (p ++ []) ((es ++ [EvArr nm]) ++ es')).
    rewrite truncate_back, call_back_fires by assumption. rewrite <- !app_assoc. reflexivity.
  - intros w0 W0 n w nm p es rest Hn Hz W P _ _. destruct n as [|[|n]]; [lia|cbn [length] in Hn; lia|].
    eexists. split; [apply EV_obj; apply OE_nil|]. cbn [app]. rewrite <- app_assoc. cbn [app]. cbn [parse_value].
    rewrite j_cur_hit by (assumption || reflexivity). cbn [Z.eqb Pos.eqb]. cbv zeta. rewrite call_back_fires by assumption.
    rewrite tas_nil by reflexivity. cbn [Z.ltb Z.compare].
    unfold append_path at 1, with_path. cbn [F z_cur z_name z_path z_ev].
    match goal with |- context [obj_loop (S n) g {| z_cur := ?a; z_name := ?b; z_path := ?c; z_ev := ?d |}] =>
      change {| z_cur := a; z_name := b; z_path := c; z_ev := d |} with (F a b c d) end.
    cbn [obj_loop]. rewrite j_cur_hit by (assumption || reflexivity).
    cbn [Z.eqb Pos.eqb bind Z.ltb Z.compare]. rewrite tas_nil by reflexivity. cbn [Z.ltb Z.compare].
    rewrite truncate_back, call_back_fires by assumption. rewrite <- app_assoc. reflexivity.
  - intros l y E IH n w nm p es rest Hn Hz W P Fi _. rewrite fits_obj in Fi. cbn [length] in Hn. rewrite app_length in Hn. cbn [length] in Hn.
    destruct n as [|n]; [lia|]. unfold zlen in Hz. cbn [length] in Hz. rewrite app_length in Hz. cbn [length] in Hz.
    destruct (IH n None p (es ++ [EvObj nm]) rest ltac:(lia) ltac:(unfold zlen; lia) P Fi) as (es' & Ev & Q).
    assert (Lp : zlen p + 1 <= 255).
    { destruct E; destruct Fi as ((_ & _ & L & _) & _); unfold zlen in *; lia. }
    eexists. split; [apply EV_obj; exact Ev|]. cbn [app]. rewrite <- app_assoc. cbn [app]. cbn [parse_value].
    rewrite j_cur_hit by (assumption || reflexivity). cbn [Z.eqb Pos.eqb]. cbv zeta. rewrite call_back_fires by assumption.
    rewrite tas_nil by reflexivity. cbn [Z.ltb Z.compare]. rewrite append_fits by (change (zlen [46]) with 1; lia). rewrite Q. cbn [bind Z.ltb Z.compare].
    rewrite tas_nil by reflexivity. cbn [Z.ltb Z.compare]. unfold F at 2. cbn [z_path].
    rewrite truncate_back, call_back_fires by assumption. rewrite <- !app_assoc. reflexivity.
  - intros t w1 x w2 W1 D V W2 n i nm p es rest Hn Hi Hz P Fi. unfold zlen in Hz. repeat rewrite app_length in *.
    destruct n as [|n]; [lia|].
    destruct (arr_elem g t x [] w1 w2 (w2 ++ 93 :: rest) (93 :: rest) n i nm p es rest W1 V D W2) as (es' & d & Nd & Ev & Q);
      [left; auto|lia|unfold zlen; lia|lia|assumption|assumption|].
    exists (es' ++ []). split; [eapply AE_cons; [exact Nd|exact Ev|apply AE_nil]|]. rewrite <- !app_assoc. rewrite Q.
    destruct n as [|n]; [destruct (ws_head t x D) as (c & r & -> & _); cbn [length] in Hn; lia|]. cbn [arr_loop].
    change (93 :: rest) with ([] ++ 93 :: rest) at 1. rewrite j_cur_hit by (constructor || reflexivity). cbn [Z.eqb Pos.eqb]. rewrite app_nil_r. reflexivity.
  - intros t w1 x w2 l y W1 D V W2 E IH n i nm p es rest Hn Hi Hz P Fi. unfold zlen in Hz. repeat (rewrite app_length in * || cbn [length] in * ).
    destruct n as [|n]; [lia|].
    destruct (arr_elem g t x l w1 w2 (w2 ++ 44 :: y ++ 93 :: rest) (y ++ 93 :: rest) n i nm p es rest W1 V D W2) as (es1 & d & Nd & Ev & Q);
      [right; reflexivity|lia|unfold zlen; lia|lia|assumption|assumption|].
    destruct Fi as [_ Fi].
    destruct (IH n (i + 1) None p (es ++ es1) rest ltac:(lia) ltac:(lia) ltac:(unfold zlen; lia) P Fi) as (es2 & Ev2 & Q2).
    exists (es1 ++ es2). split; [eapply AE_cons; eassumption|].
    replace ((w1 ++ x ++ w2 ++ 44 :: y) ++ 93 :: rest) with (w1 ++ x ++ w2 ++ 44 :: y ++ 93 :: rest) by (rewrite <- !app_assoc; reflexivity).
    rewrite Q, Q2, app_assoc. reflexivity.
  - intros k t w1 w2 w3 x w4 W1 Pk W2 W3 D V W4 n nm p es rest Hn Hz P Fi. unfold zlen in Hz.
    repeat (rewrite app_length in * || cbn [length] in * ). destruct n as [|n]; [lia|].
    destruct (obj_elem g k t x [] w1 w2 w3 w4 (w4 ++ 125 :: rest) (125 :: rest) n nm p es rest W1 Pk W2 W3 V W4) as (es' & Ev & Q);
      [left; auto|lia|unfold zlen; lia|assumption|assumption|].
    exists (es' ++ []). split; [eapply OE_cons; [eapply member_name; [eassumption|eassumption|apply zlen_nonneg]|apply Fi|exact Ev|apply OE_nil]|].
    replace ((w1 ++ 34 :: k ++ 34 :: w2 ++ 58 :: w3 ++ x ++ w4) ++ 125 :: rest) with (w1 ++ 34 :: k ++ 34 :: w2 ++ 58 :: w3 ++ x ++ w4 ++ 125 :: rest)
      by (repeat (rewrite <- !app_assoc; cbn [app]); reflexivity).
    rewrite Q. destruct n as [|n]; [lia|]. cbn [obj_loop].
    change (125 :: rest) with ([] ++ 125 :: rest) at 1. rewrite j_cur_hit by (constructor || reflexivity). cbn [Z.eqb Pos.eqb]. rewrite app_nil_r. reflexivity.
  - intros k t w1 w2 w3 x w4 l y W1 Pk W2 W3 D V W4 E IH n nm p es rest Hn Hz P Fi. unfold zlen in Hz.
    repeat (rewrite app_length in * || cbn [length] in * ). destruct n as [|n]; [lia|].
    destruct (obj_elem g k t x l w1 w2 w3 w4 (w4 ++ 44 :: y ++ 125 :: rest) (y ++ 125 :: rest) n nm p es rest W1 Pk W2 W3 V W4) as (es1 & Ev & Q);
      [right; reflexivity|lia|unfold zlen; lia|assumption|assumption|].
    assert (Nk : name_ok k /\ k <> []) by (split; [eapply member_name; [eassumption|eassumption|apply zlen_nonneg]|apply Fi]). destruct Fi as [_ Fi].
    destruct (IH n None p (es ++ es1) rest ltac:(lia) ltac:(unfold zlen; lia) P Fi) as (es2 & Ev2 & Q2).
    exists (es1 ++ es2). split; [eapply OE_cons; [apply Nk|apply Nk|eassumption|eassumption]|].
    replace ((w1 ++ 34 :: k ++ 34 :: w2 ++ 58 :: w3 ++ x ++ w4 ++ 44 :: y) ++ 125 :: rest) with (w1 ++ 34 :: k ++ 34 :: w2 ++ 58 :: w3 ++ x ++ w4 ++ 44 :: y ++ 125 :: rest)
      by (repeat (rewrite <- !app_assoc; cbn [app]); reflexivity).
    rewrite Q, Q2, app_assoc. reflexivity.
Qed.
