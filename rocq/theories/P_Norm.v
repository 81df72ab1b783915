(** Properties of the parameter scales: C41, and the defaults of the node list (C28) *)
From stdpp Require Import strings.
From Verif Require Import Base M_Nodes S_Nodes M_Norm S_Norm.
From Coq Require Import Reals Lra Psatz Qreals QArith.
Open Scope R_scope.

Lemma pair_intro n d a b lo hi :
  (forall x, a <= x <= b -> lo <= n x <= hi /\ d (n x) = x) ->
  (forall v, lo <= v <= hi -> a <= d v <= b /\ n (d v) = v) ->
  (forall x y, a <= x -> x < y -> y <= b -> n x < n y) -> scale_pair n d a b lo hi.
Proof.
  intros H1 H2 H3. split; try (intros ? ?; first [by apply H1|by apply H2]); [done|].
  intros v w Hv Hvw Hw. destruct (Rlt_le_dec (d v) (d w)) as [|Hle]; [done|exfalso].
  destruct (H2 v) as [[? ?] E1]; [lra|]. destruct (H2 w) as [[? ?] E2]; [lra|].
  destruct (Rle_lt_or_eq_dec _ _ Hle) as [Hlt|He].
  - pose proof (H3 (d w) (d v) ltac:(lra) Hlt ltac:(lra)). lra.
  - rewrite <- E1, <- E2, He in Hvw. lra.
Qed.

Lemma pair_comp n1 d1 n2 d2 a b lo hi l h : scale_pair n1 d1 a b lo hi -> scale_pair n2 d2 lo hi l h ->
  scale_pair (fun x => n2 (n1 x)) (fun v => d1 (d2 v)) a b l h.
Proof.
  intros [A1 A2 A3 A4 A5 A6] [B1 B2 B3 B4 B5 B6]. apply pair_intro.
  - intros x Hx. split; [by apply B1, A1|]. rewrite B2; [by apply A2|by apply A1].
  - intros v Hv. split; [by apply A3, B3|]. rewrite A4; [by apply B4|by apply B3].
  - intros x y Hx Hxy Hy. apply B5; [apply A1; lra|by apply A5|apply A1; lra].
Qed.

Lemma pair_ext n1 d1 n2 d2 a b lo hi : scale_pair n1 d1 a b lo hi ->
  (forall x, a <= x <= b -> n2 x = n1 x) -> (forall v, lo <= v <= hi -> d2 v = d1 v) -> scale_pair n2 d2 a b lo hi.
Proof.
  intros [A1 A2 A3 A4 A5 A6] Hn Hd. apply pair_intro.
  - intros x Hx. rewrite Hn by done. rewrite Hd by by apply A1. split; [by apply A1|by apply A2].
  - intros v Hv. rewrite Hd by done. rewrite Hn by by apply A3. split; [by apply A3|by apply A4].
  - intros x y Hx Hxy Hy. rewrite !Hn by lra. by apply A5.
Qed.

Lemma lin_unit min max x : min < max -> min <= x <= max -> 0 <= (x - min) / (max - min) <= 1.
Proof.
  intros Hm Hx. split.
  - apply Rmult_le_pos; [lra|]. left. apply Rinv_0_lt_compat. lra.
  - apply (Rmult_le_reg_r (max - min)); [lra|]. unfold Rdiv. rewrite Rmult_assoc, Rinv_l by lra. lra.
Qed.

Lemma pair_lin min max : min < max -> scale_pair (n_lin min max) (d_lin min max) min max 0 1.
Proof.
  intros Hm. apply (pair_ext (fun x => (x - min) / (max - min)) (d_lin min max)); [|intros x Hx; unfold n_lin; apply Rabs_pos_eq; by apply lin_unit|done].
  apply pair_intro.
  - intros x Hx. split; [by apply lin_unit|]. unfold d_lin. field. lra.
  - intros v Hv. unfold d_lin. split; [nra|]. field. lra.
  - intros x y Hx Hxy Hy. unfold Rdiv. apply Rmult_lt_compat_r; [apply Rinv_0_lt_compat; lra|lra].
Qed.

Lemma pair_sqrt : scale_pair sqrt (fun v => v * v) 0 1 0 1.
Proof.
  apply pair_intro.
  - intros x Hx. split; [|apply sqrt_sqrt; lra]. split; [apply sqrt_pos|]. rewrite <- sqrt_1. apply sqrt_le_1_alt. lra.
  - intros v Hv. split; [nra|]. apply sqrt_square. lra.
  - intros x y Hx Hxy Hy. apply sqrt_lt_1_alt. lra.
Qed.

Lemma powf_pos x y : 0 < x -> powf x y = Rpower x y.
Proof. intros H. unfold powf. destruct (Req_EM_T x 0); [lra|done]. Qed.

Lemma Rpower_6 x : 0 < x -> Rpower (x ^ 6) (1 / 6) = x.
Proof.
  intros H. rewrite <- (Rpower_pow 6 x) by done. rewrite Rpower_mult. replace (INR 6 * (1 / 6)) with 1 by (simpl; lra). by apply Rpower_1.
Qed.
Lemma Rpower_6' x : 0 < x -> Rpower x (1 / 6) ^ 6 = x.
Proof.
  intros H. rewrite <- Rpower_pow by apply exp_pos. rewrite Rpower_mult. replace (1 / 6 * INR 6) with 1 by (simpl; lra). by apply Rpower_1.
Qed.

Lemma pair_pow6 : scale_pair (fun x => powf x (1 / 6)) (fun v => v ^ 6) 0 1 0 1.
Proof.
  assert (forall x, 0 < x <= 1 -> 0 < Rpower x (1 / 6) <= 1) as Hr.
  { intros x Hx. split; [apply exp_pos|]. destruct (Req_dec x 1) as [->|Hn].
    - unfold Rpower. rewrite ln_1, Rmult_0_r, exp_0. lra.
    - left. assert (ln x < 0) by (rewrite <- ln_1; apply ln_increasing; lra).
      assert (exp (1 / 6 * ln x) < exp 0) as He by (apply exp_increasing; lra). rewrite exp_0 in He. exact He. }
  apply pair_intro.
  - intros x Hx. destruct (Req_dec x 0) as [->|Hn].
    + unfold powf. destruct (Req_EM_T 0 0); [|done]. split; [lra|]. simpl. lra.
    + rewrite powf_pos by lra. split; [destruct (Hr x); lra|]. apply Rpower_6'. lra.
  - intros v Hv. destruct (Req_dec v 0) as [->|Hn].
    + replace (0 ^ 6) with 0 by (simpl; lra). unfold powf. destruct (Req_EM_T 0 0); [|done]. lra.
    + assert (0 < v ^ 6) by (apply pow_lt; lra). rewrite powf_pos by done. split; [split; [lra|]|apply Rpower_6; lra].
      rewrite <- (pow1 6). apply pow_incr. lra.
  - intros x y Hx Hxy Hy. rewrite (powf_pos y) by lra. unfold powf. destruct (Req_EM_T x 0); [apply exp_pos|].
    apply exp_increasing. assert (ln x < ln y) by (apply ln_increasing; lra). lra.
Qed.

(** C41: the scales of the parameters, for every range: what is normalised lies between 0 and 1, both directions are inverse to each
    other and strictly increasing. *)
Theorem C41_scales min max : min < max ->
  scale_pair (n_lin min max) (d_lin min max) min max 0 1 /\
  scale_pair (n_exp min max) (d_exp min max) min max 0 1 /\
  scale_pair (n_exp4 min max) (d_exp4 min max) min max 0 1 /\
  scale_pair (n_exp6 min max) (d_exp6 min max) min max 0 1.
Proof.
  intros Hm. pose proof (pair_lin min max Hm) as HL. split; [done|]. split; [|split].
  - by apply (pair_comp _ _ _ _ _ _ _ _ _ _ HL pair_sqrt).
  - apply (pair_ext _ _ _ _ _ _ _ _ (pair_comp _ _ _ _ _ _ _ _ _ _ HL (pair_comp _ _ _ _ _ _ _ _ _ _ pair_sqrt pair_sqrt))); [done|].
    intros v _. unfold d_exp4, d_lin. lra.
  - by apply (pair_comp _ _ _ _ _ _ _ _ _ _ HL pair_pow6).
Qed.
Print Assumptions C41_scales.

Lemma ln2_pos : 0 < ln 2.
Proof. rewrite <- ln_1. apply ln_increasing; lra. Qed.

Lemma pit_low : 1 / 100 <= 440 * Rpower 2 (-10).
Proof. replace (-10) with (- INR 10) by (simpl; lra). rewrite Rpower_Ropp, Rpower_pow by lra. simpl. lra. Qed.

(** C41: the pitch scale, ten octaves around 440 Hz, and the detune scale everywhere *)
Theorem C41_pitch :
  scale_pair n_pit d_pit (440 * Rpower 2 (-10)) (440 * Rpower 2 10) (-1) 1 /\
  (forall a b, a <= b -> scale_pair n_det d_det a b (n_det a) (n_det b)).
Proof.
  pose proof ln2_pos as Hl. pose proof pit_low as Hlow. split.
  - assert (forall v, -1 <= v <= 1 -> d_pit v = 440 * Rpower 2 (v * 10)) as Hd.
    { intros v Hv. unfold d_pit, rclamp. destruct (Rlt_dec _ _); [lra|]. destruct (Rlt_dec _ _); [lra|done]. }
    assert (forall x, 440 * Rpower 2 (-10) <= x -> n_pit x = 1 / 10 * (ln (x / 440) / ln 2)) as Hn.
    { intros x Hx. unfold n_pit. by rewrite Rmax_left by lra. }
    assert (forall v, -1 <= v <= 1 -> 440 * Rpower 2 (-10) <= 440 * Rpower 2 (v * 10) <= 440 * Rpower 2 10) as Hr.
    { intros v Hv. split; (apply Rmult_le_compat_l; [lra|]); apply Rle_Rpower; lra. }
    assert (forall x, 0 < x -> Rpower 2 (ln x / ln 2) = x) as Hp.
    { intros x Hx. unfold Rpower. replace (ln x / ln 2 * ln 2) with (ln x) by (field; lra). by apply exp_ln. }
    assert (0 < 440 * Rpower 2 (-10)) as H0 by (apply Rmult_lt_0_compat; [lra|apply exp_pos]).
    assert (forall v, -1 <= v <= 1 -> n_pit (440 * Rpower 2 (v * 10)) = v) as Hnv.
    { intros v Hv. rewrite Hn by by apply Hr. replace (440 * Rpower 2 (v * 10) / 440) with (Rpower 2 (v * 10)) by (field; lra).
      unfold Rpower. rewrite ln_exp. field. lra. }
    assert (forall x y, 440 * Rpower 2 (-10) <= x -> x < y -> n_pit x < n_pit y) as Hmono.
    { intros x y Hx Hxy. rewrite !Hn by lra. apply Rmult_lt_compat_l; [lra|]. apply Rmult_lt_compat_r; [by apply Rinv_0_lt_compat|].
      apply ln_increasing; [apply Rmult_lt_0_compat; lra|]. apply Rmult_lt_compat_r; lra. }
    assert (n_pit (440 * Rpower 2 (-10)) = -1) as Elo by (rewrite <- (Hnv (-1)) by lra; do 3 f_equal; lra).
    assert (n_pit (440 * Rpower 2 10) = 1) as Ehi by (rewrite <- (Hnv 1) by lra; do 3 f_equal; lra).
    apply pair_intro.
    + intros x Hx. assert (-1 <= n_pit x <= 1) as Hb.
      { rewrite <- Elo, <- Ehi. split.
        - destruct (Req_dec (440 * Rpower 2 (-10)) x) as [<-|]; [lra|]. left. apply Hmono; lra.
        - destruct (Req_dec x (440 * Rpower 2 10)) as [->|]; [lra|]. left. apply Hmono; lra. }
      split; [done|]. rewrite Hd by done. rewrite Hn by lra. replace (1 / 10 * (ln (x / 440) / ln 2) * 10) with (ln (x / 440) / ln 2) by (field; lra).
      rewrite Hp; [field; lra|]. apply Rmult_lt_0_compat; lra.
    + intros v Hv. rewrite Hd by done. split; [by apply Hr|by apply Hnv].
    + intros x y Hx Hxy _. by apply Hmono.
  - intros a b Hab. unfold n_det, d_det. apply pair_intro.
    + intros x Hx. split; [lra|field].
    + intros v Hv. split; [lra|field].
    + intros x y Hx Hxy Hy. lra.
Qed.
Print Assumptions C41_pitch.

(** ** The parameters of the node list *)

(** The normalised range of a parameter is one on which its scale is good *)
Definition range_ok (s : scale) (lo hi : Q) : bool :=
  match s with
  | SId | SDet => true
  | SPit => Qle_bool (-1) lo && Qle_bool hi 1
  | _ => Qle_bool 0 lo && Qle_bool hi 1
  end.
Definition scale_eqb (a b : scale) : bool :=
  match a, b with
  | SId, SId | SGain, SGain | SVol, SVol | SDriv, SDriv | SPit, SPit | SDet, SDet | SDeclick, SDeclick | SEnv, SEnv
  | SLfot, SLfot | STime, STime | SFtme, SFtme | STimz, STimz | SVps, SVps => true
  | _, _ => false
  end.
Lemma scale_eqb_eq a b : scale_eqb a b = true -> a = b.
Proof. destruct a, b; done. Qed.

Lemma list_ranges : forallb (fun r => forallb (fun p => scale_eqb (pr_norm p) (pr_denorm p) && range_ok (pr_norm p) (pr_min p) (pr_max p)) (nr_ins r)) node_rows = true.
Proof. vm_compute. reflexivity. Qed.

Lemma db_pair coef2db db2coef lo hi : lo < hi -> (forall d, lo <= d <= hi -> coef2db (db2coef d) = d) ->
  forall v, 0 <= v <= 1 -> n_db coef2db lo hi (d_db db2coef lo hi v) = v.
Proof.
  intros Hm Hdb v Hv. unfold n_db, d_db. rewrite Hdb by nra.
  replace ((lo * (1 - v) + v * hi - lo) / (hi - lo)) with v by (field; lra). apply Rabs_pos_eq. lra.
Qed.

Lemma Qle_bool_R a b : Qle_bool a b = true -> Q2R a <= Q2R b.
Proof. intros H. apply Qle_Rle, Qle_bool_iff, H. Qed.

Lemma Q2R_IZR z : Q2R (inject_Z z) = IZR z.
Proof. unfold Q2R. cbn. lra. Qed.

(** C41: for every parameter of every node, denormalising a value of its normalised range and normalising it again gives the value back.
    The decibel conversions of the crate synfx_dsp are taken to be inverse to each other between -90 dB and 24 dB. *)
Theorem C41_params coef2db db2coef n r p v :
  (forall d, -90 <= d <= 24 -> coef2db (db2coef d) = d) ->
  row_of n = Some r -> p ∈ nr_ins r -> Q2R (pr_min p) <= v <= Q2R (pr_max p) ->
  normalize coef2db (pr_norm p) (denormalize db2coef (pr_denorm p) v) = v.
Proof.
  intros Hdb Hr Hp Hv. assert (r ∈ node_rows) as Hin.
  { unfold row_of in Hr. destruct (nid_kind n); [done|]. by eapply elem_of_list_lookup_2. }
  pose proof list_ranges as HL. rewrite forallb_forall in HL. apply elem_of_list_In, HL in Hin. rewrite forallb_forall in Hin.
  apply elem_of_list_In, Hin in Hp. apply andb_prop in Hp as [E HR]. apply scale_eqb_eq in E. rewrite <- E. clear E.
  assert (forall a b, Qle_bool (inject_Z a) (pr_min p) && Qle_bool (pr_max p) (inject_Z b) = true -> IZR a <= v <= IZR b) as HB.
  { intros a b [H1 H2]%andb_prop. apply Qle_bool_R in H1, H2. rewrite Q2R_IZR in *. lra. }
  destruct (pr_norm p); cbn [range_ok normalize denormalize] in *.
  - done.
  - apply (HB 0%Z 1%Z) in HR. apply db_pair; [lra| |done]. intros d Hd. apply Hdb. lra.
  - apply (HB 0%Z 1%Z) in HR. apply db_pair; [lra| |done]. intros d Hd. apply Hdb. lra.
  - apply (HB 0%Z 1%Z) in HR. apply db_pair; [lra| |done]. intros d Hd. apply Hdb. lra.
  - apply (HB (-1)%Z 1%Z) in HR. by apply (sp_forth _ _ _ _ _ _ (proj1 C41_pitch)).
  - unfold n_det, d_det. field.
  - apply (HB 0%Z 1%Z) in HR. apply (C41_scales 0 50); [lra|done].
  - apply (HB 0%Z 1%Z) in HR. apply (C41_scales 0 1000); [lra|done].
  - apply (HB 0%Z 1%Z) in HR. apply (C41_scales (1 / 10) 300000); [lra|done].
  - apply (HB 0%Z 1%Z) in HR. apply (C41_scales (1 / 2) 5000); [lra|done].
  - apply (HB 0%Z 1%Z) in HR. apply (C41_scales (1 / 10) 1000); [lra|done].
  - apply (HB 0%Z 1%Z) in HR. apply (C41_scales 0 5000); [lra|done].
  - apply (HB 0%Z 1%Z) in HR. apply (C41_scales 0 20); [lra|done].
Qed.
Print Assumptions C41_params.

(** ** The defaults of the node list *)

Definition db_def (p : prow) : bool := Qeq_bool (pr_def p) 1 && Qle_bool (pr_min p) 0 && Qle_bool 1 (pr_max p).
Definition scaled_def (lo hi : Q) (p : prow) : bool :=
  Qle_bool lo (pr_def p) && Qle_bool (pr_def p) hi && Qle_bool (pr_min p) 0 && Qle_bool 1 (pr_max p).
Definition def_ok (p : prow) : bool :=
  match pr_norm p with
  | SId => Qle_bool (pr_min p) (pr_def p) && Qle_bool (pr_def p) (pr_max p)
  | SDet => Qle_bool (pr_min p) (pr_def p / 120) && Qle_bool (pr_def p / 120) (pr_max p)
  | SVol | SGain | SDriv => db_def p
  | SPit => Qle_bool (pr_min p) 0 &&
      ((Qeq_bool (pr_def p) 440 && Qle_bool 0 (pr_max p)) || (Qeq_bool (pr_def p) 1000 && Qle_bool (1 # 5) (pr_max p)) ||
       (Qeq_bool (pr_def p) 22050 && Qle_bool (5647131 # 10000000) (pr_max p)))
  | SDeclick => scaled_def 0 50 p
  | SEnv => scaled_def 0 1000 p
  | SLfot => scaled_def (1 # 10) 300000 p
  | STime => scaled_def (1 # 2) 5000 p
  | SFtme => scaled_def (1 # 10) 1000 p
  | STimz => scaled_def 0 5000 p
  | SVps => scaled_def 0 20 p
  end.
Definition low_defaultb (r : nrow) (p : prow) : bool :=
  (String.eqb (nr_str r) "pverb" && (String.eqb (pr_name p) "ihpf" || String.eqb (pr_name p) "rhpf"))%string.

Lemma list_defaults : forallb (fun r => forallb (fun p => low_defaultb r p || def_ok p) (nr_ins r)) node_rows = true.
Proof. vm_compute. reflexivity. Qed.

(** Upper bounds [m * 2^e] of the powers of a number, with [m] kept short *)
Definition ubnd (l : R) (k m e : Z) : Prop := (0 < m)%Z /\ IZR k * l <= ln (IZR m) + IZR e * ln 2.

Lemma ln_pow2 n : (0 <= n)%Z -> ln (IZR (2 ^ n)) = IZR n * ln 2.
Proof. intros Hn. rewrite <- (Z2Nat.id n) by done. rewrite <- pow_IZR, ln_pow by lra. by rewrite INR_IZR_INZ. Qed.
Lemma ln_le x y : 0 < x -> x <= y -> ln x <= ln y.
Proof. intros Hx [Hxy|Hxy]; [by apply Rlt_le, ln_increasing|rewrite Hxy; lra]. Qed.

Lemma ub_mul l j k m1 e1 m2 e2 s m jk e : ubnd l j m1 e1 -> ubnd l k m2 e2 -> (jk = j + k)%Z -> (e = e1 + e2 + s)%Z ->
  ((0 <=? s) && (m1 * m2 <=? m * 2 ^ s))%Z = true -> ubnd l jk m e.
Proof.
  intros [H1 H2] [H3 H4] -> -> [H5 H6]%andb_prop. apply Z.leb_le in H5, H6. assert (0 < 2 ^ s)%Z as Hs by lia.
  assert (0 < m)%Z as Hm by nia. split; [done|]. rewrite !plus_IZR. apply IZR_lt in H1, H3, Hm, Hs. apply IZR_le in H6. rewrite !mult_IZR in H6.
  apply ln_le in H6; [|by apply Rmult_lt_0_compat]. rewrite !ln_mult, ln_pow2 in H6 by done. lra.
Qed.

(** log2 of a number above 1 is bounded by comparing powers *)
Lemma ub_start a b e m : (0 < b)%Z -> (b <= a)%Z -> ((0 <=? e) && (a * 2 ^ e <=? m * b))%Z = true -> ubnd (ln (IZR a / IZR b)) 1 m (- e).
Proof.
  intros Hb Hab [He Hm]%andb_prop. apply Z.leb_le in He, Hm. assert (0 < 2 ^ e)%Z as Hs by lia. assert (0 < a * 2 ^ e)%Z by nia.
  assert (0 < m)%Z as Hmp by nia. split; [done|]. apply IZR_lt in Hb, Hmp, Hs. apply IZR_le in Hm, Hab. rewrite !mult_IZR in Hm.
  apply ln_le in Hm; [|apply Rmult_lt_0_compat; lra]. rewrite !ln_mult, ln_pow2 in Hm by (first [done|lra]).
  unfold Rdiv. rewrite ln_mult, ln_Rinv by (first [lra|apply Rinv_0_lt_compat; lra]). rewrite opp_IZR. lra.
Qed.
Lemma ub_log2 a b P Q m e : (0 < b)%Z -> (b <= a)%Z -> (0 < Q)%Z -> ubnd (ln (IZR a / IZR b)) Q m e ->
  ((0 <=? P - e) && (m <=? 2 ^ (P - e)))%Z = true -> 0 <= ln (IZR a / IZR b) / ln 2 <= IZR P / IZR Q.
Proof.
  intros Hb Hab HQ [H3 H4] [H5 H6]%andb_prop. apply Z.leb_le in H5, H6. pose proof ln2_pos as Hl. apply IZR_lt in Hb as Hb'. apply IZR_le in Hab as Hab'.
  assert (1 <= IZR a / IZR b) as H1. { apply (Rmult_le_reg_r (IZR b)); [lra|]. unfold Rdiv. rewrite Rmult_assoc, Rinv_l by lra. lra. }
  assert (0 <= ln (IZR a / IZR b)) as H0. { rewrite <- ln_1. apply ln_le; lra. }
  apply IZR_lt in HQ. split; [by apply Rle_mult_inv_pos|].
  apply (Rmult_le_reg_r (ln 2)); [done|]. unfold Rdiv at 1. rewrite Rmult_assoc, Rinv_l, Rmult_1_r by lra.
  apply (Rmult_le_reg_r (IZR Q)); [done|]. replace (IZR P / IZR Q * ln 2 * IZR Q) with (IZR P * ln 2) by (field; lra).
  apply IZR_lt in H3. apply IZR_le in H6. apply ln_le in H6; [|done]. rewrite ln_pow2, minus_IZR in H6 by done. lra.
Qed.

Lemma Qeq_bool_R a b : Qeq_bool a b = true -> Q2R a = Q2R b.
Proof. intros H. apply Qeq_eqR, Qeq_bool_iff, H. Qed.

Lemma n_pit_440 : n_pit 440 = 0.
Proof. unfold n_pit. rewrite Rmax_left by lra. replace (440 / 440) with 1 by field. rewrite ln_1. lra. Qed.
Lemma n_pit_1000 : 0 <= n_pit 1000 <= 1 / 5.
Proof.
  unfold n_pit. rewrite Rmax_left by lra. pose proof (ub_start 1000 440 0 3 ltac:(lia) ltac:(lia) eq_refl) as U.
  pose proof (ub_log2 1000 440 2 1 _ _ ltac:(lia) ltac:(lia) ltac:(lia) U eq_refl). lra.
Qed.
Lemma n_pit_22050 : 0 <= n_pit 22050 <= 5647131 / 10000000 + / 16777216.
Proof.
  unfold n_pit. rewrite Rmax_left by lra.
  pose proof (ub_start 22050 440 40 55100525891957 ltac:(lia) ltac:(lia) eq_refl) as U1.
  pose proof (ub_mul _ _ _ _ _ _ _ 48 10786280148417 2 (-32) U1 U1 eq_refl eq_refl eq_refl) as U2.
  pose proof (ub_mul _ _ _ _ _ _ _ 45 16891866283566 3 (-27) U2 U1 eq_refl eq_refl eq_refl) as U3.
  pose proof (ub_mul _ _ _ _ _ _ _ 44 16219425250590 6 (-10) U3 U3 eq_refl eq_refl eq_refl) as U6.
  pose proof (ub_mul _ _ _ _ _ _ _ 44 14953784299194 12 (24) U6 U6 eq_refl eq_refl eq_refl) as U12.
  pose proof (ub_mul _ _ _ _ _ _ _ 44 12711078901863 24 (92) U12 U12 eq_refl eq_refl eq_refl) as U24.
  pose proof (ub_mul _ _ _ _ _ _ _ 46 9953099779336 25 (98) U24 U1 eq_refl eq_refl eq_refl) as U25.
  pose proof (ub_mul _ _ _ _ _ _ _ 43 11262295085706 50 (239) U25 U25 eq_refl eq_refl eq_refl) as U50.
  pose proof (ub_mul _ _ _ _ _ _ _ 43 14419957846885 100 (521) U50 U50 eq_refl eq_refl eq_refl) as U100.
  pose proof (ub_mul _ _ _ _ _ _ _ 46 11291195686216 101 (527) U100 U1 eq_refl eq_refl eq_refl) as U101.
  pose proof (ub_mul _ _ _ _ _ _ _ 43 14494059999427 202 (1097) U101 U101 eq_refl eq_refl eq_refl) as U202.
  pose proof (ub_mul _ _ _ _ _ _ _ 44 11941538972849 404 (2238) U202 U202 eq_refl eq_refl eq_refl) as U404.
  pose proof (ub_mul _ _ _ _ _ _ _ 46 9350530339181 405 (2244) U404 U1 eq_refl eq_refl eq_refl) as U405.
  pose proof (ub_mul _ _ _ _ _ _ _ 43 9939915074022 810 (4531) U405 U405 eq_refl eq_refl eq_refl) as U810.
  pose proof (ub_mul _ _ _ _ _ _ _ 43 11232476899610 1620 (9105) U810 U810 eq_refl eq_refl eq_refl) as U1620.
  pose proof (ub_mul _ _ _ _ _ _ _ 45 17590633212813 1621 (9110) U1620 U1 eq_refl eq_refl eq_refl) as U1621.
  pose proof (ub_log2 22050 440 9154 1621 _ _ ltac:(lia) ltac:(lia) ltac:(lia) U1621 eq_refl). lra.
Qed.

(** C28: the normalised default of every parameter lies in the normalised range of the parameter, up to the rounding of the bounds
    that are written in the node list (2^-24). *)
Theorem C28_defaults coef2db n r p :
  coef2db 1 = 0 -> row_of n = Some r -> p ∈ nr_ins r -> ~ low_default r p ->
  Q2R (pr_min p) <= normalize coef2db (pr_norm p) (Q2R (pr_def p)) <= Q2R (pr_max p) + / 2 ^ 24.
Proof.
  intros Hdb Hr Hp Hlow. assert (r ∈ node_rows) as Hin.
  { unfold row_of in Hr. destruct (nid_kind n); [done|]. by eapply elem_of_list_lookup_2. }
  pose proof list_defaults as HL. rewrite forallb_forall in HL. apply elem_of_list_In, HL in Hin. rewrite forallb_forall in Hin.
  apply elem_of_list_In, Hin in Hp. replace (/ 2 ^ 24) with (/ 16777216) by (f_equal; lra).
  apply orb_prop in Hp as [Hp|Hp].
  { exfalso. apply Hlow. apply andb_prop in Hp as [E Hp]. apply String.eqb_eq in E. split; [done|].
    apply orb_prop in Hp as [Hp|Hp]; apply String.eqb_eq in Hp; eauto. }
  assert (forall lo hi, lo < hi -> lo <= 0 -> 0 <= hi -> db_def p = true -> Q2R (pr_min p) <= n_db coef2db lo hi (Q2R (pr_def p)) <= Q2R (pr_max p) + / 16777216) as HD.
  { intros lo hi Hlt H1 H2 Hd. unfold db_def in Hd. apply andb_prop in Hd as [Hd H5]. apply andb_prop in Hd as [H3 H4].
    apply Qeq_bool_R in H3. apply Qle_bool_R in H4, H5. rewrite H3. replace (Q2R 1) with 1 in * by (unfold Q2R; cbn; lra).
    replace (Q2R 0) with 0 in * by (unfold Q2R; cbn; lra).
    unfold n_db. rewrite Hdb. assert (0 <= (0 - lo) / (hi - lo)) by (apply Rle_mult_inv_pos; lra).
    assert ((0 - lo) / (hi - lo) <= 1).
    { apply (Rmult_le_reg_r (hi - lo)); [lra|]. unfold Rdiv. rewrite Rmult_assoc, Rinv_l by lra. lra. }
    rewrite Rabs_pos_eq by lra. lra. }
  assert (forall f lo hi, (forall x, Q2R lo <= x <= Q2R hi -> 0 <= f x <= 1) -> scaled_def lo hi p = true ->
    Q2R (pr_min p) <= f (Q2R (pr_def p)) <= Q2R (pr_max p) + / 16777216) as HS.
  { intros f lo hi Hf Hd. unfold scaled_def in Hd. apply andb_prop in Hd as [Hd H4]. apply andb_prop in Hd as [Hd H3]. apply andb_prop in Hd as [H1 H2].
    apply Qle_bool_R in H1, H2, H3, H4. specialize (Hf _ (conj H1 H2)). replace (Q2R 1) with 1 in * by (unfold Q2R; cbn; lra).
    replace (Q2R 0) with 0 in * by (unfold Q2R; cbn; lra). lra. }
  unfold def_ok in Hp. destruct (pr_norm p); cbn [normalize] in *.
  - apply andb_prop in Hp as [H1 H2]. apply Qle_bool_R in H1, H2. lra.
  - apply HD; [lra..|done].
  - apply HD; [lra..|done].
  - apply HD; [lra..|done].
  - apply andb_prop in Hp as [H1 Hp]. apply Qle_bool_R in H1. replace (Q2R 0) with 0 in * by (unfold Q2R; cbn; lra).
    apply orb_prop in Hp as [Hp|Hp]; [apply orb_prop in Hp as [Hp|Hp]|]; apply andb_prop in Hp as [H2 H3]; apply Qeq_bool_R in H2; apply Qle_bool_R in H3; rewrite H2.
    + replace (Q2R 440) with 440 by (unfold Q2R; cbn; lra). replace (Q2R 0) with 0 in * by (unfold Q2R; cbn; lra). rewrite n_pit_440. lra.
    + replace (Q2R 1000) with 1000 by (unfold Q2R; cbn; lra). replace (Q2R (1 # 5)) with (1 / 5) in * by (unfold Q2R; cbn; lra). pose proof n_pit_1000. lra.
    + replace (Q2R 22050) with 22050 by (unfold Q2R; cbn; lra).
      replace (Q2R (5647131 # 10000000)) with (5647131 / 10000000) in * by (unfold Q2R; cbn; lra). pose proof n_pit_22050. lra.
  - apply andb_prop in Hp as [H1 H2]. apply Qle_bool_R in H1, H2. rewrite Q2R_div in * by done. replace (Q2R 120) with 120 in * by (unfold Q2R; cbn; lra).
    unfold n_det. lra.
  - apply (HS _ _ _) with (2 := Hp). unfold Q2R; cbn. intros x Hx. apply (sp_norm _ _ _ _ _ _ (proj1 (proj2 (C41_scales 0 50 ltac:(lra))))). lra.
  - apply (HS _ _ _) with (2 := Hp). unfold Q2R; cbn. intros x Hx. apply (sp_norm _ _ _ _ _ _ (proj1 (proj2 (C41_scales 0 1000 ltac:(lra))))). lra.
  - apply (HS _ _ _) with (2 := Hp). unfold Q2R; cbn. intros x Hx. apply (sp_norm _ _ _ _ _ _ (proj2 (proj2 (proj2 (C41_scales (1/10) 300000 ltac:(lra)))))). lra.
  - apply (HS _ _ _) with (2 := Hp). unfold Q2R; cbn. intros x Hx. apply (sp_norm _ _ _ _ _ _ (proj1 (proj2 (C41_scales (1/2) 5000 ltac:(lra))))). lra.
  - apply (HS _ _ _) with (2 := Hp). unfold Q2R; cbn. intros x Hx. apply (sp_norm _ _ _ _ _ _ (proj1 (proj2 (C41_scales (1/10) 1000 ltac:(lra))))). lra.
  - apply (HS _ _ _) with (2 := Hp). unfold Q2R; cbn. intros x Hx. apply (sp_norm _ _ _ _ _ _ (proj1 (proj2 (C41_scales 0 5000 ltac:(lra))))). lra.
  - apply (HS _ _ _) with (2 := Hp). unfold Q2R; cbn. intros x Hx. apply (sp_norm _ _ _ _ _ _ (proj1 (C41_scales 0 20 ltac:(lra)))). lra.
Qed.
Print Assumptions C28_defaults.

(** The two exceptions are real: their defaults are below the least normalised value. *)
Theorem C28_defaults_refuted : exists n r p, row_of n = Some r /\ p ∈ nr_ins r /\
  forall coef2db, normalize coef2db (pr_norm p) (Q2R (pr_def p)) < Q2R (pr_min p) - 1 / 2.
Proof.
  destruct (list_find (fun r => String.eqb (nr_str r) "pverb"%string) node_rows) as [[k r]|] eqn:E; [|vm_compute in E; discriminate].
  exists (NId (S k) 0), r.
  assert (exists p, p ∈ nr_ins r /\ pr_norm p = SPit /\ pr_def p = (0 # 1)%Q /\ pr_min p = (-1 # 1)%Q) as (p & Hp & H1 & H2 & H3).
  { vm_compute in E. injection E as <- <-. cbn [nr_ins]. eexists. split; [|split; [|split]].
    { do 6 apply elem_of_list_further. apply elem_of_list_here. } all: reflexivity. }
  exists p. split. { apply list_find_Some in E as (E & _). unfold row_of. cbn. by rewrite E. } split; [done|].
  intros c. rewrite H1, H2, H3. cbn [normalize]. replace (Q2R (0 # 1)) with 0 by (unfold Q2R; cbn; lra).
  replace (Q2R (-1 # 1)) with (-1) by (unfold Q2R; cbn; lra). unfold n_pit. rewrite Rmax_right by lra. pose proof ln2_pos as Hl.
  enough (ln (1 / 100 / 440) < - 15 * ln 2) as H.
  { apply (Rmult_lt_compat_r (/ ln 2)) in H; [|by apply Rinv_0_lt_compat]. rewrite (Rmult_assoc (-15)), Rinv_r in H by lra. unfold Rdiv at 2. lra. }
  replace (-15 * ln 2) with (ln (/ 2 ^ 15)). { apply ln_increasing; lra. }
  rewrite ln_Rinv, ln_pow by lra. replace (INR 15) with 15 by (cbn; lra). lra.
Qed.
Print Assumptions C28_defaults_refuted.

(** The statements apply: the amplifier's gain and the oscillator's frequency *)
Example C41_example : exists r p, row_of (NId 1 0) = Some r /\ p ∈ nr_ins r /\ pr_norm p = SGain /\ ~ low_default r p.
Proof.
  do 2 eexists. split; [reflexivity|]. split. { apply elem_of_list_further, elem_of_list_here. } split; [reflexivity|]. intros [H _]. done.
Qed.
Example C41_pitch_example : n_pit 440 = 0 /\ d_pit 0 = 440 /\ n_pit 880 = 1 / 10 /\ d_pit (1 / 10) = 880.
Proof.
  pose proof ln2_pos as Hl. unfold d_pit, rclamp. split; [apply n_pit_440|].
  repeat (destruct (Rlt_dec _ _); [lra|]). split. { replace (0 * 10) with 0 by lra. rewrite Rpower_O by lra. lra. } split.
  - unfold n_pit. rewrite Rmax_left by lra. replace (880 / 440) with 2 by field. field. lra.
  - replace (1 / 10 * 10) with 1 by field. rewrite Rpower_1 by lra. lra.
Qed.
