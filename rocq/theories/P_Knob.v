(** Properties of knob rounding: C56 *)
From stdpp Require Import strings.
From Verif Require Import Base M_Nodes S_Nodes M_Norm S_Norm P_Norm M_Knob S_Knob L_Knob L_Knob2.
From Coq Require Import Reals Lra Psatz Qreals QArith.
Open Scope R_scope.

(** ** the table *)
Definition entry (r : nrow) (q : prow) : option (rkind * stepk) :=
  let* row := first (fun e => String.eqb (fst e) (nr_str r)) knob_rows in
  let* e := first (fun e => String.eqb (fst (fst e)) (pr_name q)) (snd row) in
  Some (snd (fst e), snd e).
Definition is (q : prow) (s : scale) (lo hi : Q) : bool := scale_eqb (pr_denorm q) s && Qeq_bool (pr_min q) lo && Qeq_bool (pr_max q) hi.
Definition knob_okb (q : prow) (k : rkind) : bool :=
  match k with
  | RId => Qle_bool (pr_min q) (pr_max q)
  | RSig => is q SId (-1) 1
  | RVol => is q SVol 0 1
  | RGain => is q SGain 0 1
  | RDriv => is q SDriv 0 1
  | RDet => is q SDet (-2 # 10) (2 # 10)
  | RDc => is q SDeclick 0 1
  | REms => is q SEnv 0 1
  | RTms => is q STime 0 1
  | RFms => is q SFtme 0 1
  | RTmz => is q STimz 0 1
  | RFq => is q SPit (-1) (pr_max q) && Qle_bool (-1) (pr_max q) && Qle_bool (pr_max q) 1
  | RVps => is q SVps 0 1
  | RLfot => is q SLfot 0 1
  end.
Definition entry_okb (r : nrow) (q : prow) : bool :=
  match entry r q with Some (k, _) => knob_okb q k && Qle_bool (pr_max q) 1 | None => false end.
Lemma list_knobs : forallb (fun r => forallb (entry_okb r) (nr_ins r)) node_rows = true.
Proof. vm_compute. reflexivity. Qed.

Lemma knob_of_entry p : knob_of p = (let* r := row_of (pa_node p) in
  let* q := first (fun q => pr_idx q =? pa_idx p)%nat (nr_ins r) in let* e := entry r q in Some (q, e.1, e.2)).
Proof.
  unfold knob_of, entry. destruct (row_of (pa_node p)) as [r|]; [|done]. cbn [mbind option_bind].
  destruct (first _ (nr_ins r)) as [q|]; [|done]. cbn [mbind option_bind].
  destruct (first _ knob_rows) as [row|]; [|done]. cbn [mbind option_bind]. by destruct (first _ (snd row)).
Qed.
Lemma first_in {A} (f : A -> bool) l x : first f l = Some x -> x ∈ l.
Proof.
  unfold first. destruct (list_find f l) as [[i y]|] eqn:E; [|done]. cbn. intros [= ->].
  apply list_find_Some in E as (E & _). by eapply elem_of_list_lookup_2.
Qed.
Lemma entry_ok p r q : row_of (pa_node p) = Some r -> first (fun q => pr_idx q =? pa_idx p)%nat (nr_ins r) = Some q -> entry_okb r q = true.
Proof.
  intros Hr Hq. apply first_in in Hq. pose proof list_knobs as HL. rewrite forallb_forall in HL.
  assert (r ∈ node_rows) as Hin.
  { unfold row_of in Hr. destruct (nid_kind (pa_node p)); [done|]. by eapply elem_of_list_lookup_2. }
  apply elem_of_list_In, HL in Hin. rewrite forallb_forall in Hin. by apply Hin, elem_of_list_In.
Qed.
Lemma knob_ok p q k s : knob_of p = Some (q, k, s) -> knob_okb q k = true /\ Qle_bool (pr_max q) 1 = true.
Proof.
  rewrite knob_of_entry. intros H. apply bind_Some in H as (r & Er & H). apply bind_Some in H as (q' & Eq & H).
  apply bind_Some in H as (e & Ee & H). injection H as -> <- <-. pose proof (entry_ok p r q Er Eq) as HO. unfold entry_okb in HO.
  rewrite Ee in HO. destruct e. apply andb_prop in HO. done.
Qed.
(** Every parameter with a range has an entry *)
Lemma knob_exists p lo hi : param_min_max p = Some (lo, hi) -> exists q k s, knob_of p = Some (q, k, s) /\ pr_min q = lo /\ pr_max q = hi.
Proof.
  unfold param_min_max. intros H. apply bind_Some in H as (r & Er & H). destruct (first _ (nr_ins r)) as [q|] eqn:Eq; [|done].
  cbn [fmap option_fmap option_map] in H. injection H as <- <-. pose proof (entry_ok p r q Er Eq) as HO. unfold entry_okb in HO.
  destruct (entry r q) as [[k s]|] eqn:Ee; [|done]. exists q, k, s. split; [|done]. rewrite knob_of_entry, Er. cbn [mbind option_bind].
  rewrite Eq. cbn [mbind option_bind]. rewrite Ee. done.
Qed.

Lemma Q2R_const (a b : Q) x : Qeq_bool a b = true -> Q2R b = x -> Q2R a = x.
Proof. intros H <-. apply Qeq_eqR. by apply Qeq_bool_iff. Qed.
Lemma is_spec q s lo hi x y : is q s lo hi = true -> Q2R lo = x -> Q2R hi = y -> pr_denorm q = s /\ Q2R (pr_min q) = x /\ Q2R (pr_max q) = y.
Proof.
  unfold is. intros [[H1 H2]%andb_prop H3]%andb_prop Hx Hy. split; [by apply scale_eqb_eq|]. split; by eapply Q2R_const.
Qed.
Ltac q2r := unfold Q2R; cbn; lra.
Ltac isp HO := first
  [ apply (is_spec _ _ _ _ (-1) 1) in HO; [|q2r|q2r] | apply (is_spec _ _ _ _ 0 1) in HO; [|q2r|q2r]
  | apply (is_spec _ _ _ _ (-(2 / 10)) (2 / 10)) in HO; [|q2r|q2r] ].

Definition exc (k : rkind) (coarse : bool) (y : R) : Prop := k = RFms /\ coarse = true /\ y = 2 / 10.
Lemma kfacts_exc r m G (e1 e2 : R -> Prop) lo hi : (forall y, e1 y -> e2 y) -> kfacts r m G e1 lo hi -> kfacts r m G e2 lo hi.
Proof. intros He [H1 H2 H3]. split; [done|done|]. intros v Hv. destruct (H3 v Hv) as [? [?|[?|[?|?]]]]; auto 6. Qed.
Lemma no_exc_any (P : R -> Prop) y : no_exc y -> P y.
Proof. intros []. Qed.

Lemma knob_facts c2d d2c p q k s coarse : (forall d, -90 <= d <= 24 -> c2d (d2c d) = d) -> knob_of p = Some (q, k, s) ->
  kfacts (fun v => param_round c2d d2c p v coarse) (knob_value c2d d2c k coarse p) (kgrid k coarse) (exc k coarse) (Q2R (pr_min q)) (Q2R (pr_max q)).
Proof.
  intros Hdb Hk. destruct (knob_ok _ _ _ _ Hk) as [HO _]. unfold param_round, knob_value, param_denorm. rewrite Hk.
  destruct k; cbn [knob_okb] in HO; cbn [round_fun];
    try (isp HO; destruct HO as (Es & El & Eh); rewrite ?Es, El, Eh; cbn [denormalize]).
  - apply Qle_bool_R in HO. split.
    + intros v Hv. rewrite !rclamp_id by (rewrite ?rclamp_id; lra). done.
    + intros v w H1 H2 H3. rewrite !rclamp_id by lra. done.
    + intros v Hv. rewrite !rclamp_id by lra. split; [done|left; exact I].
  - apply (kfacts_exc _ _ _ no_exc); [apply no_exc_any|]. apply kf_sig.
  - apply (kfacts_exc _ _ _ no_exc); [apply no_exc_any|]. apply kf_db; first [lra|mult_tac|intros d Hd; apply Hdb; lra].
  - apply (kfacts_exc _ _ _ no_exc); [apply no_exc_any|]. apply kf_db; first [lra|mult_tac|intros d Hd; apply Hdb; lra].
  - apply (kfacts_exc _ _ _ no_exc); [apply no_exc_any|]. apply kf_db; first [lra|mult_tac|intros d Hd; apply Hdb; lra].
  - apply (kfacts_exc _ _ _ no_exc); [apply no_exc_any|]. apply kf_det.
  - apply (kfacts_exc _ _ _ no_exc); [apply no_exc_any|]. destruct coarse; [apply (kf_ms 0 50 true)|apply (kf_ms 0 50 false)]; first [lra|mult_tac].
  - apply (kfacts_exc _ _ _ no_exc); [apply no_exc_any|]. destruct coarse; [apply (kf_ms 0 1000 true)|apply (kf_ms 0 1000 false)]; first [lra|mult_tac].
  - apply (kfacts_exc _ _ _ no_exc); [apply no_exc_any|]. apply kf_tms; [lra|lra|..].
    + destruct coarse; [|pw_tac]. unfold tms_l. cbn [pw]. destruct (Rlt_dec (1 / 2) 100); [|lra]. rewrite <- q_one, rround_half. lra.
    + destruct coarse; [unfold tms_l|]; pw_tac.
  - destruct coarse.
    + apply (kfacts_exc _ _ _ fms_exc); [by intros y Hy|]. apply kf_fms_coarse.
    + apply (kfacts_exc _ _ _ no_exc); [apply no_exc_any|]. apply (kf_tms (1 / 10) 1000 false); [lra|lra|pw_tac|pw_tac].
  - apply (kfacts_exc _ _ _ no_exc); [apply no_exc_any|]. apply kf_tms; [lra|lra|..]; (destruct coarse; [unfold tms_l|]; pw_tac).
  - apply andb_prop in HO as [[HO H1]%andb_prop H2]. apply (is_spec _ _ _ _ (-1) (Q2R (pr_max q))) in HO as (Es & El & _); [|q2r|done]. rewrite ?Es, El. cbn [denormalize].
    apply Qle_bool_R in H1, H2. replace (Q2R (-1)) with (-1) in H1 by q2r. replace (Q2R 1) with 1 in H2 by q2r.
    apply (kfacts_exc _ _ _ no_exc); [apply no_exc_any|]. destruct coarse; [by apply kf_fq_coarse|by apply kf_fq_fine].
  - apply (kfacts_exc _ _ _ no_exc); [apply no_exc_any|]. apply kf_vps.
  - apply (kfacts_exc _ _ _ no_exc); [apply no_exc_any|]. apply kf_lfot.
Qed.

(** ** the theorems; arithmetic is exact, and the decibel conversions of the crate synfx_dsp are inverse to each other where they are used *)

(** C56: a rounded value lies in the range of the parameter, whatever the value was *)
Theorem C56_range c2d d2c p lo hi v coarse : param_min_max p = Some (lo, hi) ->
  Q2R lo <= param_round c2d d2c p v coarse <= Q2R hi.
Proof.
  intros H. destruct (knob_exists _ _ _ H) as (q & k & s & Hk & <- & <-). unfold param_round. rewrite Hk. apply rclamp_range.
  destruct (knob_ok _ _ _ _ Hk) as [HO _].
  destruct k; cbn [knob_okb] in HO; try (isp HO; destruct HO as (Es & El & Eh); rewrite El, Eh; lra).
  - by apply Qle_bool_R.
  - apply andb_prop in HO as [[HO H1]%andb_prop H2]. apply (is_spec _ _ _ _ (-1) (Q2R (pr_max q))) in HO as (Es & El & _); [|q2r|done]. rewrite El.
    apply Qle_bool_R in H1. replace (Q2R (-1)) with (-1) in H1 by q2r. lra.
Qed.
Print Assumptions C56_range.

(** C56: rounding again changes nothing *)
Theorem C56_idempotent c2d d2c p lo hi v coarse : (forall d, -90 <= d <= 24 -> c2d (d2c d) = d) ->
  param_min_max p = Some (lo, hi) -> Q2R lo <= v <= Q2R hi ->
  param_round c2d d2c p (param_round c2d d2c p v coarse) coarse = param_round c2d d2c p v coarse.
Proof.
  intros Hdb H Hv. destruct (knob_exists _ _ _ H) as (q & k & s & Hk & <- & <-).
  by apply (kf_idem _ _ _ _ _ _ (knob_facts c2d d2c p q k s coarse Hdb Hk)).
Qed.
Print Assumptions C56_idempotent.

(** C56: rounding never changes the order of two values *)
Theorem C56_monotone c2d d2c p lo hi v w coarse : (forall d, -90 <= d <= 24 -> c2d (d2c d) = d) ->
  param_min_max p = Some (lo, hi) -> Q2R lo <= v -> v <= w -> w <= Q2R hi ->
  param_round c2d d2c p v coarse <= param_round c2d d2c p w coarse.
Proof.
  intros Hdb H H1 H2 H3. destruct (knob_exists _ _ _ H) as (q & k & s & Hk & <- & <-).
  by apply (kf_mono _ _ _ _ _ _ (knob_facts c2d d2c p q k s coarse Hdb Hk)).
Qed.
Print Assumptions C56_monotone.

(** C56: the rounded value is at most half a step of the documented grid away, and on the grid, unless it was clamped to an end of the
    range; the exception are the times from 0.1 ms on, where the coarse rounding makes 0.2 ms of what is below 0.5 ms *)
Theorem C56_grid c2d d2c p q k s v coarse : (forall d, -90 <= d <= 24 -> c2d (d2c d) = d) ->
  knob_of p = Some (q, k, s) -> Q2R (pr_min q) <= v <= Q2R (pr_max q) ->
  let r := param_round c2d d2c p v coarse in
  let x := knob_value c2d d2c k coarse p v in
  let y := knob_value c2d d2c k coarse p r in
  let g := grid_from (fst (knob_grid k coarse)) (snd (knob_grid k coarse)) x in
  near g x y /\ (on_grid g y \/ r = Q2R (pr_min q) \/ r = Q2R (pr_max q) \/ (k = RFms /\ coarse = true /\ y = 2 / 10)).
Proof. intros Hdb Hk Hv. apply (kf_grid _ _ _ _ _ _ (knob_facts c2d d2c p q k s coarse Hdb Hk) v Hv). Qed.
Print Assumptions C56_grid.

Lemma tms_in a b : 0 <= a -> a <= pw 1 tms_l a -> pw 1 tms_l b <= b -> forall x, a <= x <= b -> a <= pw 1 tms_l x <= b.
Proof.
  intros H0 Ha Hb x Hx. pose proof (pw_mono _ _ _ a x tms_wf H0 ltac:(lra)). pose proof (pw_mono _ _ _ x b tms_wf ltac:(lra) ltac:(lra)). lra.
Qed.
Lemma tms_nested a b v : a < b -> 0 <= a -> a <= pw 1 tms_l a -> pw 1 tms_l b <= b -> 0 <= v <= 1 ->
  rclamp (r_tms (n_exp a b) (d_exp a b) (rclamp (r_tms (n_exp a b) (d_exp a b) v true) 0 1) false) 0 1 =
  rclamp (r_tms (n_exp a b) (d_exp a b) v true) 0 1.
Proof.
  intros Hab H0 Ha Hb Hv. destruct (C41_scales a b Hab) as (_ & sp & _ & _). rewrite !r_tms_pw.
  apply (nested (n_exp a b) (d_exp a b) (pw 1 tms_l) (pw (1 / 10) []) a b); [done| |done].
  intros x Hx. split; [by apply tms_in|apply tms_tenth].
Qed.
Lemma ms_nested a b v : a < b -> mult 1 a -> mult 1 b -> 0 <= v <= 1 ->
  rclamp (r_ms (n_exp a b) (d_exp a b) (rclamp (r_ms (n_exp a b) (d_exp a b) v true) 0 1) false) 0 1 =
  rclamp (r_ms (n_exp a b) (d_exp a b) v true) 0 1.
Proof.
  intros Hab Ha Hb Hv. destruct (C41_scales a b Hab) as (_ & sp & _ & _). rewrite !r_ms_pw.
  apply (nested (n_exp a b) (d_exp a b) (pw 1 []) (pw (1 / 10) []) a b); [done| |done].
  intros x Hx. cbn [pw]. split; [apply q_in; first [done|lra]|apply (q_refine' _ _ 10); lra].
Qed.
Lemma db_nested c2d d2c min max v : min < max -> mult (1 / 2) min -> mult (1 / 2) max ->
  (forall d, min <= d <= max -> c2d (d2c d) = d) -> 0 <= v <= 1 ->
  rclamp (r_db c2d d2c min max (rclamp (r_db c2d d2c min max v true) 0 1) false) 0 1 = rclamp (r_db c2d d2c min max v true) 0 1.
Proof.
  intros Hm M1 M2 Hdb Hv. destruct (C41_scales min max Hm) as (sp & _).
  assert (forall v, 0 <= v <= 1 -> c2d (d_db d2c min max v) = d_lin min max v) as Ed.
  { intros w Hw. unfold d_db, d_lin. rewrite Hdb by nra. lra. }
  assert (forall y, min <= y <= max -> n_db c2d min max (d2c y) = n_lin min max y) as En.
  { intros y Hy. unfold n_db, n_lin. by rewrite Hdb by done. }
  assert (min <= d_lin min max v <= max) as Hd by by apply (sp_denorm _ _ _ _ _ _ sp).
  pose proof (q_in (1 / 2) (d_lin min max v) min max ltac:(lra) M1 M2 Hd) as Hq.
  unfold r_db. cbv zeta. rewrite (Ed v) by done. rewrite q_half, q_tenth, (En (q (1 / 2) _)) by done.
  rewrite Ed by (apply rclamp_range; lra).
  pose proof (nested (n_lin min max) (d_lin min max) (q (1 / 2)) (q (1 / 10)) min max 0 1 v sp) as HN.
  rewrite (rclamp_id 0 1 (n_lin min max (q (1 / 2) (d_lin min max v)))) in * by (by apply (sp_norm _ _ _ _ _ _ sp)).
  rewrite (sp_back _ _ _ _ _ _ sp) in * by done.
  rewrite (q_refine' (1 / 10) (1 / 2) 5) in * by lra. rewrite En by done. apply rclamp_id. by apply (sp_norm _ _ _ _ _ _ sp).
Qed.

(** C56: fine rounding does not move a coarsely rounded value, except for frequencies *)
Theorem C56_nested c2d d2c p row k s v : (forall d, -90 <= d <= 24 -> c2d (d2c d) = d) ->
  knob_of p = Some (row, k, s) -> k <> RFq -> Q2R (pr_min row) <= v <= Q2R (pr_max row) ->
  param_round c2d d2c p (param_round c2d d2c p v true) false = param_round c2d d2c p v true.
Proof.
  intros Hdb Hk Hn Hv. destruct (knob_ok _ _ _ _ Hk) as [HO _]. unfold param_round. rewrite Hk.
  destruct k; cbn [knob_okb] in HO; cbn [round_fun];
    try (isp HO; destruct HO as (Es & El & Eh); rewrite El, Eh in *).
  - rewrite !rclamp_id by (rewrite ?rclamp_id; lra). done.
  - unfold r_s. rewrite !q_div by lra.
    apply (nested (fun x => x) (fun x => x) (q (1 / 10)) (q (1 / 100)) (-1) 1); [apply pair_id| |done].
    intros x Hx. split; [apply q_in; first [lra|mult_tac]|apply (q_refine' _ _ 10); lra].
  - apply db_nested; first [lra|mult_tac|intros d Hd; apply Hdb; lra].
  - apply db_nested; first [lra|mult_tac|intros d Hd; apply Hdb; lra].
  - apply db_nested; first [lra|mult_tac|intros d Hd; apply Hdb; lra].
  - destruct C41_pitch as [_ sp]. specialize (sp (-24) 24 ltac:(lra)).
    replace (n_det (-24)) with (-(2 / 10)) in sp by (unfold n_det; lra). replace (n_det 24) with (2 / 10) in sp by (unfold n_det; lra).
    unfold r_det. rewrite q_div by lra. rewrite q_one.
    apply (nested n_det d_det (q 1) (q (1 / 100)) (-24) 24); [done| |done].
    intros x Hx. split; [apply q_in; first [lra|mult_tac]|apply (q_refine' _ _ 100); lra].
  - apply ms_nested; first [lra|mult_tac].
  - apply ms_nested; first [lra|mult_tac].
  - apply tms_nested; [lra|lra| | |done].
    + unfold tms_l. cbn [pw]. destruct (Rlt_dec (1 / 2) 100); [|lra]. rewrite <- q_one, rround_half. lra.
    + unfold tms_l. pw_tac.
  - destruct (C41_scales (1 / 10) 1000) as (_ & sp & _ & _); [lra|]. rewrite !r_tms_pw.
    rewrite fms_same by (by apply (sp_denorm _ _ _ _ _ _ sp)).
    apply (nested (n_exp (1 / 10) 1000) (d_exp (1 / 10) 1000) fms_g (pw (1 / 10) []) (1 / 10) 1000); [done| |done].
    intros x Hx. split; [|apply fms_tenth]. unfold fms_g. destruct (Rlt_dec x (1 / 2)); [lra|]. pose proof (fms_ge x ltac:(lra)). lra.
  - apply tms_nested; [lra|lra| | |done]; unfold tms_l; pw_tac.
  - done.
  - destruct (C41_scales 0 20) as (sp & _); [lra|]. unfold r_vps. rewrite q_div by lra. rewrite q_one.
    apply (nested (n_lin 0 20) (d_lin 0 20) (q 1) (q (1 / 10)) 0 20); [done| |done].
    intros x Hx. split; [apply q_in; first [lra|mult_tac]|apply (q_refine' _ _ 10); lra].
  - destruct (C41_scales (1 / 10) 300000) as (_ & _ & _ & sp); [lra|]. rewrite !r_lfot_g.
    apply (nested (n_exp6 (1 / 10) 300000) (d_exp6 (1 / 10) 300000) (lfot_g true) (lfot_g false) (1 / 10) 300000); [done| |done].
    intros x Hx. split; [by apply lfot_range|by apply lfot_nested].
Qed.
Print Assumptions C56_nested.

(** For frequencies it does: two octaves above 440 Hz are 1760 Hz, which the fine rounding makes 1800 Hz *)
Theorem C56_nested_refuted c2d d2c : exists p lo hi v, param_min_max p = Some (lo, hi) /\ Q2R lo <= v <= Q2R hi /\
  param_denorm d2c p (param_round c2d d2c p v true) = 1760 /\
  param_denorm d2c p (param_round c2d d2c p (param_round c2d d2c p v true) false) = 1800.
Proof.
  set (p := ParamId "freq" (node_from_str "bosc") 0).
  assert (exists q s, knob_of p = Some (q, RFq, s) /\ pr_denorm q = SPit /\ pr_min q = (-1 # 1)%Q /\ pr_max q = (5647131 # 10000000)%Q) as (q & s & Hk & Hd & Hlo & Hhi).
  { eexists _, _. split; [vm_compute; reflexivity|]. done. }
  assert (param_min_max p = Some ((-1 # 1)%Q, (5647131 # 10000000)%Q)) as Hm by (vm_compute; reflexivity).
  clearbody p. assert (Q2R (-1 # 1) = -1) as E1 by q2r. assert (Q2R (5647131 # 10000000) = 5647131 / 10000000) as E2 by q2r.
  exists p, (-1 # 1)%Q, (5647131 # 10000000)%Q, (2 / 10). split; [done|]. rewrite E1, E2. split; [lra|].
  unfold param_denorm, param_round. rewrite !Hk, Hd, Hlo, Hhi, E1, E2. cbn [denormalize round_fun].
  assert (d_pit (2 / 10) = 1760) as Ed.
  { unfold d_pit. replace (2 / 10 * 10) with (INR 2) by (simpl; lra). rewrite rclamp_id by (simpl; lra). rewrite Rpower_pow by lra. simpl. lra. }
  assert (r_fq (2 / 10) true = 2 / 10) as Er.
  { unfold r_fq. rewrite q_div by lra. apply q_fix; [lra|]. mult_tac. }
  rewrite Er. rewrite (rclamp_id _ _ (2 / 10)) by lra. split; [done|].
  rewrite r_fq_pw, Ed. assert (pw (1 / 10) fq_l 1760 = 1800) as ->.
  { unfold fq_l. cbn [pw]. repeat match goal with |- context [Rlt_dec ?x ?y] => destruct (Rlt_dec x y); try lra end.
    pose proof (q_near 100 1760 ltac:(lra)) as Hq. destruct (q_mult 100 1760) as [k E]. rewrite E in *. apply rabs_inv in Hq.
    assert (k = 18%Z) as ->; [|lra]. apply Z_close. apply Rabs_def1; lra. }
  destruct C41_pitch as [sp _]. pose proof ln2_pos as Hl.
  assert (440 * Rpower 2 (-10) <= 1800 <= 440 * Rpower 2 10) as Hr.
  { assert (Rpower 2 10 = 1024) as E3 by (replace 10 with (INR 10) by (simpl; lra); rewrite Rpower_pow by lra; simpl; lra).
    replace (-10) with (- (10)) by lra. rewrite Rpower_Ropp, E3. lra. }
  assert (2 / 10 < n_pit 1800) as H1.
  { rewrite <- (sp_forth _ _ _ _ _ _ sp (2 / 10)) by lra. apply (sp_inc _ _ _ _ _ _ sp); rewrite ?Ed; [|lra|lra].
    rewrite <- Ed. apply (sp_denorm _ _ _ _ _ _ sp). lra. }
  assert (n_pit 1800 < 3 / 10) as H2.
  { rewrite <- (sp_forth _ _ _ _ _ _ sp (3 / 10)) by lra.
    assert (d_pit (3 / 10) = 3520) as Ed3.
    { unfold d_pit. replace (3 / 10 * 10) with (INR 3) by (simpl; lra). rewrite rclamp_id by (simpl; lra). rewrite Rpower_pow by lra. simpl. lra. }
    apply (sp_inc _ _ _ _ _ _ sp); rewrite ?Ed3; [lra|lra|]. rewrite <- Ed3. apply (sp_denorm _ _ _ _ _ _ sp). lra. }
  rewrite rclamp_id by lra. apply (sp_back _ _ _ _ _ _ sp). lra.
Qed.
Print Assumptions C56_nested_refuted.

(** Coarse rounding moves the shortest time of an all-pass filter, 0.1 ms, to 0.2 ms, though neither is a multiple of the step of 1 ms
    and the shortest time is in the range *)
Theorem C56_shortest_refuted c2d d2c : exists p, param_min_max p = Some ((0 # 1)%Q, (1 # 1)%Q) /\ param_denorm d2c p 0 = 1 / 10 /\
  param_denorm d2c p (param_round c2d d2c p 0 true) = 2 / 10.
Proof.
  set (p := ParamId "time" (node_from_str "allp") 1).
  assert (exists q s, knob_of p = Some (q, RFms, s) /\ pr_denorm q = SFtme /\ pr_min q = (0 # 1)%Q /\ pr_max q = (1 # 1)%Q) as (q & s & Hk & Hd & Hlo & Hhi).
  { eexists _, _. split; [vm_compute; reflexivity|]. done. }
  assert (param_min_max p = Some ((0 # 1)%Q, (1 # 1)%Q)) as Hm by (vm_compute; reflexivity).
  clearbody p. exists p. split; [done|]. unfold param_denorm, param_round. rewrite Hk, Hd, Hlo, Hhi. cbn [denormalize round_fun].
  assert (Q2R (0 # 1) = 0) as -> by q2r. assert (Q2R (1 # 1) = 1) as -> by q2r.
  destruct (C41_scales (1 / 10) 1000) as (_ & sp & _ & _); [lra|].
  assert (d_exp (1 / 10) 1000 0 = 1 / 10) as Ed by (unfold d_exp; lra). split; [done|].
  rewrite r_tms_pw, Ed, fms_same by lra. unfold fms_g. destruct (Rlt_dec (1 / 10) (1 / 2)); [|lra].
  rewrite rclamp_id by (apply (sp_norm _ _ _ _ _ _ sp); lra). apply (sp_back _ _ _ _ _ _ sp). lra.
Qed.
Print Assumptions C56_shortest_refuted.

(** What [param_steps] returns is the range of the parameter, for no parameter the number of steps of its knob *)
Theorem C56_steps_refuted p lo hi : param_min_max p = Some (lo, hi) ->
  param_steps p = Some (lo, hi) /\ exists c f, param_knob_steps p = Some (c, f) /\ lo <> inject_Z c /\ hi <> inject_Z f.
Proof.
  intros H. destruct (knob_exists _ _ _ H) as (q & k & s & Hk & <- & <-). destruct (knob_ok _ _ _ _ Hk) as [_ HO].
  assert (Q2R (pr_min q) <= Q2R (pr_max q)) as Hle.
  { pose proof (C56_range (fun x => x) (fun x => x) p _ _ 0 true H). lra. }
  unfold param_steps, param_knob_steps. rewrite Hk. split; [done|]. exists (steps s).1, (steps s).2. split; [by destruct s|].
  apply Qle_bool_R in HO. replace (Q2R 1) with 1 in HO by q2r.
  assert (forall x z, x = inject_Z z -> Q2R x <= 1 -> (z <= 1)%Z) as HZ.
  { intros x z -> Hx. rewrite Q2R_IZR in Hx. by apply le_IZR. }
  split; intros E; apply HZ in E; try lra; destruct s; cbn in E; lia.
Qed.
Print Assumptions C56_steps_refuted.

(** A case with its hypotheses: the LFO time of [tslfo]; 3 s stay 3 s, 3.3 s become 3.5 s with the coarse rounding *)
Example C56_case : let p := ParamId "time" (node_from_str "tslfo") 0 in
  (exists q s, knob_of p = Some (q, RLfot, s)) /\ param_min_max p = Some ((0 # 1)%Q, (1 # 1)%Q) /\
  lfot_g true 3000 = 3000 /\ lfot_g true 3300 = 3500 /\ lfot_g false 3300 = 3300.
Proof.
  split; [eexists _, _; vm_compute; reflexivity|]. split; [vm_compute; reflexivity|].
  unfold lfot_g, lfot_c, lfot_f. cbn [pw].
  repeat split; repeat match goal with |- context [Rlt_dec ?x ?y] => destruct (Rlt_dec x y); try lra end.
  - apply q_fix; [lra|]. exists 6%Z. lra.
  - pose proof (q_near 500 3300 ltac:(lra)) as Hq. destruct (q_mult 500 3300) as [k E]. rewrite E in *. apply rabs_inv in Hq.
    assert (k = 7%Z) as ->; [|lra]. apply Z_close. apply Rabs_def1; lra.
  - apply q_fix; [lra|]. exists 33%Z. lra.
Qed.
