(** Proofs about knob rounding: the rounding macros one by one *)
From stdpp Require Import strings.
From Verif Require Import Base M_Nodes S_Nodes M_Norm S_Norm P_Norm M_Knob S_Knob L_Knob.
From Coq Require Import Reals Lra Psatz Qreals QArith.
Open Scope R_scope.

Ltac mult_tac := unfold mult; first
  [ exists 0%Z; lra | exists 1%Z; lra | exists 2%Z; lra | exists 3%Z; lra | exists 4%Z; lra | exists 5%Z; lra | exists 10%Z; lra
  | exists 12%Z; lra | exists 15%Z; lra | exists 18%Z; lra | exists 20%Z; lra | exists 24%Z; lra | exists 25%Z; lra | exists 30%Z; lra
  | exists 36%Z; lra | exists 48%Z; lra | exists 50%Z; lra | exists 60%Z; lra | exists 100%Z; lra | exists 180%Z; lra | exists 200%Z; lra
  | exists 240%Z; lra | exists 250%Z; lra | exists 500%Z; lra | exists 600%Z; lra | exists 1000%Z; lra | exists 2400%Z; lra
  | exists 5000%Z; lra | exists 10000%Z; lra | exists 50000%Z; lra
  | exists (-1)%Z; lra | exists (-10)%Z; lra | exists (-24)%Z; lra | exists (-48)%Z; lra | exists (-100)%Z; lra | exists (-180)%Z; lra
  | exists (-240)%Z; lra | exists (-900)%Z; lra | exists (-2400)%Z; lra ].
Ltac wf_tac := cbn [wf]; repeat match goal with |- _ /\ _ => split | |- True => exact I | |- mult _ _ => mult_tac | |- _ => lra end.
Ltac pw_tac := cbn [pw]; repeat match goal with |- context [Rlt_dec ?x ?y] => destruct (Rlt_dec x y); try lra end;
  first [rewrite q_fix; [lra|lra|mult_tac] | lra].

Lemma q_one x : rround x = q 1 x.
Proof. unfold q. replace (x / 1) with x by field. by rewrite Rmult_1_r. Qed.
Lemma q_div x m : 0 < m -> rround (x * m) / m = q (1 / m) x.
Proof. intros H. unfold q. replace (x / (1 / m)) with (x * m) by (field; lra). field. lra. Qed.
Lemma q_half x : rround (x * 2) * (1 / 2) = q (1 / 2) x.
Proof. unfold q. by replace (x / (1 / 2)) with (x * 2) by field. Qed.
Lemma q_tenth x : rround (x * 10) * (1 / 10) = q (1 / 10) x.
Proof. unfold q. by replace (x / (1 / 10)) with (x * 10) by field. Qed.
Lemma rround_half : rround (1 / 2) = 1.
Proof.
  unfold rround. destruct (Rle_dec 0 (1 / 2)); [|lra]. replace (1 / 2 + 1 / 2) with 1 by lra. f_equal.
  pose proof (int_part_bounds 1) as [H1 H2]. apply (le_IZR _ 1) in H1. rewrite <- plus_IZR in H2. apply (lt_IZR 1) in H2. lia.
Qed.

Lemma pair_id a b : scale_pair (fun x => x) (fun x => x) a b a b.
Proof. by split. Qed.

Definition no_exc (x : R) : Prop := False.

Lemma kf_pw n d a b lo hi s l L exc : scale_pair n d a b lo hi -> lo <= hi -> a <= b -> wf L s l -> L <= a ->
  a <= pw s l a -> pw s l b <= b ->
  kfacts (fun v => rclamp (n (pw s l (d v))) lo hi) d (grid_from (Step s) (steps_grid l)) exc lo hi.
Proof.
  intros sp Hlh Hab Hw HL Ha Hb.
  assert (forall x, a <= x <= b -> a <= pw s l x <= b) as Hr.
  { intros x Hx. pose proof (pw_mono _ _ _ a x Hw HL ltac:(lra)). pose proof (pw_mono _ _ _ x b Hw ltac:(lra) ltac:(lra)). lra. }
  apply (round_facts n d (pw s l) a b lo hi lo hi); [done|lra|lra|lra|..].
  - intros x y H1 H2 H3. apply (pw_mono _ _ L); [done|lra|done].
  - intros x Hx _. apply (pw_idem _ _ L); [done|lra].
  - intros x Hx. left. by apply Hr.
  - intros x Hx. destruct (pw_grid s l L x Hw). split; [done|by left].
  - intros x Hx. left. apply grid_from_step.
Qed.

(** The functions that the macros round the denormalised value with *)
Definition tms_l : list (R * R) := [(100, 10); (1000, 100)].
Definition fq_l : list (R * R) := [(10, 1); (100, 10); (1000, 100); (10000, 1000)].
Definition lfot_c : list (R * R) := [(250, 50); (1500, 100); (2500, 500); (5000, 1000); (60000, 5000)].
Definition lfot_f : list (R * R) := [(100, 5); (1000, 10); (2500, 100); (25000, 500)].

Lemma tms_wf : wf 0 1 tms_l.
Proof. unfold tms_l. wf_tac. Qed.
Lemma fq_wf : wf 0 (1 / 10) fq_l.
Proof. unfold fq_l. wf_tac. Qed.
Lemma lfot_c_wf : wf 10 5 lfot_c.
Proof. unfold lfot_c. wf_tac. Qed.
Lemma lfot_f_wf : wf 10 1 lfot_f.
Proof. unfold lfot_f. wf_tac. Qed.

Lemma r_ms_pw n d x coarse : r_ms n d x coarse = n (pw (if coarse then 1 else 1 / 10) [] (d x)).
Proof. unfold r_ms. destruct coarse; cbn [pw]; [by rewrite q_one|]. by rewrite q_div by lra. Qed.
Lemma r_tms_pw n d x coarse : r_tms n d x coarse = n (if coarse then pw 1 tms_l (d x) else pw (1 / 10) [] (d x)).
Proof.
  unfold r_tms, tms_l. destruct coarse; cbn [pw]; [|by rewrite q_div by lra]. fold (q 100 (d x)). fold (q 10 (d x)).
  rewrite q_one. destruct (Rlt_dec 1000 (d x)), (Rlt_dec (d x) 100), (Rlt_dec 100 (d x)), (Rlt_dec (d x) 1000); try lra; try done.
  - assert (d x = 1000) as -> by lra. f_equal. rewrite !q_fix by first [lra|mult_tac]. done.
  - assert (d x = 100) as -> by lra. f_equal. rewrite !q_fix by first [lra|mult_tac]. done.
Qed.
Lemma r_fq_pw x : r_fq x false = n_pit (pw (1 / 10) fq_l (d_pit x)).
Proof.
  unfold r_fq, fq_l. cbn [pw]. rewrite q_div by lra. rewrite q_one. fold (q 10 (d_pit x)). fold (q 100 (d_pit x)). fold (q 1000 (d_pit x)).
  by destruct (Rlt_dec (d_pit x) 10), (Rlt_dec (d_pit x) 100), (Rlt_dec (d_pit x) 1000), (Rlt_dec (d_pit x) 10000).
Qed.

(** The reciprocal grid below 10 ms *)
Definition rec (s x : R) : R := 1000 / q s (1000 / x).
Definition lfot_g (coarse : bool) (x : R) : R :=
  if Rlt_dec x 10 then rec (if coarse then 10 else 1) x else if coarse then pw 5 lfot_c x else pw 1 lfot_f x.
Lemma r_lfot_g n d x coarse : r_lfot n d x coarse = n (lfot_g coarse (d x)).
Proof.
  unfold r_lfot, lfot_g, rec, lfot_c, lfot_f. destruct coarse; cbn [pw].
  - fold (q 10 (1000 / d x)). destruct (Rlt_dec (d x) 10); [done|].
    by destruct (Rlt_dec (d x) 250), (Rlt_dec (d x) 1500), (Rlt_dec (d x) 2500), (Rlt_dec (d x) 5000), (Rlt_dec (d x) 60000).
  - rewrite (q_one (1000 / d x)), (q_one (d x)). destruct (Rlt_dec (d x) 10); [done|].
    by destruct (Rlt_dec (d x) 100), (Rlt_dec (d x) 1000), (Rlt_dec (d x) 2500), (Rlt_dec (d x) 25000).
Qed.

Lemma div_le a b : 0 < a -> a <= b -> 1000 / b <= 1000 / a.
Proof. intros Ha Hab. unfold Rdiv. apply Rmult_le_compat_l; [lra|]. apply Rinv_le_contravar; lra. Qed.
Lemma div_div x : 0 < x -> 1000 / (1000 / x) = x.
Proof. intros H. field. lra. Qed.
Lemma div_at a b c : a * b = 1000 -> 0 < b -> c = 1000 / b -> c = a.
Proof. intros H Hb ->. apply (Rmult_eq_reg_r b); [|lra]. rewrite H. field. lra. Qed.
Lemma rec_q s x : s = 1 \/ s = 10 -> 1 / 10 <= x <= 10 -> 100 <= q s (1000 / x) <= 10000 /\ 1 / 10 <= rec s x <= 10.
Proof.
  intros Hs Hx. assert (100 <= 1000 / x <= 10000) as H.
  { split; [replace 100 with (1000 / 10) by field|replace 10000 with (1000 / (1 / 10)) by field]; apply div_le; lra. }
  assert (0 < s) as Hs0 by lra. assert (mult s 100) by (destruct Hs as [-> | ->]; mult_tac).
  assert (mult s 10000) by (destruct Hs as [-> | ->]; [exists 10000%Z|exists 1000%Z]; lra).
  assert (100 <= q s (1000 / x) <= 10000) as Hq by (split; [apply q_ge|apply q_le]; first [done|lra]).
  split; [done|]. unfold rec. split; [replace (1 / 10) with (1000 / 10000) by field|replace 10 with (1000 / 100) by field]; apply div_le; lra.
Qed.
Lemma rec_mono s x y : s = 1 \/ s = 10 -> 1 / 10 <= x -> x <= y -> y <= 10 -> rec s x <= rec s y.
Proof.
  intros Hs H1 H2 H3. destruct (rec_q s x Hs) as [Hx _]; [lra|]. destruct (rec_q s y Hs) as [Hy _]; [lra|].
  unfold rec. apply div_le; [lra|]. apply q_mono; [lra|]. apply div_le; lra.
Qed.
Lemma rec_idem s x : s = 1 \/ s = 10 -> 1 / 10 <= x <= 10 -> rec s (rec s x) = rec s x.
Proof.
  intros Hs Hx. destruct (rec_q s x Hs Hx) as [Hq _]. unfold rec. rewrite div_div by lra. by rewrite q_idem by lra.
Qed.

Lemma lfot_pw (coarse : bool) x : 10 <= x <= 300000 -> 10 <= (if coarse then pw 5 lfot_c x else pw 1 lfot_f x) <= 300000.
Proof.
  intros Hx. destruct coarse.
  - split; [apply (pw_ge _ _ _ _ lfot_c_wf); lra|]. apply (pw_le _ _ _ _ _ lfot_c_wf); [|lra|lra]. unfold lfot_c. pw_tac.
  - split; [apply (pw_ge _ _ _ _ lfot_f_wf); lra|]. apply (pw_le _ _ _ _ _ lfot_f_wf); [|lra|lra]. unfold lfot_f. pw_tac. 
Qed.
Lemma lfot_step (coarse : bool) : (if coarse then 10 else 1) = 1 \/ (if coarse then 10 else 1) = 10.
Proof. destruct coarse; [by right|by left]. Qed.
Lemma lfot_range (coarse : bool) x : 1 / 10 <= x <= 300000 -> 1 / 10 <= lfot_g coarse x <= 300000.
Proof.
  intros Hx. unfold lfot_g. destruct (Rlt_dec x 10).
  - destruct (rec_q _ x (lfot_step coarse)) as [_ H]; lra.
  - pose proof (lfot_pw coarse x ltac:(lra)). lra.
Qed.
Lemma lfot_mono (coarse : bool) x y : 1 / 10 <= x -> x <= y -> y <= 300000 -> lfot_g coarse x <= lfot_g coarse y.
Proof.
  intros H1 H2 H3. unfold lfot_g. destruct (Rlt_dec x 10), (Rlt_dec y 10); [| |lra|].
  - apply rec_mono; [apply lfot_step|lra..].
  - destruct (rec_q _ x (lfot_step coarse)) as [_ H]; [lra|]. pose proof (lfot_pw coarse y ltac:(lra)). lra.
  - destruct coarse; [apply (pw_mono _ _ _ _ _ lfot_c_wf)|apply (pw_mono _ _ _ _ _ lfot_f_wf)]; lra.
Qed.
Lemma lfot_idem (coarse : bool) x : 1 / 10 <= x <= 300000 -> lfot_g coarse (lfot_g coarse x) = lfot_g coarse x.
Proof.
  intros Hx. unfold lfot_g at 2 3. destruct (Rlt_dec x 10).
  - destruct (rec_q _ x (lfot_step coarse)) as [_ H]; [lra|]. unfold lfot_g. destruct (Rlt_dec _ 10).
    + apply rec_idem; [apply lfot_step|lra].
    + assert (rec (if coarse then 10 else 1) x = 10) as -> by lra. destruct coarse; [apply (pw_lo _ _ _ lfot_c_wf)|apply (pw_lo _ _ _ lfot_f_wf)].
  - pose proof (lfot_pw coarse x ltac:(lra)). unfold lfot_g. destruct (Rlt_dec _ 10); [lra|].
    destruct coarse; [apply (pw_idem _ _ _ _ lfot_c_wf)|apply (pw_idem _ _ _ _ lfot_f_wf)]; lra.
Qed.
Definition kgrid (k : rkind) (coarse : bool) (x : R) : grid := grid_from (knob_grid k coarse).1 (knob_grid k coarse).2 x.
Lemma rec_grid s x : s = 1 \/ s = 10 -> 1 / 10 <= x <= 10 -> near (Recip s) x (rec s x) /\ on_grid (Recip s) (rec s x).
Proof.
  intros Hs Hx. destruct (rec_q s x Hs Hx) as [Hq _]. unfold rec. cbn [near on_grid]. rewrite div_div by lra.
  split; [apply q_near; lra|apply q_mult].
Qed.
Lemma lfot_grid (coarse : bool) x : 1 / 10 <= x <= 300000 -> near (kgrid RLfot coarse x) x (lfot_g coarse x) /\ on_grid (kgrid RLfot coarse x) (lfot_g coarse x).
Proof.
  intros Hx. unfold kgrid, knob_grid, lfot_g. destruct coarse; cbn [fst snd grid_from]; destruct (Rlt_dec x 10).
  - apply (rec_grid 10); [by right|lra].
  - apply (pw_grid _ _ _ x lfot_c_wf).
  - apply (rec_grid 1); [by left|lra].
  - apply (pw_grid _ _ _ x lfot_f_wf).
Qed.
Lemma kf_lfot coarse : kfacts (fun v => rclamp (r_lfot (n_exp6 (1 / 10) 300000) (d_exp6 (1 / 10) 300000) v coarse) 0 1)
  (d_exp6 (1 / 10) 300000) (kgrid RLfot coarse) no_exc 0 1.
Proof.
  destruct (C41_scales (1 / 10) 300000) as (_ & _ & _ & sp); [lra|].
  set (n := n_exp6 (1 / 10) 300000) in *. set (d := d_exp6 (1 / 10) 300000) in *.
  assert (d 0 = 1 / 10) as E0 by (unfold d, d_exp6; lra). assert (d 1 = 300000) as E1 by (unfold d, d_exp6; lra).
  apply (kfacts_ext (fun v => rclamp (n (lfot_g coarse (d v))) 0 1)); [lra| | |].
  - intros v _. by rewrite r_lfot_g.
  - intros v. apply rclamp_range. lra.
  - apply (round_facts n d (lfot_g coarse) (1 / 10) 300000 0 1 0 1); [done|lra|lra|lra|..].
    + intros x y H1 H2 H3. by apply lfot_mono.
    + intros x Hx _. by apply lfot_idem.
    + intros x Hx. left. by apply lfot_range.
    + intros x Hx. destruct (lfot_grid coarse x Hx). split; [done|by left].
    + intros x Hx. right. rewrite E0, E1. by apply lfot_range.
Qed.

Lemma rng lo hi (f : R -> R) : lo <= hi -> forall v, lo <= rclamp (f v) lo hi <= hi.
Proof. intros H v. by apply rclamp_range. Qed.

Lemma kf_ms a b (coarse : bool) : a < b -> mult 1 a -> mult 1 b ->
  kfacts (fun v => rclamp (r_ms (n_exp a b) (d_exp a b) v coarse) 0 1) (d_exp a b)
    (grid_from (Step (if coarse then 1 else 1 / 10)) []) no_exc 0 1.
Proof.
  intros Hab Ha Hb. destruct (C41_scales a b Hab) as (_ & sp & _ & _).
  assert (mult (if coarse then 1 else 1 / 10) a /\ mult (if coarse then 1 else 1 / 10) b) as [Ha' Hb'].
  { destruct coarse; [done|]. destruct Ha as [i Ei], Hb as [j Ej]. split; [exists (i * 10)%Z|exists (j * 10)%Z]; rewrite mult_IZR; lra. }
  assert (0 < (if coarse then 1 else 1 / 10)) by (destruct coarse; lra).
  apply (kfacts_ext (fun v => rclamp (n_exp a b (pw (if coarse then 1 else 1 / 10) [] (d_exp a b v))) 0 1)); [lra| |by apply rng; lra|].
  - intros v _. by rewrite r_ms_pw.
  - apply (kf_pw _ _ a b 0 1 _ [] a); [done|lra|lra|done|lra|..]; cbn [pw]; rewrite q_fix by done; lra.
Qed.

Lemma kf_tms a b (coarse : bool) : a < b -> 0 <= a -> a <= (if coarse then pw 1 tms_l a else pw (1 / 10) [] a) ->
  (if coarse then pw 1 tms_l b else pw (1 / 10) [] b) <= b ->
  kfacts (fun v => rclamp (r_tms (n_exp a b) (d_exp a b) v coarse) 0 1) (d_exp a b) (kgrid RTms coarse) no_exc 0 1.
Proof.
  intros Hab H0 Ha Hb. destruct (C41_scales a b Hab) as (_ & sp & _ & _).
  apply (kfacts_ext (fun v => rclamp (n_exp a b (if coarse then pw 1 tms_l (d_exp a b v) else pw (1 / 10) [] (d_exp a b v))) 0 1));
    [lra| |by apply rng; lra|].
  - intros v _. by rewrite r_tms_pw.
  - destruct coarse.
    + apply (kf_pw _ _ a b 0 1 _ tms_l 0); first [done|lra|apply tms_wf].
    + apply (kf_pw _ _ a b 0 1 _ [] 0); try first [done|lra]. wf_tac.
Qed.

(** The coarse rounding of the scale from 0.1 ms gives 0 ms below 0.5 ms, and the normalising function makes 0.2 ms of it *)
Definition fms_g (x : R) : R := if Rlt_dec x (1 / 2) then 2 / 10 else pw 1 tms_l x.
Definition fms_exc (y : R) : Prop := y = 2 / 10.
Lemma q_zero x : 0 <= x -> x < 1 / 2 -> q 1 x = 0.
Proof.
  intros H1 H2. pose proof (q_near 1 x ltac:(lra)) as Hn. destruct (q_mult 1 x) as [k E]. rewrite E in *. rewrite Rmult_1_r in *.
  apply rabs_inv in Hn. assert (k = 0%Z) as ->; [|done]. apply Z_close. apply Rabs_def1; lra.
Qed.
Lemma fms_same x : 1 / 10 <= x <= 1000 -> n_exp (1 / 10) 1000 (pw 1 tms_l x) = n_exp (1 / 10) 1000 (fms_g x).
Proof.
  intros Hx. unfold fms_g. destruct (Rlt_dec x (1 / 2)); [|done]. unfold tms_l. cbn [pw]. destruct (Rlt_dec x 100); [|lra].
  rewrite q_zero by lra. unfold n_exp. f_equal. rewrite (Rabs_left ((0 - _) / _)) by lra. rewrite Rabs_pos_eq by lra. lra.
Qed.
Lemma q_half_up x : 1 / 2 <= x -> x <= 1 -> q 1 x = 1.
Proof.
  intros H1 H2. pose proof (q_mono 1 (1 / 2) x ltac:(lra) H1) as H. rewrite <- q_one, rround_half in H.
  pose proof (q_le 1 x 1 ltac:(lra) ltac:(mult_tac) H2). lra.
Qed.
Lemma fms_ge x : 1 / 2 <= x <= 1000 -> 1 <= pw 1 tms_l x <= 1000.
Proof.
  intros Hx. split.
  - pose proof (pw_mono _ _ _ (1 / 2) x tms_wf ltac:(lra) ltac:(lra)) as H. unfold tms_l in H at 1. cbn [pw] in H.
    destruct (Rlt_dec (1 / 2) 100); [|lra]. rewrite q_half_up in H by lra. done.
  - apply (pw_le _ _ _ _ _ tms_wf); [|lra|lra]. unfold tms_l. pw_tac.
Qed.
Lemma kf_fms_coarse : kfacts (fun v => rclamp (r_tms (n_exp (1 / 10) 1000) (d_exp (1 / 10) 1000) v true) 0 1) (d_exp (1 / 10) 1000)
  (kgrid RFms true) fms_exc 0 1.
Proof.
  destruct (C41_scales (1 / 10) 1000) as (_ & sp & _ & _); [lra|].
  set (n := n_exp (1 / 10) 1000) in *. set (d := d_exp (1 / 10) 1000) in *.
  assert (d 0 = 1 / 10) as E0 by (unfold d, d_exp; lra). assert (d 1 = 1000) as E1 by (unfold d, d_exp; lra).
  assert (forall x, 1 / 10 <= x <= 1000 -> 1 / 10 <= fms_g x <= 1000) as Hr.
  { intros x Hx. unfold fms_g. destruct (Rlt_dec x (1 / 2)); [lra|]. pose proof (fms_ge x ltac:(lra)). lra. }
  apply (kfacts_ext (fun v => rclamp (n (fms_g (d v))) 0 1)); [lra| |by apply rng; lra|].
  - intros v Hv. rewrite r_tms_pw. f_equal. apply fms_same. by apply (sp_denorm _ _ _ _ _ _ sp).
  - apply (round_facts n d fms_g (1 / 10) 1000 0 1 0 1); [done|lra|lra|lra|..].
    + intros x y H1 H2 H3. unfold fms_g. destruct (Rlt_dec x (1 / 2)), (Rlt_dec y (1 / 2)); [lra| |lra|].
      * pose proof (fms_ge y ltac:(lra)). lra.
      * apply (pw_mono _ _ _ _ _ tms_wf); lra.
    + intros x Hx _. unfold fms_g at 2 3. destruct (Rlt_dec x (1 / 2)).
      * unfold fms_g. destruct (Rlt_dec (2 / 10) (1 / 2)); lra.
      * pose proof (fms_ge x ltac:(lra)). unfold fms_g. destruct (Rlt_dec _ (1 / 2)); [lra|]. apply (pw_idem _ _ _ _ tms_wf). lra.
    + intros x Hx. left. by apply Hr.
    + intros x Hx. unfold fms_g. destruct (Rlt_dec x (1 / 2)).
      * split; [|by right]. unfold kgrid. cbn [knob_grid fst snd grid_from]. destruct (Rlt_dec x 100); [|lra]. cbn [near].
        apply Rabs_le. lra.
      * destruct (pw_grid _ _ _ x tms_wf). split; [done|by left].
    + intros x Hx. right. rewrite E0, E1. by apply Hr.
Qed.

Lemma n_pit_mono x y : x <= y -> n_pit x <= n_pit y.
Proof.
  intros H. pose proof ln2_pos. unfold n_pit. apply Rmult_le_compat_l; [lra|]. apply Rmult_le_compat_r; [left; by apply Rinv_0_lt_compat|].
  apply ln_le.
  - pose proof (Rmax_r x (1 / 100)). lra.
  - pose proof (Rle_max_compat_r x y (1 / 100) H). lra.
Qed.
Lemma kf_fq_fine hi : -1 <= hi <= 1 -> kfacts (fun v => rclamp (r_fq v false) (-1) hi) d_pit (kgrid RFq false) no_exc (-1) hi.
Proof.
  intros Hh. destruct C41_pitch as [sp _]. pose proof pit_low.
  apply (kfacts_ext (fun v => rclamp (n_pit (pw (1 / 10) fq_l (d_pit v))) (-1) hi)); [lra| |by apply rng; lra|].
  - intros v _. by rewrite r_fq_pw.
  - set (a := 440 * Rpower 2 (-10)) in *. set (b := 440 * Rpower 2 10) in *.
    assert (a < b) as Hab.
    { unfold a, b. apply Rmult_lt_compat_l; [lra|]. apply Rpower_lt; lra. }
    assert (n_pit a = -1) as Ea.
    { replace a with (d_pit (-1)); [apply (sp_forth _ _ _ _ _ _ sp); lra|]. unfold d_pit, a. do 2 f_equal. unfold rclamp.
      destruct (Rlt_dec (-1 * 10) (-10)); [lra|]. destruct (Rlt_dec 10 (-1 * 10)); lra. }
    assert (n_pit b = 1) as Eb.
    { replace b with (d_pit 1); [apply (sp_forth _ _ _ _ _ _ sp); lra|]. unfold d_pit, b. do 2 f_equal. unfold rclamp.
      destruct (Rlt_dec (1 * 10) (-10)); [lra|]. destruct (Rlt_dec 10 (1 * 10)); lra. }
    apply (round_facts n_pit d_pit (pw (1 / 10) fq_l) a b (-1) 1 (-1) hi); [done|lra|lra|lra|..].
    + intros x y H1 H2 H3. apply (pw_mono _ _ _ _ _ fq_wf); lra.
    + intros x Hx _. apply (pw_idem _ _ _ _ fq_wf). lra.
    + intros x Hx. destruct (Rlt_dec (pw (1 / 10) fq_l x) a).
      { right. left. split; [done|]. rewrite <- Ea. apply n_pit_mono. lra. }
      destruct (Rlt_dec b (pw (1 / 10) fq_l x)).
      { right. right. split; [done|]. pose proof (n_pit_mono b (pw (1 / 10) fq_l x) ltac:(lra)). lra. }
      left. lra.
    + intros x Hx. destruct (pw_grid _ _ _ x fq_wf). split; [done|by left].
    + intros x Hx. left. apply (grid_from_step (1 / 10) fq_l x).
Qed.
Lemma kf_fq_coarse hi : -1 <= hi <= 1 -> kfacts (fun v => rclamp (r_fq v true) (-1) hi) (fun v => v) (kgrid RFq true) no_exc (-1) hi.
Proof.
  intros Hh. assert (wf (-1) (1 / 10) []) as Hw by wf_tac.
  apply (kfacts_ext (fun v => rclamp (pw (1 / 10) [] v) (-1) hi)); [lra| |by apply rng; lra|].
  - intros v _. cbn [r_fq pw]. by rewrite q_div by lra.
  - assert (pw (1 / 10) [] 1 = 1) as E1 by pw_tac.
    apply (round_facts (fun x => x) (fun x => x) (pw (1 / 10) []) (-1) 1 (-1) 1 (-1) hi); [apply pair_id|lra|lra|lra|..].
    + intros x y H1 H2 H3. apply (pw_mono _ _ _ _ _ Hw); lra.
    + intros x Hx _. apply (pw_idem _ _ _ _ Hw). lra.
    + intros x Hx. left. split; [apply (pw_ge _ _ _ _ Hw); lra|apply (pw_le _ _ _ _ _ Hw); lra].
    + intros x Hx. destruct (pw_grid _ _ _ x Hw). split; [done|by left].
    + intros x Hx. left. eexists. reflexivity.
Qed.
Lemma kf_sig coarse : kfacts (fun v => rclamp (r_s v coarse) (-1) 1) (fun v => v) (kgrid RSig coarse) no_exc (-1) 1.
Proof.
  apply (kfacts_ext (fun v => rclamp (pw (if coarse then 1 / 10 else 1 / 100) [] v) (-1) 1)); [lra| |by apply rng; lra|].
  - intros v _. unfold r_s. cbn [pw]. destruct coarse; by rewrite q_div by lra.
  - destruct coarse.
    + apply (kf_pw (fun x => x) (fun x => x) (-1) 1 (-1) 1 _ [] (-1)); [apply pair_id|lra|lra|wf_tac|lra|pw_tac|pw_tac].
    + apply (kf_pw (fun x => x) (fun x => x) (-1) 1 (-1) 1 _ [] (-1)); [apply pair_id|lra|lra|wf_tac|lra|pw_tac|pw_tac].
Qed.
Lemma kf_det coarse : kfacts (fun v => rclamp (r_det v coarse) (-(2 / 10)) (2 / 10)) d_det (kgrid RDet coarse) no_exc (-(2 / 10)) (2 / 10).
Proof.
  destruct C41_pitch as [_ sp]. specialize (sp (-24) 24 ltac:(lra)).
  replace (n_det (-24)) with (-(2 / 10)) in sp by (unfold n_det; lra). replace (n_det 24) with (2 / 10) in sp by (unfold n_det; lra).
  apply (kfacts_ext (fun v => rclamp (n_det (pw (if coarse then 1 else 1 / 100) [] (d_det v))) (-(2 / 10)) (2 / 10))); [lra| |by apply rng; lra|].
  - intros v _. unfold r_det. cbn [pw]. destruct coarse; [by rewrite q_one|by rewrite q_div by lra].
  - destruct coarse.
    + apply (kf_pw _ _ (-24) 24 _ _ _ [] (-24)); [done|lra|lra|wf_tac|lra|pw_tac|pw_tac].
    + apply (kf_pw _ _ (-24) 24 _ _ _ [] (-24)); [done|lra|lra|wf_tac|lra|pw_tac|pw_tac].
Qed.
Lemma kf_vps coarse : kfacts (fun v => rclamp (r_vps v coarse) 0 1) (d_lin 0 20) (kgrid RVps coarse) no_exc 0 1.
Proof.
  destruct (C41_scales 0 20) as (sp & _); [lra|].
  apply (kfacts_ext (fun v => rclamp (n_lin 0 20 (pw (if coarse then 1 else 1 / 10) [] (d_lin 0 20 v))) 0 1)); [lra| |by apply rng; lra|].
  - intros v _. unfold r_vps. cbn [pw]. destruct coarse; [by rewrite q_one|by rewrite q_div by lra].
  - destruct coarse.
    + apply (kf_pw _ _ 0 20 _ _ _ [] 0); [done|lra|lra|wf_tac|lra|pw_tac|pw_tac].
    + apply (kf_pw _ _ 0 20 _ _ _ [] 0); [done|lra|lra|wf_tac|lra|pw_tac|pw_tac].
Qed.
Lemma kf_db coef2db db2coef min max coarse : min < max -> mult (1 / 2) min -> mult (1 / 2) max -> mult (1 / 10) min -> mult (1 / 10) max ->
  (forall d, min <= d <= max -> coef2db (db2coef d) = d) ->
  kfacts (fun v => rclamp (r_db coef2db db2coef min max v coarse) 0 1) (fun v => coef2db (d_db db2coef min max v))
    (kgrid RVol coarse) no_exc 0 1.
Proof.
  intros Hm M1 M2 M3 M4 Hdb. destruct (C41_scales min max Hm) as (sp & _).
  set (s := if coarse then 1 / 2 else 1 / 10). assert (0 < s) as Hs by (unfold s; destruct coarse; lra).
  assert (mult s min) as Mn by (unfold s; by destruct coarse). assert (mult s max) as Mx by (unfold s; by destruct coarse).
  assert (forall v, 0 <= v <= 1 -> coef2db (d_db db2coef min max v) = d_lin min max v) as Ed.
  { intros v Hv. unfold d_db, d_lin. rewrite Hdb by nra. lra. }
  apply (kfacts_m _ (d_lin min max)); [done|by apply rng; lra|].
  apply (kfacts_ext (fun v => rclamp (n_lin min max (pw s [] (d_lin min max v))) 0 1)); [lra| |by apply rng; lra|].
  - intros v Hv. f_equal. assert (min <= d_lin min max v <= max) as Hd by by apply (sp_denorm _ _ _ _ _ _ sp).
    assert (min <= q s (d_lin min max v) <= max) as Hq by (split; [apply q_ge; [done|done|lra]|apply q_le; [done|done|lra]]).
    unfold r_db. cbv zeta. rewrite Ed by done. rewrite q_half, q_tenth.
    replace (if coarse then n_db coef2db min max (db2coef (q (1 / 2) (d_lin min max v)))
      else n_db coef2db min max (db2coef (q (1 / 10) (d_lin min max v)))) with (n_db coef2db min max (db2coef (q s (d_lin min max v))))
      by (unfold s; by destruct coarse).
    unfold n_db, n_lin. by rewrite Hdb by done.
  - replace (kgrid RVol coarse) with (grid_from (Step s) (steps_grid [])) by (unfold kgrid, s; by destruct coarse).
    apply (kf_pw _ _ min max _ _ _ [] min); [done|lra|lra|done|lra|..]; cbn [pw]; rewrite q_fix by done; lra.
Qed.

(** ** a coarsely rounded value is left alone by the fine rounding *)
Lemma nested (n d gc gf : R -> R) a b lo hi v : scale_pair n d a b lo hi ->
  (forall x, a <= x <= b -> a <= gc x <= b /\ gf (gc x) = gc x) -> lo <= v <= hi ->
  rclamp (n (gf (d (rclamp (n (gc (d v))) lo hi)))) lo hi = rclamp (n (gc (d v))) lo hi.
Proof.
  intros sp Hg Hv. destruct (Hg (d v)) as [Hr Hf]; [by apply (sp_denorm _ _ _ _ _ _ sp)|].
  rewrite (rclamp_id lo hi (n (gc (d v)))) by (apply (sp_norm _ _ _ _ _ _ sp); lra). rewrite (sp_back _ _ _ _ _ _ sp) by lra.
  rewrite Hf. apply rclamp_id. apply (sp_norm _ _ _ _ _ _ sp). lra.
Qed.
Lemma q_refine s m x : 0 < s -> q s (q (IZR m * s) x) = q (IZR m * s) x.
Proof. intros Hs. apply q_fix; [done|]. destruct (q_mult (IZR m * s) x) as [k ->]. exists (k * m)%Z. rewrite mult_IZR. lra. Qed.
Lemma q_refine' s t m x : 0 < s -> t = IZR m * s -> q s (q t x) = q t x.
Proof. intros Hs ->. by apply q_refine. Qed.
Lemma q_in s x a b : 0 < s -> mult s a -> mult s b -> a <= x <= b -> a <= q s x <= b.
Proof. intros Hs Ha Hb Hx. split; [apply q_ge|apply q_le]; first [done|lra]. Qed.
Lemma tms_tenth x : q (1 / 10) (pw 1 tms_l x) = pw 1 tms_l x.
Proof.
  unfold tms_l. cbn [pw]. destruct (Rlt_dec x 100); [apply (q_refine' _ _ 10); lra|].
  destruct (Rlt_dec x 1000); [apply (q_refine' _ _ 100); lra|apply (q_refine' _ _ 1000); lra].
Qed.
Lemma fms_tenth x : q (1 / 10) (fms_g x) = fms_g x.
Proof. unfold fms_g. destruct (Rlt_dec x (1 / 2)); [|apply tms_tenth]. apply q_fix; [lra|]. exists 2%Z. lra. Qed.

Ltac times E m := destruct E as [k E]; exists (k * m)%Z; rewrite mult_IZR; lra.
Lemma lfot_nested x : 1 / 10 <= x <= 300000 -> lfot_g false (lfot_g true x) = lfot_g true x.
Proof.
  intros Hx. pose proof (lfot_range true x Hx) as Hr. pose proof (lfot_idem true x Hx) as Hi. destruct (lfot_grid true _ Hr) as [_ Ho].
  rewrite Hi in Ho. set (y := lfot_g true x) in *. clearbody y. clear Hi. unfold lfot_g, lfot_f. cbn [pw].
  unfold kgrid in Ho. cbn [knob_grid fst snd grid_from] in Ho. destruct (Rlt_dec y 10).
  - cbn [on_grid] in Ho. unfold rec. rewrite q_fix; [apply div_div; lra|lra|]. times Ho 10%Z.
  - destruct (Rlt_dec y 250).
    { destruct (Rlt_dec y 100); [rewrite q_fix; [done|lra|times Ho 5%Z]|]. destruct (Rlt_dec y 1000); [|lra]. rewrite q_fix; [done|lra|times Ho 1%Z]. }
    destruct (Rlt_dec y 100); [lra|]. destruct (Rlt_dec y 1500).
    { destruct (Rlt_dec y 1000); [rewrite q_fix; [done|lra|times Ho 10%Z]|]. destruct (Rlt_dec y 2500); [|lra]. rewrite q_fix; [done|lra|times Ho 5%Z]. }
    destruct (Rlt_dec y 1000); [lra|]. destruct (Rlt_dec y 2500); [rewrite q_fix; [done|lra|times Ho 10%Z]|].
    destruct (Rlt_dec y 5000).
    { destruct (Rlt_dec y 25000); [|lra]. rewrite q_fix; [done|lra|times Ho 5%Z]. }
    destruct (Rlt_dec y 60000).
    { destruct (Rlt_dec y 25000); [rewrite q_fix; [done|lra|times Ho 10%Z]|]. rewrite q_fix; [done|lra|times Ho 2%Z]. }
    destruct (Rlt_dec y 25000); [lra|]. rewrite q_fix; [done|lra|times Ho 10%Z].
Qed.
