(** Proofs about knob rounding *)
From stdpp Require Import strings.
From Verif Require Import Base M_Nodes S_Nodes M_Norm S_Norm P_Norm M_Knob S_Knob.
From Coq Require Import Reals Lra Psatz Qreals QArith.
Open Scope R_scope.

(** ** rounding to integers and to multiples *)
Lemma rabs_inv x a : Rabs x <= a -> - a <= x <= a.
Proof. unfold Rabs. destruct (Rcase_abs x); lra. Qed.
Lemma int_part_bounds x : IZR (Int_part x) <= x < IZR (Int_part x) + 1.
Proof. pose proof (base_Int_part x). lra. Qed.
Lemma rround_near x : Rabs (rround x - x) <= 1 / 2.
Proof.
  unfold rround. destruct (Rle_dec 0 x).
  - pose proof (int_part_bounds (x + 1 / 2)). apply Rabs_le. lra.
  - pose proof (int_part_bounds (1 / 2 - x)). apply Rabs_le. lra.
Qed.
Lemma rround_Z x : exists k, rround x = IZR k.
Proof. unfold rround. destruct (Rle_dec 0 x); [eauto|]. eexists. by rewrite <- opp_IZR. Qed.
Lemma Z_close a b : Rabs (IZR a - IZR b) < 1 -> a = b.
Proof. intros H. rewrite <- minus_IZR in H. apply Rabs_def2 in H as [H1 H2]. apply lt_IZR in H1. apply (lt_IZR (-1)) in H2. lia. Qed.
Lemma rround_IZR k : rround (IZR k) = IZR k.
Proof. destruct (rround_Z (IZR k)) as [j E]. pose proof (rround_near (IZR k)) as H. rewrite E in *. f_equal. apply Z_close. lra. Qed.
Lemma rround_mono x y : x <= y -> rround x <= rround y.
Proof.
  intros H. destruct (Rle_lt_dec (rround x) (rround y)) as [|Hlt]; [done|exfalso].
  destruct (rround_Z x) as [j Ex], (rround_Z y) as [k Ey]. pose proof (rround_near x) as Hx. pose proof (rround_near y) as Hy.
  rewrite Ex, Ey in *. apply lt_IZR in Hlt. assert (IZR k + 1 <= IZR j) by (rewrite <- plus_IZR; apply IZR_le; lia).
  apply rabs_inv in Hx, Hy. assert (x = y) as -> by lra. rewrite Ex in Ey. apply eq_IZR in Ey. lia.
Qed.

Definition q (s x : R) : R := rround (x / s) * s.
Definition mult (s x : R) : Prop := exists k : Z, x = IZR k * s.
Lemma q_mult s x : mult s (q s x).
Proof. destruct (rround_Z (x / s)) as [k E]. exists k. unfold q. by rewrite E. Qed.
Lemma q_fix s x : 0 < s -> mult s x -> q s x = x.
Proof. intros Hs [k ->]. unfold q. replace (IZR k * s / s) with (IZR k) by (field; lra). by rewrite rround_IZR. Qed.
Lemma q_mono s x y : 0 < s -> x <= y -> q s x <= q s y.
Proof.
  intros Hs H. unfold q. apply Rmult_le_compat_r; [lra|]. apply rround_mono. apply Rmult_le_compat_r; [|done].
  left. by apply Rinv_0_lt_compat.
Qed.
Lemma q_near s x : 0 < s -> Rabs (q s x - x) <= s / 2.
Proof.
  intros Hs. pose proof (rround_near (x / s)) as H. unfold q. apply rabs_inv in H. apply Rabs_le.
  set (r := rround (x / s)) in *. assert (x = x / s * s) as E by (field; lra). set (t := x / s) in *. rewrite E. nra.
Qed.
Lemma q_idem s x : 0 < s -> q s (q s x) = q s x.
Proof. intros Hs. apply q_fix; [done|]. apply q_mult. Qed.
Lemma q_le s x b : 0 < s -> mult s b -> x <= b -> q s x <= b.
Proof. intros Hs Hb H. rewrite <- (q_fix s b) by done. by apply q_mono. Qed.
Lemma q_ge s x b : 0 < s -> mult s b -> b <= x -> b <= q s x.
Proof. intros Hs Hb H. rewrite <- (q_fix s b) by done. by apply q_mono. Qed.

(** ** a grid with several steps *)
Fixpoint pw (s : R) (l : list (R * R)) (x : R) : R :=
  match l with
  | [] => q s x
  | (b, s') :: l => if Rlt_dec x b then q s x else pw s' l x
  end.
Fixpoint wf (lo : R) (s : R) (l : list (R * R)) : Prop :=
  0 < s /\ mult s lo /\
  match l with
  | [] => True
  | (b, s') :: l => mult s b /\ lo <= b /\ wf b s' l
  end.
Definition steps_grid (l : list (R * R)) : list (R * grid) := (fun e => (e.1, Step e.2)) <$> l.

Lemma pw_lo s l lo : wf lo s l -> pw s l lo = lo.
Proof.
  revert s lo. induction l as [|[b s'] l IH]; intros s lo; cbn [pw wf].
  - intros (Hs & Hm & _). by apply q_fix.
  - intros (Hs & Hm & Hb & Hle & Hw). destruct (Rlt_dec lo b); [by apply q_fix|]. assert (lo = b) as -> by lra. by apply IH.
Qed.
Lemma pw_ge s l lo x : wf lo s l -> lo <= x -> lo <= pw s l x.
Proof.
  revert s lo. induction l as [|[b s'] l IH]; intros s lo; cbn [pw wf].
  - intros (Hs & Hm & _) H. by apply q_ge.
  - intros (Hs & Hm & Hb & Hle & Hw) H. destruct (Rlt_dec x b); [by apply q_ge|].
    specialize (IH _ _ Hw ltac:(lra)). lra.
Qed.
Lemma pw_mono s l lo x y : wf lo s l -> lo <= x -> x <= y -> pw s l x <= pw s l y.
Proof.
  revert s lo. induction l as [|[b s'] l IH]; intros s lo; cbn [pw wf].
  - intros (Hs & Hm & _) H Hxy. by apply q_mono.
  - intros (Hs & Hm & Hb & Hle & Hw) H Hxy. destruct (Rlt_dec x b), (Rlt_dec y b); [by apply q_mono| |lra|].
    + pose proof (q_le s x b Hs Hb ltac:(lra)). pose proof (pw_ge _ _ _ y Hw ltac:(lra)). lra.
    + apply (IH _ _ Hw); lra.
Qed.
Lemma pw_idem s l lo x : wf lo s l -> lo <= x -> pw s l (pw s l x) = pw s l x.
Proof.
  revert s lo. induction l as [|[b s'] l IH]; intros s lo; cbn [pw wf].
  - intros (Hs & Hm & _) H. by apply q_idem.
  - intros (Hs & Hm & Hb & Hle & Hw) H. destruct (Rlt_dec x b) as [Hx|Hx].
    + pose proof (q_le s x b Hs Hb ltac:(lra)) as Hq. destruct (Rlt_dec (q s x) b); [by apply q_idem|].
      assert (q s x = b) as -> by lra. by apply pw_lo.
    + pose proof (pw_ge _ _ _ x Hw ltac:(lra)). destruct (Rlt_dec (pw s' l x) b); [lra|]. apply (IH _ _ Hw). lra.
Qed.
Lemma pw_grid s l lo x : wf lo s l -> near (grid_from (Step s) (steps_grid l) x) x (pw s l x) /\
  on_grid (grid_from (Step s) (steps_grid l) x) (pw s l x).
Proof.
  revert s lo. induction l as [|[b s'] l IH]; intros s lo; cbn [pw wf steps_grid fmap list_fmap grid_from fst snd].
  - intros (Hs & Hm & _). split; [by apply q_near|apply q_mult].
  - intros (Hs & Hm & Hb & Hle & Hw). destruct (Rlt_dec x b); [|by apply (IH _ _ Hw)]. split; [by apply q_near|apply q_mult].
Qed.
Lemma grid_from_step s l x : exists s', grid_from (Step s) (steps_grid l) x = Step s'.
Proof. revert s. induction l as [|[b s'] l IH]; intros s; cbn [steps_grid fmap list_fmap grid_from fst snd]; [eauto|]. destruct (Rlt_dec x b); [eauto|apply IH]. Qed.
Lemma pw_le s l lo x B : wf lo s l -> pw s l B = B -> lo <= x -> x <= B -> pw s l x <= B.
Proof. intros Hw HB H1 H2. rewrite <- HB. by apply (pw_mono _ _ lo). Qed.

(** ** rounding and clamping the normalised value *)
Lemma rclamp_range lo hi x : lo <= hi -> lo <= rclamp x lo hi <= hi.
Proof. intros H. unfold rclamp. destruct (Rlt_dec x lo); [lra|]. destruct (Rlt_dec hi x); lra. Qed.
Lemma rclamp_id lo hi x : lo <= x <= hi -> rclamp x lo hi = x.
Proof. intros H. unfold rclamp. destruct (Rlt_dec x lo); [lra|]. destruct (Rlt_dec hi x); lra. Qed.
Lemma rclamp_mono lo hi x y : lo <= hi -> x <= y -> rclamp x lo hi <= rclamp y lo hi.
Proof. intros H Hxy. unfold rclamp. destruct (Rlt_dec x lo), (Rlt_dec y lo), (Rlt_dec hi x), (Rlt_dec hi y); lra. Qed.
Lemma rclamp_near s lo hi x y : lo <= x <= hi -> near (Step s) x y -> near (Step s) x (rclamp y lo hi).
Proof.
  intros H Hn. cbn [near] in *. apply rabs_inv in Hn. apply Rabs_le. unfold rclamp.
  destruct (Rlt_dec y lo); [lra|]. destruct (Rlt_dec hi y); lra.
Qed.

Record kfacts (r m : R -> R) (G : R -> grid) (exc : R -> Prop) (lo hi : R) : Prop := {
  kf_idem : forall v, lo <= v <= hi -> r (r v) = r v;
  kf_mono : forall v w, lo <= v -> v <= w -> w <= hi -> r v <= r w;
  kf_grid : forall v, lo <= v <= hi ->
    near (G (m v)) (m v) (m (r v)) /\ (on_grid (G (m v)) (m (r v)) \/ r v = lo \/ r v = hi \/ exc (m (r v)));
}.

Section round.
  Context (n d g : R -> R) (a b lo' hi' lo hi : R) (G : R -> grid) (exc : R -> Prop).
  Context (sp : scale_pair n d a b lo' hi').
  Context (Hlo : lo' <= lo) (Hlh : lo <= hi) (Hhi : hi <= hi').
  Context (gm : forall x y, a <= x -> x <= y -> y <= b -> g x <= g y).
  Context (gi : forall x, a <= x <= b -> a <= g x <= b -> g (g x) = g x).
  Context (gout : forall x, a <= x <= b -> a <= g x <= b \/ (g x < a /\ n (g x) <= lo') \/ (b < g x /\ hi' <= n (g x))).
  Context (gg : forall x, a <= x <= b -> near (G x) x (g x) /\ (on_grid (G x) (g x) \/ exc (g x))).
  Context (gs : forall x, a <= x <= b -> (exists s, G x = Step s) \/ d lo <= g x <= d hi).

  Let h x := rclamp (g x) (d lo) (d hi).
  Lemma sp_mono x y : a <= x -> x <= y -> y <= b -> n x <= n y.
  Proof using sp. intros H1 [H2| ->] H3; [|lra]. left. by apply (sp_inc _ _ _ _ _ _ sp). Qed.
  Lemma sp_dmono x y : lo' <= x -> x <= y -> y <= hi' -> d x <= d y.
  Proof using sp. intros H1 [H2| ->] H3; [|lra]. left. by apply (sp_dinc _ _ _ _ _ _ sp). Qed.
  Lemma dlo : a <= d lo /\ d lo <= d hi /\ d hi <= b.
  Proof using sp Hlo Hlh Hhi.
    pose proof (sp_denorm _ _ _ _ _ _ sp lo ltac:(lra)). pose proof (sp_denorm _ _ _ _ _ _ sp hi ltac:(lra)).
    pose proof (sp_dmono lo hi Hlo Hlh Hhi). lra.
  Qed.

  Lemma round_h v : lo <= v <= hi -> rclamp (n (g (d v))) lo hi = n (h (d v)).
  Proof using sp Hlo Hlh Hhi gout.
    intros Hv. pose proof dlo as D. assert (a <= d v <= b) as Hd by (apply (sp_denorm _ _ _ _ _ _ sp); lra).
    assert (n (d lo) = lo) as El by (apply (sp_forth _ _ _ _ _ _ sp); lra).
    assert (n (d hi) = hi) as Eh by (apply (sp_forth _ _ _ _ _ _ sp); lra).
    unfold h. destruct (gout (d v) Hd) as [Hg|[[H1 H2]|[H1 H2]]].
    - unfold rclamp at 2. destruct (Rlt_dec (g (d v)) (d lo)) as [Hl|Hl].
      + rewrite El. pose proof (sp_inc _ _ _ _ _ _ sp (g (d v)) (d lo) ltac:(lra) Hl ltac:(lra)). unfold rclamp. destruct (Rlt_dec (n (g (d v))) lo); lra.
      + destruct (Rlt_dec (d hi) (g (d v))) as [Hh|Hh].
        * rewrite Eh. pose proof (sp_inc _ _ _ _ _ _ sp (d hi) (g (d v)) ltac:(lra) Hh ltac:(lra)). unfold rclamp.
          destruct (Rlt_dec (n (g (d v))) lo); [lra|]. destruct (Rlt_dec hi (n (g (d v)))); lra.
        * apply rclamp_id. pose proof (sp_mono (d lo) (g (d v)) ltac:(lra) ltac:(lra) ltac:(lra)).
          pose proof (sp_mono (g (d v)) (d hi) ltac:(lra) ltac:(lra) ltac:(lra)). lra.
    - unfold rclamp. destruct (Rlt_dec (g (d v)) (d lo)); [|lra]. rewrite El. destruct (Rlt_dec (n (g (d v))) lo); [done|].
      destruct (Rlt_dec hi (n (g (d v)))); lra.
    - unfold rclamp. destruct (Rlt_dec (g (d v)) (d lo)); [lra|]. destruct (Rlt_dec (d hi) (g (d v))); [|lra]. rewrite Eh.
      destruct (Rlt_dec (n (g (d v))) lo); [lra|]. destruct (Rlt_dec hi (n (g (d v)))); lra.
  Qed.
  Lemma h_range x : d lo <= h x <= d hi.
  Proof using sp Hlo Hlh Hhi. apply rclamp_range. apply dlo. Qed.
  Lemma round_d v : lo <= v <= hi -> d (rclamp (n (g (d v))) lo hi) = h (d v).
  Proof using sp Hlo Hlh Hhi gout. intros Hv. rewrite round_h by done. pose proof (h_range (d v)). pose proof dlo. apply (sp_back _ _ _ _ _ _ sp). lra. Qed.
  Lemma h_idem x : a <= x <= b -> d lo <= x <= d hi -> h (h x) = h x.
  Proof using sp Hlo Hlh Hhi gm gi.
    intros Hx Hx'. pose proof dlo as D. unfold h at 2 3. unfold rclamp at 1 2. destruct (Rlt_dec (g x) (d lo)) as [Hl|Hl].
    - unfold h. pose proof (gm (d lo) x ltac:(lra) ltac:(lra) ltac:(lra)). unfold rclamp. destruct (Rlt_dec (g (d lo)) (d lo)); lra.
    - destruct (Rlt_dec (d hi) (g x)) as [Hh|Hh].
      + unfold h. pose proof (gm x (d hi) ltac:(lra) ltac:(lra) ltac:(lra)). unfold rclamp. destruct (Rlt_dec (g (d hi)) (d lo)); [lra|].
        destruct (Rlt_dec (d hi) (g (d hi))); lra.
      + unfold h. rewrite gi by lra. apply rclamp_id. lra.
  Qed.

  Lemma round_facts : kfacts (fun v => rclamp (n (g (d v))) lo hi) d G exc lo hi.
  Proof using sp Hlo Hlh Hhi gm gi gout gg gs.
    pose proof dlo as D. split.
    - intros v Hv. assert (lo <= rclamp (n (g (d v))) lo hi <= hi) as Hr by by apply rclamp_range.
      rewrite (round_h (rclamp _ _ _)) by done. rewrite round_d by done. rewrite (round_h v) by done. f_equal.
      apply h_idem; [apply (sp_denorm _ _ _ _ _ _ sp); lra|]. split; apply sp_dmono; lra.
    - intros v w H1 H2 H3. rewrite !round_h by lra. pose proof (h_range (d v)). pose proof (h_range (d w)).
      apply sp_mono; [lra| |lra]. apply rclamp_mono; [lra|]. apply gm.
      + apply (sp_denorm _ _ _ _ _ _ sp). lra.
      + apply sp_dmono; lra.
      + apply (sp_denorm _ _ _ _ _ _ sp). lra.
    - intros v Hv. assert (a <= d v <= b) as Hd by (apply (sp_denorm _ _ _ _ _ _ sp); lra).
      assert (d lo <= d v <= d hi) as Hd' by (split; apply sp_dmono; lra).
      assert (n (d lo) = lo) as El by (apply (sp_forth _ _ _ _ _ _ sp); lra).
      assert (n (d hi) = hi) as Eh by (apply (sp_forth _ _ _ _ _ _ sp); lra).
      rewrite round_d by done. rewrite round_h by done. destruct (gg (d v) Hd) as [Hn Ho]. split.
      + destruct (gs (d v) Hd) as [[s Es]|Hg].
        * rewrite Es in *. by apply rclamp_near.
        * unfold h. by rewrite rclamp_id by done.
      + unfold h, rclamp. destruct (Rlt_dec (g (d v)) (d lo)); [by right; left|].
        destruct (Rlt_dec (d hi) (g (d v))); [by right; right; left|]. destruct Ho; [by left|by right; right; right].
  Qed.
End round.

Lemma kfacts_ext r1 r2 m G exc lo hi : lo <= hi -> (forall v, lo <= v <= hi -> r2 v = r1 v) ->
  (forall v, lo <= r1 v <= hi) -> kfacts r1 m G exc lo hi -> kfacts r2 m G exc lo hi.
Proof.
  intros Hlh E Hr [H1 H2 H3]. split.
  - intros v Hv. rewrite (E v) by done. rewrite E by done. by apply H1.
  - intros v w Hv Hvw Hw. rewrite !E by lra. by apply H2.
  - intros v Hv. rewrite (E v) by done. by apply H3.
Qed.
Lemma kfacts_m r m1 m2 G exc lo hi : (forall v, lo <= v <= hi -> m2 v = m1 v) ->
  (forall v, lo <= r v <= hi) -> kfacts r m1 G exc lo hi -> kfacts r m2 G exc lo hi.
Proof.
  intros E Hr [H1 H2 H3]. split; [done|done|]. intros v Hv. rewrite (E v) by done. rewrite E by done. by apply H3.
Qed.
