(** Properties of the signal mapping nodes: C42 *)
From Coq Require Import QArith Qabs SpecFloat Lqa.
From Verif Require Import Base M_Map S_Map.
Open Scope Q_scope.

(** ** Exact arithmetic *)
Lemma clamp_exact x lo hi : lo <= hi -> exists y, clamp exact x lo hi = Some y /\ lo <= y <= hi /\ (lo <= x <= hi -> y = x) /\
  (x <= lo -> y == lo) /\ (hi <= x -> y == hi).
Proof.
  intros H. unfold clamp. cbn [f_le f_lt exact]. assert (Qle_bool lo hi = true) as -> by (by apply Qle_bool_iff).
  eexists. split; [done|].
  destruct (Qle_bool lo x) eqn:E1; cbn [negb].
  - apply Qle_bool_iff in E1. destruct (Qle_bool x hi) eqn:E2; cbn [negb].
    + apply Qle_bool_iff in E2. split_and!; try lra. done.
    + assert (hi < x). { apply Qnot_le_lt. intros Hc. apply Qle_bool_iff in Hc. congruence. } split_and!; try lra.
  - assert (x < lo). { apply Qnot_le_lt. intros Hc. apply Qle_bool_iff in Hc. congruence. }
    destruct (Qle_bool lo hi) eqn:E2; cbn [negb]; [|apply Qle_bool_iff in H; congruence]. split_and!; lra.
Qed.

Lemma mix_between lo hi s : 0 <= s <= 1 -> between lo hi (mix exact lo hi s).
Proof.
  intros Hs. unfold mix, between. cbn [f_add f_mul f_sub exact]. destruct (Qlt_le_dec hi lo); [right|left]; split; nra.
Qed.

(** C42 for the simple mapper. With clipping, in every mode, the output lies between the minimum and the maximum. *)
Theorem C42_smap_clips mode s lo hi : (0 <= mode <= 3)%Z ->
  exists y, smap_frame exact mode 1 s lo hi = Some (Some y) /\ between lo hi y.
Proof.
  intros Hm. assert (0 <= 1) as H01 by lra.
  assert (mode = 0 \/ mode = 1 \/ mode = 2 \/ mode = 3)%Z as [->|[->|[->| ->]]] by lia; unfold smap_frame; cbn [f_zero f_one f_half f_add f_mul f_sub exact].
  - destruct (clamp_exact s 0 1 H01) as (y & -> & Hy & _). eexists. split; [done|]. apply mix_between. lra.
  - destruct (clamp_exact ((s + 1) * (1 # 2)) 0 1 H01) as (y & -> & Hy & _). eexists. split; [done|]. apply mix_between. lra.
  - destruct (clamp_exact s 0 1 H01) as (y & -> & Hy & _). eexists. split; [done|]. apply mix_between. lra.
  - destruct (clamp_exact ((s + 1) * (1 # 2)) 0 1 H01) as (y & -> & Hy & _). eexists. split; [done|]. apply mix_between. lra.
Qed.
Print Assumptions C42_smap_clips.

(** In every mode, with or without clipping, an input at the position [t] of the documented input range gives the output at the same
    position of the output range: the ends of one range are mapped to the ends of the other. *)
Theorem C42_smap_linear mode clip a b t s lo hi : mode_ends mode = Some (a, b) -> (0 <= clip <= 1)%Z -> 0 <= t <= 1 -> s == a + (b - a) * t ->
  exists y, smap_frame exact mode clip s lo hi = Some (Some y) /\ y == lo + (hi - lo) * t.
Proof.
  intros He Hc Ht Hs. assert (0 <= 1) as H01 by lra.
  assert (clip = 0 \/ clip = 1)%Z as [->| ->] by lia.
  - destruct mode as [|[[?|?|]|[?|?|]|]|]; cbn [mode_ends] in He; try discriminate; injection He as <- <-;
      (eexists; split; [done|]); unfold mix; cbn [f_zero f_one f_half f_add f_mul f_sub exact]; rewrite Hs; ring.
  - destruct mode as [|[[?|?|]|[?|?|]|]|]; cbn [mode_ends] in He; try discriminate; injection He as <- <-;
      cbn [smap_frame f_zero f_one f_half f_add f_mul f_sub exact].
    + destruct (clamp_exact s 0 1 H01) as (y & -> & _ & Hy & _). rewrite Hy by lra. eexists. split; [done|]. unfold mix. cbn. rewrite Hs. ring.
    + destruct (clamp_exact ((s + 1) * (1 # 2)) 0 1 H01) as (y & -> & _ & Hy & _). rewrite Hy by lra. eexists. split; [done|]. unfold mix. cbn. rewrite Hs. ring.
    + destruct (clamp_exact s 0 1 H01) as (y & -> & _ & Hy & _). rewrite Hy by lra. eexists. split; [done|]. unfold mix. cbn. rewrite Hs. ring.
    + destruct (clamp_exact ((s + 1) * (1 # 2)) 0 1 H01) as (y & -> & _ & Hy & _). rewrite Hy by lra. eexists. split; [done|]. unfold mix. cbn. rewrite Hs. ring.
Qed.
Print Assumptions C42_smap_linear.

(** C42 for the mapper: inside of its input range it maps linearly, so that the ends of the input range give the ends of the output range. *)
Theorem C42_map_linear clip inp atv offs imin imax lo hi t :
  1 # 8388608 <= Qabs (imax - imin) -> 0 <= t <= 1 -> inp * atv + offs == imin + (imax - imin) * t ->
  exists y, map_frame exact clip inp atv offs imin imax lo hi = Some y /\ y == lo + (hi - lo) * t.
Proof.
  intros Hr Ht Hs. unfold map_frame. cbn [f_zero f_one f_half f_add f_mul f_sub f_div f_abs f_lt f_eps exact].
  assert (Qle_bool (1 # 8388608) (Qabs (imax - imin)) = true) as -> by (by apply Qle_bool_iff). cbn [negb].
  assert (~ imax - imin == 0) as Hne. { intros Hz. rewrite Hz in Hr. cbv in Hr. by apply Hr. }
  set (x := Qabs ((inp * atv + offs - imin) / (imax - imin))).
  assert (x == t) as Hx. { unfold x. rewrite Hs. rewrite Qabs_pos; [field; done|].
    setoid_replace ((imin + (imax - imin) * t - imin) / (imax - imin)) with t by (field; done). lra. }
  assert (mix exact lo hi x == lo + (hi - lo) * t) as HM. { unfold mix. cbn [f_add f_mul f_sub exact]. rewrite Hx. reflexivity. }
  assert (between lo hi (mix exact lo hi x)) as HB by (apply mix_between; lra).
  destruct (clip =? 0)%Z; [by eexists|]. destruct (Qle_bool hi lo) eqn:E; cbn [negb].
  - apply Qle_bool_iff in E. destruct (clamp_exact (mix exact lo hi x) hi lo E) as (y & -> & _ & Hy & _).
    eexists; split; [done|]. rewrite Hy; [done|]. destruct HB; lra.
  - assert (lo < hi) as Hlt. { apply Qnot_le_lt. intros Hc. apply Qle_bool_iff in Hc. congruence. }
    destruct (clamp_exact (mix exact lo hi x) lo hi ltac:(lra)) as (y & -> & _ & Hy & _).
    eexists; split; [done|]. rewrite Hy; [done|]. destruct HB; lra.
Qed.
Print Assumptions C42_map_linear.

(** ** Single precision *)
Lemma SFcompare_opp x y c : SFcompare x y = Some c -> SFcompare y x = Some (CompOpp c).
Proof.
  destruct x as [s|s| |s m e], y as [s'|s'| |s' m' e']; try (cbn; repeat (case_match; try done); intros; simplify_eq; done).
  cbn [SFcompare]. intros [= <-]. f_equal. rewrite (Z.compare_antisym e e').
  assert (Pos.compare_cont Eq m' m = CompOpp (Pos.compare_cont Eq m m')) as -> by apply Pos.compare_antisym.
  destruct s, s'; cbn; try done; by destruct (e ?= e')%Z, (Pos.compare_cont Eq m m').
Qed.

Lemma SFcompare_nan x y : x <> S754_nan -> y <> S754_nan -> exists c, SFcompare x y = Some c.
Proof. intros Hx Hy. destruct x, y; try done; cbn; repeat case_match; eauto. Qed.

Lemma SF_not_lt x y : x <> S754_nan -> y <> S754_nan -> SFltb x y = false -> SFleb y x = true.
Proof.
  intros Hx Hy H. unfold SFltb in H. destruct (SFcompare_nan x y Hx Hy) as [c Hc]. rewrite Hc in H. unfold SFleb.
  rewrite (SFcompare_opp _ _ _ Hc). by destruct c.
Qed.
Lemma SF_lt_le x y : SFltb x y = true -> SFleb x y = true.
Proof. unfold SFltb, SFleb. by destruct (SFcompare x y) as [[]|]. Qed.
Lemma SF_le_nan x y : SFleb x y = true -> x <> S754_nan /\ y <> S754_nan.
Proof. intros H. by destruct x, y. Qed.
Lemma SF_le_refl x : x <> S754_nan -> SFleb x x = true.
Proof.
  intros Hx. destruct (SFltb x x) eqn:E; [by apply SF_lt_le|by apply SF_not_lt].
Qed.

Lemma clamp_single x lo hi : SFleb lo hi = true ->
  exists y, clamp single x lo hi = Some y /\ (x <> S754_nan -> SFleb lo y = true /\ SFleb y hi = true) /\ (x = S754_nan -> y = S754_nan).
Proof.
  intros H. pose proof (SF_le_nan _ _ H) as [Hl Hh]. unfold clamp. cbn [f_le f_lt single]. rewrite H. eexists. split; [done|]. split.
  - intros Hx. destruct (SFltb x lo) eqn:E1.
    + destruct (SFltb hi lo) eqn:E2; [by rewrite SF_le_refl|]. by rewrite SF_le_refl.
    + destruct (SFltb hi x) eqn:E2; [by rewrite SF_le_refl|]. split; apply SF_not_lt; done.
  - intros ->. assert (SFltb S754_nan lo = false) as -> by done. by assert (SFltb hi S754_nan = false) as -> by (by destruct hi).
Qed.

(** C42: with clipping, for all floats on its inputs, the mapper writes a value between the minimum and the maximum. What is left out is
    an output that is not a number: it takes one on an input, or the infinities that an overflow makes. *)
Theorem C42_map_clips clip inp atv offs imin imax lo hi : (clip <> 0)%Z -> lo <> S754_nan -> hi <> S754_nan ->
  exists y, map_frame single clip inp atv offs imin imax lo hi = Some y /\ (y <> S754_nan -> fbetween lo hi y).
Proof.
  intros Hc Hl Hh. unfold map_frame. cbn zeta. destruct (Z.eqb_spec clip 0) as [->|_]; [done|]. set (s := mix single _ _ _).
  cbn [f_lt single]. destruct (SFltb lo hi) eqn:E.
  - destruct (clamp_single s lo hi (SF_lt_le _ _ E)) as (y & -> & H1 & H2). eexists; split; [done|]. intros Hy. left. apply H1. intros Hs. auto.
  - destruct (clamp_single s hi lo (SF_not_lt _ _ Hl Hh E)) as (y & -> & H1 & H2). eexists; split; [done|]. intros Hy. right. apply H1. intros Hs. auto.
Qed.
Print Assumptions C42_map_clips.

(** ** Where the nodes leave the documented behaviour *)

(** The mapper folds inputs below its input range back into it: -3 is clipped to the maximum instead of the minimum. *)
Theorem C42_map_folds_refuted : exists y, map_frame exact 1 (-3) 1 0 (-1) 1 0 1 = Some y /\ y == 1.
Proof. eexists. split; [vm_compute; reflexivity|]. reflexivity. Qed.
Print Assumptions C42_map_folds_refuted.

(** In single precision the simple mapper can leave its output range in spite of the clipping, by the rounding of [min + (max - min) * s] *)
Definition f32_m1 := S754_finite true 8388608 (-23).
Theorem C42_smap_single_refuted : exists mode s lo hi y,
  SFleb lo hi = true /\ smap_frame single mode 1 s lo hi = Some (Some y) /\ SFltb hi y = true.
Proof.
  exists 0%Z, (S754_finite false 8388608 (-23)), f32_m1, (S754_finite false 9395241 (-27)). eexists. vm_compute. done.
Qed.
Print Assumptions C42_smap_single_refuted.

(** With a NaN for the minimum, the clipping mapper panics. *)
Theorem C42_map_nan_refuted : map_frame single 1 (S754_zero false) (S754_zero false) (S754_zero false) f32_m1 (S754_zero false) S754_nan (S754_zero false) = None.
Proof. vm_compute. done. Qed.
Print Assumptions C42_map_nan_refuted.

Example C42_example : exists y, smap_frame exact 3 1 (-1 # 2) (-1 # 5) (4 # 5) = Some (Some y) /\ y == 11 # 20 /\ between (-1 # 5) (4 # 5) y.
Proof. eexists. split; [vm_compute; reflexivity|]. split; [reflexivity|]. left. split; lra. Qed.
