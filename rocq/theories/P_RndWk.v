(** C61: the random walker stays in its range, and makes steps of the size that is set *)
From Coq Require Import QArith Qminmax Qabs Qround Lqa.
From Verif Require Import Base M_RndWk S_RndWk L_RndWk.
Open Scope Q_scope.

Section walk.
  (** any rounding, random number generator, slew limiter, history of blocks and state *)
  Context (rd : Q -> Q) {G W : Type} (rnext : G -> Q * G) (sval : W -> Q) (snext : Q -> Q -> W -> W).
  Context (HR : rounding rd) (HG : unit_random rnext) (HL : limiter sval snext).
  Context (bs : list (list rwin)) (HF : Forall (float_frame rd) (mjoin bs)).
  Context (s : @rndwk G W).
  Notation samples := (mjoin (rw_blocks rd rnext sval snext s bs)).

  (** C61: an interval that contains the value and the target at the start and the range of every frame with a trigger
      contains all samples. A range that is narrower than 1/10000 counts as one of that width. *)
  Theorem C61_range lo hi : float rd lo -> float rd hi -> lo <= sval (rw_slew s) <= hi -> lo <= rw_target s <= hi ->
    (forall i a b, i ∈ mjoin bs -> ri_trig i = true -> range i a b -> lo <= a /\ b <= hi /\ a + (1 # 10000) <= hi) ->
    forall o, o ∈ samples -> lo <= o <= hi.
  Proof.
    intros Fl Fh Hv Ht HT o Ho. rewrite blocks_frames in Ho.
    pose proof (frames_range rd HR rnext sval snext HL lo hi (mjoin bs) s Fl Fh HF) as P.
    destruct (rw_frames rd rnext sval snext s (mjoin bs)) as [s' os]. destruct P as (_ & _ & P); [|done..|].
    - apply Forall_forall. intros i Hi Htr a b HRg. by apply (HT i).
    - rewrite Forall_forall in P. by apply P.
  Qed.

  (** C61: without slewing, every sample lies in the range of the last trigger. *)
  Theorem C61_latest k t i lo hi o : at_once sval snext -> (k <= t)%nat ->
    mjoin bs !! k = Some i -> ri_trig i = true -> range i lo hi -> lo + (1 # 10000) <= hi ->
    (forall j i', (k <= j <= t)%nat -> mjoin bs !! j = Some i' -> ri_slew i' = 0 /\ (j <> k -> ri_trig i' = false)) ->
    samples !! t = Some o -> lo <= o <= hi.
  Proof.
    intros HA Hkt Hi Htr HRg Hw Hj Ho. rewrite blocks_frames in Ho. apply frames_lookup in Ho as (it & Hit & Ho).
    set (st := fun n => (rw_frames rd rnext sval snext s (take n (mjoin bs))).1).
    assert (exists mi ma, rw_range i = (mi, ma) /\ mi == lo /\ ma == hi /\ 0 <= mi /\ mi <= ma /\ ma <= 1 /\ float rd mi /\ float rd ma) as (mi & ma & ER & E1 & E2 & B0 & B1 & B2 & B3 & B4).
    { apply range_ok; [done| |done]. rewrite Forall_lookup in HF. by eapply HF. }
    assert (forall n, (k + n <= t)%nat -> mi <= rw_target (st (S (k + n))) <= ma) as HS.
    { induction n as [|n IH]; intros Hn.
      - rewrite Nat.add_0_r. unfold st. rewrite (frames_S rd rnext sval snext _ s k i Hi). destruct (Hj k i ltac:(lia) Hi) as [S0 _].
        pose proof (frame_at_once rd HR rnext sval snext (st k) i HA S0) as P. unfold st in P.
        destruct (rw_frame rd rnext sval snext _ i) as [s' o']. destruct P as (_ & _ & _ & P). specialize (P Htr). rewrite ER in P. cbn [fst]. rewrite P.
        apply fold_in; try done; lra.
      - destruct (lookup_lt_is_Some_2 (mjoin bs) (k + S n)%nat) as [j' Hj']. { apply lookup_lt_Some in Hit. lia. }
        unfold st. rewrite (frames_S rd rnext sval snext _ s _ j' Hj'). destruct (Hj (k + S n)%nat j' ltac:(lia) Hj') as [S0 S1].
        pose proof (frame_at_once rd HR rnext sval snext (st (k + S n)%nat) j' HA S0) as P. unfold st in P.
        destruct (rw_frame rd rnext sval snext _ j') as [s' o']. destruct P as (_ & _ & P & _). cbn [fst]. rewrite P by (apply S1; lia).
        rewrite Nat.add_succ_r. apply IH. lia. }
    specialize (HS (t - k)%nat ltac:(lia)). replace (k + (t - k))%nat with t in HS by lia. unfold st in HS.
    rewrite (frames_S rd rnext sval snext _ s t it Hit) in HS. destruct (Hj t it ltac:(lia) Hit) as [S0 _].
    pose proof (frame_at_once rd HR rnext sval snext (rw_frames rd rnext sval snext s (take t (mjoin bs))).1 it HA S0) as P.
    destruct (rw_frame rd rnext sval snext _ it) as [s' o']. cbn [fst snd] in *. subst o'. destruct P as (_ & P & _).
    pose proof (rd_mono rd HR _ _ (proj1 HS)). pose proof (rd_mono rd HR _ _ (proj2 HS)). unfold float in *. lra.
  Qed.

  (** C61: without slewing, a trigger moves the sample at most by the step and the offset (up to rounding errors), also
      where the range reflects it. *)
  Theorem C61_step t i lo hi o o' : at_once sval snext -> float rd (rw_target s) ->
    mjoin bs !! S t = Some i -> ri_slew i = 0 -> (forall i', mjoin bs !! t = Some i' -> ri_slew i' = 0) ->
    range i lo hi -> lo + (1 # 10000) <= hi ->
    samples !! t = Some o -> lo <= o <= hi -> samples !! S t = Some o' ->
    Qabs (o' - o) <= Qabs (limited (-1) 1 (ri_step i)) + Qabs (limited (-1) 1 (ri_offs i)) + (1 # 1000000).
  Proof.
    intros HA Ft Hi Hs Hs' HRg Hw Ho Hin Ho'. rewrite blocks_frames in Ho, Ho'. apply frames_lookup in Ho as (i0 & Hi0 & Ho).
    apply frames_lookup in Ho' as (i1 & Hi1 & Ho'). rewrite Hi in Hi1. apply (inj Some) in Hi1 as <-.
    rewrite (frames_S rd rnext sval snext _ s t i0 Hi0) in Ho'. specialize (Hs' _ Hi0).
    pose proof (frames_target_float rd HR rnext sval snext (take (S t) (mjoin bs)) s ltac:(by apply Forall_take) Ft) as FT.
    rewrite (frames_S rd rnext sval snext _ s t i0 Hi0) in FT.
    set (s0 := (rw_frames rd rnext sval snext s (take t (mjoin bs))).1) in *.
    pose proof (frame_at_once rd HR rnext sval snext s0 i0 HA Hs') as P0. destruct (rw_frame rd rnext sval snext s0 i0) as [s1 o1]. cbn [fst snd] in *. subst o1.
    pose proof (frame_at_once rd HR rnext sval snext s1 i HA Hs) as P1. destruct (rw_frame rd rnext sval snext s1 i) as [s2 o2]. cbn [fst snd] in *. subst o2.
    destruct P0 as (V0 & O0 & _). destruct P1 as (V1 & O1 & NT & TR). unfold float in FT.
    assert (sval (rw_slew s1) == o) as EV by lra.
    assert (exists mi ma, rw_range i = (mi, ma) /\ mi == lo /\ ma == hi /\ 0 <= mi /\ mi <= ma /\ ma <= 1 /\ float rd mi /\ float rd ma) as (mi & ma & ER & E1 & E2 & B0 & B1 & B2 & B3 & B4).
    { apply range_ok; [done| |done]. rewrite Forall_lookup in HF. by eapply HF. }
    pose proof (Qabs_nonneg (limited (-1) 1 (ri_step i))) as N1. pose proof (Qabs_nonneg (limited (-1) 1 (ri_offs i))) as N2.
    destruct (ri_trig i).
    - specialize (TR eq_refl). rewrite ER in TR. specialize (HG (rw_rng s1)).
      pose proof (draw_bound rd HR (rnext (rw_rng s1)).1 (sval (rw_slew s1)) i HG ltac:(lra)) as D. cbv zeta in D.
      pose proof (fold_step rd HR mi ma _ (sval (rw_slew s1)) _ B0 B1 B2 B3 B4 ltac:(lra) ltac:(lra) D) as S.
      rewrite <- TR in S. pose proof (fold_in rd HR mi ma (rw_draw rd (rnext (rw_rng s1)).1 (sval (rw_slew s1)) i) ma B0 B1 B2 B3 B4 ltac:(lra) ltac:(lra)) as I.
      rewrite <- TR in I. pose proof (rd_err rd HR (rw_target s2) ltac:(lra)) as R. rewrite <- O1 in R.
      apply Qabs_Qle_condition. unfold eps in *. lra.
    - specialize (NT eq_refl). rewrite NT in O1. apply Qabs_Qle_condition. lra.
  Qed.
End walk.
Print Assumptions C61_range.
Print Assumptions C61_latest.
Print Assumptions C61_step.

(** C61: when the step is zero, the random numbers do not matter: two random walkers with different random number generators
    give the same samples. *)
Theorem C61_no_randomness (rd : Q -> Q) {G G' W : Type} (rnext : G -> Q * G) (rnext' : G' -> Q * G') (sval : W -> Q) (snext : Q -> Q -> W -> W)
    (bs : list (list rwin)) g g' w target :
  rounding rd -> (forall t t' l w, t == t' -> snext t l w = snext t' l w) ->
  (forall i, i ∈ mjoin bs -> ri_trig i = true -> ri_step i == 0) ->
  rw_blocks rd rnext sval snext (RndWk g w target) bs = rw_blocks rd rnext' sval snext (RndWk g' w target) bs.
Proof.
  intros HR HS H0.
  assert (forall (s : @rndwk G W) (s' : @rndwk G' W) i, (ri_trig i = true -> ri_step i == 0) -> rw_slew s = rw_slew s' -> rw_target s == rw_target s' ->
    let '(s1, o1) := rw_frame rd rnext sval snext s i in let '(s2, o2) := rw_frame rd rnext' sval snext s' i in
    rw_slew s1 = rw_slew s2 /\ rw_target s1 == rw_target s2 /\ o1 = o2) as F1.
  { intros s s' i Hi Es Et. unfold rw_frame. destruct (ri_trig i).
    - destruct (rw_range i) as [mi ma]. destruct (rnext (rw_rng s)) as [r ?]. destruct (rnext' (rw_rng s')) as [r' ?]. cbn [rw_slew rw_target].
      rewrite Es. assert (rw_fold rd mi ma (rw_draw rd r (sval (rw_slew s')) i) == rw_fold rd mi ma (rw_draw rd r' (sval (rw_slew s')) i)) as E.
      { apply fold_eq; [done|]. apply draw_zero; auto. }
      rewrite (HS _ _ (ri_slew i) (rw_slew s') E). done.
    - cbn [rw_slew rw_target]. rewrite Es, (HS _ _ (ri_slew i) (rw_slew s') Et). done. }
  assert (forall is (s : @rndwk G W) (s' : @rndwk G' W), (forall i, i ∈ is -> ri_trig i = true -> ri_step i == 0) -> rw_slew s = rw_slew s' -> rw_target s == rw_target s' ->
    let '(s1, o1) := rw_frames rd rnext sval snext s is in let '(s2, o2) := rw_frames rd rnext' sval snext s' is in
    rw_slew s1 = rw_slew s2 /\ rw_target s1 == rw_target s2 /\ o1 = o2) as F2.
  { induction is as [|i is IH]; intros s s' Hi Es Et; [done|]. cbn [rw_frames].
    pose proof (F1 s s' i (Hi i (elem_of_list_here _ _)) Es Et) as P. destruct (rw_frame rd rnext sval snext s i) as [s1 o1]. destruct (rw_frame rd rnext' sval snext s' i) as [s2 o2].
    destruct P as (P1 & P2 & ->). specialize (IH s1 s2 (fun j Hj => Hi j (elem_of_list_further _ _ _ Hj)) P1 P2).
    destruct (rw_frames rd rnext sval snext s1 is) as [s3 o3]. destruct (rw_frames rd rnext' sval snext s2 is) as [s4 o4]. by destruct IH as (? & ? & ->). }
  assert (forall bs (s : @rndwk G W) (s' : @rndwk G' W), (forall i, i ∈ mjoin bs -> ri_trig i = true -> ri_step i == 0) -> rw_slew s = rw_slew s' -> rw_target s == rw_target s' ->
    rw_blocks rd rnext sval snext s bs = rw_blocks rd rnext' sval snext s' bs) as F3.
  { clear bs H0. induction bs as [|b bs IH]; intros s s' Hi Es Et; [done|]. cbn [rw_blocks]. change (mjoin (b :: bs)) with (b ++ mjoin bs)%list in Hi.
    pose proof (F2 b s s' (fun j Hj => Hi j (proj2 (elem_of_app _ _ _) (or_introl Hj))) Es Et) as P.
    destruct (rw_frames rd rnext sval snext s b) as [s1 o1]. destruct (rw_frames rd rnext' sval snext s' b) as [s2 o2]. destruct P as (P1 & P2 & ->).
    f_equal. apply IH; [|done..]. intros j Hj. apply Hi. apply elem_of_app. by right. }
  apply F3; done.
Qed.
Print Assumptions C61_no_randomness.

(** A rounding that is not exact: to multiples of [eps] *)
Definition grid (x : Q) : Q := Qfloor (x * 16777216) # 16777216.
Lemma grid_bound x : x - eps <= grid x <= x.
Proof.
  unfold grid, eps. pose proof (Qfloor_le (x * 16777216)) as A. pose proof (Qlt_floor (x * 16777216)) as B. rewrite inject_Z_plus in B.
  set (z := Qfloor _) in *. assert (z # 16777216 == inject_Z z * (1 # 16777216)) as ->. { unfold Qeq, inject_Z; cbn. lia. }
  change (inject_Z 1) with 1 in B. lra.
Qed.
Theorem C61_rounding_possible : rounding grid /\ rounding (fun x => x).
Proof.
  split.
  - unfold rounding. split.
    { intros x y H. unfold grid. assert (Qfloor (x * 16777216) <= Qfloor (y * 16777216))%Z by (apply Qfloor_resp_le; lra). unfold Qle. cbn [Qnum Qden]. by apply Z.mul_le_mono_nonneg_r. }
    split.
    { intros x. unfold grid at 1. assert (Qfloor (grid x * 16777216) = Qfloor (x * 16777216)) as ->; [|done]. unfold grid.
      assert ((Qfloor (x * 16777216) # 16777216) * 16777216 == inject_Z (Qfloor (x * 16777216))) as E. { unfold Qeq, inject_Z; cbn. lia. }
      rewrite (Qfloor_comp _ _ E). apply Qfloor_Z. }
    split; [done|]. split; [done|]. split; [done|].
    split; intros x _; apply Qabs_Qle_condition; pose proof (grid_bound x); unfold eps in *; lra.
  - split; [done|]. split; [done|]. split; [done|]. split; [done|]. split; [done|].
    split; intros x _; apply Qabs_Qle_condition; unfold eps in *; lra.
Qed.
Print Assumptions C61_rounding_possible.

(** A walk: the random numbers 0.9, 0.1, 0.7, 0.9, 0.9 ...; the slew limiter moves by at most 1/10 when the slew time is not zero *)
Definition demo_rng (l : list Q) : Q * list Q := match l with [] => (1 # 2, []) | r :: l => (r, l) end.
Definition demo_snext (t l w : Q) : Q := if Qeq_bool l 0 then t else qclamp t (w - (1 # 10)) (w + (1 # 10)).
Definition demo_in (trig : bool) (slew : Q) : rwin := RwIn trig (3 # 4) 0 (3 # 4) (1 # 4) slew.
Definition demo_start : @rndwk (list Q) Q := RndWk [9 # 10; 1 # 10; 7 # 10; 9 # 10; 9 # 10] (1 # 4) (1 # 4).
Example demo_limiter : limiter (fun w : Q => w) demo_snext /\ at_once (fun w : Q => w) demo_snext.
Proof.
  split.
  - intros t l w. unfold demo_snext. destruct (Qeq_bool l 0); [split; lra|].
    destruct (qclamp_cases t (w - (1 # 10)) (w + (1 # 10))) as [[Q ->]|[[Q ->]|[Q ->]]]; lra.
  - intros t w. unfold demo_snext. cbn. reflexivity.
Qed.
Definition demo_blocks : list (list rwin) :=
  [[demo_in true 0; demo_in false 0; demo_in true 0]; [demo_in true 0; demo_in true 0; demo_in true 1; demo_in false 1]].
Example demo_walk :
  map (map Qred) (rw_blocks (fun x => x) demo_rng (fun w => w) demo_snext demo_start demo_blocks) =
  [[13 # 20; 13 # 20; 9 # 20]; [3 # 4; 51 # 200; 71 # 200; 91 # 200]].
Proof. reflexivity. Qed.
(** The hypotheses hold of it: [C61_range] with the range 1/4 ... 3/4 *)
Example demo_hyps : Forall (float_frame (fun x => x)) (mjoin demo_blocks) /\
  (forall i a b, i ∈ mjoin demo_blocks -> ri_trig i = true -> range i a b -> 1 # 4 <= a /\ b <= 3 # 4 /\ a + (1 # 10000) <= 3 # 4).
Proof.
  split.
  - repeat constructor.
  - intros i a b Hi _ [Ha Hb]. assert (ri_min i = 3 # 4 /\ ri_max i = 1 # 4) as [E1 E2].
    { cbn in Hi. repeat (apply elem_of_cons in Hi as [->|Hi]; [done|]). by apply elem_of_nil in Hi. }
    rewrite E1, E2 in Ha, Hb. vm_compute limited in Ha. vm_compute limited in Hb.
    assert (a == 1 # 4) by (rewrite Ha; reflexivity). assert (b == 3 # 4) by (rewrite Hb; reflexivity). lra.
Qed.

(** C61, limit: a range of width zero (minimum and maximum 1/2) is left by 0.000099, in exact arithmetic. *)
Theorem C61_narrow_refuted : exists i,
  ri_min i = 1 # 2 /\ ri_max i = 1 # 2 /\ ri_step i = 1 /\ ri_offs i = 0 /\
  map (map Qred) (rw_blocks (fun x => x) demo_rng (fun w => w) demo_snext (RndWk [1 # 1] (1 # 2) (1 # 2)) [[i]]) = [[500099 # 1000000]].
Proof. exists (RwIn true 1 0 (1 # 2) (1 # 2) 0). split_and!; try reflexivity. Qed.
Print Assumptions C61_narrow_refuted.
