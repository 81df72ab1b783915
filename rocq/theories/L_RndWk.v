(** Proofs about the random walker *)
From Coq Require Import QArith Qminmax Qabs Lqa.
From Verif Require Import Base M_RndWk S_RndWk.
Open Scope Q_scope.

Lemma qclamp_cases x lo hi : lo <= hi ->
  (lo <= x <= hi /\ qclamp x lo hi = x) \/ (x < lo /\ qclamp x lo hi = lo) \/ (hi < x /\ qclamp x lo hi = hi).
Proof.
  intros H. unfold qclamp. destruct (Qle_bool lo x) eqn:E1.
  - apply Qle_bool_iff in E1. destruct (Qle_bool x hi) eqn:E2.
    + apply Qle_bool_iff in E2. left. auto.
    + right. right. split; [|done]. apply Qnot_le_lt. intros Hx. apply Qle_bool_iff in Hx. congruence.
  - right. left. split; [|done]. apply Qnot_le_lt. intros Hx. apply Qle_bool_iff in Hx. congruence.
Qed.
Lemma Qle_bool_cases x y : (x <= y /\ Qle_bool x y = true) \/ (y < x /\ Qle_bool x y = false).
Proof.
  destruct (Qle_bool x y) eqn:E.
  - left. split; [|done]. by apply Qle_bool_iff.
  - right. split; [|done]. apply Qnot_le_lt. intros Hx. apply Qle_bool_iff in Hx. congruence.
Qed.
Lemma qabs_cases x : (0 <= x /\ qabs x = x) \/ (x < 0 /\ qabs x = - x).
Proof. unfold qabs. destruct (Qle_bool_cases 0 x) as [[H ->]|[H ->]]; auto. Qed.

Section rd.
  Context (rd : Q -> Q) (HR : rounding rd).

  Lemma rd_mono x y : x <= y -> rd x <= rd y.
  Proof. apply HR. Qed.
  Lemma rd_eq x y : x == y -> rd x == rd y.
  Proof. intros H. apply Qle_antisym; apply rd_mono; lra. Qed.
  Lemma rd_err x : -2 <= x <= 2 -> x - eps <= rd x <= x + eps.
  Proof.
    intros H. destruct HR as (_ & _ & _ & _ & _ & H2 & _). specialize (H2 x). assert (Qabs x <= 2) as Hx by (apply Qabs_Qle_condition; lra).
    apply H2 in Hx. apply Qabs_Qle_condition in Hx. lra.
  Qed.
  Lemma rd_err4 x : -4 <= x <= 4 -> x - 2 * eps <= rd x <= x + 2 * eps.
  Proof.
    intros H. destruct HR as (_ & _ & _ & _ & _ & _ & H2). specialize (H2 x). assert (Qabs x <= 4) as Hx by (apply Qabs_Qle_condition; lra).
    apply H2 in Hx. apply Qabs_Qle_condition in Hx. lra.
  Qed.

  (** [over], the largest excursion that is reflected *)
  Lemma over_bound mi ma u : 0 <= mi -> mi <= ma -> ma <= 1 -> ma - mi <= u -> 1 # 10000 <= u -> u <= 1 ->
    0 <= rd (rw_delta rd mi ma * rd (99 # 100)) <= (99 # 100) * u + 4 * eps.
  Proof.
    intros H0 H1 H2 U1 U2 U3. pose proof (rd_err (1 # 10000)) as Hc. pose proof (rd_err (99 # 100)) as Hd. pose proof (rd_err (ma - mi)) as Hm.
    assert (-2 <= 1 # 10000 <= 2) as A by lra. apply Hc in A. clear Hc.
    assert (-2 <= 99 # 100 <= 2) as B by lra. apply Hd in B. clear Hd.
    assert (-2 <= ma - mi <= 2) as C by lra. apply Hm in C. clear Hm.
    unfold rw_delta, eps in *. set (c := rd (1 # 10000)) in *. set (d := rd (99 # 100)) in *. set (m := rd (ma - mi)) in *.
    assert (rd (ma - mi) <= 1) as M1. { destruct HR as (_ & _ & _ & R1 & _). rewrite <- R1. apply rd_mono. lra. } fold m in M1.
    assert (exists k, qclamp m c 1 = k /\ 0 <= k /\ k <= 1 /\ k <= u + (1 # 16777216)) as (k & -> & K0 & K1 & K2).
    { destruct (qclamp_cases m c 1) as [[Q ->]|[[Q ->]|[Q ->]]]; [lra| | |]; eexists; (split; [reflexivity|]); lra. }
    assert (0 <= k * d) as P0 by (apply Qmult_le_0_compat; lra).
    assert (k * d <= k * ((99 # 100) + (1 # 16777216))) as P1. { rewrite !(Qmult_comm k). apply Qmult_le_compat_r; lra. }
    pose proof (rd_err (k * d)) as HE. unfold eps in HE. assert (-2 <= k * d <= 2) as E by lra. apply HE in E. clear HE.
    assert (0 <= rd (k * d)) as R0. { destruct HR as (_ & _ & R0 & _). rewrite <- R0. apply rd_mono. lra. }
    lra.
  Qed.

  Lemma fold_near mi ma t u : 0 <= mi -> mi <= ma -> ma <= 1 -> float rd mi -> float rd ma -> ma - mi <= u -> 1 # 10000 <= u -> u <= 1 ->
    mi <= rw_fold rd mi ma t /\ (rw_fold rd mi ma t <= ma \/ rw_fold rd mi ma t <= mi + (99 # 100) * u + 9 * eps).
  Proof.
    intros H0 H1 H2 F1 F2 U1 U2 U3. pose proof (over_bound mi ma u H0 H1 H2 U1 U2 U3) as HO. unfold rw_fold, float in *.
    set (over := rd (rw_delta rd mi ma * rd (99 # 100))) in *. unfold eps in *.
    assert (rd (mi - over) <= mi) as L1. { rewrite <- F1 at 2. apply rd_mono. lra. }
    assert (ma <= rd (ma + over)) as L2. { rewrite <- F2 at 1. apply rd_mono. lra. }
    pose proof (rd_err (mi - over)) as E1. pose proof (rd_err (ma + over)) as E2. unfold eps in *.
    assert (-2 <= mi - over <= 2) as A1 by lra. apply E1 in A1. clear E1.
    assert (-2 <= ma + over <= 2) as A2 by lra. apply E2 in A2. clear E2.
    assert (exists t', qclamp t (rd (mi - over)) (rd (ma + over)) = t' /\ rd (mi - over) <= t' <= rd (ma + over)) as (t' & -> & T').
    { destruct (qclamp_cases t (rd (mi - over)) (rd (ma + over))) as [[Q ->]|[[Q ->]|[Q ->]]]; [lra| | |]; eexists; (split; [reflexivity|]); lra. }
    assert (exists t2, (if Qle_bool t' ma then t' else rd (ma - qabs (rd (ma - t')))) = t2 /\ t2 <= ma /\ mi - ((99 # 100) * u + 7 * (1 # 16777216)) <= t2)
      as (t2 & -> & T2 & T3).
    { destruct (Qle_bool_cases t' ma) as [[Q ->]|[Q ->]].
      - exists t'. split; [done|]. lra.
      - eexists. split; [reflexivity|].
        pose proof (rd_err (ma - t')) as E3. unfold eps in *. assert (-2 <= ma - t' <= 2) as A3 by lra. apply E3 in A3. clear E3.
        assert (rd (ma - t') <= 0) as N. { destruct HR as (_ & _ & R0 & _). rewrite <- R0. apply rd_mono. lra. }
        destruct (qabs_cases (rd (ma - t'))) as [[P ->]|[P ->]].
        + pose proof (rd_err (ma - rd (ma - t'))) as E4. unfold eps in *. assert (-2 <= ma - rd (ma - t') <= 2) as A4 by lra. apply E4 in A4. clear E4.
          assert (rd (ma - rd (ma - t')) <= rd ma). { apply rd_mono. lra. }
          lra.
        + pose proof (rd_err (ma - - rd (ma - t'))) as E4. unfold eps in *. assert (-2 <= ma - - rd (ma - t') <= 2) as A4 by lra. apply E4 in A4. clear E4.
          assert (rd (ma - - rd (ma - t')) <= rd ma). { apply rd_mono. lra. }
          lra. }
    destruct (Qle_bool_cases mi t2) as [[Q ->]|[Q ->]]; [lra|].
    pose proof (rd_err (mi - t2)) as E3. unfold eps in *. assert (-2 <= mi - t2 <= 2) as A3 by lra. apply E3 in A3. clear E3.
    assert (0 <= rd (mi - t2)) as N. { destruct HR as (_ & _ & R0 & _). rewrite <- R0. apply rd_mono. lra. }
    destruct (qabs_cases (rd (mi - t2))) as [[P ->]|[P ->]]; [|lra].
    pose proof (rd_err (mi + rd (mi - t2))) as E4. unfold eps in *. assert (-2 <= mi + rd (mi - t2) <= 2) as A4 by lra. apply E4 in A4. clear E4.
    assert (rd mi <= rd (mi + rd (mi - t2))). { apply rd_mono. lra. }
    split; [lra|]. right. lra.
  Qed.

  (** the new target lies in the range, if that has at least the width 1/10000 *)
  Lemma fold_in mi ma t hi : 0 <= mi -> mi <= ma -> ma <= 1 -> float rd mi -> float rd ma -> ma <= hi -> mi + (1 # 10000) <= hi ->
    mi <= rw_fold rd mi ma t <= hi.
  Proof.
    intros H0 H1 H2 F1 F2 G1 G2. destruct (Qlt_le_dec (1 # 10000) (ma - mi)) as [L|L].
    - destruct (fold_near mi ma t (ma - mi)) as [A B]; [lra..| | | | | |]; try done; try lra. unfold eps in *. lra.
    - destruct (fold_near mi ma t (1 # 10000)) as [A B]; [lra..| | | | | |]; try done; try lra. unfold eps in *. lra.
  Qed.

  Lemma qclamp_limited x lo hi : lo <= hi -> qclamp x lo hi == limited lo hi x.
  Proof.
    intros H. unfold limited. destruct (qclamp_cases x lo hi H) as [[Q ->]|[[Q ->]|[Q ->]]];
      destruct (Q.min_spec x hi) as [[M E]|[M E]]; rewrite E; clear E;
      match goal with |- context [Qmax ?a ?b] => destruct (Q.max_spec a b) as [[N E]|[N E]]; rewrite E; clear E end; lra.
  Qed.
  Lemma range_ok i lo hi : float_frame rd i -> range i lo hi -> exists mi ma, rw_range i = (mi, ma) /\
    mi == lo /\ ma == hi /\ 0 <= mi /\ mi <= ma /\ ma <= 1 /\ float rd mi /\ float rd ma.
  Proof.
    intros (F1 & F2 & _) [Hl Hh]. unfold rw_range. rewrite <- !qclamp_limited in Hl by lra. rewrite <- !qclamp_limited in Hh by lra.
    assert (forall x, float rd x -> 0 <= qclamp x 0 1 /\ qclamp x 0 1 <= 1 /\ float rd (qclamp x 0 1)) as HC.
    { intros x Fx. destruct HR as (_ & _ & R0 & R1 & _). destruct (qclamp_cases x 0 1) as [[Q ->]|[[Q ->]|[Q ->]]]; [lra| | |]; unfold float in *; (split; [|split]); try done; lra. }
    destruct (HC _ F1) as (A1 & A2 & A3). destruct (HC _ F2) as (B1 & B2 & B3).
    set (a := qclamp (ri_min i) 0 1) in *. set (b := qclamp (ri_max i) 0 1) in *.
    destruct (Qle_bool_cases a b) as [[Q ->]|[Q ->]].
    - rewrite Q.min_l in Hl by done. rewrite Q.max_r in Hh by done. exists a, b. split; [done|]. split_and!; try done; lra.
    - rewrite Q.min_r in Hl by lra. rewrite Q.max_l in Hh by lra. exists b, a. split; [done|]. split_and!; try done; lra.
  Qed.
  Lemma range_ex i : exists lo hi, range i lo hi.
  Proof. unfold range. eexists _, _. split; reflexivity. Qed.

  Lemma draw_bound r v i : 0 <= r <= 1 -> -1 <= v <= 1 ->
    let d := Qabs (limited (-1) 1 (ri_step i)) + Qabs (limited (-1) 1 (ri_offs i)) + 10 * eps in
    v - d <= rw_draw rd r v i <= v + d.
  Proof.
    intros Hr Hv. cbv zeta. unfold rw_draw.
    assert (exists st, qclamp (ri_step i) (-1) 1 = st /\ st == limited (-1) 1 (ri_step i) /\ -1 <= st <= 1) as (st & -> & S1 & S2).
    { eexists. split; [reflexivity|]. split; [apply qclamp_limited; lra|]. destruct (qclamp_cases (ri_step i) (-1) 1) as [[Q ->]|[[Q ->]|[Q ->]]]; lra. }
    assert (exists os, qclamp (ri_offs i) (-1) 1 = os /\ os == limited (-1) 1 (ri_offs i) /\ -1 <= os <= 1) as (os & -> & O1 & O2).
    { eexists. split; [reflexivity|]. split; [apply qclamp_limited; lra|]. destruct (qclamp_cases (ri_offs i) (-1) 1) as [[Q ->]|[[Q ->]|[Q ->]]]; lra. }
    rewrite <- S1, <- O1. pose proof (Qabs_Qle_condition st (Qabs st)) as [C1 _]. specialize (C1 (Qle_refl _)).
    pose proof (Qabs_Qle_condition os (Qabs os)) as [C2 _]. specialize (C2 (Qle_refl _)).
    assert (Qabs st <= 1) as SA by (apply Qabs_Qle_condition; lra). assert (Qabs os <= 1) as OA by (apply Qabs_Qle_condition; lra).
    set (a := Qabs st) in *. set (b := Qabs os) in *. clearbody a b.
    pose proof (rd_err (r * 2)) as E1. unfold eps in *. assert (-2 <= r * 2 <= 2) as A1 by lra. apply E1 in A1. clear E1.
    set (r2 := rd (r * 2)) in *. clearbody r2.
    assert (exists p, r2 * st == p /\ -a - (1 # 16777216) <= p - st <= a + (1 # 16777216)) as (p & Ep & P).
    { exists (r2 * st). split; [reflexivity|].
      assert (r2 * st - st == (r2 - 1) * st) as -> by ring. enough (Qabs ((r2 - 1) * st) <= a + (1 # 16777216)) as Hx by (apply Qabs_Qle_condition in Hx; lra). rewrite Qabs_Qmult.
      assert (Qabs (r2 - 1) <= 1 + (1 # 16777216)) as X by (apply Qabs_Qle_condition; lra).
      assert (Qabs st <= a) as Y by (apply Qabs_Qle_condition; lra).
      apply Qle_trans with ((1 + (1 # 16777216)) * Qabs st); [apply Qmult_le_compat_r; [done|apply Qabs_nonneg]|]. pose proof (Qabs_nonneg st). lra. }
    pose proof (rd_err4 (r2 * st)) as E2. unfold eps in *. assert (-4 <= r2 * st <= 4) as A2 by lra. apply E2 in A2. clear E2.
    set (q := rd (r2 * st)) in *. clearbody q.
    pose proof (rd_err (q - st)) as E3. unfold eps in *. assert (-2 <= q - st <= 2) as A3 by lra. apply E3 in A3. clear E3.
    pose proof (rd_err v) as E4. unfold eps in *. assert (-2 <= v <= 2) as A4 by lra. apply E4 in A4. clear E4.
    pose proof (rd_err4 (rd v + rd (q - st))) as E5. unfold eps in *. assert (-4 <= rd v + rd (q - st) <= 4) as A5 by lra. apply E5 in A5. clear E5.
    pose proof (rd_err4 (rd (rd v + rd (q - st)) + os)) as E6. unfold eps in *. assert (-4 <= rd (rd v + rd (q - st)) + os <= 4) as A6 by lra. apply E6 in A6. clear E6.
    lra.
  Qed.

  (** folding does not lead further away from a value inside *)
  Lemma fold_step mi ma t v d : 0 <= mi -> mi <= ma -> ma <= 1 -> float rd mi -> float rd ma -> (1 # 10000) <= ma - mi -> mi <= v <= ma ->
    v - d <= t <= v + d -> v - (d + 4 * eps) <= rw_fold rd mi ma t <= v + (d + 4 * eps).
  Proof.
    intros H0 H1 H2 F1 F2 U Hv Hd. pose proof (over_bound mi ma (ma - mi) H0 H1 H2 (Qle_refl _) U ltac:(lra)) as HO. unfold rw_fold, float in *.
    set (over := rd (rw_delta rd mi ma * rd (99 # 100))) in *. unfold eps in *.
    assert (rd (mi - over) <= mi) as L1. { rewrite <- F1 at 2. apply rd_mono. lra. }
    assert (ma <= rd (ma + over)) as L2. { rewrite <- F2 at 1. apply rd_mono. lra. }
    pose proof (rd_err (mi - over)) as E1. pose proof (rd_err (ma + over)) as E2. unfold eps in *.
    assert (-2 <= mi - over <= 2) as A1 by lra. apply E1 in A1. clear E1.
    assert (-2 <= ma + over <= 2) as A2 by lra. apply E2 in A2. clear E2.
    assert (exists t', qclamp t (rd (mi - over)) (rd (ma + over)) = t' /\ rd (mi - over) <= t' <= rd (ma + over) /\ v - d <= t' <= v + d) as (t' & -> & T' & D').
    { destruct (qclamp_cases t (rd (mi - over)) (rd (ma + over))) as [[Q ->]|[[Q ->]|[Q ->]]]; [lra| | |]; eexists; (split; [reflexivity|]); lra. }
    destruct (Qle_bool_cases t' ma) as [[Q ->]|[Q ->]].
    - destruct (Qle_bool_cases mi t') as [[Q2 ->]|[Q2 ->]]; [lra|].
      pose proof (rd_err (mi - t')) as E3. unfold eps in *. assert (-2 <= mi - t' <= 2) as A3 by lra. apply E3 in A3. clear E3.
      assert (0 <= rd (mi - t')) as N. { destruct HR as (_ & _ & R0 & _). rewrite <- R0. apply rd_mono. lra. }
      destruct (qabs_cases (rd (mi - t'))) as [[P ->]|[P ->]]; [|lra].
      pose proof (rd_err (mi + rd (mi - t'))) as E4. unfold eps in *. assert (-2 <= mi + rd (mi - t') <= 2) as A4 by lra. apply E4 in A4. clear E4.
      lra.
    - pose proof (rd_err (ma - t')) as E3. unfold eps in *. assert (-2 <= ma - t' <= 2) as A3 by lra. apply E3 in A3. clear E3.
      assert (rd (ma - t') <= 0) as N. { destruct HR as (_ & _ & R0 & _). rewrite <- R0. apply rd_mono. lra. }
      assert (exists x, qabs (rd (ma - t')) = x /\ x == - rd (ma - t')) as (x & -> & X).
      { destruct (qabs_cases (rd (ma - t'))) as [[P ->]|[P ->]]; eexists; (split; [reflexivity|]); lra. }
      pose proof (rd_err (ma - x)) as E4. unfold eps in *. assert (-2 <= ma - x <= 2) as A4 by lra. apply E4 in A4. clear E4.
      destruct (Qle_bool_cases mi (rd (ma - x))) as [[Q2 ->]|[Q2 ->]]; lra.
  Qed.

  Lemma fold_float mi ma t : float rd t -> float rd mi -> float rd ma -> float rd (rw_fold rd mi ma t).
  Proof.
    intros Ft _ _. assert (forall x, float rd (rd x)) as I by apply HR. unfold rw_fold.
    set (lo := rd (mi - _)). set (hi := rd (ma + _)).
    assert (float rd (qclamp t lo hi)) as F1. { unfold qclamp. destruct (Qle_bool lo t); [destruct (Qle_bool t hi)|]; [done|apply I..]. }
    destruct (Qle_bool (qclamp t lo hi) ma); destruct (Qle_bool mi _); done || apply I.
  Qed.
  Lemma draw_float r v i : float rd (rw_draw rd r v i).
  Proof. apply HR. Qed.

  Lemma qclamp_eq x y lo hi : x == y -> qclamp x lo hi == qclamp y lo hi.
  Proof.
    intros E. unfold qclamp. rewrite (Qleb_comp lo lo (reflexivity _) x y E), (Qleb_comp x y E hi hi (reflexivity _)).
    destruct (Qle_bool lo y); [destruct (Qle_bool y hi)|]; done.
  Qed.
  Lemma qabs_eq x y : x == y -> qabs x == qabs y.
  Proof. intros E. unfold qabs. rewrite (Qleb_comp 0 0 (reflexivity _) x y E). destruct (Qle_bool 0 y); lra. Qed.
  Lemma fold_eq mi ma x y : x == y -> rw_fold rd mi ma x == rw_fold rd mi ma y.
  Proof.
    intros E. unfold rw_fold. set (lo := rd (mi - _)). set (hi := rd (ma + _)). apply (qclamp_eq x y lo hi) in E.
    set (a := qclamp x lo hi) in *. set (b := qclamp y lo hi) in *. clearbody a b.
    assert ((if Qle_bool a ma then a else rd (ma - qabs (rd (ma - a)))) == (if Qle_bool b ma then b else rd (ma - qabs (rd (ma - b))))) as E2.
    { rewrite (Qleb_comp a b E ma ma (reflexivity _)). destruct (Qle_bool b ma); [done|]. apply rd_eq.
      assert (rd (ma - a) == rd (ma - b)) as X by (apply rd_eq; lra). apply qabs_eq in X. lra. }
    set (a2 := if Qle_bool a ma then _ else _) in *. set (b2 := if Qle_bool b ma then _ else _) in *. clearbody a2 b2.
    rewrite (Qleb_comp mi mi (reflexivity _) a2 b2 E2). destruct (Qle_bool mi b2); [done|]. apply rd_eq.
    assert (rd (mi - a2) == rd (mi - b2)) as X by (apply rd_eq; lra). apply qabs_eq in X. lra.
  Qed.
  Lemma draw_zero r r' v i : ri_step i == 0 -> rw_draw rd r v i == rw_draw rd r' v i.
  Proof.
    intros H. unfold rw_draw.
    assert (qclamp (ri_step i) (-1) 1 == 0) as Z. { rewrite (qclamp_eq _ 0) by done. by vm_compute. }
    set (st := qclamp (ri_step i) (-1) 1) in *. clearbody st.
    assert (forall x, rd (rd (rd (x * 2) * st) - st) == 0) as A.
    { intros x. assert (rd 0 == 0) as R0 by apply HR. apply Qeq_trans with (rd 0); [|done]. apply rd_eq.
      assert (rd (rd (x * 2) * st) == rd 0) as B. { apply rd_eq. rewrite Z. ring. } rewrite R0 in B. lra. }
    apply rd_eq. pose proof (A r) as A1. pose proof (A r') as A2.
    assert (rd (rd v + rd (rd (rd (r * 2) * st) - st)) == rd (rd v + rd (rd (rd (r' * 2) * st) - st))) as B by (apply rd_eq; lra). lra.
  Qed.

  Section walk.
    Context {G W : Type} (rnext : G -> Q * G) (sval : W -> Q) (snext : Q -> Q -> W -> W) (HL : limiter sval snext).

    Definition ok_trig (lo hi : Q) (i : rwin) : Prop := ri_trig i = true -> forall a b, range i a b -> lo <= a /\ b <= hi /\ a + (1 # 10000) <= hi.

    Lemma frame_range lo hi s i : float rd lo -> float rd hi -> float_frame rd i -> ok_trig lo hi i ->
      lo <= sval (rw_slew s) <= hi -> lo <= rw_target s <= hi ->
      let '(s', o) := rw_frame rd rnext sval snext s i in
      lo <= sval (rw_slew s') <= hi /\ lo <= rw_target s' <= hi /\ lo <= o <= hi.
    Proof using HL HR.
      intros Fl Fh FF HT Hv Ht. unfold rw_frame.
      assert (exists s1, (if ri_trig i then let '(mi, ma) := rw_range i in let '(r, g) := rnext (rw_rng s) in
        RndWk g (rw_slew s) (rw_fold rd mi ma (rw_draw rd r (sval (rw_slew s)) i)) else s) = s1 /\ rw_slew s1 = rw_slew s /\ lo <= rw_target s1 <= hi)
        as (s1 & -> & E & Ht1).
      { destruct (ri_trig i) eqn:ET; [|by exists s]. destruct (range_ex i) as (a & b & HRg).
        destruct (HT ET a b HRg) as (T1 & T2 & T3). destruct (range_ok i a b FF HRg) as (mi & ma & -> & E1 & E2 & B0 & B1 & B2 & B3 & B4).
        destruct (rnext (rw_rng s)) as [r g]. eexists. split; [reflexivity|]. split; [done|]. cbn [rw_target].
        pose proof (fold_in mi ma (rw_draw rd r (sval (rw_slew s)) i) hi B0 B1 B2 B3 B4) as HF. split; [|apply HF; lra].
        apply Qle_trans with mi; [lra|]. apply HF; lra. }
      cbv zeta. cbn [rw_slew rw_target]. rewrite E.
      assert (lo <= sval (snext (rw_target s1) (ri_slew i) (rw_slew s)) <= hi) as Hn.
      { destruct (HL (rw_target s1) (ri_slew i) (rw_slew s)) as [N1 N2]. destruct (Qlt_le_dec (rw_target s1) (sval (rw_slew s))) as [L|L].
        - apply Qlt_le_weak in L. apply N2 in L. lra.
        - apply N1 in L. lra. }
      split; [exact Hn|]. split; [exact Ht1|]. unfold float in *. pose proof (rd_mono _ _ (proj1 Hn)). pose proof (rd_mono _ _ (proj2 Hn)). lra.
    Qed.

    Lemma frames_range lo hi is : forall s, float rd lo -> float rd hi -> Forall (float_frame rd) is -> Forall (ok_trig lo hi) is ->
      lo <= sval (rw_slew s) <= hi -> lo <= rw_target s <= hi ->
      let '(s', os) := rw_frames rd rnext sval snext s is in
      lo <= sval (rw_slew s') <= hi /\ lo <= rw_target s' <= hi /\ Forall (fun o => lo <= o <= hi) os.
    Proof using HL HR.
      induction is as [|i is IH]; intros s Fl Fh HF HT Hv Ht; [cbn; split; [done|]; split; [done|constructor]|]. apply Forall_cons in HF as [F1 F2]. apply Forall_cons in HT as [T1 T2].
      cbn [rw_frames]. pose proof (frame_range lo hi s i Fl Fh F1 T1 Hv Ht) as P. destruct (rw_frame rd rnext sval snext s i) as [s1 o].
      destruct P as (P1 & P2 & P3). specialize (IH s1 Fl Fh F2 T2 P1 P2). destruct (rw_frames rd rnext sval snext s1 is) as [s2 os].
      destruct IH as (I1 & I2 & I3). split; [done|]. split; [done|]. by constructor.
    Qed.

    Lemma blocks_frames bs : forall s, mjoin (rw_blocks rd rnext sval snext s bs) = (rw_frames rd rnext sval snext s (mjoin bs)).2.
    Proof.
      assert (forall a b s, rw_frames rd rnext sval snext s (a ++ b) =
        let '(s1, o1) := rw_frames rd rnext sval snext s a in let '(s2, o2) := rw_frames rd rnext sval snext s1 b in (s2, (o1 ++ o2)%list)) as HA.
      { induction a as [|i a IH]; intros b s; cbn [app rw_frames].
        - by destruct (rw_frames rd rnext sval snext s b).
        - destruct (rw_frame rd rnext sval snext s i) as [s1 o]. rewrite IH. destruct (rw_frames rd rnext sval snext s1 a) as [s2 o2].
          by destruct (rw_frames rd rnext sval snext s2 b). }
      induction bs as [|b bs IH]; intros s; [done|]. cbn [rw_blocks].
      change (mjoin (b :: bs)) with (b ++ mjoin bs)%list. rewrite HA.
      destruct (rw_frames rd rnext sval snext s b) as [s1 o1].
      change (mjoin (o1 :: rw_blocks rd rnext sval snext s1 bs)) with (o1 ++ mjoin (rw_blocks rd rnext sval snext s1 bs))%list. rewrite IH.
      by destruct (rw_frames rd rnext sval snext s1 (mjoin bs)).
    Qed.

    (** Without a slew time: the value and the target of the state after a frame, and the sample *)
    Lemma frame_at_once s i : at_once sval snext -> ri_slew i = 0 ->
      let '(s', o) := rw_frame rd rnext sval snext s i in
      sval (rw_slew s') == rw_target s' /\ o == rd (rw_target s') /\ (ri_trig i = false -> rw_target s' = rw_target s) /\
      (ri_trig i = true -> let '(mi, ma) := rw_range i in rw_target s' = rw_fold rd mi ma (rw_draw rd (rnext (rw_rng s)).1 (sval (rw_slew s)) i)).
    Proof using HR.
      intros HA Hs. unfold rw_frame. rewrite Hs.
      assert (forall t w, rd (sval (snext t 0 w)) == rd t) as HD. { intros t w. apply rd_eq, HA. }
      destruct (ri_trig i).
      - destruct (rw_range i) as [mi ma]. destruct (rnext (rw_rng s)) as [r g]. cbn [rw_slew rw_target fst]. split; [apply HA|]. split; [apply HD|]. done.
      - cbn [rw_slew rw_target]. split; [apply HA|]. split; [apply HD|]. done.
    Qed.

    Notation frame := (rw_frame rd rnext sval snext).
    Notation frames := (rw_frames rd rnext sval snext).
    Lemma frames_lookup is : forall s t o, (frames s is).2 !! t = Some o ->
      exists i, is !! t = Some i /\ (frame (frames s (take t is)).1 i).2 = o.
    Proof.
      induction is as [|i is IH]; intros s t o H; [done|]. cbn [rw_frames] in H. destruct (frame s i) as [s1 o1] eqn:E1.
      destruct (frames s1 is) as [s2 os] eqn:E2. cbn [snd] in H. destruct t as [|t].
      - cbn in H. apply (inj Some) in H as <-. exists i. split; [done|]. cbn [take rw_frames fst]. by rewrite E1.
      - cbn in H. specialize (IH s1 t o). rewrite E2 in IH. destruct (IH H) as (j & Hj & Ho). exists j. split; [done|].
        cbn [take rw_frames]. rewrite E1. destruct (frames s1 (take t is)) as [s3 os3] eqn:E3. exact Ho.
    Qed.
    Lemma frames_cons s j l : (frames s (j :: l)).1 = (frames (frame s j).1 l).1.
    Proof. cbn [rw_frames]. destruct (frame s j) as [s1 o]. cbn [fst]. by destruct (frames s1 l). Qed.
    Lemma frames_S is s t i : is !! t = Some i -> (frames s (take (S t) is)).1 = (frame (frames s (take t is)).1 i).1.
    Proof.
      revert s t. induction is as [|j is IH]; intros s t H; [done|]. destruct t as [|t].
      - cbn in H. apply (inj Some) in H as ->. cbn [take]. by rewrite frames_cons.
      - cbn in H. change (take (S (S t)) (j :: is)) with (j :: take (S t) is). change (take (S t) (j :: is)) with (j :: take t is).
        rewrite !frames_cons. by apply IH.
    Qed.
    Lemma frames_target_float is : forall s, Forall (float_frame rd) is -> float rd (rw_target s) -> float rd (rw_target (frames s is).1).
    Proof using HR.
      induction is as [|i is IH]; intros s HF Ht; [done|]. apply Forall_cons in HF as [F1 F2]. cbn [rw_frames].
      assert (float rd (rw_target (frame s i).1)) as H1.
      { unfold rw_frame. destruct (ri_trig i); [|done]. destruct (range_ex i) as (a & b & HRg).
        destruct (range_ok i a b F1 HRg) as (mi & ma & -> & _ & _ & _ & _ & _ & B3 & B4). destruct (rnext (rw_rng s)) as [r g].
        cbn [fst rw_target]. apply fold_float; [apply draw_float|done..]. }
      destruct (frame s i) as [s1 o]. specialize (IH s1 F2 H1). by destruct (frames s1 is).
    Qed.
  End walk.
End rd.
