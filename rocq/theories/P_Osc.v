(** C63: the generators stay in their ranges and keep their phase *)
From Coq Require Import QArith Qround Qabs Lqa SpecFloat.
From Verif Require Import Base M_RndWk M_Osc S_Osc L_RndWk L_Osc.
Open Scope nat_scope.

(** C63: as long as the phase modulation is not below -2^24, a Sin oscillator finishes every frame (with at most as many rounds of
    its loop as the modulation is below zero), its phase stays in [0, 1), and the sine function gets arguments from 0 to 2 pi. *)
Theorem C63_sin_ends rd twopi fsin (rounds : nat) isr ph bs : rounds_like_f32 rd -> (0 <= twopi)%Q -> (0 <= isr)%Q -> unit_interval ph ->
  (Z.of_nat rounds <= 2 ^ 24)%Z -> Forall (Forall (fun x : Q * Q => (0 <= x.1)%Q /\ (- inject_Z (Z.of_nat rounds) <= x.2)%Q)) bs ->
  exists ph' args, sin_blocks (fun a b => rd (a + b)%Q) (fun a b => rd (a * b)%Q) qfract qltz 1%Q twopi fsin rounds isr ph bs = Some (ph', fmap fsin <$> args) /\
    unit_interval ph' /\ length <$> args = length <$> bs /\ Forall (Forall (fun a => 0 <= a /\ a <= rd twopi)%Q) args.
Proof. intros Hr Ht HI HU HF HX. by apply blocks_end. Qed.
Print Assumptions C63_sin_ends.

(** C63: with exact arithmetic the sample number [n] is the sine of the phase at the start plus the cycles of all frequencies so
    far plus the phase modulation of this frame, for every division into blocks. *)
Theorem C63_sin_phase twopi fsin fuel isr ph bs ph' outs : (0 <= isr)%Q -> unit_interval ph -> Forall (Forall (fun x : Q * Q => (0 <= x.1)%Q)) bs ->
  sin_blocks Qplus Qmult qfract qltz 1%Q twopi fsin fuel isr ph bs = Some (ph', outs) ->
  exists args, mjoin outs = fsin <$> args /\ length args = length (mjoin bs) /\
    forall n a freq pm, args !! n = Some a -> mjoin bs !! n = Some (freq, pm) ->
      (a == frac (ph + cycles isr (take n ((mjoin bs).*1)) + pm) * twopi)%Q.
Proof.
  intros HI HU HF E. pose proof (sin_blocks_join Qplus Qmult qfract qltz 1%Q twopi fsin fuel isr bs ph) as J. rewrite E in J. cbn [mbind option_bind] in J.
  destruct (frames_phase twopi fsin fuel isr (mjoin bs) HI ph ph' (mjoin outs) HU) as (_ & _ & args & E1 & E2 & E3); [|done|by exists args].
  clear -HF. induction HF as [|xs bs HX _ IH]; [constructor|]. change (mjoin (xs :: bs)) with (xs ++ mjoin bs). apply Forall_app. by split.
Qed.
Print Assumptions C63_sin_phase.

(** C63 is false of a phase modulation of -2^25, which [set_param] and every input signal may bring: in [f32] adding 1 does not
    change the phase, and the loop of the audio thread never ends, whatever number of rounds it is given. *)
Definition f32_zero : spec_float := S754_zero false.
Definition f32_one : spec_float := S754_finite false 8388608 (-23).
Definition f32_low : spec_float := S754_finite true 8388608 2.
Definition f32_ltz (x : spec_float) : bool := SFltb x f32_zero.
Lemma low_step : SFadd 24 128 f32_low f32_one = f32_low.
Proof. vm_compute. reflexivity. Qed.
Lemma low_neg : f32_ltz f32_low = true.
Proof. vm_compute. reflexivity. Qed.
Lemma low_start : SFadd 24 128 f32_zero f32_low = f32_low.
Proof. vm_compute. reflexivity. Qed.
Theorem C63_sin_hang_refuted mul fract twopi fsin isr freq : forall rounds,
  sin_blocks (SFadd 24 128) mul fract f32_ltz f32_one twopi fsin rounds isr f32_zero [[(freq, f32_low)]] = None.
Proof.
  intros rounds. cbn [sin_blocks sin_frames sin_frame]. rewrite low_start.
  assert (sin_wrap (SFadd 24 128) f32_ltz f32_one rounds f32_low = None) as ->; [|done].
  induction rounds as [|rounds IH]; cbn [sin_wrap]; rewrite low_neg; [done|]. by rewrite low_step.
Qed.
Print Assumptions C63_sin_hang_refuted.

(** C63: the samples of FormFM do not exceed the larger one of 1 and the peak parameter (exact arithmetic). *)
Theorem C63_formfm_range cosf tau isr is m : (forall x, (-1 <= cosf x <= 1)%Q) -> (0 <= isr)%Q -> (1 <= m)%Q ->
  Forall (fun i => (0 <= ff_base i)%Q /\ (0 <= ff_form i)%Q /\ (- m <= ff_peak i <= m)%Q) is ->
  Forall (fun o => - m <= o <= m)%Q (ff_frames cosf tau isr 0 is).2.
Proof. intros HC HI Hm HF. apply ff_frames_range; try done. Qed.
Print Assumptions C63_formfm_range.

Section noise.
  Context {G : Type} (rd : Q -> Q) (seed : Z -> G) (rnext : G -> Q * G).

  (** C63: every sample of bipolar noise is at most the amount of [atv] away from [offs], every sample of unipolar noise lies
      between [offs] and [offs + atv]. *)
  Theorem C63_noise_range (s : noise) bs : rounds_like_f32 rd -> (forall g, (0 <= (rnext g).1 <= 1)%Q) ->
    Forall (fun b : Z * list (Q * Q) => Forall (fun x : Q * Q => is_float rd x.1 /\ is_float rd x.2) b.2) bs ->
    Forall2 (fun (b : Z * list (Q * Q)) os => Forall2 (fun (x : Q * Q) o =>
      if decide (b.1 = 0%Z) then (rd (x.2 - Qabs x.1) <= o <= rd (x.2 + Qabs x.1))%Q
      else ((0 <= x.1)%Q -> (x.2 <= o <= rd (x.2 + x.1))%Q) /\ ((x.1 <= 0)%Q -> (rd (x.2 + x.1) <= o <= x.2)%Q)) b.2 os) bs (nz_blocks rd rnext s bs).2.
  Proof.
    intros Hr Hg. revert s. induction bs as [|[mode xs] bs IH]; intros s HF; [constructor|]. apply Forall_cons in HF as [HX HF]. cbn [nz_blocks snd] in *.
    assert (forall s, Forall2 (fun (x : Q * Q) o =>
      if decide (mode = 0%Z) then (rd (x.2 - Qabs x.1) <= o <= rd (x.2 + Qabs x.1))%Q
      else ((0 <= x.1)%Q -> (x.2 <= o <= rd (x.2 + x.1))%Q) /\ ((x.1 <= 0)%Q -> (rd (x.2 + x.1) <= o <= x.2)%Q)) xs (nz_frames rd rnext mode s xs).2) as HB.
    { clear -Hr Hg HX. induction xs as [|[atv offs] xs IH]; intros s; [constructor|]. apply Forall_cons in HX as [[A O] HX]. cbn [fst snd] in A, O. cbn [nz_frames].
      pose proof (nz_bipolar rd rnext Hr Hg s atv offs A) as P0. pose proof (fun H => nz_unipolar rd rnext Hr Hg mode s atv offs H A O) as P1.
      destruct (decide (mode = 0%Z)) as [-> | Hm].
      - destruct (nz_frame rd rnext 0 s (atv, offs)) as [s1 o]. specialize (IH HX s1). destruct (nz_frames rd rnext 0 s1 xs) as [s2 os]. cbn [fst snd] in *. by constructor.
      - specialize (P1 Hm). destruct (nz_frame rd rnext mode s (atv, offs)) as [s1 o]. specialize (IH HX s1). destruct (nz_frames rd rnext mode s1 xs) as [s2 os].
        cbn [fst snd] in *. by constructor. }
    specialize (HB s). destruct (nz_frames rd rnext mode s xs) as [s1 os]. specialize (IH s1 HF). destruct (nz_blocks rd rnext s1 bs) as [s2 r]. cbn [fst snd] in *. by constructor.
  Qed.

  (** C63: after a reset the noise of an instance starts from the beginning. *)
  Theorem C63_noise_reset instance before after :
    let s := (nz_blocks rd rnext (nz_new seed instance) before).1 in
    (nz_blocks rd rnext (nz_reset seed s) after).2 = (nz_blocks rd rnext (nz_new seed instance) after).2.
  Proof.
    cbv zeta. assert (forall s, nz_instance (nz_blocks rd rnext s before).1 = nz_instance s) as H.
    { induction before as [|[mode xs] before IH]; intros s; [done|]. cbn [nz_blocks].
      assert (forall s, nz_instance (nz_frames rd rnext mode s xs).1 = nz_instance s) as HF.
      { clear. induction xs as [|[a o] xs IH]; intros s; [done|]. cbn [nz_frames nz_frame]. destruct (rnext (nz_rng s)) as [r g].
        match goal with |- context [nz_frames rd rnext mode ?t xs] => specialize (IH t); destruct (nz_frames rd rnext mode t xs) end. by cbn [fst] in *. }
      specialize (HF s). destruct (nz_frames rd rnext mode s xs) as [s1 os]. specialize (IH s1). destruct (nz_blocks rd rnext s1 before) as [s2 r]. cbn [fst] in *. congruence. }
    unfold nz_reset, nz_new. by rewrite H.
  Qed.
End noise.
Print Assumptions C63_noise_range.
Print Assumptions C63_noise_reset.

(** C63: different instances have different seeds. *)
Theorem C63_noise_seeds i j : (0 <= i < 256)%Z -> (0 <= j < 256)%Z -> i <> j -> nz_seed (fun z => z) i <> nz_seed (fun z => z) j.
Proof. intros Hi Hj Hij. unfold nz_seed. rewrite !Z.mod_small by (split; [lia|]; change (2 ^ 64)%Z with 18446744073709551616%Z; lia). lia. Qed.
Print Assumptions C63_noise_seeds.

(** Roundings that meet the hypothesis: exact arithmetic, and cutting off to multiples of 2^-24 *)
Example C63_ex_exact : rounds_like_f32 (fun x => x).
Proof. split; [done|]. split; reflexivity. Qed.
Definition cut (x : Q) : Q := let k := (2 ^ 24)%Z in
  if Qle_bool 0 x then (inject_Z (Qfloor (x * inject_Z k)) / inject_Z k)%Q else (- (inject_Z (Qfloor (- x * inject_Z k)) / inject_Z k))%Q.
Lemma le0_cases x y : (Qle_bool x y = true /\ (x <= y)%Q) \/ (Qle_bool x y = false /\ (y < x)%Q).
Proof.
  destruct (Qle_bool x y) eqn:E; [left; split; [done|by apply Qle_bool_iff]|]. right. split; [done|].
  destruct (Qlt_le_dec y x) as [H|H]; [done|]. apply Qle_bool_iff in H. congruence.
Qed.
Example C63_ex_cut : rounds_like_f32 cut.
Proof.
  assert (forall x, (0 <= x)%Q -> (0 <= inject_Z (Qfloor (x * inject_Z (2 ^ 24))) / inject_Z (2 ^ 24))%Q) as HP.
  { intros x H. apply Qle_shift_div_l; [reflexivity|]. change (0 * inject_Z (2 ^ 24))%Q with (inject_Z 0). rewrite <- Zle_Qle.
    change 0%Z with (Qfloor 0). apply Qfloor_resp_le. change (inject_Z (2 ^ 24)) with 16777216%Q. lra. }
  assert (forall x y, (x <= y)%Q -> (inject_Z (Qfloor (x * inject_Z (2 ^ 24))) / inject_Z (2 ^ 24) <= inject_Z (Qfloor (y * inject_Z (2 ^ 24))) / inject_Z (2 ^ 24))%Q) as HM.
  { intros x y H. apply Qmult_le_compat_r; [|by vm_compute]. rewrite <- Zle_Qle. apply Qfloor_resp_le. change (inject_Z (2 ^ 24)) with 16777216%Q. lra. }
  assert (forall x, (x == 0)%Q -> (inject_Z (Qfloor (x * inject_Z (2 ^ 24))) / inject_Z (2 ^ 24) == 0)%Q) as HZ.
  { intros x H. rewrite (Qfloor_comp (x * inject_Z (2 ^ 24)) 0) by (rewrite H; reflexivity). reflexivity. }
  split; [|split].
  - intros x y H. unfold cut. cbv zeta. destruct (le0_cases 0 x) as [[-> Hx]|[-> Hx]]; destruct (le0_cases 0 y) as [[-> Hy]|[-> Hy]].
    + by apply HM.
    + lra.
    + pose proof (HP y Hy). assert (0 <= - x)%Q as Hx' by lra. pose proof (HP _ Hx'). lra.
    + assert (- y <= - x)%Q as H' by lra. pose proof (HM _ _ H'). lra.
  - intros x. unfold cut. cbv zeta. destruct (le0_cases 0 x) as [[-> Hx]|[-> Hx]]; destruct (le0_cases 0 (- x)) as [[-> Hy]|[-> Hy]].
    + rewrite !HZ by lra. reflexivity.
    + rewrite (Qfloor_comp (- - x * inject_Z (2 ^ 24)) (x * inject_Z (2 ^ 24))) by (rewrite Qopp_involutive; reflexivity). reflexivity.
    + rewrite Qopp_involutive. reflexivity.
    + lra.
  - intros n _. unfold cut. cbv zeta.
    assert (forall n, (inject_Z (Qfloor (inject_Z n * inject_Z (2 ^ 24))) / inject_Z (2 ^ 24) == inject_Z n)%Q) as HI.
    { intros m. rewrite <- inject_Z_mult, Qfloor_Z, inject_Z_mult. field. by vm_compute. }
    destruct (Qle_bool 0 (inject_Z n)); [apply HI|]. rewrite <- inject_Z_opp, HI, inject_Z_opp. apply Qopp_involutive.
Qed.
(** An oscillator at a quarter of the sample rate with phase modulation: the "sine" is the argument itself and 2 pi is 4 *)
Example C63_ex_sin : match sin_blocks Qplus Qmult qfract qltz 1%Q 4%Q (fun x => x) 3 1%Q 0%Q
    [[(1 # 4, 0); (1 # 4, 0)]; [(1 # 4, -(5 # 2)); (1 # 4, 0); (1 # 4, 1 # 4)]]%Q with Some (_, r) => map (map Qred) r | None => [] end = [[0; 1]; [0; 3; 1]]%Q.
Proof. vm_compute. reflexivity. Qed.
