From Coq Require Import QArith Qround Qabs Lqa.
From Verif Require Import Base M_RndWk M_Osc S_Osc L_RndWk.
Open Scope nat_scope.

Lemma frac_range x : unit_interval (frac x).
Proof.
  unfold unit_interval, frac. pose proof (Qfloor_le x). pose proof (Qlt_floor x) as H1. rewrite inject_Z_plus in H1. change (inject_Z 1) with 1%Q in H1. split; lra.
Qed.
Lemma qfract_pos x : (0 <= x)%Q -> qfract x = frac x.
Proof. intros H. unfold qfract, frac. apply Qle_bool_iff in H. by rewrite H. Qed.
Lemma qfract_range x : (0 <= x)%Q -> unit_interval (qfract x).
Proof. intros H. rewrite qfract_pos by done. apply frac_range. Qed.
Lemma frac_comp x y : (x == y)%Q -> (frac x == frac y)%Q.
Proof. intros H. unfold frac. rewrite (Qfloor_comp _ _ H), H. reflexivity. Qed.
Lemma floor_add_Z x n : Qfloor (x + inject_Z n) = (Qfloor x + n)%Z.
Proof.
  pose proof (Qfloor_le x) as A1. pose proof (Qlt_floor x) as A2. pose proof (Qfloor_le (x + inject_Z n)) as B1. pose proof (Qlt_floor (x + inject_Z n)) as B2.
  rewrite inject_Z_plus in A2, B2. change (inject_Z 1) with 1%Q in A2, B2.
  assert (inject_Z (Qfloor x + n) < inject_Z (Qfloor (x + inject_Z n) + 1))%Q as C1 by (rewrite !inject_Z_plus; change (inject_Z 1) with 1%Q; lra).
  assert (inject_Z (Qfloor (x + inject_Z n)) < inject_Z (Qfloor x + n + 1))%Q as C2 by (rewrite !inject_Z_plus; change (inject_Z 1) with 1%Q; lra).
  rewrite <- Zlt_Qlt in C1, C2. lia.
Qed.
Lemma frac_add_Z x n : (frac (x + inject_Z n) == frac x)%Q.
Proof. unfold frac. rewrite floor_add_Z, inject_Z_plus. lra. Qed.
Lemma frac_frac_add x y : (frac (frac x + y) == frac (x + y))%Q.
Proof.
  rewrite (frac_comp (frac x + y) (x + y + inject_Z (- Qfloor x))); [apply frac_add_Z|]. unfold frac. rewrite inject_Z_opp. lra.
Qed.
Lemma qltz_spec x : (qltz x = true /\ (x < 0)%Q) \/ (qltz x = false /\ (0 <= x)%Q).
Proof.
  unfold qltz. destruct (Qle_bool 0 x) eqn:E.
  - right. split; [done|]. by apply Qle_bool_iff.
  - left. split; [done|]. destruct (Qlt_le_dec x 0) as [H|H]; [done|]. apply Qle_bool_iff in H. congruence.
Qed.

Section sin.
  Context (rd : Q -> Q) (twopi : Q) (fsin : Q -> Q).
  Context (Hrd : rounds_like_f32 rd) (Htw : (0 <= twopi)%Q).
  Notation add := (fun a b => rd (a + b)%Q).
  Notation mul := (fun a b => rd (a * b)%Q).
  Lemma rd_int n : (Z.abs n <= 2 ^ 24)%Z -> (rd (inject_Z n) == inject_Z n)%Q.
  Proof. apply Hrd. Qed.
  Lemma rd_nonneg x : (0 <= x)%Q -> (0 <= rd x)%Q.
  Proof. intros H. apply Hrd in H. pose proof (rd_int 0 ltac:(done)) as E. change (inject_Z 0) with 0%Q in E. lra. Qed.

  Lemma wrap_ends fuel : forall p, (Z.of_nat fuel <= 2 ^ 24)%Z -> (- inject_Z (Z.of_nat fuel) <= p)%Q ->
    exists p', sin_wrap add qltz 1%Q fuel p = Some p' /\ (0 <= p')%Q.
  Proof.
    induction fuel as [|fuel IH]; intros p HF Hp; cbn [sin_wrap]; destruct (qltz_spec p) as [[-> H]|[-> H]]; try (by exists p).
    - change (inject_Z (Z.of_nat 0)) with 0%Q in Hp. lra.
    - apply IH; [lia|]. assert (inject_Z (- Z.of_nat fuel) <= p + 1)%Q as HL.
      { rewrite inject_Z_opp. rewrite Nat2Z.inj_succ in Hp. unfold Z.succ in Hp. rewrite inject_Z_plus in Hp. change (inject_Z 1) with 1%Q in Hp. lra. }
      apply Hrd in HL. rewrite (rd_int (- Z.of_nat fuel)) in HL by lia. rewrite inject_Z_opp in HL. exact HL.
  Qed.

  Lemma frames_end fuel isr xs : (Z.of_nat fuel <= 2 ^ 24)%Z -> (0 <= isr)%Q -> forall ph, unit_interval ph ->
    Forall (fun x : Q * Q => (0 <= x.1)%Q /\ (- inject_Z (Z.of_nat fuel) <= x.2)%Q) xs ->
    exists ph' args, sin_frames add mul qfract qltz 1%Q twopi fsin fuel isr ph xs = Some (ph', fsin <$> args) /\ unit_interval ph' /\
      length args = length xs /\ Forall (fun a => 0 <= a /\ a <= rd twopi)%Q args.
  Proof.
    intros HF HI. induction xs as [|[f pm] xs IH]; intros ph [P1 P2] HX; [by exists ph, []|]. apply Forall_cons in HX as [[X1 X2] HX]. cbn [fst snd] in *.
    cbn [sin_frames sin_frame].
    destruct (wrap_ends fuel (rd (ph + pm)) HF) as (p & -> & Hp).
    { assert (inject_Z (- Z.of_nat fuel) <= ph + pm)%Q as HL by (rewrite inject_Z_opp; lra).
      apply Hrd in HL. rewrite (rd_int (- Z.of_nat fuel)) in HL by lia. rewrite inject_Z_opp in HL. exact HL. }
    cbn [mbind option_bind].
    assert (unit_interval (qfract (rd (ph + rd (f * isr))))) as HU.
    { apply qfract_range, rd_nonneg. assert (0 <= rd (f * isr))%Q by (apply rd_nonneg; nra). lra. }
    destruct (IH _ HU HX) as (ph' & args & -> & HU' & HL & HA). cbn [mbind option_bind].
    exists ph', (rd (qfract p * twopi) :: args). split; [done|]. split; [done|]. split; [cbn [length]; by rewrite HL|]. apply Forall_cons. split; [|done].
    destruct (qfract_range p Hp) as [A1 A2]. split; [apply rd_nonneg; nra|]. apply Hrd. nra.
  Qed.
  Lemma blocks_end fuel isr bs : (Z.of_nat fuel <= 2 ^ 24)%Z -> (0 <= isr)%Q -> forall ph, unit_interval ph ->
    Forall (Forall (fun x : Q * Q => (0 <= x.1)%Q /\ (- inject_Z (Z.of_nat fuel) <= x.2)%Q)) bs ->
    exists ph' args, sin_blocks add mul qfract qltz 1%Q twopi fsin fuel isr ph bs = Some (ph', fmap fsin <$> args) /\ unit_interval ph' /\
      length <$> args = length <$> bs /\ Forall (Forall (fun a => 0 <= a /\ a <= rd twopi)%Q) args.
  Proof.
    intros HF HI. induction bs as [|xs bs IH]; intros ph HU HX; [by exists ph, []|]. apply Forall_cons in HX as [X HX]. cbn [sin_blocks].
    destruct (frames_end fuel isr xs HF HI ph HU X) as (ph1 & args & -> & HU1 & HL & HA). cbn [mbind option_bind].
    destruct (IH ph1 HU1 HX) as (ph2 & argss & -> & HU2 & HLs & HAs). cbn [mbind option_bind].
    exists ph2, (args :: argss). split; [done|]. split; [done|]. split; [rewrite !fmap_cons; by rewrite HL, HLs|]. by apply Forall_cons.
  Qed.
End sin.

Section exact.
  Context (twopi : Q) (fsin : Q -> Q).
  Notation frames := (sin_frames Qplus Qmult qfract qltz 1%Q twopi fsin).
  Lemma wrap_frac fuel : forall p p', sin_wrap Qplus qltz 1%Q fuel p = Some p' -> (qfract p' == frac p)%Q /\ (0 <= p')%Q.
  Proof.
    induction fuel as [|fuel IH]; intros p p'; cbn [sin_wrap]; destruct (qltz_spec p) as [[-> H]|[-> H]]; try done.
    - intros E. apply (inj Some) in E as <-. by rewrite qfract_pos.
    - intros E. apply IH in E as [E E0]. split; [|done]. rewrite E. change 1%Q with (inject_Z 1). apply frac_add_Z.
    - intros E. apply (inj Some) in E as <-. by rewrite qfract_pos.
  Qed.
  Lemma frames_phase fuel isr xs : (0 <= isr)%Q -> forall ph ph' os, unit_interval ph -> Forall (fun x : Q * Q => (0 <= x.1)%Q) xs ->
    frames fuel isr ph xs = Some (ph', os) -> (ph' == frac (ph + cycles isr (xs.*1)))%Q /\ unit_interval ph' /\
    exists args, os = fsin <$> args /\ length args = length xs /\ forall n a f pm, args !! n = Some a -> xs !! n = Some (f, pm) ->
      (a == frac (ph + cycles isr (take n (xs.*1)) + pm) * twopi)%Q.
  Proof.
    intros HI. induction xs as [|[f pm] xs IH]; intros ph ph' os HU HX E.
    - cbn [sin_frames] in E. apply (inj Some) in E. injection E as <- <-. cbn [fmap list_fmap cycles foldr]. split; [|split; [done|by exists []]].
      destruct HU as [U1 U2]. unfold frac. rewrite (Qfloor_comp (ph + 0) ph) by lra. pose proof (Qfloor_le ph) as A. pose proof (Qlt_floor ph) as B.
      assert (Qfloor ph = 0%Z) as ->; [|change (inject_Z 0) with 0%Q; lra].
      rewrite inject_Z_plus in B. change (inject_Z 1) with 1%Q in B.
      assert (inject_Z (Qfloor ph) < inject_Z 1)%Q as C1 by (change (inject_Z 1) with 1%Q; lra).
      assert (inject_Z (-1) < inject_Z (Qfloor ph))%Q as C2 by (change (inject_Z (-1)) with (-1)%Q; lra).
      rewrite <- Zlt_Qlt in C1, C2. lia.
    - apply Forall_cons in HX as [X HX]. cbn [fst] in X. cbn [sin_frames sin_frame] in E.
      apply bind_Some in E as ([p1 o] & E1 & E). apply bind_Some in E as ([p2 r] & E2 & E). apply (inj Some) in E. injection E as <- <-.
      apply bind_Some in E1 as (p & Ew & E1). apply (inj Some) in E1. injection E1 as <- <-. apply wrap_frac in Ew as [Ew _].
      assert (0 <= ph + f * isr)%Q as HP by (destruct HU; nra).
      pose proof (qfract_range _ HP) as HU1. destruct (IH _ _ _ HU1 HX E2) as (P2 & U2 & args & -> & HL & HA).
      rewrite fmap_cons. cbn [fst]. split; [|split; [done|]].
      + rewrite P2. rewrite qfract_pos by done. rewrite frac_frac_add. apply frac_comp. cbn [cycles foldr]. fold (cycles isr xs.*1). lra.
      + exists ((qfract p * twopi)%Q :: args). split; [done|]. split; [cbn [length]; by rewrite HL|]. intros [|n] a f' pm' Ea Ex.
        * cbn [lookup list_lookup] in Ea, Ex. apply (inj Some) in Ea as <-. apply (inj Some) in Ex. injection Ex as <- <-. rewrite Ew. cbn [take cycles foldr].
          rewrite (frac_comp (ph + pm) (ph + 0 + pm)) by lra. reflexivity.
        * cbn [lookup list_lookup] in Ea, Ex. rewrite (HA n a f' pm' Ea Ex). rewrite qfract_pos by done.
          rewrite (frac_comp (frac (ph + f * isr) + cycles isr (take n xs.*1) + pm') (frac (ph + f * isr) + (cycles isr (take n xs.*1) + pm'))) by lra.
          rewrite frac_frac_add. cbn [take cycles foldr]. fold (cycles isr (take n xs.*1)).
          rewrite (frac_comp (ph + f * isr + (cycles isr (take n xs.*1) + pm')) (ph + (f * isr + cycles isr (take n xs.*1)) + pm')) by lra. reflexivity.
  Qed.
End exact.

Lemma sin_frames_app {F} (add mul : F -> F -> F) fract ltz one twopi fsin fuel isr a b : forall ph,
  sin_frames add mul fract ltz one twopi fsin fuel isr ph (a ++ b) =
  let* (p1, o1) := sin_frames add mul fract ltz one twopi fsin fuel isr ph a in
  let* (p2, o2) := sin_frames add mul fract ltz one twopi fsin fuel isr p1 b in Some (p2, o1 ++ o2).
Proof.
  induction a as [|x a IH]; intros ph; cbn [app sin_frames].
  - cbn [mbind option_bind]. by destruct (sin_frames _ _ _ _ _ _ _ fuel isr ph b) as [[? ?]|].
  - destruct (sin_frame add mul fract ltz one twopi fsin fuel isr ph x) as [[p o]|]; cbn [mbind option_bind]; [|done]. rewrite IH.
    destruct (sin_frames _ _ _ _ _ _ _ fuel isr p a) as [[p1 o1]|]; cbn [mbind option_bind]; [|done].
    by destruct (sin_frames _ _ _ _ _ _ _ fuel isr p1 b) as [[p2 o2]|].
Qed.
Lemma sin_blocks_join {F} (add mul : F -> F -> F) fract ltz one twopi fsin fuel isr bs : forall ph,
  sin_frames add mul fract ltz one twopi fsin fuel isr ph (mjoin bs) =
  let* (p, os) := sin_blocks add mul fract ltz one twopi fsin fuel isr ph bs in Some (p, mjoin os).
Proof.
  induction bs as [|xs bs IH]; intros ph; [done|]. change (mjoin (xs :: bs)) with (xs ++ mjoin bs). rewrite sin_frames_app. cbn [sin_blocks].
  destruct (sin_frames _ _ _ _ _ _ _ fuel isr ph xs) as [[p o]|]; cbn [mbind option_bind]; [|done]. rewrite IH.
  by destruct (sin_blocks _ _ _ _ _ _ _ fuel isr p bs) as [[p2 o2]|].
Qed.

Lemma qmin_spec x y : ((x <= y)%Q /\ qmin x y = x) \/ ((y <= x)%Q /\ qmin x y = y).
Proof.
  unfold qmin. destruct (Qle_bool x y) eqn:E; [left; split; [by apply Qle_bool_iff|done]|]. right. split; [|done].
  destruct (Qlt_le_dec y x) as [H|H]; [lra|]. apply Qle_bool_iff in H. congruence.
Qed.
Lemma qmax_spec x y : ((x <= y)%Q /\ qmax x y = y) \/ ((y <= x)%Q /\ qmax x y = x).
Proof.
  unfold qmax. destruct (Qle_bool x y) eqn:E; [left; split; [by apply Qle_bool_iff|done]|]. right. split; [|done].
  destruct (Qlt_le_dec y x) as [H|H]; [lra|]. apply Qle_bool_iff in H. congruence.
Qed.

Section formfm.
  Context (cosf : Q -> Q) (tau : Q) (Hcos : forall x, (-1 <= cosf x <= 1)%Q).

  Lemma side_range x : let s := qmax (qmin x (1 - (1 # 1000000))) (1 # 1000000) in (0 < s)%Q /\ (s < 1)%Q.
  Proof. cbv zeta. destruct (qmax_spec (qmin x (1 - (1 # 1000000))) (1 # 1000000)) as [[H ->]|[H ->]]; [split; reflexivity|]. destruct (qmin_spec x (1 - (1 # 1000000))) as [[H1 E]|[H1 E]]; rewrite E in *; lra. Qed.
  Lemma base_range s ph : (0 < s)%Q -> (s < 1)%Q -> unit_interval ph -> (0 <= qmin (ph / s) ((1 - ph) / (1 - s)) <= 1)%Q.
  Proof.
    intros S1 S2 [P1 P2].
    assert (0 <= ph / s)%Q as G1 by (apply Qle_shift_div_l; lra). assert (0 <= (1 - ph) / (1 - s))%Q as G2 by (apply Qle_shift_div_l; lra).
    destruct (Qlt_le_dec s ph) as [H1|H1].
    - assert ((1 - ph) / (1 - s) <= 1)%Q as G3 by (apply Qle_shift_div_r; lra). destruct (qmin_spec (ph / s) ((1 - ph) / (1 - s))) as [[H2 ->]|[H2 ->]]; lra.
    - assert (ph / s <= 1)%Q as G3 by (apply Qle_shift_div_r; lra). destruct (qmin_spec (ph / s) ((1 - ph) / (1 - s))) as [[H2 ->]|[H2 ->]]; lra.
  Qed.
  Lemma carrier_range b peak m : (0 <= b <= 1)%Q -> (1 <= m)%Q -> (- m <= peak <= m)%Q ->
    let c := (1 - (1 - peak) * (b * b * (3 - 2 * b)))%Q in (- m <= c <= m)%Q.
  Proof.
    intros Hb Hm Hp. cbv zeta. set (t := (b * b * (3 - 2 * b))%Q).
    assert (0 <= t)%Q as T1 by (unfold t; assert (0 <= b * b)%Q by nra; nra).
    assert (t <= 1)%Q as T2 by (unfold t; assert (0 <= (1 - b) * (1 - b) * (1 + 2 * b))%Q by (assert (0 <= (1 - b) * (1 - b))%Q by nra; nra); nra).
    clearbody t. split; nra.
  Qed.
  Lemma modulator_range bl x y : (0 <= bl <= 1)%Q -> (-1 <= x <= 1)%Q -> (-1 <= y <= 1)%Q -> (-1 <= (1 - bl) * x + bl * y <= 1)%Q.
  Proof. intros. split; nra. Qed.
  Lemma product_range c w m : (0 <= m)%Q -> (- m <= c <= m)%Q -> (-1 <= w <= 1)%Q -> (- m <= c * w <= m)%Q.
  Proof. intros. split; nra. Qed.

  Lemma ff_frame_range isr ph i m : (0 <= isr)%Q -> unit_interval ph -> (0 <= ff_base i)%Q -> (0 <= ff_form i)%Q -> (1 <= m)%Q -> (- m <= ff_peak i <= m)%Q ->
    let '(ph', o) := ff_frame cosf tau isr ph i in unit_interval ph' /\ (- m <= o <= m)%Q.
  Proof.
    intros HI HU HB HF Hm Hp. unfold ff_frame. cbv zeta. destruct (side_range (ff_side i)) as [S1 S2].
    pose proof (base_range _ ph S1 S2 HU) as HR. pose proof (carrier_range _ (ff_peak i) m HR Hm Hp) as HC. cbv zeta in HC.
    assert (0 <= ff_form i / qmax (ff_base i) (1 # 1000000))%Q as HM.
    { destruct (qmax_spec (ff_base i) (1 # 1000000)) as [[H ->]|[H ->]]; apply Qle_shift_div_l; lra. }
    destruct (qfract_range _ HM) as [B1 B2].
    split.
    - apply qfract_range. destruct HU. nra.
    - apply product_range; [lra|exact HC|]. apply modulator_range; [lra| |apply Hcos]. destruct (negb _); [lra|apply Hcos].
  Qed.
  Lemma ff_frames_range isr is m : (0 <= isr)%Q -> (1 <= m)%Q -> forall ph, unit_interval ph ->
    Forall (fun i => (0 <= ff_base i)%Q /\ (0 <= ff_form i)%Q /\ (- m <= ff_peak i <= m)%Q) is ->
    unit_interval (ff_frames cosf tau isr ph is).1 /\ Forall (fun o => - m <= o <= m)%Q (ff_frames cosf tau isr ph is).2.
  Proof.
    intros HI Hm. induction is as [|i is IH]; intros ph HU HF; [cbn [ff_frames fst snd]; split; [done|constructor]|]. apply Forall_cons in HF as [(F1 & F2 & F3) HF]. cbn [ff_frames].
    pose proof (ff_frame_range isr ph i m HI HU F1 F2 Hm F3) as P. destruct (ff_frame cosf tau isr ph i) as [ph' o]. destruct P as [P1 P2].
    specialize (IH ph' P1 HF). destruct (ff_frames cosf tau isr ph' is) as [ph2 os]. cbn [fst snd] in *. destruct IH. split; [done|]. by apply Forall_cons.
  Qed.
End formfm.

Section noise.
  Context {G : Type} (rd : Q -> Q) (rnext : G -> Q * G) (Hrd : rounds_like_f32 rd) (Hg : forall g, (0 <= (rnext g).1 <= 1)%Q).
  Lemma rd_comp x y : (x == y)%Q -> (rd x == rd y)%Q.
  Proof. intros H. apply Qle_antisym; apply Hrd; lra. Qed.
  Lemma rd_i n : (Z.abs n <= 2 ^ 24)%Z -> (rd (inject_Z n) == inject_Z n)%Q.
  Proof. apply Hrd. Qed.
  Lemma abs_float a : is_float rd a -> is_float rd (Qabs a).
  Proof. unfold is_float. intros H. apply (Qabs_case a (fun y => (rd y == y)%Q)); [done|]. intros _. destruct Hrd as (_ & HS & _). rewrite HS, H. reflexivity. Qed.
  Lemma scaled v atv : is_float rd atv -> (-1 <= v <= 1)%Q -> (- Qabs atv <= rd (v * atv) <= Qabs atv)%Q.
  Proof.
    intros Ha Hv. assert (- Qabs atv <= v * atv <= Qabs atv)%Q as [A B] by (apply (Qabs_case atv (fun y => (- y <= v * atv <= y)%Q)); intros; nra).
    apply Hrd in A, B. pose proof (abs_float atv Ha) as E. unfold is_float in E. destruct Hrd as (_ & HS & _). rewrite HS in A. rewrite E in A, B. done.
  Qed.
  Lemma between a b x : is_float rd a -> is_float rd b -> (a <= x <= b)%Q -> (a <= rd x <= b)%Q.
  Proof. unfold is_float. intros Ea Eb [A B]. apply Hrd in A, B. lra. Qed.
  Lemma nz_bipolar (s : @noise G) atv offs : is_float rd atv -> (rd (offs - Qabs atv) <= (nz_frame rd rnext 0 s (atv, offs)).2 <= rd (offs + Qabs atv))%Q.
  Proof.
    intros Ha. unfold nz_frame. specialize (Hg (nz_rng s)). destruct (rnext (nz_rng s)) as [r g]. cbn [fst snd Z.eqb] in *. cbv zeta.
    pose proof (rd_i 0 ltac:(done)) as E0. pose proof (rd_i 2 ltac:(done)) as E2. pose proof (rd_i 1 ltac:(done)) as E1. pose proof (rd_i (-1) ltac:(done)) as Em.
    change (inject_Z 0) with 0%Q in *. change (inject_Z 1) with 1%Q in *. change (inject_Z 2) with 2%Q in *. change (inject_Z (-1)) with (-1)%Q in *.
    assert (0 <= rd (r * 2) <= 2)%Q as R2. { apply between; [done|done|lra]. }
    assert (-1 <= rd (rd (r * 2) - 1) <= 1)%Q as R1. { apply between; [done|done|lra]. }
    pose proof (scaled _ atv Ha R1). split; apply Hrd; lra.
  Qed.
  Lemma nz_unipolar mode (s : @noise G) atv offs : mode <> 0%Z -> is_float rd atv -> is_float rd offs ->
    ((0 <= atv)%Q -> (offs <= (nz_frame rd rnext mode s (atv, offs)).2 <= rd (offs + atv))%Q) /\
    ((atv <= 0)%Q -> (rd (offs + atv) <= (nz_frame rd rnext mode s (atv, offs)).2 <= offs)%Q).
  Proof.
    intros Hm Ha Ho. unfold nz_frame. specialize (Hg (nz_rng s)). destruct (rnext (nz_rng s)) as [r g]. cbn [fst snd] in *. destruct (Z.eqb_spec mode 0) as [?|_]; [done|].
    pose proof (rd_i 0 ltac:(done)) as E0. change (inject_Z 0) with 0%Q in *. unfold is_float in *.
    split; intros H.
    - assert (0 <= rd (r * atv) <= atv)%Q as R. { apply between; [done|done|nra]. }
      split; [|apply Hrd; lra]. assert (rd offs <= rd (rd (r * atv) + offs))%Q by (apply Hrd; lra). lra.
    - assert (atv <= rd (r * atv) <= 0)%Q as R. { apply between; [done|done|nra]. }
      split; [apply Hrd; lra|]. assert (rd (rd (r * atv) + offs) <= rd offs)%Q by (apply Hrd; lra). lra.
  Qed.
End noise.
