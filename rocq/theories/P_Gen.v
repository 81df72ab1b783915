(** The oscillators BOsc, VOsc and BowStri (C66): the oscillators with exact arithmetic *)
From Coq Require Import QArith Qabs Lqa.
From Verif Require Import Base M_Gen S_Fx S_Gen.
Open Scope nat_scope.

Lemma xclamp_within x lo hi : (lo <= hi)%Q -> within lo hi (xclamp x lo hi).
Proof.
  intros H. unfold within, xclamp. destruct (Qle_bool lo x) eqn:E1; cbn [negb].
  - apply Qle_bool_iff in E1. destruct (Qle_bool x hi) eqn:E2; cbn [negb]; [apply Qle_bool_iff in E2; split; lra|split; lra].
  - split; lra.
Qed.
Lemma xclamp_id x lo hi : within lo hi x -> xclamp x lo hi = x.
Proof. intros [H1 H2]. unfold xclamp. apply Qle_bool_iff in H1, H2. by rewrite H1, H2. Qed.
Lemma Qle_bool_false x y : Qle_bool x y = false -> (y < x)%Q.
Proof. intros H. destruct (Qlt_le_dec y x) as [q|q]; [done|]. apply Qle_bool_iff in q. congruence. Qed.
Lemma xclamp_mono x y lo hi : (lo <= hi)%Q -> (x <= y)%Q -> (xclamp x lo hi <= xclamp y lo hi)%Q.
Proof.
  intros H Hxy. unfold xclamp. destruct (Qle_bool lo x) eqn:E1, (Qle_bool lo y) eqn:E2, (Qle_bool x hi) eqn:E3, (Qle_bool y hi) eqn:E4; cbn [negb].
  all: repeat match goal with H : Qle_bool _ _ = true |- _ => apply Qle_bool_iff in H | H : Qle_bool _ _ = false |- _ => apply Qle_bool_false in H end; lra.
Qed.
Lemma xmax_ge x y : (x <= xmax x y /\ y <= xmax x y)%Q.
Proof. unfold xmax. destruct (Qle_bool x y) eqn:E; [apply Qle_bool_iff in E; split; lra|]. split; [lra|]. destruct (Qlt_le_dec y x); [lra|]. apply Qle_bool_iff in q. congruence. Qed.
Lemma xmax_id x y : (y <= x)%Q -> (xmax x y == x)%Q.
Proof. intros H. unfold xmax. destruct (Qle_bool x y) eqn:E; [apply Qle_bool_iff in E; lra|lra]. Qed.

Lemma same_phase_trans x y z : same_phase x y -> same_phase y z -> same_phase x z.
Proof. intros [k H] [l H']. exists (k + l)%Z. rewrite H, H', inject_Z_plus. lra. Qed.

Section vosc.
  Context (pow4 : Q -> Q) (X : genlib Q) (phase : g_vps X -> Q).
  (** the oscillator of the crate advances by frequency times inverse rate, up to whole turns *)
  Context (Hadv : forall o freq isr d v, same_phase (phase (g_vps_next X o freq isr d v).1) (phase o + freq * isr)%Q).
  Local Notation frame := (vosc_frame (exact pow4) X).

  Lemma over_phase k : forall o freq isr d v damt dist,
    same_phase (phase (vosc_over X k o freq isr d v damt dist).1) (phase o + inject_Z (Z.of_nat k) * (freq * isr))%Q.
  Proof.
    induction k as [|k IH]; intros o freq isr d v damt dist; cbn [vosc_over].
    - exists 0%Z. cbn [fst]. change (inject_Z (Z.of_nat 0)) with 0%Q. change (inject_Z 0) with 0%Q. lra.
    - pose proof (Hadv o freq isr d v) as [a Ha]. destruct (g_vps_next X o freq isr d v) as [o1 s]. cbn [fst] in Ha.
      pose proof (IH o1 freq isr d v damt dist) as [b Hb]. destruct (vosc_over X k o1 freq isr d v damt dist) as [o2 bs]. cbn [fst] in *.
      exists (a + b)%Z. rewrite Hb, Ha. rewrite Nat2Z.inj_succ. unfold Z.succ. rewrite !inject_Z_plus. change (inject_Z 1) with 1%Q. lra.
  Qed.

  (** With and without oversampling, however often this is switched, the oscillator plays the frequency that it is given: over any run of frames
      its phase advances by the sum of the frequencies divided by the sample rate, whatever the shape and distortion settings *)
  Definition vosc_one (srate : Q) (st : g_vps X * g_over X) (i : vin) : g_vps X * g_over X :=
    (frame (vi_over i) (vi_dist i) srate st (vi_freq i) (vi_v i) (vi_d i) (vi_vs i) (vi_damt i)).1.
  Theorem C66_same_pitch srate is : (0 < srate)%Q -> forall st,
    same_phase (phase (foldl (vosc_one srate) st is).1) (phase st.1 + foldr (fun i acc => vi_freq i / srate + acc)%Q 0%Q is)%Q.
  Proof.
    intros Hsr. induction is as [|i is IH]; intros [o ov]; cbn [foldl foldr].
    - exists 0%Z. cbn [fst]. change (inject_Z 0) with 0%Q. lra.
    - eapply same_phase_trans; [apply IH|]. set (acc := foldr _ _ is).
      assert (H1 : same_phase (phase (vosc_one srate (o, ov) i).1) (phase o + vi_freq i / srate)%Q).
      { unfold vosc_one, vosc_frame. change (o_div (exact pow4)) with Qdiv. change (o_mul (exact pow4)) with Qmult. change (o_q (exact pow4)) with (fun q : Q => q). cbv beta.
        set (isr := (1 / (srate * inject_Z (Z.of_nat oversampling)))%Q).
        assert (Hi : (inject_Z (Z.of_nat oversampling) * isr == / srate)%Q).
        { subst isr. change (inject_Z (Z.of_nat oversampling)) with 4%Q. field. lra. }
        destruct (vi_over i).
        - match goal with |- context [vosc_over X oversampling o ?a ?b ?c ?d ?e ?g] => pose proof (over_phase oversampling o a b c d e g) as [k Hk]; destruct (vosc_over X oversampling o a b c d e g) as [o1 bs] end.
          destruct (g_down X ov bs) as [ov1 y]. cbn [fst] in *. exists k. rewrite Hk.
          assert (Heq : (inject_Z (Z.of_nat oversampling) * (vi_freq i * isr) == vi_freq i / srate)%Q) by (unfold Qdiv; rewrite <- Hi; ring). rewrite Heq. lra.
        - match goal with |- context [g_vps_next X o ?a ?b ?c ?d] => pose proof (Hadv o a b c d) as [k Hk]; destruct (g_vps_next X o a b c d) as [o1 s] end.
          cbn [fst] in *. exists k. rewrite Hk.
          assert (Heq : (vi_freq i * (isr * inject_Z (Z.of_nat oversampling)) == vi_freq i / srate)%Q) by (unfold Qdiv; rewrite <- Hi; ring). rewrite Heq. lra. }
      destruct H1 as [k Hk]. exists k. rewrite Hk. cbn [fst]. lra.
  Qed.
End vosc.

(** Whatever arrives at the shape and distortion inputs, it has the effect of values in their ranges; values in these ranges are used as they are *)
Theorem C66_limits pow4 X over dist srate st freq v d vs damt : exists v' d' vs' damt',
  within 0 1 v' /\ within 0 1 d' /\ within 0 20 vs' /\ within 0 1 damt' /\
  (within 0 1 v -> v' = v) /\ (within 0 1 d -> d' = d) /\ (within 0 20 vs -> vs' = vs) /\ (within 0 1 damt -> damt' = damt) /\
  vosc_frame (exact pow4) X over dist srate st freq v d vs damt =
    let israte := (1 / (srate * 4))%Q in
    let shape := g_limit_v X d' (v' + vs')%Q in
    if over then
      let step '(o, bs) := let '(o, s) := g_vps_next X o freq israte d' shape in (o, bs ++ [g_distort X s damt' dist]) in
      let '(o, bs) := step (step (step (step (st.1, [])))) in
      let '(ov, y) := g_down X st.2 bs in (o, ov, y)
    else let '(o, s) := g_vps_next X st.1 freq (israte * 4)%Q d' shape in (o, st.2, g_distort X s damt' dist).
Proof.
  exists (xclamp v 0 1), (xclamp d 0 1), (xclamp vs 0 20), (xclamp damt 0 1).
  do 4 (split; [apply xclamp_within; lra|]). do 4 (split; [by intros; apply xclamp_id|]).
  destruct st as [o ov]. unfold vosc_frame, vosc_over, oversampling. cbv zeta. change (o_clamp (exact pow4)) with xclamp. change (o_div (exact pow4)) with Qdiv.
  change (o_mul (exact pow4)) with Qmult. change (o_add (exact pow4)) with Qplus. change (o_q (exact pow4)) with (fun q : Q => q). cbv beta. change (inject_Z (Z.of_nat 4)) with 4%Q. cbn [fst snd].
  destruct over; [|done].
  destruct (g_vps_next X o freq _ _ _) as [o1 s1]. destruct (g_vps_next X o1 freq _ _ _) as [o2 s2]. destruct (g_vps_next X o2 freq _ _ _) as [o3 s3]. destruct (g_vps_next X o3 freq _ _ _) as [o4 s4].
  done.
Qed.

(** ** The bowed string *)
(** The two parts of the string are together as long as the period of the note, neither is shorter than a hundredth of it, and a note below 20 Hz
    (or no note at all) is played at 20 Hz, so that the string is never longer than a twentieth of a second. The bow divides it at its position. *)
Theorem C66_string pow4 srate freq pos : (0 < srate)%Q ->
  let '(nut, bridge) := string_lengths (exact pow4) srate freq pos in
  ((20 <= freq -> (nut + bridge) * freq == srate) /\ (freq <= 20 -> (nut + bridge) * 20 == srate) /\
   (nut + bridge <= srate / 20) /\ (nut + bridge <= 100 * nut) /\ (nut + bridge <= 100 * bridge) /\ 0 < nut /\ 0 < bridge /\
   (within (- (98 # 100)) (98 # 100) pos -> bridge * 2 == (nut + bridge) * (pos + 1)))%Q.
Proof.
  intros Hsr. unfold string_lengths. change (o_div (exact pow4)) with Qdiv. change (o_mul (exact pow4)) with Qmult. change (o_sub (exact pow4)) with Qminus. change (o_add (exact pow4)) with Qplus.
  change (o_q (exact pow4)) with (fun q : Q => q). change (o_max (exact pow4)) with xmax. change (o_clamp (exact pow4)) with xclamp. change (o_le0 (exact pow4)) with (fun x : Q => Qle_bool x 0). cbv beta zeta.
  pose proof (xmax_ge freq 20) as [M1 M2]. set (m := xmax freq 20) in *.
  assert (Hmi : (0 < / m)%Q) by (apply Qinv_lt_0_compat; lra).
  assert (Hpos : (0 < srate / m)%Q) by (unfold Qdiv; apply Qmult_lt_0_compat; lra).
  destruct (Qle_bool (srate / m) 0) eqn:E; [apply Qle_bool_iff in E; lra|].
  pose proof (xclamp_within ((pos + 1) / 2) (1 # 100) (99 # 100) ltac:(lra)) as [C1 C2]. set (a := xclamp _ _ _) in *.
  assert (Htot : (srate / m * (1 - a) + srate / m * a == srate / m)%Q) by ring.
  assert (Hm : (srate / m * m == srate)%Q) by (field; lra).
  set (t := (srate / m)%Q) in *.
  assert (P1 : (0 <= t * (a - (1 # 100)))%Q) by (apply Qmult_le_0_compat; lra).
  assert (P2 : (0 <= t * ((99 # 100) - a))%Q) by (apply Qmult_le_0_compat; lra).
  assert (P3 : (0 <= t * (m - 20))%Q) by (apply Qmult_le_0_compat; lra).
  split; [|split; [|split; [|split; [|split; [|split; [|split]]]]]].
  - intros Hf. rewrite Htot. pose proof (xmax_id freq 20 Hf) as Hid. fold m in Hid. rewrite <- Hid. exact Hm.
  - intros Hf. rewrite Htot. assert (Hm20 : (m == 20)%Q) by (unfold m, xmax; apply Qle_bool_iff in Hf; rewrite Hf; reflexivity). rewrite <- Hm20. exact Hm.
  - rewrite Htot. assert (t * 20 <= srate)%Q by lra. apply Qle_shift_div_l; [lra|done].
  - lra.
  - lra.
  - lra.
  - lra.
  - intros [W1 W2]. rewrite Htot. assert (Ha : (a == (pos + 1) / 2)%Q).
    { unfold a. rewrite xclamp_id; [reflexivity|]. split; [apply Qle_shift_div_l; lra|apply Qle_shift_div_r; lra]. }
    rewrite Ha. field.
Qed.

(** At the bow: it adds a part between 1 and 98 percent of the difference of the velocities, by its force and this difference. What leaves the bow is never larger
    than the larger of the waves that came to it, plus a quarter of the velocity of the bow: a bow that does not move never makes the string louder. *)
Theorem C66_bow pow4 vel force nut bridge :
  let '(to_bridge, to_nut) := bow_joint (exact pow4) vel force nut bridge in
  (exists k, within (1 # 100) (98 # 100) k /\ bow_adds k vel nut bridge to_bridge to_nut /\
    let e := grip pow4 force vel nut bridge in (within (1 # 100) (98 # 100) e -> k = e) /\ (e < 1 # 100 -> k = 1 # 100)%Q /\ (98 # 100 < e -> k = 98 # 100)%Q) /\
  forall m : Q, (Qabs nut <= m -> Qabs bridge <= m -> Qabs to_bridge <= m + (1 # 4) * Qabs vel /\ Qabs to_nut <= m + (1 # 4) * Qabs vel)%Q.
Proof.
  unfold bow_joint. change (o_mul (exact pow4)) with Qmult. change (o_sub (exact pow4)) with Qminus. change (o_add (exact pow4)) with Qplus. change (o_q (exact pow4)) with (fun q : Q => q).
  change (o_clamp (exact pow4)) with xclamp. change (o_pow4 (exact pow4)) with pow4. change (o_abs (exact pow4)) with Qabs. cbv beta zeta.
  set (e := pow4 _). pose proof (xclamp_within e (1 # 100) (98 # 100) ltac:(lra)) as [K1 K2]. set (k := xclamp _ _ _) in *.
  split.
  { exists k. split; [done|]. split; [split; reflexivity|]. cbv zeta. change (grip pow4 force vel nut bridge) with e. split; [apply xclamp_id|]. subst k. unfold xclamp. split; intros He.
    - destruct (Qle_bool (1 # 100) e) eqn:E1; [apply Qle_bool_iff in E1; lra|done].
    - destruct (Qle_bool (1 # 100) e) eqn:E1; [|apply Qle_bool_false in E1; lra]. destruct (Qle_bool e (98 # 100)) eqn:E2; [apply Qle_bool_iff in E2; lra|done]. }
  intros m Hn Hb.
  apply Qabs_Qle_condition in Hn as [N1 N2]. apply Qabs_Qle_condition in Hb as [B1 B2].
  assert (V : (- Qabs vel <= vel /\ vel <= Qabs vel)%Q) by (apply Qabs_Qle_condition; lra). destruct V as [V1 V2]. set (u := Qabs vel) in *.
  assert (Hu : (0 <= u)%Q) by apply Qabs_nonneg.
  assert (A1 : (0 <= (1 - k) * (m - nut))%Q) by (apply Qmult_le_0_compat; lra). assert (A2 : (0 <= (1 - k) * (m + nut))%Q) by (apply Qmult_le_0_compat; lra).
  assert (A3 : (0 <= k * (m - bridge))%Q) by (apply Qmult_le_0_compat; lra). assert (A4 : (0 <= k * (m + bridge))%Q) by (apply Qmult_le_0_compat; lra).
  assert (A5 : (0 <= (1 - k) * (m - bridge))%Q) by (apply Qmult_le_0_compat; lra). assert (A6 : (0 <= (1 - k) * (m + bridge))%Q) by (apply Qmult_le_0_compat; lra).
  assert (A7 : (0 <= k * (m - nut))%Q) by (apply Qmult_le_0_compat; lra). assert (A8 : (0 <= k * (m + nut))%Q) by (apply Qmult_le_0_compat; lra).
  assert (U1 : (0 <= k * (u - vel))%Q) by (apply Qmult_le_0_compat; lra). assert (U2 : (0 <= k * (u + vel))%Q) by (apply Qmult_le_0_compat; lra).
  assert (U3 : (0 <= (1 - k) * u)%Q) by (apply Qmult_le_0_compat; lra).
  split; apply Qabs_Qle_condition; split; lra.
Qed.

Section rest.
  Context (pow4 : Q -> Q) (X : genlib Q) (L : g_line X -> Prop) (P : g_pole X -> Prop) (B : g_biq X -> Prop) (HX : still X L P B).

  Lemma chain_still fs : forall y, Forall B fs -> (y == 0)%Q -> Forall B (body_chain X fs y).1 /\ ((body_chain X fs y).2 == 0)%Q.
  Proof.
    induction fs as [|f fs IH]; intros y Hf Hy; cbn [body_chain]; [done|]. apply Forall_cons in Hf as [Hf Hfs].
    pose proof (sl_tick _ _ _ _ HX f y Hf Hy) as [T1 T2]. destruct (g_tick X f y) as [f1 y1]. cbn [fst snd] in *.
    pose proof (IH y1 Hfs T2) as [T3 T4]. destruct (body_chain X fs y1) as [fs1 y2]. cbn [fst snd] in *. split; [by constructor|done].
  Qed.
  Lemma still_waves srate s freq pos : still_string L P B s ->
    (o_neg (exact pow4) (g_tap X (st_nut s) (string_lengths (exact pow4) srate freq pos).1) == 0)%Q /\
    P (g_pole_next X (st_pole s) (g_tap X (st_bridge s) (string_lengths (exact pow4) srate freq pos).2)).1 /\
    (o_neg (exact pow4) (g_pole_next X (st_pole s) (g_tap X (st_bridge s) (string_lengths (exact pow4) srate freq pos).2)).2 == 0)%Q.
  Proof.
    intros (S1 & S2 & S3 & S4). change (o_neg (exact pow4)) with Qopp.
    pose proof (sl_tap _ _ _ _ HX (st_nut s) (string_lengths (exact pow4) srate freq pos).1 S1) as T1.
    pose proof (sl_pole _ _ _ _ HX (st_pole s) _ S3 (sl_tap _ _ _ _ HX (st_bridge s) (string_lengths (exact pow4) srate freq pos).2 S2)) as [T2 T3].
    rewrite T1, T3. done.
  Qed.

  (** A string at rest stays silent as long as the bow does not move, whatever the note, the force and the position; and it is silent in the first
      frame in which the bow moves, but this sends a wave in both directions *)
  Theorem C66_rest srate (is : list (Q * Q * Q)) : forall s, still_string L P B s ->
    foldr (fun '(freq, force, pos) (k : string_ X -> Prop) s => let '(s', y) := string_frame (exact pow4) X srate s freq 0%Q force pos in (y == 0)%Q /\ k s')
      (still_string L P B) is s.
  Proof.
    induction is as [|[[freq force] pos] is IH]; intros s Hs; cbn [foldr]; [done|].
    pose proof (still_waves srate s freq pos Hs) as (W1 & W2 & W3). destruct Hs as (S1 & S2 & S3 & S4). unfold string_frame.
    destruct (string_lengths (exact pow4) srate freq pos) as [nl bl]. cbn [fst snd] in *. set (nut := o_neg _ _) in *.
    destruct (g_pole_next X (st_pole s) _) as [pole b]. cbn [fst snd] in *. set (bridge := o_neg _ b) in *.
    pose proof (C66_bow pow4 0 force nut bridge) as HB. destruct (bow_joint (exact pow4) 0%Q force nut bridge) as [tb tn]. destruct HB as [(k & _ & (K1 & K2) & _) _].
    assert (K1' : (tb == 0)%Q) by (rewrite K1, W1, W3; ring). assert (K2' : (tn == 0)%Q) by (rewrite K2, W1, W3; ring).
    pose proof (chain_still (st_body s) bridge S4 W3) as [C1 C2]. destruct (body_chain X (st_body s) bridge) as [body y]. cbn [fst snd] in *.
    split; [done|]. apply IH. split; [|split; [|split]]; [by apply (sl_feed _ _ _ _ HX)|by apply (sl_feed _ _ _ _ HX)|done|done].
  Qed.
  Theorem C66_starts srate s freq vel force pos : still_string L P B s -> ~ (vel == 0)%Q ->
    let '(s', y) := string_frame (exact pow4) X srate s freq vel force pos in
    (y == 0)%Q /\ exists x x', st_nut s' = g_feed X (st_nut s) x /\ st_bridge s' = g_feed X (st_bridge s) x' /\ (x == x')%Q /\ (0 < x * vel)%Q.
  Proof.
    intros Hs Hv. pose proof (still_waves srate s freq pos Hs) as (W1 & W2 & W3). destruct Hs as (S1 & S2 & S3 & S4). unfold string_frame.
    destruct (string_lengths (exact pow4) srate freq pos) as [nl bl]. cbn [fst snd] in *. set (nut := o_neg _ _) in *.
    destruct (g_pole_next X (st_pole s) _) as [pole b]. cbn [fst snd] in *. set (bridge := o_neg _ b) in *.
    pose proof (C66_bow pow4 vel force nut bridge) as HB. destruct (bow_joint (exact pow4) vel force nut bridge) as [tb tn]. destruct HB as [(k & [K0 K3] & (K1 & K2) & _) _].
    pose proof (chain_still (st_body s) bridge S4 W3) as [C1 C2]. destruct (body_chain X (st_body s) bridge) as [body y]. cbn [fst snd st_nut st_bridge] in *.
    split; [done|]. exists tn, tb. split; [done|]. split; [done|]. rewrite K1, K2, W1, W3. split; [ring|].
    assert (Hsq : (0 < vel * vel)%Q) by (destruct (Q_dec vel 0) as [[H|H]|H]; [|by apply Qmult_lt_0_compat|done]; setoid_replace (vel * vel)%Q with ((- vel) * (- vel))%Q by ring; apply Qmult_lt_0_compat; lra).
    assert (HK : (0 < k * (vel * vel))%Q) by (apply Qmult_lt_0_compat; lra).
    setoid_replace ((0 + k * ((1 # 4) * vel - (0 + 0))) * vel)%Q with ((1 # 4) * (k * (vel * vel)))%Q by ring. lra.
  Qed.
End rest.

(** The correction of the pitch is between nothing, up to 110 Hz, and 0.0144; it never falls while the note rises *)
Theorem C66_tuning pow4 freq : let c := tune_correction (exact pow4) in
  within 0 (144 # 10000) (c freq) /\ ((freq <= - (2 # 10))%Q <-> (c freq == 0)%Q) /\ forall freq', (freq <= freq')%Q -> (c freq <= c freq')%Q.
Proof.
  cbv zeta. unfold tune_correction. change (o_mul (exact pow4)) with Qmult. change (o_add (exact pow4)) with Qplus. change (o_q (exact pow4)) with (fun q : Q => q). change (o_clamp (exact pow4)) with xclamp. cbv beta.
  pose proof (xclamp_within freq (-2 # 10) 1 ltac:(lra)) as [C1 C2]. split; [split; lra|]. split.
  - unfold xclamp. destruct (Qle_bool (-2 # 10) freq) eqn:E1; cbn [negb].
    + apply Qle_bool_iff in E1. destruct (Qle_bool freq 1) eqn:E2; cbn [negb]; [split; intros; lra|].
      assert (1 < freq)%Q by (destruct (Qlt_le_dec 1 freq); [done|]; apply Qle_bool_iff in q; congruence). split; intros; lra.
    + assert (freq < -2 # 10)%Q by (destruct (Qlt_le_dec freq (-2 # 10)); [done|]; apply Qle_bool_iff in q; congruence). split; intros; lra.
  - intros freq' Hle. pose proof (xclamp_within freq' (-2 # 10) 1 ltac:(lra)) as [D1 D2].
    pose proof (xclamp_mono freq freq' (-2 # 10) 1 ltac:(lra) Hle). lra.
Qed.
Print Assumptions C66_same_pitch.
Print Assumptions C66_limits.
Print Assumptions C66_string.
Print Assumptions C66_bow.
Print Assumptions C66_rest.
Print Assumptions C66_starts.
Print Assumptions C66_tuning.

(** ** A concrete library: an oscillator that is its phase, lines that remember the last sample, and filters that keep a sample *)
Definition demo_q : genlib Q :=
  GenLib Q (fun o f i => (o + f * i, o)%Q) (fun o f i => (o + f * i, o)%Q) (fun o f i => (o + f * i, o)%Q) (fun o f i _ => (o + f * i, o)%Q) (fun o f i _ => (o + f * i, o)%Q)
    Q (fun o f i d v => (o + f * i, o)%Q) (fun d v => v) (fun s a _ => s) Q (fun _ bs => (0, default 0 (last bs))%Q)
    Q (fun l _ => l) (fun _ x => x) Q (fun p x => (x, p + x)%Q) Q (fun b x => (x, b + x)%Q).
Example C66_case_pitch : ((foldl (vosc_one (fun x => x) demo_q 44100) (1 # 2, 0) [VIn true 0 441 1 2 3 4; VIn false 1 882 0 0 0 0]).1 == (1 # 2) + (3 # 100))%Q.
Proof. vm_compute. reflexivity. Qed.
Example C66_case_advances : forall o freq isr d v, same_phase ((g_vps_next demo_q o freq isr d v).1) (o + freq * isr)%Q.
Proof. intros. exists 0%Z. cbn. change (inject_Z 0) with 0%Q. lra. Qed.
Example C66_case_still : still demo_q (fun l => l == 0)%Q (fun p => p == 0)%Q (fun b => b == 0)%Q.
Proof. constructor; cbn; intros; try done; split; lra. Qed.
(** a still string, then one frame of bowing, then silence at the bridge no more *)
Definition demo_string : string_ demo_q := @String_ Q demo_q 0%Q 0%Q 0%Q [0; 0]%Q.
Definition demo_frame (vel : Q) (s : string_ demo_q) : string_ demo_q * Q := string_frame (exact (fun x => x)) demo_q 44100%Q s 440%Q vel (1 # 2)%Q (1 # 2)%Q.
Example C66_case_bowed : still_string (X := demo_q) (fun l => l == 0)%Q (fun p => p == 0)%Q (fun b => b == 0)%Q demo_string /\
  ((demo_frame 0 demo_string).2 == 0)%Q /\ ((demo_frame 1 demo_string).2 == 0)%Q /\ ~ ((demo_frame 0 (demo_frame 1 demo_string).1).2 == 0)%Q.
Proof. split; [repeat constructor|]. split; [vm_compute; reflexivity|]. split; [vm_compute; reflexivity|]. vm_compute. discriminate. Qed.
