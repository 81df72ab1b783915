(** C57: what the Scope node shows *)
From Coq Require Import QArith Qround Lqa.
From Verif Require Import Base M_Prog L_Conf M_Scope S_Scope L_Scope M_ScopeN S_ScopeN L_ScopeN L_ScopeN2.
Open Scope nat_scope.
Arguments scope_samples : simpl never.

(** No history of sample rates and blocks makes the node panic *)
Theorem C57_total : forall T (chk : T -> Z -> bool * T) sett big t0 ops, Forall op_ok ops -> exists s, sn_run chk sett big (sn_new t0) ops = Some s.
Proof. intros T chk sett big t0 ops Ho. destruct (run_good chk sett big ops (sn_new t0) (new_good t0) Ho) as (s & E & _). by exists s. Qed.
Print Assumptions C57_total.

(** After a block the view gets the offsets, gains, threshold and connected inputs of that block *)
Theorem C57_settings : forall T (chk : T -> Z -> bool * T) sett big t0 ops b s, Forall op_ok ops -> three b ->
  sn_run chk sett big (sn_new t0) (ops ++ [OProc b]) = Some s ->
  (forall sig, sig < 3 -> scope_get_offs (sn_h s) sig = sb_offs b !! sig) /\
  scope_get_thr (sn_h s) = (if (sb_src b =? 0)%Z then None else Some (sb_thr b)) /\
  scope_is_active (sn_h s) 0 = Some (sb_mask b).1.1 /\ scope_is_active (sn_h s) 1 = Some (sb_mask b).1.2 /\ scope_is_active (sn_h s) 2 = Some (sb_mask b).2.
Proof.
  intros T chk sett big t0 ops b s Ho H3 H. unfold sn_run in H. rewrite foldm_app in H. apply bind_Some in H as (s1 & E1 & H).
  destruct (run_good chk sett big ops (sn_new t0) (new_good t0) Ho) as (s1' & E1' & Hg). unfold sn_run in E1'. rewrite E1 in E1'. injection E1' as <-.
  cbn [foldm sn_step] in H. apply bind_Some in H as (s2 & E2 & H). injection H as <-.
  pose proof (process_sets chk sett big s1 s2 b Hg H3 E2) as Es. unfold sets in Es. injection Es as Ea Eo Et.
  unfold scope_get_offs, scope_get_thr, scope_is_active. rewrite Ea, Eo, Et. split_and!; try done.
  - intros sig Hs. by rewrite Nat.mod_small.
  - unfold trig_off. by destruct (sb_src b =? 0)%Z.
Qed.
Print Assumptions C57_settings.

(** With a trigger and a full recording, the picture stands still while the trigger does not fire *)
Theorem C57_wait : forall T (chk : T -> Z -> bool * T) sett big t0 ops s b tr, Forall op_ok ops -> sn_run chk sett big (sn_new t0) ops = Some s ->
  scope_samples <= sn_idx s -> sb_src b <> 0%Z ->
  misses chk (sett (sn_trig s) (sb_thr b)) (trig_in (sb_src b) <$> sb_frames b) = Some tr ->
  exists s', sn_run chk sett big s [OProc b] = Some s' /\ sn_idx s' = sn_idx s /\ sn_trig s' = tr /\
    forall sig n, sig < 3 -> n < scope_samples -> scope_read (sn_h s') sig n = scope_read (sn_h s) sig n.
Proof.
  intros T chk sett big t0 ops s b tr Ho Hr Hi Hsrc Hm.
  destruct (run_good chk sett big ops (sn_new t0) (new_good t0) Ho) as (s1' & E1' & Hg). rewrite Hr in E1'. injection E1' as <-.
  unfold sn_run. cbn [foldm sn_step]. unfold sn_process. destruct (prepare_good sett s b Hg) as (s0 & E0 & Hg0 & C0 & I0 & F0 & R0 & M0 & T0). rewrite E0. cbn [mbind option_bind].
  assert (trig_off (sb_src b) = false) as Ht by (by apply Z.eqb_neq).
  rewrite (wait_long chk big _ _ _ _ Ht s0 tr) by (rewrite ?I0, ?T0; done). rewrite (wait_short chk _ _ _ Ht s0 tr) by (rewrite ?I0, ?T0; done).
  exists (SN (sn_h s0) (sn_idx s0) (sn_ft s0) (sn_sr s0) (sn_mm s0) tr). split; [by destruct (Qle_bool _ _)|].
  cbn [sn_h sn_idx sn_trig]. split_and!; [done|done|]. intros sig n Hs Hn. rewrite !read_cell by done. by apply C0.
Qed.
Print Assumptions C57_wait.

(** With a trigger, a full recording and a long time: the frames after the one that fires the trigger are shown from position 0 on, point for point
    the largest and the smallest value of exactly the frames of that point; positions not yet reached keep what they showed *)
Theorem C57_triggered_long : forall T (chk : T -> Z -> bool * T) sett big t0 ops s b bs t pre f post tr tr',
  Forall op_ok ops -> sn_run chk sett big (sn_new t0) ops = Some s -> scope_samples <= sn_idx s -> sb_src b <> 0%Z ->
  (forall b', b' ∈ b :: bs -> clamp_time (sb_time b') = t) ->
  let spb := samples_per_block t (sn_sr s) in (1 <= spb)%Q ->
  sb_frames b = pre ++ f :: post ->
  misses chk (sett (sn_trig s) (sb_thr b)) (trig_in (sb_src b) <$> pre) = Some tr -> chk tr (trig_in (sb_src b) f) = (true, tr') ->
  let F := post ++ mjoin (sb_frames <$> bs) in bounded big F -> length F <= S (ends spb scope_samples) ->
  exists s', sn_run chk sett big s (OProc <$> b :: bs) = Some s' /\
    forall sig n, sig < 3 -> n < scope_samples ->
      (ends spb (S n) < length F -> exists m, scope_read (sn_h s') sig n = Some m /\ is_peak sig (point spb n F) m) /\
      (length F <= ends spb (S n) -> scope_read (sn_h s') sig n = scope_read (sn_h s) sig n).
Proof.
  intros T chk sett big t0 ops s b bs t pre f post tr tr' Ho Hr Hi Hsrc Ht spb Hl Ef Hm Hc F Hb HF.
  destruct (run_good chk sett big ops (sn_new t0) (new_good t0) Ho) as (s1' & E1' & Hg). rewrite Hr in E1'. injection E1' as <-.
  assert (0 < sn_sr s)%Q as Hsr by apply Hg.
  assert (exists s1, sn_process chk sett big s b = Some s1 /\ linv big (sn_sr s) t (sn_h s) s1 post) as (s1 & E1 & Hv1).
  { unfold sn_process. destruct (prepare_good sett s b Hg) as (s0 & E0 & Hg0 & C0 & I0 & F0 & R0 & M0 & T0). rewrite E0. cbn [mbind option_bind].
    rewrite (Ht b), R0 by set_solver. fold spb. assert (Qle_bool 1 spb = true) as -> by by apply Qle_bool_iff.
    assert (trig_off (sb_src b) = false) as Hto by (by apply Z.eqb_neq).
    rewrite Ef, foldm_app. rewrite (wait_long chk big _ _ _ _ Hto s0 tr) by (rewrite ?I0, ?T0; done). cbn [mbind option_bind foldm].
    assert (long_frame chk big (time_per_block t) (sample_time (sn_sr s)) (sb_src b) (SN (sn_h s0) (sn_idx s0) (sn_ft s0) (sn_sr s0) (sn_mm s0) tr) f
      = Some (SN (sn_h s0) 0 0 (sn_sr s0) (clean big) tr')) as ->.
    { unfold long_frame. cbn [sn_h sn_idx sn_ft sn_sr sn_mm sn_trig]. rewrite I0. destruct (Nat.ltb_spec (sn_idx s) scope_samples); [lia|]. cbn [mbind option_bind sn_idx sn_trig sn_h sn_ft sn_sr sn_mm].
      destruct (Nat.leb_spec scope_samples (sn_idx s)); [|lia]. by rewrite Hc. }
    cbn [mbind option_bind]. apply (linv_frames chk big (sn_sr s) t Hsr Hl (sn_h s) (sb_src b) post _ []).
    - apply linv_start; cbn [sn_h sn_idx sn_ft sn_sr sn_mm]; try done; [apply Hg|apply Hg0].
    - cbn [app]. unfold F in HF. rewrite app_length in HF. fold spb. lia. }
  unfold sn_run. cbn [fmap list_fmap foldm sn_step]. rewrite E1. cbn [mbind option_bind].
  destruct (linv_blocks chk sett big (sn_sr s) t Hsr Hl (sn_h s) bs s1 post Hv1) as (s2 & E2 & Hv2); [set_solver|done|].
  exists s2. split; [exact E2|]. destruct Hv2 as (_ & _ & _ & HC & _). fold spb in HC. fold F in HC. intros sig n Hsig Hn. rewrite !read_cell, HC by done. split; intros Hlt.
  - rewrite decide_True by done. eexists. split; [done|].
    assert (forall g, g ∈ point spb n F -> g ∈ F) as Hsub.
    { intros g Hg'. unfold point in Hg'. apply elem_of_take in Hg' as (i & Hi' & _). apply elem_of_list_lookup_2 in Hi'.
      apply elem_of_list_lookup in Hi' as (k & Hk). rewrite lookup_drop in Hk. by eapply elem_of_list_lookup_2. }
    apply value_big; [intros g sg Hg'; apply Hb; by apply Hsub|].
    intros En. apply (f_equal length) in En. unfold point in En. rewrite take_length, drop_length in En. cbn [length] in En.
    pose proof (ends_S spb n Hl). destruct n; lia.
  - rewrite decide_False by lia. done.
Qed.
Print Assumptions C57_triggered_long.

(** The same with a short time: every frame after the one that fires the trigger fills [copies] positions *)
Theorem C57_triggered_short : forall T (chk : T -> Z -> bool * T) sett big t0 ops s b bs t pre f post tr tr',
  Forall op_ok ops -> sn_run chk sett big (sn_new t0) ops = Some s -> scope_samples <= sn_idx s -> sb_src b <> 0%Z ->
  (forall b', b' ∈ b :: bs -> clamp_time (sb_time b') = t) ->
  let spb := samples_per_block t (sn_sr s) in (spb < 1)%Q -> let copies := copy_count spb in
  sb_frames b = pre ++ f :: post ->
  misses chk (sett (sn_trig s) (sb_thr b)) (trig_in (sb_src b) <$> pre) = Some tr -> chk tr (trig_in (sb_src b) f) = (true, tr') ->
  let F := post ++ mjoin (sb_frames <$> bs) in length F <= sweep copies ->
  0 < copies /\ exists s', sn_run chk sett big s (OProc <$> b :: bs) = Some s' /\
    forall sig n, sig < 3 -> n < scope_samples -> scope_read (sn_h s') sig n =
      match F !! (n / copies) with Some g => Some (value sig g, value sig g) | None => scope_read (sn_h s) sig n end.
Proof.
  intros T chk sett big t0 ops s b bs t pre f post tr tr' Ho Hr Hi Hsrc Ht spb Hl copies Ef Hm Hc F HF.
  destruct (run_good chk sett big ops (sn_new t0) (new_good t0) Ho) as (s1' & E1' & Hg). rewrite Hr in E1'. injection E1' as <-.
  assert (0 < sn_sr s)%Q as Hsr by apply Hg.
  assert (0 < copies) as Hcp. { apply copies_pos; [|done]. unfold spb. rewrite <- (Ht b) by set_solver. by apply spb_pos. }
  split; [done|].
  assert (exists s1, sn_process chk sett big s b = Some s1 /\ sinv (sn_h s) (sn_sr s) copies s1 post) as (s1 & E1 & Hv1).
  { unfold sn_process. destruct (prepare_good sett s b Hg) as (s0 & E0 & Hg0 & C0 & I0 & F0 & R0 & M0 & T0). rewrite E0. cbn [mbind option_bind].
    rewrite (Ht b), R0 by set_solver. fold spb. destruct (Qle_bool 1 spb) eqn:Eq; [apply Qle_bool_iff in Eq; lra|]. fold copies.
    assert (trig_off (sb_src b) = false) as Hto by (by apply Z.eqb_neq).
    rewrite Ef, foldm_app. rewrite (wait_short chk _ _ _ Hto s0 tr) by (rewrite ?I0, ?T0; done). cbn [mbind option_bind foldm].
    assert (short_frame chk copies (sb_src b) (SN (sn_h s0) (sn_idx s0) (sn_ft s0) (sn_sr s0) (sn_mm s0) tr) f
      = Some (SN (sn_h s0) 0 0 (sn_sr s0) (sn_mm s0) tr')) as ->.
    { unfold short_frame. cbn [sn_h sn_idx sn_ft sn_sr sn_mm sn_trig]. rewrite I0. destruct (Nat.ltb_spec (sn_idx s) scope_samples); [lia|]. cbn [mbind option_bind sn_idx sn_trig sn_h sn_ft sn_sr sn_mm].
      destruct (Nat.leb_spec scope_samples (sn_idx s)); [|lia]. by rewrite Hto, Hc. }
    cbn [mbind option_bind]. apply (sinv_frames chk (sn_h s) (sn_sr s) copies (sb_src b) post Hcp _ []).
    - split_and!; [|done| |done].
      + destruct Hg0 as (? & ? & ?). by split_and!.
      + intros sig p Hsig Hp. rewrite lookup_nil. by apply C0.
    - cbn [app]. unfold F in HF. rewrite app_length in HF. lia. }
  unfold sn_run. cbn [fmap list_fmap foldm sn_step]. rewrite E1. cbn [mbind option_bind].
  destruct (sinv_blocks chk sett big (sn_h s) (sn_sr s) t bs Hsr Hl ltac:(set_solver) Hcp s1 post Hv1 HF) as (s2 & E2 & Hv2).
  exists s2. split; [exact E2|]. destruct Hv2 as (_ & _ & HC & _). intros sig n Hsig Hn. rewrite !read_cell, HC by done. done.
Qed.
Print Assumptions C57_triggered_short.

(** Without a trigger and with long times that may change from block to block, no frame is lost: the frames are cut into non-empty pieces,
    the pieces go round the 512 positions, and a position shows the largest and the smallest value of the piece that came there last *)
Theorem C57_running_long : forall T (chk : T -> Z -> bool * T) sett big t0 ops s bs,
  Forall op_ok ops -> sn_run chk sett big (sn_new t0) ops = Some s -> sn_idx s = 0 -> sn_mm s = clean big ->
  (forall b, b ∈ bs -> long_blk (sn_sr s) b /\ sb_src b = 0%Z) -> bounded big (mjoin (sb_frames <$> bs)) ->
  exists s' chunks rest, sn_run chk sett big s (OProc <$> bs) = Some s' /\
    mjoin chunks ++ rest = mjoin (sb_frames <$> bs) /\ Forall (fun c => c <> []) chunks /\
    (forall sig m c, sig < 3 -> chunks !! m = Some c -> length chunks <= m + scope_samples ->
       exists v, scope_read (sn_h s') sig (m mod scope_samples) = Some v /\ is_peak sig c v) /\
    (forall sig p, sig < 3 -> p < scope_samples -> length chunks <= p -> scope_read (sn_h s') sig p = scope_read (sn_h s) sig p).
Proof.
  intros T chk sett big t0 ops s bs Ho Hr Hi Hm Hbs Hb.
  destruct (run_good chk sett big ops (sn_new t0) (new_good t0) Ho) as (s1' & E1' & Hg). rewrite Hr in E1'. injection E1' as <-.
  destruct (ginv_blocks chk sett big (sn_h s) (sn_sr s) bs Hbs s [] []) as (s' & chunks & rest & E & Hv & J).
  { split_and!; [apply Hg|done|done|by rewrite Hi|constructor|intros; done|done]. }
  exists s', chunks, rest. split; [done|]. split; [exact J|]. destruct Hv as (_ & _ & _ & _ & Hne & HC & HU). split_and!; [done| |].
  - intros sig m c Hsig Hc Hle. rewrite read_cell; [|done|by apply Nat.mod_upper_bound]. eexists. split; [by apply (HC sig m c)|].
    apply value_big; [|by eapply Forall_lookup_1 in Hne]. intros g sg Hg'. apply Hb. cbn in J. rewrite <- J. apply elem_of_app. left.
    apply elem_of_list_join. exists c. split; [done|]. by eapply elem_of_list_lookup_2.
  - intros sig p Hsig Hp Hle. rewrite !read_cell by done. by apply HU.
Qed.
Print Assumptions C57_running_long.

(** Without a trigger and with a short time, frame after frame goes round the positions, [copies] positions each *)
Theorem C57_running_short : forall T (chk : T -> Z -> bool * T) sett big t0 ops s bs t,
  Forall op_ok ops -> sn_run chk sett big (sn_new t0) ops = Some s -> sn_idx s = 0 ->
  (forall b, b ∈ bs -> clamp_time (sb_time b) = t /\ sb_src b = 0%Z) -> (0 < t)%Q -> (samples_per_block t (sn_sr s) < 1)%Q ->
  let copies := copy_count (samples_per_block t (sn_sr s)) in let F := mjoin (sb_frames <$> bs) in
  0 < copies /\ exists s', sn_run chk sett big s (OProc <$> bs) = Some s' /\
    (forall sig p k f, sig < 3 -> p < scope_samples -> F !! k = Some f -> length F <= k + sweep copies -> p / copies = k mod sweep copies ->
       scope_read (sn_h s') sig p = Some (value sig f, value sig f)) /\
    (forall sig p, sig < 3 -> p < scope_samples -> length F <= p / copies -> scope_read (sn_h s') sig p = scope_read (sn_h s) sig p).
Proof.
  intros T chk sett big t0 ops s bs t Ho Hr Hi Ht Ht0 Hl copies F.
  destruct (run_good chk sett big ops (sn_new t0) (new_good t0) Ho) as (s1' & E1' & Hg). rewrite Hr in E1'. injection E1' as <-.
  assert (0 < sn_sr s)%Q as Hsr by apply Hg.
  assert (0 < copies) as Hcp.
  { apply copies_pos; [|done]. unfold samples_per_block. change (inject_Z (Z.of_nat scope_samples)) with 512%Q. apply Qlt_shift_div_l; [reflexivity|]. nra. }
  split; [done|].
  destruct (rinv_blocks chk sett big (sn_h s) (sn_sr s) t bs Hsr Hl Ht Hcp s []) as (s2 & E2 & Hv2).
  { split_and!; [done|done| |intros; done|done]. rewrite Hi. cbn [length]. by rewrite Nat.mod_0_l by (destruct (sweep_spec copies Hcp); unfold copies in *; lia). }
  exists s2. split; [exact E2|]. destruct Hv2 as (_ & _ & _ & HC & HU). cbn [app] in HC, HU. split.
  - intros sig p k f Hsig Hp Hk Hle Hpk. rewrite read_cell by done. by apply (HC sig p k f).
  - intros sig p Hsig Hp Hle. rewrite !read_cell by done. by apply HU.
Qed.
Print Assumptions C57_running_short.

(** With a short time one sweep takes at least the frames of that time, and at most about twice as many *)
Theorem C57_sweep : forall t sr, (0 < t)%Q -> (0 < sr)%Q -> let spb := samples_per_block t sr in (spb < 1)%Q ->
  let frames := inject_Z (Z.of_nat (sweep (copy_count spb))) in (t * sr <= frames)%Q /\ (frames <= 2 * (t * sr) + 1)%Q.
Proof.
  intros t sr Ht Hsr spb H1 frames. assert (t * sr == 512 * spb)%Q as E.
  { unfold spb, samples_per_block. change (inject_Z (Z.of_nat scope_samples)) with 512%Q. field. }
  assert (0 < spb)%Q as H0 by nra. rewrite E. pose proof (copies_pos spb H0 H1) as Hc. set (c := copy_count spb) in *.
  destruct (sweep_spec c Hc) as ([Hw1 Hw2] & Hw3). set (r := sweep c) in *. unfold frames.
  set (cq := inject_Z (Z.of_nat c)). set (rq := inject_Z (Z.of_nat r)).
  assert (512 <= rq * cq)%Q as Q2.
  { unfold rq, cq. rewrite <- inject_Z_mult. change 512%Q with (inject_Z 512). rewrite <- Zle_Qle. unfold scope_samples in Hw2. lia. }
  assert ((rq - 1) * cq <= 511)%Q as Q1.
  { unfold rq, cq. change 1%Q with (inject_Z 1). unfold Qminus. rewrite <- inject_Z_opp, <- inject_Z_plus, <- inject_Z_mult. change 511%Q with (inject_Z 511).
    rewrite <- Zle_Qle. unfold scope_samples in Hw1. nia. }
  assert (1 <= cq)%Q as Q3 by (unfold cq; change 1%Q with (inject_Z 1); rewrite <- Zle_Qle; lia).
  assert (1 <= rq)%Q as Q4 by (unfold rq; change 1%Q with (inject_Z 1); rewrite <- Zle_Qle; lia).
  pose proof (Qfloor_le (1 / spb)) as Hf1. pose proof (Qlt_floor (1 / spb)) as Hf2. rewrite inject_Z_plus in Hf2. change (inject_Z 1) with 1%Q in Hf2.
  assert (1 / spb * spb == 1)%Q as Ei by (field; lra). set (x := (1 / spb)%Q) in *. set (fl := Qfloor x) in *.
  assert (cq <= x)%Q as Hcx.
  { apply (Qle_trans _ (inject_Z fl)); [|done]. unfold cq. rewrite <- Zle_Qle. unfold c, copy_count. fold x. fold fl.
    unfold c, copy_count in Hc. fold x in Hc. fold fl in Hc. lia. }
  split.
  - assert (cq * spb <= 1)%Q by nra. nra.
  - destruct (decide (c = scope_samples)) as [Ec|Ec].
    + assert (rq == 1)%Q as ->; [|nra]. assert (r = 1) as Er. { rewrite Ec in Hw1, Hw2. unfold scope_samples in Hw1, Hw2. lia. }
      unfold rq. by rewrite Er.
    + assert (inject_Z fl == cq)%Q as Efl.
      { unfold cq. replace (Z.of_nat c) with fl; [reflexivity|]. unfold c, copy_count in *. fold x in Hc, Ec |- *. fold fl in Hc, Ec |- *. lia. }
      assert (x < 2 * cq)%Q as Hx by lra. assert (1 < 2 * cq * spb)%Q as Hy by nra.
      assert ((rq - 1) <= 2 * (512 * spb))%Q; [|lra].
      destruct (Qlt_le_dec (2 * (512 * spb)) (rq - 1)) as [Hbad|]; [|done]. exfalso.
      assert (2 * (512 * spb) * cq < 511 + 1)%Q by nra. nra.
Qed.
Print Assumptions C57_sweep.

(** The factor is real: with 261.12 frames of time the sweep takes 512 frames *)
Theorem C57_time_refuted : exists t sr, (0 < t)%Q /\ (0 < sr)%Q /\ (samples_per_block t sr < 1)%Q /\
  ((19 # 10) * (t * sr) < inject_Z (Z.of_nat (sweep (copy_count (samples_per_block t sr)))))%Q.
Proof. exists (26112 # 100)%Q, 1%Q. vm_compute. split_and!; reflexivity. Qed.
Print Assumptions C57_time_refuted.

Definition blk0 (t : Q) (fs : list Z) : scblk := ScBlk t 0 0 [(0, 1); (0, 1); (0, 1)]%Z (true, false, false) ((fun v => (v, 0, 0, 0)%Z) <$> fs).

(** The very first point of a new node also counts a value 0 that no frame had *)
Theorem C57_first_refuted : forall T (chk : T -> Z -> bool * T) sett t0, exists ops s, Forall op_ok ops /\
  sn_run chk sett 99999 (sn_new t0) ops = Some s /\ ops = [ORate 1; OProc (blk0 512 [5; 5]%Z)] /\ scope_read (sn_h s) 0 0 = Some (5, 0)%Z.
Proof.
  intros T chk sett t0. exists [ORate 1; OProc (blk0 512 [5; 5]%Z)].
  assert (match sn_run chk sett 99999 (sn_new t0) [ORate 1; OProc (blk0 512 [5; 5]%Z)] with
    Some s => scope_read (sn_h s) 0 0 = Some (5, 0)%Z | None => False end) as E by (vm_compute; reflexivity).
  destruct (sn_run _ _ _ _ _) as [s|]; [|destruct E]. exists s. split_and!; [repeat constructor|reflexivity|reflexivity|exact E].
Qed.
Print Assumptions C57_first_refuted.

(** A change to a short time and back lets the first point of the new recording show a value of the recording before *)
Theorem C57_stale_refuted : forall T (chk : T -> Z -> bool * T) sett t0, exists ops s1 s2, Forall op_ok ops /\
  ops = [ORate 1; OProc (blk0 1024 [5]%Z); OProc (blk0 (1 # 10) [0]%Z)] /\
  sn_run chk sett 99999 (sn_new t0) ops = Some s1 /\ sn_idx s1 = 0 /\ sn_ft s1 = 0%Q /\
  sn_run chk sett 99999 s1 [OProc (blk0 1024 [0; 0; 0]%Z)] = Some s2 /\ scope_read (sn_h s2) 0 0 = Some (5, 0)%Z.
Proof.
  intros T chk sett t0. exists [ORate 1; OProc (blk0 1024 [5]%Z); OProc (blk0 (1 # 10) [0]%Z)].
  assert (match sn_run chk sett 99999 (sn_new t0) [ORate 1; OProc (blk0 1024 [5]%Z); OProc (blk0 (1 # 10) [0]%Z)] with
    Some s1 => sn_idx s1 = 0 /\ sn_ft s1 = 0%Q /\
      match sn_run chk sett 99999 s1 [OProc (blk0 1024 [0; 0; 0]%Z)] with Some s2 => scope_read (sn_h s2) 0 0 = Some (5, 0)%Z | None => False end
    | None => False end) as E by (vm_compute; split_and!; reflexivity).
  destruct (sn_run _ _ _ _ [_; _; _]) as [s1|]; [|destruct E]. destruct E as (E1 & E2 & E). exists s1.
  destruct (sn_run _ _ _ _ _) as [s2|]; [|destruct E]. exists s2. split_and!; [repeat constructor|reflexivity|reflexivity|exact E1|exact E2|reflexivity|exact E].
Qed.
Print Assumptions C57_stale_refuted.

(** A case that meets the hypotheses: a trigger that fires above 0, a full recording that waits, two blocks with two frames per point *)
Definition chk_case (_ : unit) (v : Z) : bool * unit := ((0 <? v)%Z, tt).
Definition blk1 (t : Q) (fs : list Z) : scblk := ScBlk t 0 1 [(0, 1); (0, 1); (0, 1)]%Z (true, false, false) ((fun v => (v, v + 10, - v, 0)%Z) <$> fs).
Definition ops_case : list scop_op := [ORate 1; OProc (blk1 (1 # 10) [-1]%Z)].
Example C57_case : exists s s', Forall op_ok ops_case /\ sn_run chk_case (fun t _ => t) 99999 (sn_new tt) ops_case = Some s /\ scope_samples <= sn_idx s /\
  samples_per_block 1024 (sn_sr s) = (1024 * 1 / 512)%Q /\
  misses chk_case (sn_trig s) (trig_in 1 <$> sb_frames (blk1 1024 [-1]%Z)) = Some tt /\ chk_case tt 3 = (true, tt) /\
  sn_run chk_case (fun t _ => t) 99999 s [OProc (blk1 1024 [-1; 3; 4; 5]%Z); OProc (blk1 1024 [7; 9; 8]%Z)] = Some s' /\
  scope_read (sn_h s') 0 0 = Some (7, 4)%Z /\ scope_read (sn_h s') 1 0 = Some (17, 14)%Z /\ scope_read (sn_h s') 0 1 = Some (9, 8)%Z /\
  scope_read (sn_h s') 0 2 = Some (-1, -1)%Z.
Proof.
  assert (match sn_run chk_case (fun t _ => t) 99999 (sn_new tt) ops_case with
    | Some s => (scope_samples <=? sn_idx s) = true /\ samples_per_block 1024 (sn_sr s) = (1024 * 1 / 512)%Q /\
      misses chk_case (sn_trig s) (trig_in 1 <$> sb_frames (blk1 1024 [-1]%Z)) = Some tt /\
      match sn_run chk_case (fun t _ => t) 99999 s [OProc (blk1 1024 [-1; 3; 4; 5]%Z); OProc (blk1 1024 [7; 9; 8]%Z)] with
      | Some s' => scope_read (sn_h s') 0 0 = Some (7, 4)%Z /\ scope_read (sn_h s') 1 0 = Some (17, 14)%Z /\ scope_read (sn_h s') 0 1 = Some (9, 8)%Z /\
          scope_read (sn_h s') 0 2 = Some (-1, -1)%Z
      | None => False end
    | None => False end) as E by (vm_compute; split_and!; reflexivity).
  destruct (sn_run _ _ _ _ ops_case) as [s|]; [|destruct E]. destruct E as (E1 & E2 & E3 & E). exists s.
  destruct (sn_run _ _ _ _ _) as [s'|]; [|destruct E]. destruct E as (E4 & E5 & E6 & E7). exists s'.
  split_and!; [repeat constructor|reflexivity|apply Nat.leb_le; exact E1|exact E2|exact E3|reflexivity|reflexivity|exact E4|exact E5|exact E6|exact E7].
Qed.
(** A state that meets the hypotheses of the free running theorems *)
Example C57_case_running : exists s, sn_run chk_case (fun t _ => t) 99999 (sn_new tt) (ops_case ++ [OProc (blk1 1024 [-1; 3]%Z)]) = Some s /\
  sn_idx s = 0 /\ sn_mm s = clean 99999.
Proof.
  assert (match sn_run chk_case (fun t _ => t) 99999 (sn_new tt) (ops_case ++ [OProc (blk1 1024 [-1; 3]%Z)]) with
    | Some s => sn_idx s = 0 /\ sn_mm s = clean 99999 | None => False end) as E by (vm_compute; split_and!; reflexivity).
  destruct (sn_run _ _ _ _ _) as [s|]; [|destruct E]. exists s. split; [reflexivity|exact E].
Qed.
