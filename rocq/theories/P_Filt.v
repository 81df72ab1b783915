(** C62: the filters work with the current settings *)
From Coq Require Import QArith Qabs Lqa.
From Verif Require Import Base M_RndWk M_Filt S_Filt L_RndWk L_Filt L_Filt2.
Open Scope nat_scope.

Section sfilter.
  Context {D : Type} (d0 : D) (fadd fsub : Q -> Q -> Q).
  Notation run F bs := (sf_blocks F d0 fadd fsub (sf_new d0 _) bs).2.

  (** C62: after a change of the type, an SFilter plays like a new one: nothing of the past is heard. *)
  Theorem C62_switch (F : sfdsp D) israte before t1 xs1 t2 xs2 after : as_i8 t1 <> as_i8 t2 ->
    (sf_blocks F d0 fadd fsub (sf_new d0 israte) (before ++ [(t1, xs1)] ++ (t2, xs2) :: after)).2 =
    (sf_blocks F d0 fadd fsub (sf_new d0 israte) (before ++ [(t1, xs1)])).2 ++
    (sf_blocks F d0 fadd fsub (sf_new d0 israte) ((t2, xs2) :: after)).2.
  Proof.
    intros Ht. rewrite (assoc (++)), sf_blocks_app. pose proof (sf_blocks_israte d0 fadd fsub F (before ++ [(t1, xs1)]) (sf_new d0 israte)) as Ei.
    assert (sf_otype (sf_blocks F d0 fadd fsub (sf_new d0 israte) (before ++ [(t1, xs1)])).1 = as_i8 t1) as Eo.
    { rewrite sf_blocks_app. destruct (sf_blocks F d0 fadd fsub (sf_new d0 israte) before) as [s o]. cbn [sf_blocks].
      destruct (sf_block_keeps d0 fadd fsub F s t1 xs1) as [E _]. by destruct (sf_block F d0 fadd fsub s t1 xs1). }
    destruct (sf_blocks F d0 fadd fsub (sf_new d0 israte) (before ++ [(t1, xs1)])) as [s o]. cbn [fst snd sf_blocks] in *.
    rewrite sf_block_fresh by congruence. rewrite Ei. cbn [sf_new sf_israte].
    destruct (sf_block F d0 fadd fsub (sf_new d0 israte) t2 xs2) as [s' o']. by destruct (sf_blocks F d0 fadd fsub s' after).
  Qed.

  (** C62: whatever the inputs are, the filter functions are only called with frequencies, resonances and (for the Moog filter)
      input samples in their ranges: what they do elsewhere has no influence. *)
  Theorem C62_limits (F G : sfdsp D) s bs : same_in_range F G -> sf_blocks F d0 fadd fsub s bs = sf_blocks G d0 fadd fsub s bs.
  Proof. intros H. by apply sf_blocks_ext. Qed.

  (** C62: the notch (11) and the peak (12) are the sum and the difference of the low-pass (8) and the high-pass (9) *)
  Theorem C62_notch_peak (F : sfdsp D) israte (bs : list (list (Q * Q * Q))) :
    let played (t : Z) := mjoin (sf_blocks F d0 fadd fsub (sf_new d0 israte) ((fun xs => (t, xs)) <$> bs)).2 in
    forall n low high, played 8%Z !! n = Some low -> played 9%Z !! n = Some high -> exists l h,
      low = Some l /\ high = Some h /\ played 11%Z !! n = Some (Some (fadd l h)) /\ played 12%Z !! n = Some (Some (fsub l h)).
  Proof.
    cbv beta zeta.
    set (same := fun (s s' : @sfilter D) => sf_israte s = sf_israte s' /\ sf_k s = sf_k s' /\ sf_h s = sf_h s').
    assert (forall xs s8 s9 s11 s12, same s8 s9 -> same s8 s11 -> same s8 s12 ->
      let r t s := sf_frames F fadd fsub t s xs in
      same (r 8%Z s8).1 (r 9%Z s9).1 /\ same (r 8%Z s8).1 (r 11%Z s11).1 /\ same (r 8%Z s8).1 (r 12%Z s12).1 /\
      exists lh : list (Q * Q), (r 8%Z s8).2 = (fun p => Some p.1) <$> lh /\ (r 9%Z s9).2 = (fun p => Some p.2) <$> lh /\
        (r 11%Z s11).2 = (fun p => Some (fadd p.1 p.2)) <$> lh /\ (r 12%Z s12).2 = (fun p => Some (fsub p.1 p.2)) <$> lh) as HF.
    { induction xs as [|[[inp freq] res] xs IH]; intros s8 s9 s11 s12 H9 H11 H12; cbv beta zeta.
      - cbn [sf_frames fst snd]. split; [done|]. split; [done|]. split; [done|]. by exists [].
      - cbn [sf_frames]. rewrite !simper_frame by (unfold simper_type; lia).
        destruct H9 as (A1 & A2 & A3). destruct H11 as (B1 & B2 & B3). destruct H12 as (C1 & C2 & C3).
        rewrite <- A1, <- A2, <- A3, <- B1, <- B2, <- B3, <- C1, <- C2, <- C3.
        destruct (fd_simper F inp (qclamp freq 1 22000) (qclamp res 0 1) (sf_israte s8) (sf_k s8) (sf_h s8)) as [[[low band] high] [k h]].
        cbn [Z.eqb Pos.eqb].
        match goal with |- context [sf_frames F fadd fsub 8 ?a xs] => set (t8 := a) end.
        match goal with |- context [sf_frames F fadd fsub 9 ?a xs] => set (t9 := a) end.
        match goal with |- context [sf_frames F fadd fsub 11 ?a xs] => set (t11 := a) end.
        match goal with |- context [sf_frames F fadd fsub 12 ?a xs] => set (t12 := a) end.
        specialize (IH t8 t9 t11 t12 ltac:(done) ltac:(done) ltac:(done)). cbv beta zeta in IH.
        destruct (sf_frames F fadd fsub 8 t8 xs) as [u8 o8]. destruct (sf_frames F fadd fsub 9 t9 xs) as [u9 o9].
        destruct (sf_frames F fadd fsub 11 t11 xs) as [u11 o11]. destruct (sf_frames F fadd fsub 12 t12 xs) as [u12 o12]. cbn [fst snd] in *.
        destruct IH as (I1 & I2 & I3 & lh & -> & -> & -> & ->). split; [done|]. split; [done|]. split; [done|]. by exists ((low, high) :: lh). }
    assert (forall t xs (s : @sfilter D), as_i8 t = t -> exists s', sf_block F d0 fadd fsub s t xs = sf_frames F fadd fsub t s' xs /\
      ((sf_otype s = t /\ s' = s) \/ (sf_otype s <> t /\ s' = SFilter (sf_israte s) 0 0 0 0 d0 t))) as HB.
    { intros t xs s Et. unfold sf_block. rewrite Et. destruct (Z.eqb_spec t (sf_otype s)) as [E|E]; eexists; (split; [reflexivity|]); [by left|]. right. auto. }
    assert (forall bs (s8 s9 s11 s12 : @sfilter D), same s8 s9 -> same s8 s11 -> same s8 s12 ->
      ((sf_otype s8 = 8 /\ sf_otype s9 = 9 /\ sf_otype s11 = 11 /\ sf_otype s12 = 12) \/ (sf_otype s8 = -1 /\ sf_otype s9 = -1 /\ sf_otype s11 = -1 /\ sf_otype s12 = -1))%Z ->
      let r t s := mjoin (sf_blocks F d0 fadd fsub s ((fun xs => (t, xs)) <$> bs)).2 in
      exists lh : list (Q * Q), r 8%Z s8 = (fun p => Some p.1) <$> lh /\ r 9%Z s9 = (fun p => Some p.2) <$> lh /\
        r 11%Z s11 = (fun p => Some (fadd p.1 p.2)) <$> lh /\ r 12%Z s12 = (fun p => Some (fsub p.1 p.2)) <$> lh) as HR.
    { clear bs. induction bs as [|xs bs IH]; intros s8 s9 s11 s12 H9 H11 H12 Ho; cbv beta zeta; [by exists []|]. rewrite !fmap_cons. cbn [sf_blocks].
      pose proof (sf_block_keeps d0 fadd fsub F s8 8 xs) as [K8 _]. pose proof (sf_block_keeps d0 fadd fsub F s9 9 xs) as [K9 _].
      pose proof (sf_block_keeps d0 fadd fsub F s11 11 xs) as [K11 _]. pose proof (sf_block_keeps d0 fadd fsub F s12 12 xs) as [K12 _].
      destruct (HB 8%Z xs s8 eq_refl) as (s8' & E8 & D8). destruct (HB 9%Z xs s9 eq_refl) as (s9' & E9 & D9).
      destruct (HB 11%Z xs s11 eq_refl) as (s11' & E11 & D11). destruct (HB 12%Z xs s12 eq_refl) as (s12' & E12 & D12).
      rewrite E8 in *. rewrite E9 in *. rewrite E11 in *. rewrite E12 in *.
      assert (same s8' s9' /\ same s8' s11' /\ same s8' s12') as (S9 & S11 & S12).
      { destruct H9 as (A1 & A2 & A3). destruct H11 as (B1 & B2 & B3). destruct H12 as (C1 & C2 & C3).
        destruct Ho as [(O8 & O9 & O11 & O12)|(O8 & O9 & O11 & O12)].
        - destruct D8 as [[_ ->]|[? _]]; [|lia]. destruct D9 as [[_ ->]|[? _]]; [|lia]. destruct D11 as [[_ ->]|[? _]]; [|lia]. destruct D12 as [[_ ->]|[? _]]; [|lia]. done.
        - destruct D8 as [[? _]|[_ ->]]; [lia|]. destruct D9 as [[? _]|[_ ->]]; [lia|]. destruct D11 as [[? _]|[_ ->]]; [lia|]. destruct D12 as [[? _]|[_ ->]]; [lia|]. done. }
      pose proof (HF xs s8' s9' s11' s12' S9 S11 S12) as P. cbv beta zeta in P.
      destruct (sf_frames F fadd fsub 8 s8' xs) as [u8 o8]. destruct (sf_frames F fadd fsub 9 s9' xs) as [u9 o9].
      destruct (sf_frames F fadd fsub 11 s11' xs) as [u11 o11]. destruct (sf_frames F fadd fsub 12 s12' xs) as [u12 o12]. cbn [fst snd] in *.
      destruct P as (T9 & T11 & T12 & lh & -> & -> & -> & ->).
      destruct (IH u8 u9 u11 u12 T9 T11 T12 (or_introl (conj K8 (conj K9 (conj K11 K12))))) as (lh2 & Q8 & Q9 & Q11 & Q12).
      destruct (sf_blocks F d0 fadd fsub u8 _) as [? r8]. destruct (sf_blocks F d0 fadd fsub u9 _) as [? r9].
      destruct (sf_blocks F d0 fadd fsub u11 _) as [? r11]. destruct (sf_blocks F d0 fadd fsub u12 _) as [? r12]. cbn [snd] in *.
      exists (lh ++ lh2). rewrite !fmap_app, <- Q8, <- Q9, <- Q11, <- Q12. done. }
    intros n low high H8 H9.
    destruct (HR bs (sf_new d0 israte) (sf_new d0 israte) (sf_new d0 israte) (sf_new d0 israte)) as (lh & Q8 & Q9 & Q11 & Q12); [done..|by right|].
    rewrite Q8 in H8. rewrite Q9 in H9. rewrite Q11, Q12. apply list_lookup_fmap_Some in H8 as (p & Hp & ->). apply list_lookup_fmap_Some in H9 as (p' & Hp' & ->).
    rewrite Hp in Hp'. apply (inj Some) in Hp' as <-. exists p.1, p.2. rewrite !list_lookup_fmap, Hp. done.
  Qed.
End sfilter.
Print Assumptions C62_switch.
Print Assumptions C62_limits.
Print Assumptions C62_notch_peak.

(** C62 is false of types that are not in the list: no sample is written, the output buffer keeps what it had. *)
Theorem C62_unknown_type_refuted {D} (F : sfdsp D) (d0 : D) fadd fsub s (x : Q * Q * Q) : (sf_block F d0 fadd fsub s 14 [x; x]).2 = [None; None].
Proof. unfold sf_block. change (as_i8 14) with 14%Z. destruct x as [[? ?] ?]. reflexivity. Qed.
Print Assumptions C62_unknown_type_refuted.

Section biqfilt.
  Context {C B : Type} (resonator : Q -> Q -> Q -> C) (lowpass : Q -> Q -> C) (tick : C -> B -> Q -> Q * B) (c0 : C) (b0 : B).
  Notation run ops := (bq_run resonator lowpass tick b0 (bq_new c0 b0) ops).

  Lemma qclamp_audible x : qclamp x 0 22000 = in_audible x.
  Proof. unfold qclamp, in_audible. destruct (Qle_bool 0 x), (Qle_bool x 22000); done. Qed.
  Lemma new_ok : bok resonator lowpass (1 # 44100) (bq_new c0 b0).
  Proof. split; [done|]. exists c0, (replicate 4 b0). split; [done|]. split; [done|]. by left. Qed.

  (** C62: whatever was played before, a block of a BiqFilt is the input through as many filters as the order asks for, all with
      the coefficients of the current sample rate and type and with frequency and quality within 1/10000 of the current ones. *)
  Theorem C62_biquad_current r ops p xs : Forall valid_op ops -> valid_set p -> exists s outs out f q ms,
    run (BqRate r :: ops ++ [BqBlock p xs]) = Some (s, outs ++ [out]) /\ near f (in_audible (bs_freq p)) /\ near q (bs_q p) /\ length ms = 4 /\
    out = (chain_signal tick (coefs_for resonator lowpass (last_rate r ops) (bs_ftype p) f q) ms ((fun x => (stages p, x)) <$> xs)).2.
  Proof.
    intros HV V. cbn [bq_run]. rewrite run_app.
    destruct (run_ok resonator lowpass tick b0 ops r (bq_set_sample_rate b0 r (bq_new c0 b0))) as (s1 & outs & E & HB); [|done|].
    { apply (clear_ok resonator lowpass b0 (1 # 44100) (bq_new c0 b0) 99%Z new_ok); auto. }
    rewrite E. cbn [mbind option_bind bq_run]. destruct (block_ok resonator lowpass tick b0 _ s1 p xs HB V) as (s2 & ys & f & q & ms & -> & _ & N1 & N2 & HL & Ey).
    cbn [mbind option_bind]. rewrite qclamp_audible in N1. exists s2, outs, ys, f, q, ms. done.
  Qed.

  (** C62: with fixed settings (the order may change) it plays the signal of new filters with exactly these settings, from the
      moment the sample rate is set. *)
  Theorem C62_biquad_fixed ops r p bs : Forall valid_op ops -> valid_set p -> Forall (fun b : bqset * list Q => valid_set b.1 /\ same_filter p b.1) bs ->
    exists s before outs, run (ops ++ BqRate r :: ((fun b => BqBlock b.1 b.2) <$> bs)) = Some (s, before ++ outs) /\ length outs = length bs /\
    mjoin outs = (chain_signal tick (coefs_for resonator lowpass r (bs_ftype p) (in_audible (bs_freq p)) (bs_q p)) (replicate 4 b0)
      (mjoin ((fun b => (fun x => (stages b.1, x)) <$> b.2) <$> bs))).2.
  Proof.
    intros HV Vp HF. rewrite run_app. destruct (run_ok resonator lowpass tick b0 ops _ _ new_ok HV) as (s1 & before & -> & HB). cbn [mbind option_bind bq_run].
    assert (forall s bs s' outs, bq_run resonator lowpass tick b0 s ((fun b : bqset * list Q => BqBlock b.1 b.2) <$> bs) = Some (s', outs) -> length outs = length bs) as HLen.
    { clear. intros s bs. revert s. induction bs as [|[p xs] bs IH]; intros s s' outs E; [cbn [fmap list_fmap bq_run] in E; by injection E as _ <-|].
      rewrite fmap_cons in E. cbn [fst snd bq_run] in E. apply bind_Some in E as ([s1 ys] & _ & E). apply bind_Some in E as ([s2 r] & E & E').
      apply IH in E. apply (inj Some) in E'. injection E' as _ <-. cbn [length]. by rewrite E. }
    destruct bs as [|[p1 xs] bs].
    { rewrite fmap_nil. cbn [bq_run mbind option_bind]. exists (bq_set_sample_rate b0 r s1), before, []. done. }
    apply Forall_cons in HF as [(V1 & S1 & S2 & S3 & S4) HF]. cbn [fst] in *.
    set (s2 := bq_set_sample_rate b0 r s1).
    set (s3 := bq_update resonator lowpass b0 s2 p1).
    assert (bq_run resonator lowpass tick b0 s2 ((fun b => BqBlock b.1 b.2) <$> ((p1, xs) :: bs)) =
            bq_run resonator lowpass tick b0 s3 ((fun b => BqBlock b.1 b.2) <$> ((p1, xs) :: bs))) as E.
    { rewrite !fmap_cons. cbn [fst snd bq_run]. rewrite !block_stages by done. cbv zeta.
      assert (bq_update resonator lowpass b0 s3 p1 = s3) as ->; [|done].
      apply update_same; try done; unfold s3; rewrite update_new by done; done. }
    destruct HB as (_ & c & ms & HL & Ec & _).
    assert (s3 = BiqFilt ((fun m => (coefs_for resonator lowpass r (bs_ftype p) (in_audible (bs_freq p)) (bs_q p), m)) <$> replicate 4 b0) r
      (qclamp (bs_freq p) 0 22000) (bs_q p) (bs_gain p) (bs_ftype p)) as E3.
    { unfold s3. rewrite update_new by done. rewrite <- qclamp_audible, S1, S2, S3, S4. unfold s2. cbn [bq_set_sample_rate bq_srate bq_cascade]. rewrite Ec.
      unfold bq_clear. do 4 (destruct ms as [|? ms]; [done|]). destruct ms; [|done]. done. }
    destruct (steady resonator lowpass tick b0 ((p1, xs) :: bs) s3 (coefs_for resonator lowpass r (bs_ftype p) (in_audible (bs_freq p)) (bs_q p)) (replicate 4 b0))
      as (s' & outs & ER & EO).
    - by rewrite E3.
    - done.
    - rewrite E3. cbn [bq_otype bq_ofreq bq_oq bq_ogain]. apply Forall_cons. cbn [fst]. split; [by rewrite S1, S2, S3, S4|].
      eapply Forall_impl; [exact HF|]. intros [p2 ?] (V2 & T1 & T2 & T3 & T4). cbn [fst] in *. by rewrite T1, T2, T3, T4.
    - rewrite E, ER. cbn [mbind option_bind]. exists s', before, outs. split; [done|]. split; [|exact EO]. by apply HLen in ER.
  Qed.

  (** C62 is false of an order above three, which [set_param] does not reject: the audio thread stops with a panic. *)
  Theorem C62_order_refuted freq q gain x : run [BqRate 44100; BqBlock (BqSet 0 4 freq q gain) [x]] = None.
  Proof.
    cbn [bq_run]. unfold bq_block. cbn [bs_ftype bs_order]. change (as_u8 0) with 0%Z. change (as_u8 4) with 4%Z. cbn [Z.eqb].
    change (S (Z.to_nat 4)) with 5.
    assert (exists c b, bq_cascade (bq_update resonator lowpass b0 (bq_set_sample_rate b0 44100 (bq_new c0 b0)) (BqSet 0 4 freq q gain)) = [(c, b); (c, b); (c, b); (c, b)]) as (c & b & ->).
    { unfold bq_update. cbn [bs_ftype bq_otype bq_set_sample_rate]. change (negb (as_u8 0 =? 99)%Z) with true. cbn [orb bq_cascade]. by eexists _, _. }
    cbn [bq_frames bq_through lookup list_lookup mbind option_bind].
    repeat (destruct (tick c b _) as [? ?]; cbn [insert list_insert lookup list_lookup mbind option_bind]). done.
  Qed.
End biqfilt.
Print Assumptions C62_biquad_current.
Print Assumptions C62_biquad_fixed.
Print Assumptions C62_order_refuted.

Section fvafilt.
  Context {F V : Type} `{EqDecision F} (f0 : F) (lim_freq lim_res lim_drive : F -> F).
  Context (pair : F -> F -> V) (twice : V -> V) (vzero : V) (lanes : V -> F * F).
  Context {L S K O D : Type} (ltick : @fpar F -> nat -> L -> V -> V * L) (stick : @fpar F -> @fpar F -> S -> V -> V * S)
    (ktick : @fpar F -> @fpar F -> K -> V -> V * K) (otick : O -> V -> V * O) (dtick : D -> V -> V * D).
  Notation node := (fv_blocks lim_freq lim_res lim_drive pair twice vzero lanes ltick stick ktick otick dtick).
  Notation reference := (plain_blocks lim_freq lim_res lim_drive pair twice vzero lanes ltick stick ktick otick dtick).

  Lemma blocks_sim (Hlim : forall x, lim_freq x <> f0) bs : forall s, inv f0 s -> mix_ok s ->
    Forall (fun b => fb_in b <> []) bs -> mode_changes_in_use (fs_lmode (fv_old s)) bs ->
    node s bs = reference (plain_of s) bs.
  Proof.
    induction bs as [|b bs IH]; intros s HI HM HN HC; [done|]. apply Forall_cons in HN as [Hb HN]. destruct HC as [H HC]. cbn [fv_blocks plain_blocks].
    pose proof (frames_sim f0 lim_freq lim_res lim_drive pair twice vzero lanes ltick stick ktick otick dtick Hlim b (fb_in b) s false HI (fun _ => HM)) as P.
    match type of P with context [fv_frames ?a ?b ?c ?d ?e ?f ?g ?h ?i ?j ?k ?l ?m ?n ?o (s, false) (fb_in ?q)] => destruct (fv_frames a b c d e f g h i j k l m n o (s, false) (fb_in q)) as [[s' c'] os] end. destruct P as (-> & HI' & EL & HM').
    f_equal. apply IH; [done|exact (HM' HM H)|done|]. by rewrite EL.
  Qed.
  Lemma blocks_sim_no_ladder (Hlim : forall x, lim_freq x <> f0) bs : forall s, inv f0 s ->
    Forall (fun b => ~ is_ladder b) bs -> node s bs = reference (plain_of s) bs.
  Proof.
    induction bs as [|b bs IH]; intros s HI HL; [done|]. apply Forall_cons in HL as [Hb HL]. cbn [fv_blocks plain_blocks].
    pose proof (frames_sim f0 lim_freq lim_res lim_drive pair twice vzero lanes ltick stick ktick otick dtick Hlim b (fb_in b) s false HI (fun H => False_rect _ (Hb H))) as P.
    match type of P with context [fv_frames ?a ?b ?c ?d ?e ?f ?g ?h ?i ?j ?k ?l ?m ?n ?o (s, false) (fb_in ?q)] => destruct (fv_frames a b c d e f g h i j k l m n o (s, false) (fb_in q)) as [[s' c'] os] end. destruct P as (-> & HI' & _ & _).
    f_equal. by apply IH.
  Qed.

  (** C62: an FVaFilt plays in every frame with the current settings and inputs, like a node that sets all parameters in every
      frame, if the mode of the ladder filter only changes while the ladder filter is selected. The limits of the frequency never
      give the number [f0] (zero) that the node starts with. *)
  Theorem C62_va_filter p0 l0 s0 k0 o0 dc0 bs : (forall x, lim_freq x <> f0) -> fp_lmode p0 = 0 -> Forall (fun b => fb_in b <> []) bs ->
    mode_changes_in_use 0 bs ->
    node (fv_new f0 p0 l0 s0 k0 o0 dc0) bs = reference (Plain l0 s0 k0 o0 o0 dc0) bs.
  Proof. intros Hlim H0 HN HC. apply blocks_sim; try done. by left. Qed.

  (** C62: the same without that condition as long as the ladder filter is not selected. *)
  Theorem C62_va_no_ladder p0 l0 s0 k0 o0 dc0 bs : (forall x, lim_freq x <> f0) -> Forall (fun b => ~ is_ladder b) bs ->
    node (fv_new f0 p0 l0 s0 k0 o0 dc0) bs = reference (Plain l0 s0 k0 o0 o0 dc0) bs.
  Proof. intros Hlim HL. apply blocks_sim_no_ladder; try done. by left. Qed.
End fvafilt.
Print Assumptions C62_va_filter.
Print Assumptions C62_va_no_ladder.

(** C62 is false otherwise: the SVF (1) is selected, the mode of the ladder is set to 3, and then the ladder (0) is selected: it
    still has the mode 0. The filters here are: the number of the mode. *)
Definition lad (p : @fpar Z) (mix : nat) (l : unit) (x : Z) : Z * unit := (Z.of_nat mix, l).
Definition thru (p q : @fpar Z) (l : unit) (x : Z) : Z * unit := (x, l).
Definition idt (o : unit) (x : Z) : Z * unit := (x, o).
Definition lim1 (x : Z) : Z := Z.max 1 x.
Definition va_blocks : list (@fvblock Z) := let i := FvIn 5%Z 5%Z 440%Z 0%Z 0%Z in [FvBlock 0 0 0 [i]; FvBlock 1 0 3 [i]; FvBlock 0 0 3 [i]].
Definition va_node : list (list (Z * Z)) :=
  fv_blocks lim1 id id (fun l _ => l) id 0%Z (fun v => (v, v)) lad thru thru idt idt (fv_new 0%Z (FPar 0 0 0 0 0)%Z tt tt tt tt tt) va_blocks.
Definition va_reference : list (list (Z * Z)) :=
  plain_blocks lim1 id id (fun l _ => l) id 0%Z (fun v => (v, v)) lad thru thru idt idt (Plain tt tt tt tt tt tt) va_blocks.
Theorem C62_ladder_mode_refuted : (forall x, lim1 x <> 0%Z) /\
  va_node = [[(0, 0)]; [(0, 0)]; [(0, 0)]]%Z /\ va_reference = [[(0, 0)]; [(0, 0)]; [(3, 3)]]%Z.
Proof. split; [intros x; unfold lim1; lia|]. split; vm_compute; reflexivity. Qed.
Print Assumptions C62_ladder_mode_refuted.

(** Concrete cases that meet the hypotheses *)
Definition ex_bq : list bqop := let p k f := BqSet 0%Z k f 1 0 in
  [BqBlock (p 1%Z 100) [1; 2]; BqRate 48000; BqBlock (p 1%Z 200) [3]; BqBlock (p 3%Z 200) [4; 5]; BqReset]%Q.
Example C62_ex_valid : Forall valid_op ex_bq.
Proof. repeat constructor; cbn; lia. Qed.
(** low-pass "filters" that multiply with the frequency over the sample rate and add the last input: the second block runs through
    two filters, the third through four *)
Definition ex_tick (c b x : Q) : Q * Q := (Qred (c * x + b), x).
Example C62_ex_biquad :
  (fun r => r.2) <$> bq_run (fun r f q => Qred (f / r)) (fun r f => Qred (f / r)) ex_tick 0%Q (bq_new 0%Q 0%Q)
    [BqRate 100; BqBlock (BqSet 0%Z 1%Z 200 1 0) [3]; BqBlock (BqSet 0%Z 3%Z 200 1 0) [4; 5]]%Q = Some [[12]; [112; 268]]%Q.
Proof. vm_compute. reflexivity. Qed.
Definition ex_va : list (@fvblock Z) := let i f := FvIn 5%Z 5%Z f 0%Z 0%Z in [FvBlock 0 0 0 [i 440; i 2]%Z; FvBlock 0 0 3 [i 7%Z]; FvBlock 1 2 3 [i 7%Z]; FvBlock 0 0 2 [i 7%Z]].
Example C62_ex_va : mode_changes_in_use 0 ex_va /\ Forall (fun b => fb_in b <> []) ex_va.
Proof. split; [|by repeat constructor]. unfold ex_va. cbn [mode_changes_in_use fb_lmode]. unfold is_ladder. cbn [fb_ftype]. repeat split; try (left; split; discriminate); right; reflexivity. Qed.
Example C62_ex_va_played : fv_blocks lim1 id id (fun l _ => l) id 0%Z (fun v => (v, v)) lad thru thru idt idt (fv_new 0%Z (FPar 0 0 0 0 0)%Z tt tt tt tt tt) ex_va =
  [[(0, 0); (0, 0)]; [(3, 3)]; [(0, 0)]; [(2, 2)]]%Z.
Proof. vm_compute. reflexivity. Qed.
(** a history of an SFilter with a change of the type: the one-pole low-pass (here: the sum of input and memory) starts anew *)
Definition ex_sf : sfdsp unit := let f1 (x f r z : Q) := (x + z, x)%Q in
  SfDsp f1 f1 (fun x _ _ z y => (x, (z, y))) f1 (fun x _ _ _ z y => ((x, x), (z, y))) (fun x _ _ _ k h => ((x + k, x, x + h), (x, 1)))%Q (fun x _ _ _ z y k h d => (x, (z, y, k, h, d))).
Example C62_ex_switch : (sf_blocks ex_sf tt Qplus Qminus (sf_new tt 1) [(0%Z, [(1, 440, 0); (2, 440, 0)]); (1%Z, [(3, 440, 0); (4, 440, 0)])]%Q).2 =
  [[Some 1; Some 3]; [Some 3; Some 7]]%Q.
Proof. vm_compute. reflexivity. Qed.
