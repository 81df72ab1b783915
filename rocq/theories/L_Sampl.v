(** Proofs about the sample player *)
From Coq Require Import QArith Qround Qabs Qminmax Lqa.
From Verif Require Import Base M_Sampl S_Sampl.
Open Scope nat_scope.

Lemma fract_bounds x : (0 <= fract x)%Q /\ (fract x < 1)%Q.
Proof.
  unfold fract. pose proof (Qfloor_le x). pose proof (Qlt_floor x). rewrite inject_Z_plus in H0. change (inject_Z 1) with 1%Q in H0. split; lra.
Qed.
Global Instance fract_proper : Proper (Qeq ==> Qeq) fract.
Proof. intros x y E. unfold fract. rewrite (Qfloor_comp _ _ E), E. reflexivity. Qed.
Lemma floor_unique x z : (inject_Z z <= x)%Q -> (x < inject_Z z + 1)%Q -> Qfloor x = z.
Proof.
  intros H1 H2. pose proof (Qfloor_le x). pose proof (Qlt_floor x). rewrite inject_Z_plus in H0. change (inject_Z 1) with 1%Q in H0.
  assert (inject_Z (Qfloor x) < inject_Z (z + 1))%Q by (rewrite inject_Z_plus; change (inject_Z 1) with 1%Q; lra).
  assert (inject_Z z < inject_Z (Qfloor x + 1))%Q by (rewrite inject_Z_plus; change (inject_Z 1) with 1%Q; lra).
  rewrite <- Zlt_Qlt in *. lia.
Qed.
Lemma floor_fract x : (x == inject_Z (Qfloor x) + fract x)%Q.
Proof. unfold fract. lra. Qed.
Lemma floor_plus_int z x : Qfloor (inject_Z z + x) = (z + Qfloor x)%Z.
Proof.
  apply floor_unique; rewrite inject_Z_plus; pose proof (Qfloor_le x); pose proof (Qlt_floor x) as H0; rewrite inject_Z_plus in H0; change (inject_Z 1) with 1%Q in H0; lra.
Qed.
Lemma fract_plus_int z x : (fract (inject_Z z + x) == fract x)%Q.
Proof. unfold fract. rewrite floor_plus_int, inject_Z_plus. lra. Qed.

Lemma floor_nonneg x : (0 <= x)%Q -> (0 <= Qfloor x)%Z.
Proof.
  intros H. pose proof (Qlt_floor x) as U. assert (inject_Z 0 < inject_Z (Qfloor x + 1))%Q as Hz.
  - change (inject_Z 0) with 0%Q. lra.
  - rewrite <- Zlt_Qlt in Hz. lia.
Qed.

Section sampl.
  Context {V : Type} (zero : V) (rnd : Q -> Q) (interp : list V -> nat -> Q -> V).
  Context {R : Type} (ramp_count : R -> nat) (atten : R -> nat -> V -> V) (small : V -> bool) (shrink : V -> V) (add : V -> V -> V).
  Hypothesis rnd_eq : forall x y, (x == y -> rnd x == rnd y)%Q.
  Notation sampl := (@sampl V).
  Notation sblock := (@sblock V R).
  Notation next := (next_sample zero interp).
  Notation frame := (sampl_frame zero rnd interp ramp_count atten small shrink add).
  Notation frames := (sampl_frames zero rnd interp ramp_count atten small shrink add).
  Notation block := (sampl_block zero rnd interp ramp_count atten small shrink add).
  Notation blocks := (sampl_blocks zero rnd interp ramp_count atten small shrink add).

  Lemma start_proper n x y : (x == y)%Q -> start_of rnd n x = start_of rnd n y.
  Proof. intros E. unfold start_of. erewrite Qfloor_comp; [reflexivity|]. apply rnd_eq. by rewrite E. Qed.
  Lemma length_proper n s x y : (x == y)%Q -> length_of rnd n s x = length_of rnd n s y.
  Proof. intros E. unfold length_of. erewrite Qfloor_comp; [reflexivity|]. apply Qplus_comp; [|reflexivity]. apply rnd_eq. by rewrite E. Qed.

  Definition cut_offs (f : sframe) : Q := Qmin (Qabs (sf_offs f)) (999999 # 1000000).
  Definition cut_len (f : sframe) : Q := Qmin (Qabs (sf_len f)) 1.
  Definition coherent (n : nat) (se : section) : Prop :=
    se_offs se = (-10)%Q \/ (se_start se = start_of rnd n (se_offs se) /\ se_end se = length_of rnd n (se_start se) (se_len se)).
  Lemma recalc_spec n se f : coherent n se ->
    coherent n (recalc rnd n se f) /\ se_start (recalc rnd n se f) = start_of rnd n (cut_offs f) /\
    se_end (recalc rnd n se f) = length_of rnd n (start_of rnd n (cut_offs f)) (cut_len f).
  Proof.
    intros H. unfold recalc. fold (cut_offs f) (cut_len f). cbv zeta.
    destruct (Qeq_bool (se_offs se) (cut_offs f)) eqn:E1; cbn [negb].
    - apply Qeq_bool_iff in E1. assert (se_offs se <> (-10)%Q) as N.
      { intros E. rewrite E in E1. unfold cut_offs in E1. pose proof (Qabs_nonneg (sf_offs f)).
        destruct (Qlt_le_dec (Qabs (sf_offs f)) (999999 # 1000000)) as [Hl|Hl].
        - rewrite Q.min_l in E1 by lra. lra.
        - rewrite Q.min_r in E1 by lra. lra. }
      destruct H as [|[Hs He]]; [done|]. pose proof (start_proper n _ _ E1) as Ep.
      destruct (Qeq_bool (se_len se) (cut_len f)) eqn:E2; cbn [negb orb].
      + apply Qeq_bool_iff in E2. split; [by right|]. split; [congruence|]. rewrite He, Hs, Ep. by apply length_proper.
      + cbn. split; [right; cbn; split; congruence|]. split; [congruence|]. by rewrite Hs, Ep.
    - cbn. split; [right; cbn; done|]. done.
  Qed.

  Lemma slice_selected (data : list V) f :
    take (length_of rnd (length data) (start_of rnd (length data) (cut_offs f)) (cut_len f)) (drop (start_of rnd (length data) (cut_offs f)) data) =
    selected rnd data (sf_offs f) (sf_len f) /\
    start_of rnd (length data) (cut_offs f) + length_of rnd (length data) (start_of rnd (length data) (cut_offs f)) (cut_len f) <= length data.
  Proof.
    unfold length_of, selected. cbv zeta. fold (cut_offs f) (cut_len f).
    unfold start_of. set (x := Z.to_nat (Qfloor (rnd (inject_Z (Z.of_nat (length data)) * cut_offs f)))).
    set (y := Z.to_nat _). rewrite (proj2 (Nat.leb_le (x `min` length data) (length data))) by lia. split; [|lia].
    destruct (decide (x <= length data)).
    - rewrite (Nat.min_l x) by lia.
      destruct (decide (y <= length data - x)); [by rewrite Nat.min_r by lia|]. rewrite Nat.min_l by lia.
      rewrite !take_ge; rewrite ?drop_length; try lia; done.
    - rewrite (Nat.min_r x) by lia. rewrite !drop_ge by lia. by rewrite !take_nil.
  Qed.

  (** A frame with its part of the sample *)
  Definition core (sec : list V) (loop declick reverse : bool) (ramp : R) (s : sampl) (f : sframe) : option (sampl * V) :=
    let s := if sf_trig f then Sampl 0 true (sp_last s) (sp_last s) else s in
    let finish (s : sampl) (v : V) :=
      if negb declick || small (sp_decay s) then Some (Sampl (sp_phase s) (sp_playing s) v zero, v)
      else let d := shrink (sp_decay s) in Some (Sampl (sp_phase s) (sp_playing s) (add v d) d, add v d) in
    if sp_playing s then
      let idx := Z.to_nat (Qfloor (sp_phase s)) in
      let '(phase, v) := next (sp_phase s) (sf_step f) sec reverse in
      let* v :=
        if declick then
          if length sec <? idx then None
          else
            let to_end := length sec - idx in
            Some (if idx <? ramp_count ramp then atten ramp idx v
                  else if to_end <? ramp_count ramp then atten ramp to_end v else v)
        else Some v in
      let playing := negb (negb loop && negb (Qle_bool (sp_phase s) phase)) in
      finish (Sampl phase playing v (sp_decay s)) v
    else finish s zero.
  Lemma frame_core data loop declick reverse ramp s se f : coherent (length data) se -> exists se', coherent (length data) se' /\
    frame data loop declick reverse ramp s se f =
      match core (selected rnd data (sf_offs f) (sf_len f)) loop declick reverse ramp s f with
      | Some (s', v) => Some (s', se', v) | None => None end.
  Proof.
    intros Hc. unfold sampl_frame, core. set (s0 := if sf_trig f then _ else s). destruct (sp_playing s0) eqn:Ep.
    - destruct (recalc_spec _ _ f Hc) as (Hc' & Es & Ee). destruct (slice_selected data f) as [Esel Hle]. exists (recalc rnd (length data) se f). split; [done|].
      cbv zeta. rewrite Es, Ee. rewrite (proj2 (Nat.ltb_ge (length data) _)) by exact Hle. rewrite Esel.
      destruct (next _ _ _ _) as [ph v]. destruct (if declick then _ else Some v) as [v'|]; [|done]. cbn [mbind option_bind].
      destruct (negb declick || small _); done.
    - exists se. split; [done|]. destruct (negb declick || small _); done.
  Qed.

  (** One frame of the flat sequence *)
  Definition one (s : sampl) (x : sblock * sframe) : option (sampl * V) :=
    match sb_sample x.1 with
    | Some sample =>
        if length sample <? 3 then Some (Sampl (sp_phase s) (sp_playing s) zero (sp_decay s), zero)
        else
          let s := if sb_loop x.1 then Sampl (sp_phase s) true (sp_last s) (sp_decay s) else s in
          core (selected rnd (drop 1 sample) (sf_offs x.2) (sf_len x.2)) (sb_loop x.1) (sb_declick x.1) (sb_reverse x.1) (sb_ramp x.1) s x.2
    | None => Some (Sampl (sp_phase s) (sp_playing s) zero (sp_decay s), zero)
    end.
  Fixpoint srun (s : sampl) (xs : list (sblock * sframe)) : option (sampl * list V) :=
    match xs with
    | [] => Some (s, [])
    | x :: xs => let* (s, v) := one s x in let* (s, vs) := srun s xs in Some (s, v :: vs)
    end.
  Lemma srun_app a : forall s b, srun s (a ++ b) = let* (s, vs) := srun s a in let* (s, vs') := srun s b in Some (s, vs ++ vs').
  Proof.
    induction a as [|x a IH]; intros s b; cbn [srun app].
    - cbn [mbind option_bind]. by destruct (srun s b) as [[? ?]|].
    - destruct (one s x) as [[s1 v]|]; [|done]. cbn [mbind option_bind]. rewrite IH. destruct (srun s1 a) as [[s2 vs]|]; [|done]. cbn [mbind option_bind].
      by destruct (srun s2 b) as [[? ?]|].
  Qed.
  Lemma core_loop_playing sec declick reverse ramp s f s' v : core sec true declick reverse ramp s f = Some (s', v) -> sp_playing s = true -> sp_playing s' = true.
  Proof.
    unfold core. intros E Hp. set (s0 := if sf_trig f then _ else s) in E. assert (sp_playing s0 = true) as Hp0 by (subst s0; by destruct (sf_trig f)).
    rewrite Hp0 in E. destruct (next _ _ _ _) as [ph w]. destruct (if declick then _ else Some w) as [v'|]; [|done]. cbn [mbind option_bind negb andb] in E.
    destruct (negb declick || small _); injection E as <- _; done.
  Qed.
  Lemma frames_run b sample : sb_sample b = Some sample -> 3 <= length sample -> forall fs s se,
    coherent (length (drop 1 sample)) se -> (sb_loop b = true -> sp_playing s = true) ->
    frames (drop 1 sample) (sb_loop b) (sb_declick b) (sb_reverse b) (sb_ramp b) s se fs = srun s ((fun f => (b, f)) <$> fs).
  Proof.
    intros Eb Hl. induction fs as [|f fs IH]; intros s se Hc Hp; [done|]. change ((fun f => (b, f)) <$> f :: fs) with ((b, f) :: ((fun f => (b, f)) <$> fs)).
    cbn [sampl_frames srun]. destruct (frame_core _ (sb_loop b) (sb_declick b) (sb_reverse b) (sb_ramp b) s se f Hc) as (se' & Hc' & ->).
    unfold one. cbn [fst snd]. rewrite Eb. rewrite (proj2 (Nat.ltb_ge (length sample) 3)) by lia.
    assert ((if sb_loop b then Sampl (sp_phase s) true (sp_last s) (sp_decay s) else s) = s) as Es.
    { destruct (sb_loop b); [|done]. specialize (Hp eq_refl). destruct s as [p q l d]. cbn in *. by rewrite Hp. }
    cbv zeta. rewrite Es. destruct (core _ _ _ _ _ s f) as [[s1 v]|] eqn:Ec; [|done]. cbn [mbind option_bind].
    rewrite IH; [done|done|]. intros Hlp. rewrite Hlp in Ec. eapply core_loop_playing; [exact Ec|]. by apply Hp.
  Qed.
  Lemma idle_run b : (sb_sample b = None \/ exists sample, sb_sample b = Some sample /\ length sample < 3) -> forall fs s, fs <> [] ->
    srun s ((fun f => (b, f)) <$> fs) = Some (Sampl (sp_phase s) (sp_playing s) zero (sp_decay s), replicate (length fs) zero).
  Proof.
    intros H. assert (forall s f, one s (b, f) = Some (Sampl (sp_phase s) (sp_playing s) zero (sp_decay s), zero)) as H1.
    { intros s f. unfold one. cbn [fst]. destruct H as [->|(sample & -> & Hl)]; [done|]. by rewrite (proj2 (Nat.ltb_lt (length sample) 3)) by lia. }
    induction fs as [|f fs IH]; intros s Hn; [done|]. change ((fun f => (b, f)) <$> f :: fs) with ((b, f) :: ((fun f => (b, f)) <$> fs)).
    cbn [srun]. rewrite H1. cbn [mbind option_bind]. destruct fs as [|f' fs]; [done|]. rewrite IH by done. done.
  Qed.
  Lemma block_run b s fs : fs <> [] -> block b s fs = srun s ((fun f => (b, f)) <$> fs).
  Proof.
    intros Hn. unfold sampl_block. destruct (sb_sample b) as [sample|] eqn:Eb; [|by rewrite idle_run by auto].
    destruct (Nat.ltb_spec (length sample) 3) as [Hl|Hl]; [by rewrite idle_run by eauto|]. cbv zeta.
    rewrite (frames_run b sample); [|done|lia|by left|by intros ->].
    destruct fs as [|f fs]; [done|]. change ((fun f => (b, f)) <$> f :: fs) with ((b, f) :: ((fun f => (b, f)) <$> fs)). cbn [srun].
    assert (one (if sb_loop b then Sampl (sp_phase s) true (sp_last s) (sp_decay s) else s) (b, f) = one s (b, f)) as ->; [|done].
    unfold one. cbn [fst snd]. rewrite Eb. rewrite (proj2 (Nat.ltb_ge (length sample) 3)) by lia. by destruct (sb_loop b).
  Qed.
  Lemma blocks_run bs : Forall (fun b : sblock * list sframe => b.2 <> []) bs -> forall s, blocks s bs = srun s (all_frames bs).
  Proof.
    induction 1 as [|[b fs] bs Hb H IH]; intros s; [done|]. cbn [sampl_blocks]. cbn in Hb. rewrite block_run by done.
    change (all_frames ((b, fs) :: bs)) with (((fun f => (b, f)) <$> fs) ++ all_frames bs). rewrite srun_app.
    destruct (srun s _) as [[s1 vs]|]; [|done]. cbn [mbind option_bind]. by rewrite IH.
  Qed.

  Lemma srun_length xs : forall s s' vs, srun s xs = Some (s', vs) -> length vs = length xs.
  Proof.
    induction xs as [|x xs IH]; intros s s' vs E; cbn in E; [by injection E as _ <-|].
    apply bind_Some in E as ([s1 v] & E1 & E). apply bind_Some in E as ([s2 vs2] & E2 & E). injection E as _ <-. cbn. f_equal. by eapply IH.
  Qed.

  (** no panics without the ramps *)
  Lemma one_quiet s x : sb_declick x.1 = false -> is_Some (one s x).
  Proof.
    intros H. unfold one. destruct (sb_sample x.1) as [sample|]; [|eauto]. destruct (length sample <? 3); [eauto|]. rewrite H. unfold core.
    cbv zeta. set (s0 := if sf_trig x.2 then _ else _). destruct (sp_playing s0).
    - destruct (next _ _ _ _) as [ph v]. cbn. eauto.
    - cbn. eauto.
  Qed.
  Lemma srun_quiet xs : forall s, Forall (fun x => sb_declick x.1 = false) xs -> is_Some (srun s xs).
  Proof.
    induction xs as [|x xs IH]; intros s H; [cbn; eauto|]. apply Forall_cons in H as [Hx H]. cbn. destruct (one_quiet s x Hx) as [[s1 v] ->].
    cbn [mbind option_bind]. destruct (IH s1 H) as [[s2 vs] ->]. cbn. eauto.
  Qed.

  (** no panics with the ramps, for steps up to one and parts of one length *)
  Definition phase_ok (n : nat) (s : sampl) : Prop := (0 <= sp_phase s)%Q /\ (sp_phase s < inject_Z (Z.of_nat n) + 1)%Q.
  Lemma next_bounds n phase step sec reverse ph v : length sec = n -> (0 <= phase)%Q -> (phase < inject_Z (Z.of_nat n) + 1)%Q -> (0 <= step <= 1)%Q ->
    next phase step sec reverse = (ph, v) -> (0 <= ph)%Q /\ (ph < inject_Z (Z.of_nat n) + 1)%Q.
  Proof.
    intros Hn H0 H1 Hs E. unfold next_sample in E. rewrite Hn in E. destruct (Nat.ltb_spec n 1) as [Hl|Hl]; [by injection E as <- _|].
    assert (ph = (inject_Z (Z.of_nat (Z.to_nat (Qfloor phase) mod n)) + fract phase + step)%Q) as -> by (cbv zeta in E; destruct reverse; by injection E as <- _).
    pose proof (fract_bounds phase) as [F0 F1]. pose proof (Nat.mod_upper_bound (Z.to_nat (Qfloor phase)) n ltac:(lia)) as Hm.
    set (i := Z.to_nat (Qfloor phase) mod n) in *.
    assert (0 <= inject_Z (Z.of_nat i))%Q by (change 0%Q with (inject_Z 0); rewrite <- Zle_Qle; lia).
    assert (inject_Z (Z.of_nat i) + 1 <= inject_Z (Z.of_nat n))%Q.
    { change 1%Q with (inject_Z 1). rewrite <- inject_Z_plus, <- Zle_Qle. lia. }
    split; lra.
  Qed.
  Lemma one_ramp n s x : phase_ok n s ->
    (forall rate data, sb_sample x.1 = Some (rate :: data) -> length (selected rnd data (sf_offs x.2) (sf_len x.2)) = n) -> (0 <= sf_step x.2 <= 1)%Q ->
    exists s' v, one s x = Some (s', v) /\ phase_ok n s'.
  Proof.
    intros Hp Hsec Hs. unfold one. destruct (sb_sample x.1) as [sample|] eqn:Eb; [|by eexists _, _].
    destruct (Nat.ltb_spec (length sample) 3) as [Hl|Hl]; [by eexists _, _|]. destruct sample as [|rate data]; [cbn in Hl; lia|].
    specialize (Hsec _ _ eq_refl). cbn [drop]. cbv zeta.
    set (sec := selected rnd data _ _) in *. unfold core.
    set (s0 := if sb_loop x.1 then _ else s).
    assert (phase_ok n s0) as Hp0 by (subst s0; by destruct (sb_loop x.1)).
    set (s1 := if sf_trig x.2 then _ else s0).
    assert (phase_ok n s1) as Hp1.
    { subst s1. destruct (sf_trig x.2); [|done]. split; cbn; [lra|]. assert (0 <= inject_Z (Z.of_nat n))%Q by (change 0%Q with (inject_Z 0); rewrite <- Zle_Qle; lia). lra. }
    cbv zeta. destruct (sp_playing s1).
    - destruct Hp1 as [P0 P1]. destruct (next _ _ _ _) as [ph v] eqn:En. pose proof (next_bounds n _ _ _ _ _ _ Hsec P0 P1 Hs En) as Hph.
      assert (Z.to_nat (Qfloor (sp_phase s1)) <= length sec) as Hi.
      { rewrite Hsec. pose proof (Qfloor_le (sp_phase s1)) as Hf.
        assert (inject_Z (Qfloor (sp_phase s1)) < inject_Z (Z.of_nat n + 1))%Q as Hz by (rewrite inject_Z_plus; change (inject_Z 1) with 1%Q; lra).
        rewrite <- Zlt_Qlt in Hz. lia. }
      rewrite (proj2 (Nat.ltb_ge (length sec) _)) by exact Hi.
      destruct (sb_declick x.1); cbn [mbind option_bind negb orb sp_decay]; [destruct (small (sp_decay s1))|]; eexists _, _; (split; [reflexivity|]); exact Hph.
    - destruct (negb (sb_declick x.1) || small _); eexists _, _; (split; [reflexivity|]); exact Hp1.
  Qed.
  Lemma srun_ramp n xs : forall s, phase_ok n s ->
    Forall (fun x : sblock * sframe => (forall rate data, sb_sample x.1 = Some (rate :: data) -> length (selected rnd data (sf_offs x.2) (sf_len x.2)) = n) /\ (0 <= sf_step x.2 <= 1)%Q) xs ->
    is_Some (srun s xs).
  Proof.
    induction xs as [|x xs IH]; intros s Hp H; [cbn; eauto|]. apply Forall_cons in H as [[H1 H2] H]. cbn.
    destruct (one_ramp n s x Hp H1 H2) as (s1 & v & -> & Hp1). cbn [mbind option_bind]. destruct (IH s1 Hp1 H) as [[s2 vs] ->]. cbn. eauto.
  Qed.

  (** Playing without the ramps *)
  Hypothesis interp_eq : forall d i x y, (x == y)%Q -> interp d i x = interp d i y.
  Lemma at_position_eq sec rev x y : (x == y)%Q -> at_position interp sec rev x = at_position interp sec rev y.
  Proof.
    intros E. unfold at_position. rewrite (Qfloor_comp _ _ E). destruct rev; apply interp_eq; rewrite E; reflexivity.
  Qed.
  Definition wrap (n : nat) (x : Q) : Q := (inject_Z (Z.of_nat (Z.to_nat (Qfloor x) mod n)) + fract x)%Q.
  Lemma wrap_bounds n x : 1 <= n -> (0 <= wrap n x)%Q /\ (wrap n x < inject_Z (Z.of_nat n))%Q.
  Proof.
    intros Hn. unfold wrap. pose proof (fract_bounds x) as [F0 F1]. pose proof (Nat.mod_upper_bound (Z.to_nat (Qfloor x)) n ltac:(lia)) as Hm.
    set (i := Z.to_nat (Qfloor x) mod n) in *.
    assert (0 <= inject_Z (Z.of_nat i))%Q by (change 0%Q with (inject_Z 0); rewrite <- Zle_Qle; lia).
    assert (inject_Z (Z.of_nat i) + 1 <= inject_Z (Z.of_nat n))%Q.
    { change 1%Q with (inject_Z 1). rewrite <- inject_Z_plus, <- Zle_Qle. lia. }
    split; lra.
  Qed.
  Lemma next_wrap sec phase step rev : 1 <= length sec ->
    exists ph, next phase step sec rev = (ph, at_position interp sec rev (wrap (length sec) phase)) /\ (ph == wrap (length sec) phase + step)%Q.
  Proof.
    intros Hn. unfold next_sample. rewrite (proj2 (Nat.ltb_ge (length sec) 1)) by done. cbv zeta.
    set (n := length sec) in *. set (i := Z.to_nat (Qfloor phase) mod n).
    pose proof (fract_bounds phase) as [F0 F1].
    assert (Qfloor (wrap n phase) = Z.of_nat i) as Ef.
    { apply floor_unique; unfold wrap; fold i; lra. }
    assert (wrap n phase - inject_Z (Z.of_nat i) == fract phase)%Q as Eg by (unfold wrap; fold i; lra).
    unfold at_position. cbv zeta. rewrite Ef, Nat2Z.id. fold n. destruct rev; eexists; (split; [f_equal|unfold wrap; fold i; lra]).
    - apply interp_eq. rewrite Eg. reflexivity.
    - apply interp_eq. rewrite Eg. reflexivity.
  Qed.
  (** a frame that plays *)
  Lemma one_plays s x sec : plays rnd sec x -> sb_declick x.1 = false -> 1 <= length sec ->
    let phase := if sf_trig x.2 then 0%Q else sp_phase s in
    sf_trig x.2 || sb_loop x.1 || sp_playing s = true ->
    exists s', one s x = Some (s', at_position interp sec (sb_reverse x.1) (wrap (length sec) phase)) /\
      (sp_phase s' == wrap (length sec) phase + sf_step x.2)%Q /\
      sp_playing s' = sb_loop x.1 || Qle_bool phase (sp_phase s').
  Proof.
    intros (rate & data & Eb & Hl & Es) Hd Hn phase Hp. unfold one. rewrite Eb. rewrite (proj2 (Nat.ltb_ge (length (rate :: data)) 3)) by (cbn; lia).
    cbn [drop]. cbv zeta. change (drop 0 data) with data. rewrite Es, Hd. unfold core. cbv zeta.
    set (s0 := if sb_loop x.1 then _ else s). set (s1 := if sf_trig x.2 then _ else s0).
    assert (sp_playing s1 = true) as Hp1.
    { subst s1 s0. destruct (sf_trig x.2); [done|]. destruct (sb_loop x.1); [done|]. exact Hp. }
    assert (sp_phase s1 = phase) as Ph1.
    { subst s1 s0 phase. destruct (sf_trig x.2); [done|]. by destruct (sb_loop x.1). }
    rewrite Hp1, Ph1. destruct (next_wrap sec phase (sf_step x.2) (sb_reverse x.1) Hn) as (ph & -> & Eph). cbn [mbind option_bind negb orb].
    eexists. split; [reflexivity|]. cbn. split; [exact Eph|]. destruct (sb_loop x.1); [done|]. cbn. by rewrite negb_involutive.
  Qed.
  Lemma one_silent s x sec : plays rnd sec x -> sb_declick x.1 = false -> sf_trig x.2 = false -> sb_loop x.1 = false -> sp_playing s = false ->
    exists s', one s x = Some (s', zero) /\ sp_playing s' = false.
  Proof.
    intros (rate & data & Eb & Hl & Es) Hd Ht Hlp Hp. unfold one. rewrite Eb. rewrite (proj2 (Nat.ltb_ge (length (rate :: data)) 3)) by (cbn; lia).
    rewrite Hd, Hlp. unfold core. cbv zeta. rewrite Ht, Hp. cbn. eexists. split; [reflexivity|]. done.
  Qed.
  Lemma wrap_id n x : (0 <= x)%Q -> (x < inject_Z (Z.of_nat n))%Q -> (wrap n x == x)%Q.
  Proof.
    intros H0 H1. unfold wrap. assert (0 <= Qfloor x < Z.of_nat n)%Z as Hf.
    { pose proof (Qfloor_le x). pose proof (Qlt_floor x). split.
      - assert (inject_Z 0 < inject_Z (Qfloor x + 1))%Q as Hz by (change (inject_Z 0) with 0%Q; lra). rewrite <- Zlt_Qlt in Hz. lia.
      - assert (inject_Z (Qfloor x) < inject_Z (Z.of_nat n))%Q as Hz by lra. by rewrite <- Zlt_Qlt in Hz. }
    rewrite Nat.mod_small by lia. rewrite Z2Nat.id by lia. unfold fract. lra.
  Qed.
  Lemma wrap_shift n x k : 1 <= n -> (0 <= x)%Q -> (wrap n (inject_Z (Z.of_nat (k * n)) + x) == wrap n x)%Q.
  Proof.
    intros Hn H0. unfold wrap. rewrite fract_plus_int, floor_plus_int.
    assert (0 <= Qfloor x)%Z. { by apply floor_nonneg. }
    rewrite Z2Nat.inj_add by lia. rewrite Nat2Z.id, Nat.add_comm, Nat.mod_add by lia. reflexivity.
  Qed.
  Lemma wrap_split n x : 1 <= n -> (0 <= x)%Q -> exists k, (x == inject_Z (Z.of_nat (k * n)) + wrap n x)%Q.
  Proof.
    intros Hn H0. assert (0 <= Qfloor x)%Z. { by apply floor_nonneg. }
    exists (Z.to_nat (Qfloor x) / n). unfold wrap. rewrite (floor_fract x) at 1. rewrite Qplus_assoc. apply Qplus_comp; [|reflexivity].
    rewrite <- inject_Z_plus. apply inject_Z_injective. pose proof (Nat.div_mod (Z.to_nat (Qfloor x)) n ltac:(lia)) as E. rewrite <- Nat2Z.inj_add, (Nat.mul_comm (_ / n) n), <- E. lia.
  Qed.

  Global Instance wrap_proper n : Proper (Qeq ==> Qeq) (wrap n).
  Proof. intros x y E. unfold wrap. rewrite (Qfloor_comp _ _ E), E. reflexivity. Qed.

  Notation pos xs t := (travelled (take t xs.*2)).
  Lemma travelled_nonneg fs : Forall (fun f => 0 <= sf_step f)%Q fs -> (0 <= travelled fs)%Q.
  Proof. induction 1 as [|f fs Hf _ IH]; [cbn; lra|]. change (travelled (f :: fs)) with (sf_step f + travelled fs)%Q. cbn in Hf. lra. Qed.

  (** from any state with the play head at a position that is equal to [P] up to whole rounds *)
  Lemma loop_run sec : 1 <= length sec -> forall xs s P, (0 <= P)%Q -> (0 <= sp_phase s)%Q -> (wrap (length sec) (sp_phase s) == wrap (length sec) P)%Q ->
    Forall (fun x => plays rnd sec x /\ sb_declick x.1 = false /\ sb_loop x.1 = true /\ sf_trig x.2 = false /\ (0 <= sf_step x.2)%Q) xs ->
    forall s' vs, srun s xs = Some (s', vs) -> forall t x, xs !! t = Some x ->
      vs !! t = Some (at_position interp sec (sb_reverse x.1) (wrap (length sec) (P + pos xs t))).
  Proof.
    intros Hn. induction xs as [|x xs IH]; intros s P HP Hph HW H s' vs E t y Ht; [done|].
    apply Forall_cons in H as [(Hpl & Hd & Hl & Htr & Hst) H]. cbn [srun] in E.
    destruct (one_plays s x sec Hpl Hd Hn) as (s1 & E1 & Eph & _); [by rewrite Hl, orb_true_r|]. rewrite Htr in E1, Eph. rewrite E1 in E. cbn [mbind option_bind] in E.
    destruct (srun s1 xs) as [[s2 vs2]|] eqn:E2; [|done]. cbn [mbind option_bind] in E. injection E as <- <-. destruct t as [|t].
    - injection Ht as <-. cbn. f_equal. apply at_position_eq. rewrite Qplus_0_r. exact HW.
    - cbn in Ht |- *. destruct (wrap_bounds (length sec) (sp_phase s) Hn) as [W0 W1].
      rewrite (IH s1 (P + sf_step x.2)%Q) with (s' := s2) (x := y); try done.
      + f_equal. apply at_position_eq. apply wrap_proper. rewrite Qplus_assoc. reflexivity.
      + lra.
      + rewrite Eph. lra.
      + rewrite Eph, HW. destruct (wrap_split (length sec) P Hn HP) as [k Ek].
        rewrite Ek at 2. rewrite <- Qplus_assoc. symmetry. apply wrap_shift; [done|]. destruct (wrap_bounds (length sec) P Hn). lra.
  Qed.

  (** the states between the frames *)
  Lemma srun_states xs : forall s s' vs, srun s xs = Some (s', vs) -> exists st : nat -> sampl, st 0 = s /\
    forall t x, xs !! t = Some x -> exists v, vs !! t = Some v /\ one (st t) x = Some (st (S t), v).
  Proof.
    induction xs as [|x xs IH]; intros s s' vs E; cbn [srun] in E; [by exists (fun _ => s)|].
    apply bind_Some in E as ([s1 v] & E1 & E). apply bind_Some in E as ([s2 vs2] & E2 & E). injection E as _ <-.
    destruct (IH _ _ _ E2) as (st & S0 & S1). exists (fun t => match t with 0 => s | S t => st t end). split; [done|].
    intros [|t] y Hy; [cbn in Hy; injection Hy as <-; exists v; by rewrite S0|]. by apply S1.
  Qed.
  Lemma one_phase s x s' v : sb_declick x.1 = false -> (0 <= sf_step x.2)%Q -> (0 <= sp_phase s)%Q -> one s x = Some (s', v) -> (0 <= sp_phase s')%Q.
  Proof.
    intros Hd Hs Hp E. unfold one in E. destruct (sb_sample x.1) as [sample|]; [|by injection E as <- _].
    destruct (length sample <? 3); [by injection E as <- _|]. cbv zeta in E. rewrite Hd in E. unfold core in E. cbv zeta in E.
    set (s1 := if sb_loop x.1 then _ else s) in E. assert (0 <= sp_phase s1)%Q as H1 by (subst s1; by destruct (sb_loop x.1)).
    set (s0 := if sf_trig x.2 then _ else s1) in E. assert (0 <= sp_phase s0)%Q as H0 by (subst s0; destruct (sf_trig x.2); [cbn; lra|done]).
    destruct (sp_playing s0); [|cbn in E; by injection E as <- _]. unfold next_sample in E. cbv zeta in E. destruct (_ <? 1).
    - cbn in E. by injection E as <- _.
    - match type of E with context [inject_Z (Z.of_nat ?i)] => assert (0 <= inject_Z (Z.of_nat i))%Q by (change 0%Q with (inject_Z 0); rewrite <- Zle_Qle; lia) end.
      pose proof (fract_bounds (sp_phase s0)) as [F0 F1].
      destruct (sb_reverse x.1); cbn [mbind option_bind negb orb] in E; injection E as <- _; cbn [sp_phase]; lra.
  Qed.

  Lemma silent_run sec : forall xs s, sp_playing s = false ->
    Forall (fun x => plays rnd sec x /\ sb_declick x.1 = false /\ sb_loop x.1 = false /\ sf_trig x.2 = false) xs ->
    forall s' vs, srun s xs = Some (s', vs) -> forall t, t < length xs -> vs !! t = Some zero.
  Proof.
    induction xs as [|x xs IH]; intros s Hp H s' vs E t Ht; cbn in Ht; [lia|]. apply Forall_cons in H as [(Hpl & Hd & Hl & Htr) H]. cbn [srun] in E.
    destruct (one_silent s x sec Hpl Hd Htr Hl Hp) as (s1 & E1 & Hp1). rewrite E1 in E. cbn [mbind option_bind] in E.
    destruct (srun s1 xs) as [[s2 vs2]|] eqn:E2; [|done]. cbn [mbind option_bind] in E. injection E as <- <-. destruct t as [|t]; [done|]. cbn. eapply IH; try done. lia.
  Qed.

  Lemma once_run sec : 1 <= length sec -> forall xs s P, (0 <= P)%Q -> (P < 2 * inject_Z (Z.of_nat (length sec)))%Q -> (sp_phase s == P)%Q -> sp_playing s = true ->
    Forall (fun x => plays rnd sec x /\ sb_declick x.1 = false /\ sb_loop x.1 = false /\ sf_trig x.2 = false /\ (0 <= sf_step x.2)%Q /\ (sf_step x.2 < inject_Z (Z.of_nat (length sec)))%Q) xs ->
    forall s' vs, srun s xs = Some (s', vs) -> forall t x, xs !! t = Some x ->
      ((P + pos xs t < inject_Z (Z.of_nat (length sec)))%Q -> vs !! t = Some (at_position interp sec (sb_reverse x.1) (P + pos xs t))) /\
      ((exists u, u < t /\ (inject_Z (Z.of_nat (length sec)) <= P + pos xs u)%Q) -> vs !! t = Some zero) /\
      ((inject_Z (Z.of_nat (length sec)) <= P + pos xs t)%Q -> (forall u, u < t -> (P + pos xs u < inject_Z (Z.of_nat (length sec)))%Q) ->
         vs !! t = Some (at_position interp sec (sb_reverse x.1) (P + pos xs t - inject_Z (Z.of_nat (length sec))))).
  Proof.
    intros Hn. set (N := inject_Z (Z.of_nat (length sec))). induction xs as [|x xs IH]; intros s P HP HP2 Hph Hpl0 H s' vs E t y Ht; [done|].
    apply Forall_cons in H as [(Hpl & Hd & Hl & Htr & Hst & Hst2) H]. cbn [srun] in E.
    destruct (one_plays s x sec Hpl Hd Hn) as (s1 & E1 & Eph & Epl); [by rewrite Hpl0, orb_true_r|]. rewrite Htr in E1, Eph, Epl. rewrite E1 in E. cbn [mbind option_bind] in E.
    rewrite Hl in Epl. cbn [orb] in Epl.
    destruct (srun s1 xs) as [[s2 vs2]|] eqn:E2; [|done]. cbn [mbind option_bind] in E. injection E as <- <-.
    assert (Forall (fun x => 0 <= sf_step x.2)%Q xs) as Hnn by (eapply Forall_impl; [exact H|]; cbn; tauto).
    destruct (Qlt_le_dec P N) as [HlN|HlN].
    - assert (wrap (length sec) (sp_phase s) == P)%Q as Ew. { rewrite Hph. by apply wrap_id. }
      assert (sp_playing s1 = true) as Hp1. { rewrite Epl. apply Qle_bool_iff. rewrite Eph, Ew, Hph. lra. }
      destruct t as [|t].
      + injection Ht as <-. cbn. split; [|split].
        * intros _. f_equal. apply at_position_eq. rewrite Ew. lra.
        * intros (u & Hu & _). lia.
        * intros HN. lra.
      + cbn in Ht. destruct (IH s1 (P + sf_step x.2)%Q) with (t := t) (x := y) (s' := s2) (vs := vs2) as (I1 & I2 & I3); try done.
        * lra.
        * subst N. lra.
        * rewrite Eph, Ew. reflexivity.
        * assert (forall u, (P + pos (x :: xs) (S u) == P + sf_step x.2 + pos xs u)%Q) as Ep.
          { intros u. change (pos (x :: xs) (S u)) with (sf_step x.2 + pos xs u)%Q. lra. }
          change ((at_position interp sec (sb_reverse x.1) (wrap (length sec) (sp_phase s)) :: vs2) !! S t) with (vs2 !! t).
          split; [|split].
          -- intros Hlt. rewrite Ep in Hlt. rewrite (I1 Hlt). f_equal. apply at_position_eq. by rewrite Ep.
          -- intros (u & Hu & Hge). destruct u as [|u]; [cbn in Hge; lra|]. apply I2. exists u. split; [lia|]. by rewrite <- Ep.
          -- intros Hge Hall. rewrite Ep in Hge. rewrite (I3 Hge).
             ++ f_equal. apply at_position_eq. by rewrite Ep.
             ++ intros u Hu. rewrite <- Ep. apply Hall. lia.
    - (* the end *)
      assert (wrap (length sec) (sp_phase s) == P - N)%Q as Ew.
      { rewrite Hph. transitivity (wrap (length sec) (inject_Z (Z.of_nat (1 * length sec)) + (P - N))%Q).
        - apply wrap_proper. rewrite Nat.mul_1_l. subst N. lra.
        - rewrite wrap_shift by (done || lra). apply wrap_id; subst N; lra. }
      assert (sp_playing s1 = false) as Hp1.
      { rewrite Epl. destruct (Qle_bool (sp_phase s) (sp_phase s1)) eqn:Eb; [|done]. apply Qle_bool_iff in Eb. rewrite Eph, Ew, Hph in Eb. lra. }
      assert (forall u, (N <= P + pos (x :: xs) u)%Q) as Hge.
      { intros u. assert (0 <= pos (x :: xs) u)%Q; [|lra]. apply travelled_nonneg. apply Forall_take, Forall_fmap. constructor; [done|]. exact Hnn. }
      destruct t as [|t].
      + injection Ht as <-. cbn. split; [|split].
        * intros HN. lra.
        * intros (u & Hu & _). lia.
        * intros _ _. f_equal. apply at_position_eq. rewrite Ew. lra.
      + split; [|split].
        * intros HN. specialize (Hge (S t)). lra.
        * intros _. cbn. eapply silent_run; [exact Hp1| |exact E2|].
          -- eapply Forall_impl; [exact H|]. intros z (Z1 & Z2 & Z3 & Z4 & _). done.
          -- by eapply lookup_lt_Some.
        * intros _ Hall. specialize (Hall 0 ltac:(lia)). specialize (Hge 0). lra.
  Qed.

  (** windows *)
  Lemma srun_window pre xs post s s' out : srun s (pre ++ xs ++ post) = Some (s', out) ->
    exists s1 s2 vs, srun s1 xs = Some (s2, vs) /\ forall t, t < length xs -> out !! (length pre + t) = vs !! t.
  Proof.
    rewrite srun_app. intros E. apply bind_Some in E as ([s1 v1] & E1 & E). rewrite srun_app in E. apply bind_Some in E as ([s3 v3] & E3 & E).
    apply bind_Some in E3 as ([s2 vs] & E2 & E3). apply bind_Some in E3 as ([s4 v4] & E4 & E3). injection E as <- <-. injection E3 as <- <-.
    exists s1, s2, vs. split; [done|]. intros t Ht. rewrite <- (srun_length _ _ _ _ E1). rewrite lookup_app_r by lia.
    replace (length v1 + t - length v1) with t by lia. rewrite lookup_app_l; [done|]. by rewrite (srun_length _ _ _ _ E2).
  Qed.
End sampl.
