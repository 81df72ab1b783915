(** C49: the sample player *)
From Coq Require Import QArith Qround Qabs Qminmax Lqa.
From Verif Require Import Base M_Sampl S_Sampl L_Sampl.
Open Scope nat_scope.

Section sampl.
  Context {V : Type} (zero : V) (rnd : Q -> Q) (interp : list V -> nat -> Q -> V).
  Context {R : Type} (ramp_count : R -> nat) (atten : R -> nat -> V -> V) (small : V -> bool) (shrink : V -> V) (add : V -> V -> V).
  (** Equal rational numbers are the same number *)
  Context (rnd_eq : forall x y, (x == y -> rnd x == rnd y)%Q) (interp_eq : forall d i x y, (x == y)%Q -> interp d i x = interp d i y).
  Notation player := (sampl_blocks zero rnd interp ramp_count atten small shrink add).
  Notation len sec := (inject_Z (Z.of_nat (length sec))).
  Context (bs : list (sblock (V := V) (R := R) * list sframe)) (nonempty : Forall (fun b => b.2 <> []) bs).

  (** C49: without the ramps against clicks no settings, samples or modulations make the player panic; it gives one sample for each
      frame. *)
  Theorem C49_never_panics s : Forall (fun b => sb_declick b.1 = false) bs ->
    exists s' out, player s bs = Some (s', out) /\ length out = length (all_frames bs).
  Proof.
    intros H. rewrite (blocks_run zero rnd interp ramp_count atten small shrink add rnd_eq bs nonempty).
    destruct (srun_quiet zero rnd interp ramp_count atten small shrink add (all_frames bs) s) as [[s' out] E].
    - apply Forall_forall. intros x Hx. apply elem_of_list_join in Hx as (l & Hx & Hl). apply elem_of_list_fmap in Hl as (b & -> & Hb).
      apply elem_of_list_fmap in Hx as (f & -> & _). exact (proj1 (Forall_forall _ _) H b Hb).
    - exists s', out. split; [done|]. by eapply srun_length.
  Qed.

  (** C49: with the ramps the new player does not panic as long as the play head moves by at most one sample per frame and all frames
      play parts of the same length. *)
  Theorem C49_never_panics_declick n :
    Forall (fun x => (forall rate data, sb_sample x.1 = Some (rate :: data) -> length (selected rnd data (sf_offs x.2) (sf_len x.2)) = n) /\
                     (0 <= sf_step x.2 <= 1)%Q) (all_frames bs) ->
    exists s' out, player (sampl_new zero) bs = Some (s', out) /\ length out = length (all_frames bs).
  Proof.
    intros H. rewrite (blocks_run zero rnd interp ramp_count atten small shrink add rnd_eq bs nonempty).
    destruct (srun_ramp zero rnd interp ramp_count atten small shrink add n (all_frames bs) (sampl_new zero)) as [[s' out] E]; [|done|].
    - split; cbn; [lra|]. assert (0 <= inject_Z (Z.of_nat n))%Q by (change 0%Q with (inject_Z 0); rewrite <- Zle_Qle; lia). lra.
    - exists s', out. split; [done|]. by eapply srun_length.
  Qed.

  (** C49: whatever is modulated, there is a play head that only reads the part that is selected in the current frame. A trigger puts it to
      the start of the part; each frame that plays moves it by the step of that frame, around the end of the part that is selected then.
      Triggered frames and those of the loop mode play, others only if the frame before did; what does not play is silent. *)
  Theorem C49_modulated s s' out : player s bs = Some (s', out) -> (0 <= sp_phase s)%Q ->
    Forall (fun x => sb_declick x.1 = false /\ (0 <= sf_step x.2)%Q) (all_frames bs) ->
    exists (head : nat -> Q) (playing : nat -> bool), forall t x sec, all_frames bs !! t = Some x -> plays rnd sec x -> 1 <= length sec ->
      (0 <= head t < len sec)%Q /\ (sf_trig x.2 = true -> head t == 0)%Q /\
      out !! t = Some (if playing t then at_position interp sec (sb_reverse x.1) (head t) else zero) /\
      (sf_trig x.2 || sb_loop x.1 = true -> playing t = true) /\
      forall y sec', all_frames bs !! S t = Some y -> plays rnd sec' y -> 1 <= length sec' -> sf_trig y.2 = false ->
        (playing t = true -> exists k, (head t + sf_step x.2 == inject_Z (Z.of_nat k) * len sec' + head (S t))%Q) /\
        (sb_loop y.1 = false -> playing (S t) = true -> playing t = true).
  Proof.
    intros E H0 HF. rewrite (blocks_run zero rnd interp ramp_count atten small shrink add rnd_eq bs nonempty) in E.
    destruct (srun_states zero rnd interp ramp_count atten small shrink add (all_frames bs) s s' out E) as (st & E0 & ES). set (xs := all_frames bs) in *.
    assert (forall t, t <= length xs -> (0 <= sp_phase (st t))%Q) as HP.
    { intros t. induction t as [|t IH]; intros Ht; [by rewrite E0|]. destruct (lookup_lt_is_Some_2 xs t) as [x Hx]; [lia|].
      destruct (ES t x Hx) as (v & _ & E1). destruct (proj1 (Forall_lookup _ _) HF t x Hx) as [Hd Hs].
      eapply one_phase; [exact Hd|exact Hs|apply IH; lia|exact E1]. }
    set (part := fun x : sblock (V := V) (R := R) * sframe => match sb_sample x.1 with Some (_ :: data) => selected rnd data (sf_offs x.2) (sf_len x.2) | _ => [] end).
    set (phase := fun (t : nat) (x : sblock (V := V) (R := R) * sframe) => if sf_trig x.2 then 0%Q else sp_phase (st t)).
    exists (fun t => match xs !! t with Some x => wrap (length (part x)) (phase t x) | None => 0%Q end).
    exists (fun t => match xs !! t with Some x => sf_trig x.2 || sb_loop x.1 || sp_playing (st t) | None => false end).
    assert (forall x sec, plays rnd sec x -> part x = sec) as Hpart.
    { intros x sec (rate & data & Eb & _ & <-). unfold part. by rewrite Eb. }
    intros t x sec Hx Hpl Hn. rewrite Hx, (Hpart x sec Hpl). destruct (ES t x Hx) as (v & Hv & E1). destruct (proj1 (Forall_lookup _ _) HF t x Hx) as [Hd Hs].
    assert (0 < len sec)%Q as HN by (change 0%Q with (inject_Z 0); rewrite <- Zlt_Qlt; lia).
    split; [by apply wrap_bounds|]. split.
    { intros Ht. unfold phase. rewrite Ht. apply wrap_id; lra. }
    rewrite Hv. destruct (sf_trig x.2 || sb_loop x.1 || sp_playing (st t)) eqn:Ep.
    - destruct (one_plays zero rnd interp ramp_count atten small shrink add interp_eq (st t) x sec Hpl Hd Hn Ep) as (s1 & E2 & Eph & Epl).
      rewrite E2 in E1. apply (inj Some), pair_equal_spec in E1 as [E1 <-]. split; [done|]. split; [done|]. intros y sec' Hy Hpl' Hn' Hty.
      split; [|done]. intros _. rewrite Hy, (Hpart y sec' Hpl'). unfold phase at 2. rewrite Hty, <- E1.
      assert (0 <= sp_phase s1)%Q as Hs1. { rewrite E1. apply HP. apply lookup_lt_Some in Hx. lia. }
      destruct (wrap_split (length sec') (sp_phase s1) Hn' Hs1) as [k Hk]. exists k.
      rewrite <- inject_Z_mult, <- Nat2Z.inj_mul, <- Hk. unfold phase. symmetry. exact Eph.
    - apply orb_false_iff in Ep as [Ep Epl]. apply orb_false_iff in Ep as [Et El].
      destruct (one_silent zero rnd interp ramp_count atten small shrink add (st t) x sec Hpl Hd Et El Epl) as (s1 & E2 & Es1).
      rewrite E2 in E1. apply (inj Some), pair_equal_spec in E1 as [E1 <-]. split; [done|]. split; [by rewrite Et, El|]. intros y sec' Hy Hpl' Hn' Hty.
      split; [done|]. rewrite Hy, Hty. intros ->. by rewrite <- E1, Es1.
  Qed.

  Context (s s' : sampl (V := V)) (out : list V) (run : player s bs = Some (s', out)).
  Context (pre xs post : list (sblock (V := V) (R := R) * sframe)) (window : all_frames bs = pre ++ xs ++ post) (trig : from_trigger xs).
  Context (sec : list V) (some : 1 <= length sec).
  Notation pos t := (travelled (take t xs.*2)).

  (** C49: after a trigger, in the one shot mode without ramps, a part of the sample is played from its start on, at the speed
      that the frames give, in blocks of any size. Then comes one sample that lies beyond the end, for which the player
      takes one from the start again. Then there is silence up to the next trigger. *)
  Theorem C49_plays_once :
    Forall (fun x => plays rnd sec x /\ sb_declick x.1 = false /\ sb_loop x.1 = false /\ (0 <= sf_step x.2 < len sec)%Q) xs ->
    forall t x, xs !! t = Some x ->
      ((pos t < len sec)%Q -> out !! (length pre + t) = Some (at_position interp sec (sb_reverse x.1) (pos t))) /\
      ((len sec <= pos t)%Q -> (forall u, u < t -> (pos u < len sec)%Q) ->
         out !! (length pre + t) = Some (at_position interp sec (sb_reverse x.1) (pos t - len sec))) /\
      ((exists u, u < t /\ (len sec <= pos u)%Q) -> out !! (length pre + t) = Some zero).
  Proof.
    intros H t x Ht. pose proof run as E. rewrite (blocks_run zero rnd interp ramp_count atten small shrink add rnd_eq bs nonempty), window in E.
    apply srun_window in E as (s1 & s2 & vs & E & EO). rewrite EO by (by eapply lookup_lt_Some).
    destruct trig as (x0 & rest & Exs & Ht0 & Hrest). rewrite Exs in *.
    apply Forall_cons in H as [(Hpl & Hd & Hl & Hst) H]. cbn [srun] in E.
    destruct (one_plays zero rnd interp ramp_count atten small shrink add interp_eq s1 x0 sec Hpl Hd some) as (s3 & E1 & Eph & Epl); [by rewrite Ht0|].
    rewrite Ht0 in E1, Eph, Epl. rewrite E1 in E. cbn [mbind option_bind] in E. apply bind_Some in E as ([s4 vs'] & E2 & E). injection E as <- <-.
    assert (0 < len sec)%Q as HN by (change 0%Q with (inject_Z 0); rewrite <- Zlt_Qlt; lia).
    assert (wrap (length sec) 0 == 0)%Q as EW by (apply wrap_id; lra).
    destruct t as [|t].
    - injection Ht as <-. cbn. split; [|split].
      + intros _. f_equal. by apply at_position_eq.
      + intros HB. lra.
      + intros (u & Hu & _). lia.
    - cbn in Ht. destruct (once_run zero rnd interp ramp_count atten small shrink add interp_eq sec some rest s3 (sf_step x0.2)) with (t := t) (x := x) (s' := s4) (vs := vs') as (I1 & I2 & I3); try done.
      + lra.
      + lra.
      + rewrite Eph, EW. lra.
      + rewrite Epl, Hl. apply Qle_bool_iff. rewrite Eph, EW. lra.
      + apply Forall_forall. intros y Hy. destruct (proj1 (Forall_forall _ _) H y Hy) as (A1 & A2 & A3 & A4 & A5). pose proof (proj1 (Forall_forall _ _) Hrest y Hy). done.
      + change ((at_position interp sec (sb_reverse x0.1) (wrap (length sec) 0) :: vs') !! S t) with (vs' !! t).
        assert (forall u, (travelled (take (S u) (x0 :: rest).*2) = sf_step x0.2 + travelled (take u rest.*2))%Q) as Ep by done.
        split; [|split].
        * intros Hlt. rewrite Ep in *. by apply I1.
        * intros Hge Hall. rewrite Ep in *. apply I3; [done|]. intros u Hu. rewrite <- Ep. apply Hall. lia.
        * intros (u & Hu & Hge). apply I2. destruct u as [|u]; [cbn in Hge; lra|]. exists u. split; [lia|]. by rewrite <- Ep.
  Qed.

  (** C49: in the loop mode without ramps the part is played again and again: after a trigger the sample is that of the position
      modulo the length of the part. *)
  Theorem C49_loops :
    Forall (fun x => plays rnd sec x /\ sb_declick x.1 = false /\ sb_loop x.1 = true /\ (0 <= sf_step x.2)%Q) xs ->
    forall t x k p, xs !! t = Some x -> (0 <= p < len sec)%Q -> (pos t == inject_Z (Z.of_nat k) * len sec + p)%Q ->
      out !! (length pre + t) = Some (at_position interp sec (sb_reverse x.1) p).
  Proof.
    intros H t x k p Ht Hp Hk. pose proof run as E. rewrite (blocks_run zero rnd interp ramp_count atten small shrink add rnd_eq bs nonempty), window in E.
    apply srun_window in E as (s1 & s2 & vs & E & EO). rewrite EO by (by eapply lookup_lt_Some).
    destruct trig as (x0 & rest & Exs & Ht0 & Hrest). rewrite Exs in *.
    apply Forall_cons in H as [(Hpl & Hd & Hl & Hst) H]. cbn [srun] in E.
    destruct (one_plays zero rnd interp ramp_count atten small shrink add interp_eq s1 x0 sec Hpl Hd some) as (s3 & E1 & Eph & _); [by rewrite Ht0|].
    rewrite Ht0 in E1, Eph. rewrite E1 in E. cbn [mbind option_bind] in E. apply bind_Some in E as ([s4 vs'] & E2 & E). injection E as <- <-.
    assert (0 < len sec)%Q as HN by (change 0%Q with (inject_Z 0); rewrite <- Zlt_Qlt; lia).
    assert (wrap (length sec) 0 == 0)%Q as EW by (apply wrap_id; lra).
    assert (forall q, (q == inject_Z (Z.of_nat k) * len sec + p)%Q -> (wrap (length sec) q == p)%Q) as HW.
    { intros q Eq. rewrite Eq. rewrite <- inject_Z_mult, <- Nat2Z.inj_mul. rewrite wrap_shift by (done || lra). apply wrap_id; lra. }
    destruct t as [|t].
    - injection Ht as <-. cbn. f_equal. apply at_position_eq; [done|]. by apply HW.
    - cbn in Ht. change ((at_position interp sec (sb_reverse x0.1) (wrap (length sec) 0) :: vs') !! S t) with (vs' !! t).
      rewrite (loop_run zero rnd interp ramp_count atten small shrink add interp_eq sec some rest s3 (sf_step x0.2)) with (x := x) (s' := s4); try done.
      + f_equal. apply at_position_eq; [done|]. apply HW. exact Hk.
      + rewrite Eph, EW. lra.
      + apply wrap_proper. rewrite Eph, EW. lra.
      + apply Forall_forall. intros y Hy. destruct (proj1 (Forall_forall _ _) H y Hy) as (A1 & A2 & A3 & A4). pose proof (proj1 (Forall_forall _ _) Hrest y Hy). done.
  Qed.
End sampl.
Print Assumptions C49_never_panics.
Print Assumptions C49_never_panics_declick.
Print Assumptions C49_modulated.
Print Assumptions C49_plays_once.
Print Assumptions C49_loops.

(** Samples are numbers and the interpolation takes the one at or before the position; the ramps do not change the sample *)
Notation demo := (sampl_blocks 0%Z (fun x => x) (fun d i _ => nth i d 0%Z) (fun r : nat => r) (fun _ _ v => v) (Z.eqb 0) (fun v => v / 2)%Z Z.add).
Definition demo_block (loop declick reverse : bool) : sblock (V := Z) (R := nat) :=
  SBlock (Some [44100; 10; 11; 12; 13; 14; 15]%Z) loop declick reverse 2.
Definition trig_frame (step : Q) := SFrame true step 0 1.
Definition next_frame (step : Q) := SFrame false step 0 1.

(** The part from the offset 0.5 on with speed 0.5 in two blocks; backwards; and in a loop *)
Example C49_example :
  selected (fun x => x) [10; 11; 12; 13; 14; 15]%Z (1 # 2) 1 = [13; 14; 15]%Z /\
  let f t := SFrame t (1 # 2) (1 # 2) 1 in
  snd <$> demo (sampl_new 0%Z) [(demo_block false false false, [f false; f true; f false; f false]); (demo_block false false false, f <$> replicate 5 false)] =
    Some [0; 13; 13; 14; 14; 15; 15; 13; 0]%Z /\
  snd <$> demo (sampl_new 0%Z) [(demo_block false false true, [f true; f false; f false]); (demo_block false false true, f <$> replicate 5 false)] =
    Some [15; 15; 14; 14; 13; 13; 15; 0]%Z /\
  snd <$> demo (sampl_new 0%Z) [(demo_block true false false, [f true; f false; f false]); (demo_block true false false, f <$> replicate 6 false)] =
    Some [13; 13; 14; 14; 15; 15; 13; 13; 14]%Z.
Proof. vm_compute. done. Qed.

(** With modulated offset and length: the play head goes on in the part that is selected then *)
Example C49_modulated_example :
  let f t offs len := SFrame t 1 offs len in
  let bs := [(demo_block true false false, [f true 0 1; f false 0 1; f false (1 # 2) 1; f false 0 (1 # 3); f false 0 1]%Q)] in
  snd <$> demo (sampl_new 0%Z) bs = Some [10; 11; 15; 11; 12]%Z /\
  Forall (fun x => sb_declick x.1 = false /\ (0 <= sf_step x.2)%Q) (all_frames bs) /\ Forall (fun b => b.2 <> []) bs.
Proof. split; [vm_compute; reflexivity|]. split; repeat constructor; done. Qed.

(** The hypotheses of the theorems hold of these frames *)
Example C49_hypotheses :
  let f t := SFrame t (1 # 2) (1 # 2) 1 in
  let b := demo_block false true false in
  let bs := [(b, [f false; f true; f false; f false]); (b, f <$> replicate 5 false)] in
  let xs := (fun t => (b, f t)) <$> (true :: replicate 7 false) in
  Forall (fun b => b.2 <> []) bs /\ all_frames bs = [(b, f false)] ++ xs ++ [] /\ from_trigger xs /\
  Forall (fun x => plays (fun x => x) [13; 14; 15]%Z x /\ (0 <= sf_step x.2 < 3)%Q) xs /\
  Forall (fun x => (forall rate data, sb_sample x.1 = Some (rate :: data) -> length (selected (fun x => x) data (sf_offs x.2) (sf_len x.2)) = 3) /\
                   (0 <= sf_step x.2 <= 1)%Q) (all_frames bs).
Proof.
  cbv zeta. split; [by repeat constructor|]. split; [reflexivity|]. split.
  - eexists _, _. split; [reflexivity|]. split; [done|]. by repeat constructor.
  - split; apply Forall_forall; intros x Hx.
    + apply elem_of_list_fmap in Hx as (t & -> & _). split; [|by split; vm_compute].
      exists 44100%Z, [10; 11; 12; 13; 14; 15]%Z. split; [done|]. split; [cbn; lia|]. vm_compute. done.
    + apply elem_of_list_join in Hx as (l & Hx & Hl).
      assert (exists t, x = (demo_block false true false, SFrame t (1 # 2) (1 # 2) 1)) as [t ->].
      { apply elem_of_list_fmap in Hl as (b & -> & Hb). apply elem_of_list_fmap in Hx as (f & -> & Hf).
        apply elem_of_cons in Hb as [->|Hb]; [|apply elem_of_list_singleton in Hb as ->]; cbn in Hf |- *.
        - repeat (apply elem_of_cons in Hf as [->|Hf]; [eauto|]). by apply elem_of_nil in Hf.
        - repeat (apply elem_of_cons in Hf as [->|Hf]; [eauto|]). by apply elem_of_nil in Hf. }
      split; [|by split; vm_compute]. intros rate data [= <- <-]. vm_compute. done.
Qed.

(** C49, refuted: with the ramps against clicks the player panics (in a build that checks for overflows) when it plays a sample faster than
    it was recorded: the play head jumps beyond the end. *)
Theorem C49_declick_fast_refuted :
  demo (sampl_new 0%Z) [(demo_block false true false, [trig_frame 4; next_frame 4])] <> None /\
  demo (sampl_new 0%Z) [(demo_block false true false, [trig_frame 4; next_frame 4; next_frame 4])] = None /\
  demo (sampl_new 0%Z) [(demo_block true true false, [trig_frame 4; next_frame 4; next_frame 4])] = None.
Proof. vm_compute. done. Qed.
Print Assumptions C49_declick_fast_refuted.

(** C49, refuted: so it does at normal speed when the length is modulated during the playback. *)
Theorem C49_declick_length_refuted :
  demo (sampl_new 0%Z) [(demo_block false true false, [trig_frame 1; next_frame 1; next_frame 1; SFrame false 1 0 (1 # 6)])] = None.
Proof. vm_compute. done. Qed.
Print Assumptions C49_declick_length_refuted.

(** C49, refuted: in the one shot mode the playback ends. A play head that moves by the length of the part in each frame plays its first
    sample forever. *)
Theorem C49_ends_refuted : forall n,
  snd <$> demo (sampl_new 0%Z) [(demo_block false false false, trig_frame 6 :: replicate n (next_frame 6))] = Some (replicate (S n) 10%Z).
Proof.
  intros n. rewrite blocks_run; [|done|by repeat constructor].
  change (all_frames _) with ((demo_block false false false, trig_frame 6) :: ((fun f => (demo_block false false false, f)) <$> replicate n (next_frame 6)) ++ []).
  rewrite app_nil_r, fmap_replicate. cbn [srun].
  set (s1 := Sampl 6 true 10%Z 0%Z).
  match goal with |- context [one ?a ?b ?c ?d ?e ?f ?g ?h _ _] =>
    assert (one a b c d e f g h (sampl_new 0%Z) (demo_block false false false, trig_frame 6) = Some (s1, 10%Z)) as -> by (vm_compute; reflexivity);
    assert (one a b c d e f g h s1 (demo_block false false false, next_frame 6) = Some (s1, 10%Z)) as E1 by (vm_compute; reflexivity);
    cbn [mbind option_bind];
    assert (forall n, srun a b c d e f g h s1 (replicate n (demo_block false false false, next_frame 6)) = Some (s1, replicate n 10%Z)) as H
  end.
  - clear n. intros n. induction n as [|n IH]; [done|]. cbn [replicate srun]. rewrite E1. cbn [mbind option_bind]. rewrite IH. done.
  - rewrite H. done.
Qed.
Print Assumptions C49_ends_refuted.
