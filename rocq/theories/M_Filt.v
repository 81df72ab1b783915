(** Model of the filter nodes SFilter, BiqFilt and FVaFilt: src/dsp/node_sfilter.rs, node_biqfilt.rs, node_fvafilt.rs

    The filters themselves are functions of the crate [synfx_dsp] and parameters here. Simplifications: NaN and infinities are
    left out, the LED values too. Inputs are given after [denorm]. *)
From Coq Require Import QArith.
From Verif Require Import Base M_RndWk.
Open Scope nat_scope.

(** [x as i8] and [x as u8] of an [i64] *)
Definition as_i8 (z : Z) : Z := ((z + 128) mod 256 - 128)%Z.
Definition as_u8 (z : Z) : Z := (z mod 256)%Z.

(** ** SFilter *)

(** The functions [process_1pole_lowpass], [process_1pole_tpt_lowpass], [process_1pole_highpass], [process_1pole_tpt_highpass],
    [process_hal_chamberlin_svf], [process_simper_svf] and [process_stilson_moog] with their arguments: input, frequency,
    resonance, sample period and the memory cells that they change. [D] is [[f32; 4]]. *)
Record sfdsp (D : Type) := SfDsp {
  fd_lp1 : Q -> Q -> Q -> Q -> Q * Q;
  fd_lp1t : Q -> Q -> Q -> Q -> Q * Q;
  fd_hp1 : Q -> Q -> Q -> Q -> Q -> Q * (Q * Q);
  fd_hp1t : Q -> Q -> Q -> Q -> Q * Q;
  fd_hal : Q -> Q -> Q -> Q -> Q -> Q -> (Q * Q) * (Q * Q);
  fd_simper : Q -> Q -> Q -> Q -> Q -> Q -> (Q * Q * Q) * (Q * Q);
  fd_moog : Q -> Q -> Q -> Q -> Q -> Q -> Q -> Q -> D -> Q * (Q * Q * Q * Q * D);
}.
Arguments SfDsp {D}. Arguments fd_lp1 {D}. Arguments fd_lp1t {D}. Arguments fd_hp1 {D}. Arguments fd_hp1t {D}.
Arguments fd_hal {D}. Arguments fd_simper {D}. Arguments fd_moog {D}.

Section sfilter.
  Context {D : Type} (F : sfdsp D) (d0 : D) (fadd fsub : Q -> Q -> Q).

  (** src/dsp/node_sfilter.rs:41-49 *)
  Record sfilter := SFilter { sf_israte : Q; sf_z : Q; sf_y : Q; sf_k : Q; sf_h : Q; sf_delay : D; sf_otype : Z }.
  Definition sf_new (israte : Q) : sfilter := SFilter israte 0 0 0 0 d0 (-1)%Z.

  (** src/dsp/node_sfilter.rs:216-223 [reset] *)
  Definition sf_reset (s : sfilter) : sfilter := SFilter (sf_israte s) 0 0 0 0 d0 (-1)%Z.

  (** src/dsp/node_sfilter.rs:255-396 with the macro of 114-161: one frame with input, frequency and resonance; [None] is a
      sample that is not written *)
  Definition sf_frame (ftype : Z) (s : sfilter) (x : Q * Q * Q) : sfilter * option Q :=
    let '(inp, freq, res) := x in
    let r := sf_israte s in
    let set_z z := SFilter r z (sf_y s) (sf_k s) (sf_h s) (sf_delay s) (sf_otype s) in
    let hal lo sel :=
      let '((high, notch), (z, y)) := fd_hal F inp (qclamp freq lo 16000) (qclamp res 0 (99 # 100)) r (sf_z s) (sf_y s) in
      (SFilter r z y (sf_k s) (sf_h s) (sf_delay s) (sf_otype s), Some (sel high notch z y)) in
    let simper sel :=
      let '((low, band, high), (k, h)) := fd_simper F inp (qclamp freq 1 22000) (qclamp res 0 1) r (sf_k s) (sf_h s) in
      (SFilter r (sf_z s) (sf_y s) k h (sf_delay s) (sf_otype s), Some (sel low band high)) in
    match ftype with
    | 0%Z => let '(v, z) := fd_lp1 F inp (qclamp freq 1 22000) r (sf_z s) in (set_z z, Some v)
    | 1%Z => let '(v, z) := fd_lp1t F inp (qclamp freq 1 22000) r (sf_z s) in (set_z z, Some v)
    | 2%Z =>
        let '(v, (z, y)) := fd_hp1 F inp (qclamp freq 1 22000) r (sf_z s) (sf_y s) in
        (SFilter r z y (sf_k s) (sf_h s) (sf_delay s) (sf_otype s), Some v)
    | 3%Z => let '(v, z) := fd_hp1t F inp (qclamp freq 1 22000) r (sf_z s) in (set_z z, Some v)
    | 4%Z => hal 2%Q (fun _ _ _ y => y)
    | 5%Z => hal 1%Q (fun high _ _ _ => high)
    | 6%Z => hal 1%Q (fun _ _ z _ => z)
    | 7%Z => hal 1%Q (fun _ notch _ _ => notch)
    | 8%Z => simper (fun low _ _ => low)
    | 9%Z => simper (fun _ _ high => high)
    | 10%Z => simper (fun _ band _ => band)
    | 11%Z => simper (fun low _ high => fadd low high)
    | 12%Z => simper (fun low _ high => fsub low high)
    | 13%Z =>
        let '(v, (z, y, k, h, d)) := fd_moog F (qclamp inp (-1) 1) (qclamp freq 1 20000) (qclamp res 0 1) r (sf_z s) (sf_y s) (sf_k s) (sf_h s) (sf_delay s) in
        (SFilter r z y k h d (sf_otype s), Some v)
    | _ => (s, None)
    end.
  Fixpoint sf_frames (ftype : Z) (s : sfilter) (xs : list (Q * Q * Q)) : sfilter * list (option Q) :=
    match xs with
    | [] => (s, [])
    | x :: xs => let '(s, o) := sf_frame ftype s x in let '(s, os) := sf_frames ftype s xs in (s, o :: os)
    end.

  (** src/dsp/node_sfilter.rs:226-399 [process] *)
  Definition sf_block (s : sfilter) (ftype : Z) (xs : list (Q * Q * Q)) : sfilter * list (option Q) :=
    let ftype := as_i8 ftype in
    let s := if negb (ftype =? sf_otype s)%Z then SFilter (sf_israte s) 0 0 0 0 d0 ftype else s in
    sf_frames ftype s xs.
  Fixpoint sf_blocks (s : sfilter) (bs : list (Z * list (Q * Q * Q))) : sfilter * list (list (option Q)) :=
    match bs with
    | [] => (s, [])
    | (ftype, xs) :: bs => let '(s, os) := sf_block s ftype xs in let '(s, r) := sf_blocks s bs in (s, os :: r)
    end.
End sfilter.

(** ** BiqFilt *)
Section biqfilt.
  (** [Biquad] with coefficients [C] and memory [B], and [BiquadCoefs::resonator] and [butter_lowpass] *)
  Context {C B : Type} (resonator : Q -> Q -> Q -> C) (lowpass : Q -> Q -> C) (tick : C -> B -> Q -> Q * B) (c0 : C) (b0 : B).

  (** src/dsp/node_biqfilt.rs:38-45 *)
  Record biqfilt := BiqFilt { bq_cascade : list (C * B); bq_srate : Q; bq_ofreq : Q; bq_oq : Q; bq_ogain : Q; bq_otype : Z }.
  (** src/dsp/node_biqfilt.rs:48-57 *)
  Definition bq_new : biqfilt := BiqFilt (replicate 4 (c0, b0)) (1 # 44100) (-2) (-2) (-2) 99%Z.

  (** src/dsp/node_biqfilt.rs:85-98 *)
  Definition bq_clear (l : list (C * B)) : list (C * B) := (fun cb => (cb.1, b0)) <$> l.
  Definition bq_set_sample_rate (srate : Q) (s : biqfilt) : biqfilt :=
    BiqFilt (bq_clear (bq_cascade s)) srate (bq_ofreq s) (bq_oq s) (bq_ogain s) 99%Z.
  Definition bq_reset (s : biqfilt) : biqfilt :=
    BiqFilt (bq_clear (bq_cascade s)) (bq_srate s) (bq_ofreq s) (bq_oq s) (bq_ogain s) (bq_otype s).

  (** The parameters of a block: the atoms and the first frames of the inputs *)
  Record bqset := BqSet { bs_ftype : Z; bs_order : Z; bs_freq : Q; bs_q : Q; bs_gain : Q }.

  (** [(x - y).abs() > 0.0001] *)
  Definition moved (x y : Q) : bool := negb (Qle_bool (qabs (x - y)) (1 # 10000)).

  (** src/dsp/node_biqfilt.rs:121-147 *)
  Definition bq_update (s : biqfilt) (p : bqset) : biqfilt :=
    let ftype := as_u8 (bs_ftype p) in
    let cfreq := qclamp (bs_freq p) 0 22000 in
    if (negb (ftype =? bq_otype s)%Z || moved cfreq (bq_ofreq s) || moved (bs_q p) (bq_oq s) || moved (bs_gain p) (bq_ogain s))%bool then
      let coefs := if (ftype =? 1)%Z then resonator (bq_srate s) cfreq (bs_q p) else lowpass (bq_srate s) cfreq in
      BiqFilt ((fun _ => (coefs, b0)) <$> bq_cascade s) (bq_srate s) cfreq (bs_q p) (bs_gain p) ftype
    else s.

  (** src/dsp/node_biqfilt.rs:161-164: the input through the filters 0 to [order]; [None]: no such filter, the index panics *)
  Fixpoint bq_through (n i : nat) (cas : list (C * B)) (x : Q) : option (list (C * B) * Q) :=
    match n with
    | 0 => Some (cas, x)
    | S n =>
        let* (c, b) := cas !! i in
        let '(y, b) := tick c b x in
        bq_through n (S i) (<[i := (c, b)]> cas) y
    end.
  Fixpoint bq_frames (n : nat) (cas : list (C * B)) (xs : list Q) : option (list (C * B) * list Q) :=
    match xs with
    | [] => Some (cas, [])
    | x :: xs =>
        let* (cas, y) := bq_through n 0 cas x in
        let* (cas, ys) := bq_frames n cas xs in
        Some (cas, y :: ys)
    end.

  (** src/dsp/node_biqfilt.rs:101-171 [process] *)
  Definition bq_block (s : biqfilt) (p : bqset) (xs : list Q) : option (biqfilt * list Q) :=
    let s := bq_update s p in
    let order := if (as_u8 (bs_ftype p) =? 1)%Z then 0%Z else as_u8 (bs_order p) in
    let* (cas, ys) := bq_frames (S (Z.to_nat order)) (bq_cascade s) xs in
    Some (BiqFilt cas (bq_srate s) (bq_ofreq s) (bq_oq s) (bq_ogain s) (bq_otype s), ys).

  (** The calls of the executor *)
  Inductive bqop := BqRate (srate : Q) | BqReset | BqBlock (p : bqset) (xs : list Q).
  Fixpoint bq_run (s : biqfilt) (ops : list bqop) : option (biqfilt * list (list Q)) :=
    match ops with
    | [] => Some (s, [])
    | BqRate srate :: ops => bq_run (bq_set_sample_rate srate s) ops
    | BqReset :: ops => bq_run (bq_reset s) ops
    | BqBlock p xs :: ops =>
        let* (s, ys) := bq_block s p xs in
        let* (s, r) := bq_run s ops in
        Some (s, ys :: r)
    end.
End biqfilt.

(** ** FVaFilt *)
Section fvafilt.
  (** [F] are [f32] numbers with the limits [clamp(1.0, 20000.0)], [clamp(0.0, 1.0)] and [max(0.0)]; [V] is [f32x4] with
      [pair] for [from_array([l, r, 0, 0])], [twice] for the product with 2, and [lanes] for the first two lanes. *)
  Context {F V : Type} `{EqDecision F} (f0 : F) (lim_freq lim_res lim_drive : F -> F).
  Context (pair : F -> F -> V) (twice : V -> V) (vzero : V) (lanes : V -> F * F).

  (** [FilterParams] of [synfx_dsp] as it is set from here, with the modes numbered; the sample rate does not change *)
  Record fpar := FPar { fp_freq : F; fp_res : F; fp_drive : F; fp_lmode : nat; fp_smode : nat }.

  (** [LadderFilter], [Svf], [SallenKey], [PolyIIRHalfbandFilter] and [DCFilterX4]. They share the parameters with this node.
      [Svf] and [SallenKey] also use what their [update] computed from the parameters, represented by the parameters at that
      time; [LadderFilter] also uses what [set_mix] made of the mode. *)
  Context {L S K O D : Type} (ltick : fpar -> nat -> L -> V -> V * L) (stick : fpar -> fpar -> S -> V -> V * S)
    (ktick : fpar -> fpar -> K -> V -> V * K) (otick : O -> V -> V * O) (dtick : D -> V -> V * D).

  (** src/dsp/node_fvafilt.rs:173-180: [new_params] *)
  Record fset := FSet { fs_freq : F; fs_res : F; fs_drive : F; fs_ftype : Z; fs_lmode : Z; fs_smode : Z }.
  Global Instance fset_eq_dec : EqDecision fset.
  Proof. solve_decision. Defined.

  (** src/dsp/node_fvafilt.rs:65-73 *)
  Record fvafilt := FVaFilt {
    fv_params : fpar; fv_old : fset; fv_ladder : L; fv_mix : nat; fv_svf : S; fv_svf_par : fpar; fv_sk : K; fv_sk_par : fpar;
    fv_os0 : O; fv_os1 : O; fv_dc : D;
  }.

  (** src/dsp/node_fvafilt.rs:76-87; [p0] is [FilterParams::new()], whose mode is that of [LadderFilter::new] *)
  Definition fv_new (p0 : fpar) (l0 : L) (s0 : S) (k0 : K) (o0 : O) (dc0 : D) : fvafilt :=
    FVaFilt p0 (FSet f0 f0 f0 0%Z 0%Z (-1)%Z) l0 (fp_lmode p0) s0 p0 k0 p0 o0 o0 dc0.

  (** src/dsp/node_fvafilt.rs:191-210 *)
  Definition ladder_mode (i : Z) : nat :=
    match i with
    | 0%Z => 0 | 1%Z => 1 | 2%Z => 2 | 3%Z => 3 | 4%Z => 4 | 5%Z => 5 | 6%Z => 6 | 7%Z => 7 | 8%Z => 8 | 9%Z => 9
    | _ => 10
    end.
  Definition svf_mode (i : Z) : nat := match i with 0%Z => 0 | 1%Z => 1 | 2%Z => 2 | 3%Z => 3 | _ => 4 end.

  (** src/dsp/node_fvafilt.rs:167-218 with the blocks [on_change] of the three filters (289, 328, 367-369);
      [changed] is [ladder_mode_changed] *)
  Definition fv_update (s : fvafilt) (changed : bool) (new : fset) : fvafilt * bool :=
    if decide (new = fv_old s) then (s, changed)
    else
      let changed := if negb (fs_lmode new =? fs_lmode (fv_old s))%Z then true else changed in
      let p := FPar (fs_freq new) (fs_res new) (fs_drive new) (ladder_mode (fs_lmode new)) (svf_mode (fs_smode new)) in
      let mix := match fs_ftype new with 2%Z | 1%Z => fv_mix s | _ => if changed then fp_lmode p else fv_mix s end in
      let svf_par := match fs_ftype new with 1%Z => p | _ => fv_svf_par s end in
      let sk_par := match fs_ftype new with 2%Z => p | _ => fv_sk_par s end in
      (FVaFilt p new (fv_ladder s) mix (fv_svf s) svf_par (fv_sk s) sk_par (fv_os0 s) (fv_os1 s) (fv_dc s), changed).

  (** src/dsp/node_fvafilt.rs:293-310: one frame through the direct current filter, and twice through oversampling and filter *)
  Definition fv_over {St : Type} (tick : St -> V -> V * St) (st : St) (os : O * O) (dc : D) (l r : F) : St * (O * O) * D * (F * F) :=
    let '(v, dc) := dtick dc (pair l r) in
    let step (a : St * (O * O) * V) (x : V) :=
      let '(st, (o0, o1), _) := a in
      let '(v, o0) := otick o0 (twice x) in
      let '(v, st) := tick st v in
      let '(v, o1) := otick o1 v in
      (st, (o0, o1), v) in
    let '(st, os, v) := foldl step (st, os, vzero) [v; vzero] in
    (st, os, dc, lanes v).

  (** The inputs of a frame: left, right, frequency, resonance, drive *)
  Record fvin := FvIn { fi_l : F; fi_r : F; fi_freq : F; fi_res : F; fi_drive : F }.
  Definition fv_set (ftype smode lmode : Z) (i : fvin) : fset :=
    FSet (lim_freq (fi_freq i)) (lim_res (fi_res i)) (lim_drive (fi_drive i)) ftype lmode smode.

  (** src/dsp/node_fvafilt.rs:276-392, one frame *)
  Definition fv_frame (ftype smode lmode : Z) (sc : fvafilt * bool) (i : fvin) : fvafilt * bool * (F * F) :=
    let '(s, c) := fv_update sc.1 sc.2 (fv_set ftype smode lmode i) in
    let os := (fv_os0 s, fv_os1 s) in
    match ftype with
    | 2%Z =>
        let '(k, (o0, o1), dc, o) := fv_over (ktick (fv_params s) (fv_sk_par s)) (fv_sk s) os (fv_dc s) (fi_l i) (fi_r i) in
        (FVaFilt (fv_params s) (fv_old s) (fv_ladder s) (fv_mix s) (fv_svf s) (fv_svf_par s) k (fv_sk_par s) o0 o1 dc, c, o)
    | 1%Z =>
        let '(v, (o0, o1), dc, o) := fv_over (stick (fv_params s) (fv_svf_par s)) (fv_svf s) os (fv_dc s) (fi_l i) (fi_r i) in
        (FVaFilt (fv_params s) (fv_old s) (fv_ladder s) (fv_mix s) v (fv_svf_par s) (fv_sk s) (fv_sk_par s) o0 o1 dc, c, o)
    | _ =>
        let '(l, (o0, o1), dc, o) := fv_over (ltick (fv_params s) (fv_mix s)) (fv_ladder s) os (fv_dc s) (fi_l i) (fi_r i) in
        (FVaFilt (fv_params s) (fv_old s) l (fv_mix s) (fv_svf s) (fv_svf_par s) (fv_sk s) (fv_sk_par s) o0 o1 dc, c, o)
    end.
  Fixpoint fv_frames (ftype smode lmode : Z) (sc : fvafilt * bool) (is : list fvin) : fvafilt * bool * list (F * F) :=
    match is with
    | [] => (sc, [])
    | i :: is =>
        let '(sc, o) := fv_frame ftype smode lmode sc i in
        let '(sc, os) := fv_frames ftype smode lmode sc is in
        (sc, o :: os)
    end.

  (** src/dsp/node_fvafilt.rs:239-402 [process]: a block with its settings (filter type, mode of the SVF, mode of the ladder) *)
  Record fvblock := FvBlock { fb_ftype : Z; fb_smode : Z; fb_lmode : Z; fb_in : list fvin }.
  Fixpoint fv_blocks (s : fvafilt) (bs : list fvblock) : list (list (F * F)) :=
    match bs with
    | [] => []
    | b :: bs =>
        let '(s, _, os) := fv_frames (as_i8 (fb_ftype b)) (as_i8 (fb_smode b)) (as_i8 (fb_lmode b)) (s, false) (fb_in b) in
        os :: fv_blocks s bs
    end.
End fvafilt.
