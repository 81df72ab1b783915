(** Model of the generators Sin, FormFM and Noise: src/dsp/node_sin.rs, node_formfm.rs, node_noise.rs

    Inputs are given after [denorm]. The LED values are left out. [None]: a loop needed more rounds than the fuel. *)
From Coq Require Import QArith Qround.
From Verif Require Import Base M_RndWk.
Open Scope nat_scope.

(** ** Sin *)
Section sin.
  (** [f32] with [+], [*], [fract], [x < 0.0], [1.0], [TWOPI] and [fast_sin] of [synfx_dsp] *)
  Context {F : Type} (add mul : F -> F -> F) (fract : F -> F) (ltz : F -> bool) (one twopi : F) (fsin : F -> F).

  (** src/dsp/node_sin.rs:102-104: [while phase < 0.0 { phase += 1.0 }] *)
  Fixpoint sin_wrap (fuel : nat) (phase : F) : option F :=
    if ltz phase then match fuel with 0 => None | S fuel => sin_wrap fuel (add phase one) end else Some phase.

  (** src/dsp/node_sin.rs:99-109: one frame with the frequency and [pm]; [isr] is [1.0 / srate] *)
  Definition sin_frame (fuel : nat) (isr phase : F) (x : F * F) : option (F * F) :=
    let '(freq, pm) := x in
    let* p := sin_wrap fuel (add phase pm) in
    Some (fract (add phase (mul freq isr)), fsin (mul (fract p) twopi)).
  Fixpoint sin_frames (fuel : nat) (isr phase : F) (xs : list (F * F)) : option (F * list F) :=
    match xs with
    | [] => Some (phase, [])
    | x :: xs =>
        let* (phase, o) := sin_frame fuel isr phase x in
        let* (phase, os) := sin_frames fuel isr phase xs in
        Some (phase, o :: os)
    end.

  (** src/dsp/node_sin.rs:81-113 [process], block by block *)
  Fixpoint sin_blocks (fuel : nat) (isr phase : F) (bs : list (list (F * F))) : option (F * list (list F)) :=
    match bs with
    | [] => Some (phase, [])
    | xs :: bs =>
        let* (phase, os) := sin_frames fuel isr phase xs in
        let* (phase, r) := sin_blocks fuel isr phase bs in
        Some (phase, os :: r)
    end.
End sin.

(** [f32::fract]: the number minus its integer part towards zero, which is exact *)
Definition qfract (x : Q) : Q := if Qle_bool 0 x then (x - inject_Z (Qfloor x))%Q else (x - inject_Z (Qceiling x))%Q.
Definition qltz (x : Q) : bool := negb (Qle_bool 0 x).
(** [f32::min] and [f32::max] *)
Definition qmin (x y : Q) : Q := if Qle_bool x y then x else y.
Definition qmax (x y : Q) : Q := if Qle_bool x y then y else x.

(** ** FormFM with exact arithmetic *)
Section formfm.
  Context (cosf : Q -> Q) (tau : Q).

  (** The inputs of a frame: [freq], [form], [side], [peak] *)
  Record ffin := FfIn { ff_base : Q; ff_form : Q; ff_side : Q; ff_peak : Q }.

  (** src/dsp/node_formfm.rs:91-132 *)
  Definition ff_frame (isr phase : Q) (i : ffin) : Q * Q :=
    let side := qmax (qmin (ff_side i) (1 - (1 # 1000000))) (1 # 1000000) in
    let base := qmin (phase / side) ((1 - phase) / (1 - side)) in
    let carrier := (1 - (1 - ff_peak i) * (base * base * (3 - 2 * base)))%Q in
    let multiple := (ff_form i / qmax (ff_base i) (1 # 1000000))%Q in
    let freq_a := inject_Z (Qfloor multiple) in
    let freq_b := (freq_a + 1)%Q in
    let blend := qfract multiple in
    let modulator := ((1 - blend) * (if negb (Qle_bool 1 multiple) then 0 else cosf (tau * phase * freq_a)) + blend * cosf (tau * phase * freq_b))%Q in
    let wave := (carrier * modulator)%Q in
    (qfract (phase + ff_base i * isr), wave).
  Fixpoint ff_frames (isr phase : Q) (is : list ffin) : Q * list Q :=
    match is with
    | [] => (phase, [])
    | i :: is => let '(phase, o) := ff_frame isr phase i in let '(phase, os) := ff_frames isr phase is in (phase, o :: os)
    end.
End formfm.

(** ** Noise *)
Section noise.
  (** rounding to [f32]; [Rng] of [synfx_dsp] with [seed] and [next] *)
  Context {G : Type} (rd : Q -> Q) (seed : Z -> G) (rnext : G -> Q * G).

  (** src/dsp/node_noise.rs:25-36, 78-80: new nodes and [reset]; the seed is a [u64] *)
  Definition nz_seed (instance : Z) : G := seed ((0x193a67f4a8a6d769 + 0x131415 * (instance + 1)) mod 2 ^ 64)%Z.
  Record noise := Noise { nz_instance : Z; nz_rng : G }.
  Definition nz_new (instance : Z) : noise := Noise instance (nz_seed instance).
  Definition nz_reset (s : noise) : noise := Noise (nz_instance s) (nz_seed (nz_instance s)).

  (** src/dsp/node_noise.rs:102-114: one frame with [atv] and [offs] *)
  Definition nz_frame (mode : Z) (s : noise) (x : Q * Q) : noise * Q :=
    let '(atv, offs) := x in
    let '(r, g) := rnext (nz_rng s) in
    (Noise (nz_instance s) g,
     if (mode =? 0)%Z then let v := rd (rd (r * 2) - 1) in rd (rd (v * atv) + offs) else rd (rd (r * atv) + offs)).
  Fixpoint nz_frames (mode : Z) (s : noise) (xs : list (Q * Q)) : noise * list Q :=
    match xs with
    | [] => (s, [])
    | x :: xs => let '(s, o) := nz_frame mode s x in let '(s, os) := nz_frames mode s xs in (s, o :: os)
    end.
  (** src/dsp/node_noise.rs:83-118 [process], block by block *)
  Fixpoint nz_blocks (s : noise) (bs : list (Z * list (Q * Q))) : noise * list (list Q) :=
    match bs with
    | [] => (s, [])
    | (mode, xs) :: bs => let '(s, os) := nz_frames mode s xs in let '(s, r) := nz_blocks s bs in (s, os :: r)
    end.
End noise.
