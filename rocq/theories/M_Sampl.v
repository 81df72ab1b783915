(** Model of the sample player, src/dsp/node_sampl.rs *)
From Coq Require Import QArith Qround Qabs Qminmax.
From Verif Require Import Base.
Open Scope nat_scope.

(** [f64::fract] of a number that is not negative *)
Definition fract (x : Q) : Q := (x - inject_Z (Qfloor x))%Q.

Section sampl.
  (** [V] are samples with the sample zero. [rnd] is the rounding of the products of lengths and settings; the phase is
      an exact number. [interp] is [cubic_interpolate] of [synfx_dsp]. *)
  Context {V : Type} (zero : V) (rnd : Q -> Q) (interp : list V -> nat -> Q -> V).
  (** The ramps against clicks: [R] are ramp times with their number of samples (lines 185-187), [atten r k s] is
      [s * (k * ramp_inc)]; [small], [shrink] and [add] are the comparison with 0.00001, the factor 0.98 and the clamped
      sum of lines 276-282. *)
  Context {R : Type} (ramp_count : R -> nat) (atten : R -> nat -> V -> V) (small : V -> bool) (shrink : V -> V) (add : V -> V -> V).

  (** src/dsp/node_sampl.rs:46-67 *)
  Record sampl := Sampl { sp_phase : Q; sp_playing : bool; sp_last : V; sp_decay : V }.
  Definition sampl_new : sampl := Sampl 0 false zero zero.

  (** src/dsp/node_sampl.rs:138-159 [next_sample]: the new phase and the sample *)
  Definition next_sample (phase step : Q) (data : list V) (reverse : bool) : Q * V :=
    let n := length data in
    if n <? 1 then (phase, zero)
    else
      let i := Z.to_nat (Qfloor phase) mod n in
      let f := fract phase in
      let '(j, g) := if reverse then (n - 1 - i, (1 - f)%Q) else (i, f) in
      ((inject_Z (Z.of_nat i) + f + step)%Q, interp data j g).

  (** The inputs of a frame: whether it is triggered, the step [sr_factor * playback_speed], the offset and the length *)
  Record sframe := SFrame { sf_trig : bool; sf_step : Q; sf_offs : Q; sf_len : Q }.

  (** src/dsp/node_sampl.rs:221 and 230-235, the two calculations *)
  Definition start_of (n : nat) (offs : Q) : nat := Nat.min (Z.to_nat (Qfloor (rnd (inject_Z (Z.of_nat n) * offs)))) n.
  Definition length_of (n start : nat) (len : Q) : nat :=
    let max := Z.to_nat (Qfloor (rnd (inject_Z (Z.of_nat n) * len) + (1 # 2))) in
    if start <=? n then Nat.min (n - start) max else 0.

  (** src/dsp/node_sampl.rs:195-199, the variables of [play] that live for a block: [prev_offs], [prev_len], [start_idx] and [end_idx_plus1] *)
  Record section := Sect { se_offs : Q; se_len : Q; se_start : nat; se_end : nat }.

  (** src/dsp/node_sampl.rs:219-238: the section of a frame *)
  Definition recalc (n : nat) (se : section) (f : sframe) : section :=
    let offs := Qmin (Qabs (sf_offs f)) (999999 # 1000000) in
    let '(se, recalc_end) :=
      if negb (Qeq_bool (se_offs se) offs) then (Sect offs (se_len se) (start_of n offs) (se_end se), true) else (se, false) in
    let len := Qmin (Qabs (sf_len f)) 1 in
    if recalc_end || negb (Qeq_bool (se_len se) len) then
      Sect (se_offs se) len (se_start se) (length_of n (se_start se) len)
    else se.

  (** src/dsp/node_sampl.rs:201-286, one frame. [None]: the slice [sample_data[start_idx..(start_idx + end_idx_plus1)]] is
      out of range, or [sample_slice.len() - sample_idx] is below zero (a panic if overflows are checked). *)
  Definition sampl_frame (data : list V) (loop declick reverse : bool) (ramp : R) (s : sampl) (se : section) (f : sframe)
      : option (sampl * section * V) :=
    let s := if sf_trig f then Sampl 0 true (sp_last s) (sp_last s) else s in
    let finish (s : sampl) (se : section) (v : V) :=
      if negb declick || small (sp_decay s) then Some (Sampl (sp_phase s) (sp_playing s) v zero, se, v)
      else let d := shrink (sp_decay s) in Some (Sampl (sp_phase s) (sp_playing s) (add v d) d, se, add v d) in
    if sp_playing s then
      let se := recalc (length data) se f in
      if length data <? se_start se + se_end se then None
      else
        let slice := take (se_end se) (drop (se_start se) data) in
        let idx := Z.to_nat (Qfloor (sp_phase s)) in
        let '(phase, v) := next_sample (sp_phase s) (sf_step f) slice reverse in
        let* v :=
          if declick then
            if length slice <? idx then None
            else
              let to_end := length slice - idx in
              Some (if idx <? ramp_count ramp then atten ramp idx v
                    else if to_end <? ramp_count ramp then atten ramp to_end v else v)
          else Some v in
        let playing := negb (negb loop && negb (Qle_bool (sp_phase s) phase)) in
        finish (Sampl phase playing v (sp_decay s)) se v
    else finish s se zero.

  Fixpoint sampl_frames (data : list V) (loop declick reverse : bool) (ramp : R) (s : sampl) (se : section) (fs : list sframe)
      : option (sampl * list V) :=
    match fs with
    | [] => Some (s, [])
    | f :: fs =>
        let* (s, se, v) := sampl_frame data loop declick reverse ramp s se f in
        let* (s, vs) := sampl_frames data loop declick reverse ramp s se fs in
        Some (s, v :: vs)
    end.

  (** The settings of a block: the loaded sample, whose first number is its sample rate, and the modes *)
  Record sblock := SBlock { sb_sample : option (list V); sb_loop : bool; sb_declick : bool; sb_reverse : bool; sb_ramp : R }.

  (** src/dsp/node_sampl.rs:300-345 [process] and 161-289 [play]: one block *)
  Definition sampl_block (b : sblock) (s : sampl) (fs : list sframe) : option (sampl * list V) :=
    match sb_sample b with
    | Some sample =>
        if length sample <? 3 then Some (Sampl (sp_phase s) (sp_playing s) zero (sp_decay s), replicate (length fs) zero)
        else
          let data := drop 1 sample in
          let s := if sb_loop b then Sampl (sp_phase s) true (sp_last s) (sp_decay s) else s in
          sampl_frames data (sb_loop b) (sb_declick b) (sb_reverse b) (sb_ramp b) s
            (Sect (-10) (-10) 0 (length data)) fs
    | None => Some (Sampl (sp_phase s) (sp_playing s) zero (sp_decay s), replicate (length fs) zero)
    end.
  Fixpoint sampl_blocks (s : sampl) (bs : list (sblock * list sframe)) : option (sampl * list V) :=
    match bs with
    | [] => Some (s, [])
    | (b, fs) :: bs =>
        let* (s, vs) := sampl_block b s fs in
        let* (s, vs') := sampl_blocks s bs in
        Some (s, vs ++ vs')
    end.
End sampl.
