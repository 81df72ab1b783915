(** Pitches: what the MidiP node and note columns give out, and how oscillators and sample players read it. In exact arithmetic. *)
From Coq Require Import Reals.
From Verif Require Import Base M_Midi M_MidiN M_Norm.
Open Scope R_scope.

(** src/dsp/node_midip.rs:187-190: the output freq of a frame, by the current note and the input det *)
Definition midip_freq (note : nat) (det : R) : R :=
  let note := (INR note - 69) / 120 in
  note + det.
(** src/dsp/node_midip.rs:125-191: the output freq of the frames *)
Definition midip_freqs {V} (os : list (@midipn_out V)) (det : list R) : list R := zip_with (fun o d => midip_freq (mno_note o) d) os det.

(** src/dsp/tracker/pattern.rs:193 and 198: the value of a cell in a column of notes *)
Definition track_note (v : Z) : R := rclamp ((IZR v - 69) * (1 / 10) / 12) (-1) 1.

(** src/dsp/mod.rs:2405-2411 [denorm_offs] of an input freq, as in src/dsp/node_sin.rs:99, node_bosc.rs:149, node_vosc.rs:156, node_formfm.rs:92,
    node_sampl.rs:212: [det] is the value of the input det *)
Definition osc_freq (freq det : R) : R := d_pit (freq + det).
