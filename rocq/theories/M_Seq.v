(** Model of the row selection of the pattern sequencer, src/dsp/tracker/sequencer.rs. Phases are rationals; [rnd]
    is the rounding of one [f32] operation. *)
From Coq Require Import QArith Qround Qabs.
From Verif Require Import Base M_Track.
Open Scope nat_scope.

(** the [f32] literal [0.00001] *)
Definition row_eps : Q := (10995116 # 1099511627776)%Q.
Definition q_of_nat (n : nat) : Q := inject_Z (Z.of_nat n).

Section row.
  Context (rnd : Q -> Q).

  (** src/dsp/tracker/sequencer.rs:82, 114, 136 *)
  Definition last_row_idx (rows : nat) : Q := rnd (q_of_nat rows - row_eps)%Q.

  (** src/dsp/tracker/sequencer.rs:86-88, 118-119: [row_phase.floor() as usize % rows]; the cast turns negative numbers
      into zero and a remainder of zero rows panics *)
  Definition row_phase (rows : nat) (phase : Q) : Q := rnd (phase * last_row_idx rows)%Q.
  Definition row_at (rows : nat) (phase : Q) : option nat :=
    if rows =? 0 then None else Some (Z.to_nat (Qfloor (row_phase rows phase)) mod rows).

  (** src/dsp/tracker/sequencer.rs:139 *)
  Definition clamp01 (x : Q) : Q := if Qle_bool x 0 then 0%Q else if Qle_bool 1 x then 1%Q else x.
  Definition gate_row_at (rows : nat) (phase : Q) : option nat := row_at rows (clamp01 phase).

  Context {V : Type} (mix : V -> V -> Q -> V).

  (** src/dsp/tracker/sequencer.rs:105-125 [col_get_at_phase], one frame *)
  Definition col_get (rows : nat) (col : list (V * nat)) (phase : Q) : option (V * nat) :=
    let* line := row_at rows phase in col !! line.

  (** src/dsp/tracker/sequencer.rs:73-103 [col_interpolate_at_phase], one frame; [mix a b x] is [a * (1 - x) + b * x] *)
  Definition col_interpolate (rows : nat) (col : list (V * nat)) (phase : Q) : option (V * nat) :=
    let* line := row_at rows phase in
    let rp := row_phase rows phase in
    let prev_line := if line =? 0 then rows - 1 else line - 1 in
    let* prev := col !! prev_line in
    let* next := col !! line in
    Some (mix (fst prev) (fst next) (rp - inject_Z (Qfloor rp))%Q, snd next).

  (** [f32::fract] of a number that is not negative *)
  Definition fract (x : Q) : Q := (x - inject_Z (Qfloor x))%Q.

  (** src/dsp/tracker/sequencer.rs:16-33 [FRACT_16THS] *)
  Definition fract_16th (k : Z) : Q := (inject_Z (k + 1) / 16)%Q.

  (** src/dsp/tracker/sequencer.rs:9-14, 45-57: the random state of the sequencer, the last number drawn for each column
      with the row it was drawn for, and the generator of the [synfx_dsp] crate with its [next_open01] *)
  Context {G : Type} (next_open01 : G -> Q * G) (bits : V -> Z) (zero one : V).
  Record gatest := GateSt { gs_vals : list (nat * Q); gs_rng : G }.
  Definition gates_new (g : G) : gatest := GateSt (replicate max_cols (Z.to_nat 99999, 0%Q)) g.

  (** src/dsp/tracker/sequencer.rs:164-173 *)
  Definition rand_val (st : gatest) (col line : nat) : option (gatest * Q) :=
    let* rv := gs_vals st !! col in
    if rv.1 =? line then Some (st, rv.2)
    else let '(u, g) := next_open01 (gs_rng st) in Some (GateSt (<[col := (line, u)]> (gs_vals st)) g, u).

  (** src/dsp/tracker/sequencer.rs:127-195 [col_gate_at_phase], one frame *)
  Definition col_gate (rows : nat) (col : nat) (data : list (V * nat)) (st : gatest) (phase : Q) : option (gatest * (V * nat)) :=
    let* line := gate_row_at rows phase in
    let phase_frac := fract (row_phase rows (clamp01 phase)) in
    let* cell := data !! line in
    let gate := bits (fst cell) in
    let pulse_width := fract_16th (Z.land gate 15) in
    let row_div := inject_Z (16 - Z.shiftr (Z.land gate 240) 4) in
    let probability := Z.shiftr (Z.land gate 3840) 8 in
    let sub_frac := fract (rnd (phase_frac * row_div)) in
    let empty := (0 <? Z.land gate 61440)%Z in
    let* (st, skip) :=
      if (probability <? 15)%Z then
        let* (st, u) := rand_val st col line in
        Some (st, negb (Qle_bool u (fract_16th probability)))
      else Some (st, false) in
    if skip : bool then Some (st, (zero, if empty then 0 else snd cell))
    else if empty then Some (st, (zero, 0))
    else Some (st, (if Qle_bool sub_frac pulse_width then one else zero, snd cell)).

  (** src/dsp/tracker/mod.rs:150-168 [get_col_at_phase], one frame. [None] in the inner option: the outputs are left
      alone. *)
  Definition play_frame (b : backend) (col : nat) (st : gatest) (phase : Q) : option (gatest * option (V * nat)) :=
    if bk_rows b =? 0 then Some (st, None)
    else
      let* t := bk_types b !! col in
      let* d := bk_data b !! col in
      match t with
      | CNote | CStep => let* o := col_get (bk_rows b) d phase in Some (st, Some o)
      | CValue => let* o := col_interpolate (bk_rows b) d phase in Some (st, Some o)
      | CGate => let* (st, o) := col_gate (bk_rows b) col d st phase in Some (st, Some o)
      end.

  (** src/dsp/tracker/mod.rs:150-168 [get_col_at_phase]: the frames of a block; [old] are the samples in the output
      buffers *)
  Fixpoint play_block (b : backend) (col : nat) (st : gatest) (phases : list Q) (old : list (V * nat)) : option (gatest * list (V * nat)) :=
    match phases, old with
    | x :: phases, o :: old =>
        let* (st, r) := play_frame b col st x in
        let* (st, rs) := play_block b col st phases old in
        Some (st, default o r :: rs)
    | _, _ => Some (st, [])
    end.

  (** src/dsp/node_tseq.rs:197-284 [process], from the phases of the block on: the samples of the outputs [trk1] and
      [gat1], ..., [trk6] and [gat6]. The columns share their buffers. *)
  Fixpoint play_cols (b : backend) (n col : nat) (st : gatest) (phases : list Q) (old : list (V * nat)) : option (gatest * list (list (V * nat))) :=
    match n with
    | 0 => Some (st, [])
    | S n =>
        let* (st, o) := play_block b col st phases old in
        let* (st, os) := play_cols b n (S col) st phases o in
        Some (st, o :: os)
    end.
  Definition tseq_play (b : backend) (st : gatest) (phases : list Q) : option (gatest * list (list (V * nat))) :=
    play_cols b max_cols 0 st phases (replicate (length phases) (zero, 0)).

  (** src/dsp/node_tseq.rs:218-222: the phase in phase mode; [clock.abs().fract()] is exact *)
  Definition phase_of_clock (x : Q) : Q := fract (Qabs x).
End row.
