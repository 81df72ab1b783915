(** Model of the multiplexer (src/dsp/node_mux9.rs) *)
From Coq Require Import QArith Qround.
From Verif Require Import Base.
Open Scope Z_scope.

(** What one frame of a block brings: whether the detectors of the three trigger inputs fire (the detector [Trigger] is part of the crate
    synfx_dsp, not of the repository), the selection input, and the values of the nine inputs (numbered from 0). *)
Record mframe := MFrame { mf_rst : bool; mf_up : bool; mf_down : bool; mf_slct : Q; mf_ins : nat -> Q }.

(** src/dsp/node_mux9.rs:153: [in_cnt.i() as u8 + 1]; the addition panics on overflow *)
Definition mux_max (in_cnt : Z) : option Z :=
  let m := in_cnt mod 256 + 1 in if m <=? 255 then Some m else None.

(** src/dsp/node_mux9.rs:163-173, 194-204: the input of an index *)
Definition mux_route (idx : Z) (f : mframe) : Q := mf_ins f (if idx <=? 7 then Z.to_nat idx else 8%nat).

(** [f32 as u8] saturates *)
Definition sat_u8 (z : Z) : Z := Z.max 0 (Z.min 255 z).

(** src/dsp/node_mux9.rs:158-159: the index for a value of the selection input, in exact arithmetic *)
Definition mux_slct (max : Z) (s : Q) : Z := sat_u8 (Qfloor (inject_Z max * (s - (1 # 100000)))) mod max.

(** src/dsp/node_mux9.rs:179-189: the index after the triggers of a frame; [u8] additions panic on overflow *)
Definition mux_trig (max idx : Z) (f : mframe) : option Z :=
  let idx := if mf_rst f then 0 else idx in
  let* idx := if mf_up f then (if idx + 1 <=? 255 then Some ((idx + 1) mod max) else None) else Some idx in
  if mf_down f then (if idx + max <=? 255 then Some ((idx + max - 1) mod max) else None) else Some idx.

(** src/dsp/node_mux9.rs:155-206: the frames of a block *)
Fixpoint mux_frames (connected : bool) (max idx : Z) (fs : list mframe) : option (Z * list Q) :=
  match fs with
  | [] => Some (idx, [])
  | f :: fs =>
      let* idx := if connected then Some (mux_slct max (mf_slct f)) else mux_trig max idx f in
      let* (idx', out) := mux_frames connected max idx fs in
      Some (idx', mux_route idx f :: out)
  end.

(** src/dsp/node_mux9.rs:120-210 [process]: a block, for the setting [in_cnt] and whether [slct] is connected *)
Definition mux_block (in_cnt : Z) (connected : bool) (idx : Z) (fs : list mframe) : option (Z * list Q) :=
  let* max := mux_max in_cnt in mux_frames connected max (idx mod max) fs.

(** A history of blocks, from the new node (src/dsp/node_mux9.rs:39-46); the outputs are concatenated *)
Fixpoint mux_blocks (idx : Z) (bs : list (Z * bool * list mframe)) : option (Z * list Q) :=
  match bs with
  | [] => Some (idx, [])
  | (c, k, fs) :: bs =>
      let* (idx, out) := mux_block c k idx fs in
      let* (idx, out') := mux_blocks idx bs in
      Some (idx, out ++ out')
  end.
