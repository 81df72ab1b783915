(** Specification vocabulary of knob rounding: the grids that a knob snaps to *)
From Coq Require Import Reals.
From Verif Require Import Base M_Nodes M_Knob.
Open Scope R_scope.

(** A grid: no grid at all, the multiples of [s], or the values whose reciprocal (1000 / x, so Hz for ms) is a multiple of [s] *)
Inductive grid := Free | Step (s : R) | Recip (s : R).

Definition on_grid (g : grid) (y : R) : Prop :=
  match g with
  | Free => True
  | Step s => exists k : Z, y = IZR k * s
  | Recip s => exists k : Z, 1000 / y = IZR k * s
  end.

(** [y] is at most half a step away from [x], in Hz for the reciprocal grid *)
Definition near (g : grid) (x y : R) : Prop :=
  match g with
  | Free => y = x
  | Step s => Rabs (y - x) <= s / 2
  | Recip s => Rabs (1000 / y - 1000 / x) <= s / 2
  end.

(** A grid that changes with the value: the first grid, and from each bound on the next one *)
Fixpoint grid_from (g : grid) (l : list (R * grid)) (x : R) : grid :=
  match l with
  | [] => g
  | (b, g') :: l => if Rlt_dec x b then g else grid_from g' l x
  end.

(** What the knobs snap to: in dB, semitones, ms, Hz (coarse: octaves, which are tenths of the normalised value), or the plain value *)
Definition knob_grid (k : rkind) (coarse : bool) : grid * list (R * grid) :=
  match k, coarse with
  | RId, _ => (Free, [])
  | RSig, true => (Step (1 / 10), [])
  | RSig, false => (Step (1 / 100), [])
  | (RVol | RGain | RDriv), true => (Step (1 / 2), [])
  | (RVol | RGain | RDriv), false => (Step (1 / 10), [])
  | RDet, true => (Step 1, [])
  | RDet, false => (Step (1 / 100), [])
  | (RDc | REms | RVps), true => (Step 1, [])
  | (RDc | REms | RVps), false => (Step (1 / 10), [])
  | (RTms | RFms | RTmz), true => (Step 1, [(100, Step 10); (1000, Step 100)])
  | (RTms | RFms | RTmz), false => (Step (1 / 10), [])
  | RFq, true => (Step (1 / 10), [])
  | RFq, false => (Step (1 / 10), [(10, Step 1); (100, Step 10); (1000, Step 100); (10000, Step 1000)])
  | RLfot, true => (Recip 10, [(10, Step 5); (250, Step 50); (1500, Step 100); (2500, Step 500); (5000, Step 1000); (60000, Step 5000)])
  | RLfot, false => (Recip 1, [(10, Step 1); (100, Step 5); (1000, Step 10); (2500, Step 100); (25000, Step 500)])
  end.

(** The quantity a knob is rounded in: the level in dB, the octave, the plain value, or else the denormalised value *)
Definition knob_value (coef2db db2coef : R -> R) (k : rkind) (coarse : bool) (p : paramid) (v : R) : R :=
  match k with
  | RVol | RGain | RDriv => coef2db (param_denorm db2coef p v)
  | RFq => if coarse then v else param_denorm db2coef p v
  | RId => v
  | _ => param_denorm db2coef p v
  end.
