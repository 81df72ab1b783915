(** Model of the random walker, src/dsp/node_rndwk.rs

    Simplifications: samples are rational numbers, and every [f32] operation is the exact one followed by [rd], an arbitrary
    rounding; NaN and infinities are left out. The trigger detection of [synfx_dsp] enters as a flag per frame, its random
    number generator and slew limiter are parameters. The [f64] values only occur as the state of the slew limiter and as
    copies of an [f32]. *)
From Coq Require Import QArith.
From Verif Require Import Base.
Open Scope nat_scope.

(** [f32::clamp]; here the bounds are in order *)
Definition qclamp (x lo hi : Q) : Q := if Qle_bool lo x then if Qle_bool x hi then x else hi else lo.
(** [f32::abs] *)
Definition qabs (x : Q) : Q := if Qle_bool 0 x then x else (- x)%Q.

Section rndwk.
  (** rounding to [f32]; [Rng] with [next]; [SlewValue] with [value] and [next], which gives the new value *)
  Context {G W : Type} (rd : Q -> Q) (rnext : G -> Q * G) (sval : W -> Q) (snext : Q -> Q -> W -> W).

  (** src/dsp/node_rndwk.rs:12-19 *)
  Record rndwk := RndWk { rw_rng : G; rw_slew : W; rw_target : Q }.

  (** The inputs of a frame after [denorm]: whether a trigger is detected, and the parameters *)
  Record rwin := RwIn { ri_trig : bool; ri_step : Q; ri_offs : Q; ri_min : Q; ri_max : Q; ri_slew : Q }.

  (** src/dsp/node_rndwk.rs:110-115: the range and [delta] *)
  Definition rw_range (i : rwin) : Q * Q :=
    let mi := qclamp (ri_min i) 0 1 in
    let ma := qclamp (ri_max i) 0 1 in
    if Qle_bool mi ma then (mi, ma) else (ma, mi).
  Definition rw_delta (mi ma : Q) : Q := qclamp (rd (ma - mi)) (rd (1 # 10000)) 1.

  (** src/dsp/node_rndwk.rs:117-121: where the walk would go *)
  Definition rw_draw (r v : Q) (i : rwin) : Q :=
    let step := qclamp (ri_step i) (-1) 1 in
    let offs := qclamp (ri_offs i) (-1) 1 in
    rd (rd (rd v + rd (rd (rd (r * 2) * step) - step)) + offs)%Q.

  (** src/dsp/node_rndwk.rs:125-132: clamp into a range that can be reflected, and reflect *)
  Definition rw_fold (mi ma t : Q) : Q :=
    let over := rd (rw_delta mi ma * rd (99 # 100)) in
    let t := qclamp t (rd (mi - over)) (rd (ma + over)) in
    let t := if Qle_bool t ma then t else rd (ma - qabs (rd (ma - t))) in
    if Qle_bool mi t then t else rd (mi + qabs (rd (mi - t))).

  (** src/dsp/node_rndwk.rs:108-140, one frame and its sample *)
  Definition rw_frame (s : rndwk) (i : rwin) : rndwk * Q :=
    let s :=
      if ri_trig i then
        let '(mi, ma) := rw_range i in
        let '(r, g) := rnext (rw_rng s) in
        RndWk g (rw_slew s) (rw_fold mi ma (rw_draw r (sval (rw_slew s)) i))
      else s in
    let w := snext (rw_target s) (ri_slew i) (rw_slew s) in
    (RndWk (rw_rng s) w (rw_target s), rd (sval w)).
  Fixpoint rw_frames (s : rndwk) (is : list rwin) : rndwk * list Q :=
    match is with
    | [] => (s, [])
    | i :: is => let '(s, o) := rw_frame s i in let '(s, os) := rw_frames s is in (s, o :: os)
    end.
  (** src/dsp/node_rndwk.rs:87-143 [process], block after block *)
  Fixpoint rw_blocks (s : rndwk) (bs : list (list rwin)) : list (list Q) :=
    match bs with
    | [] => []
    | b :: bs => let '(s, os) := rw_frames s b in os :: rw_blocks s bs
    end.

  (** src/dsp/node_rndwk.rs:81-85 [reset]; the random numbers go on *)
  Definition rw_reset (sreset : W -> W) (s : rndwk) : rndwk := RndWk (rw_rng s) (sreset (rw_slew s)) 0%Q.
End rndwk.
