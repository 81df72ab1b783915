(** Model of src/nodes/visual_sampling_filter.rs and src/nodes/feedback_filter.rs *)
From Verif Require Import Base.
Open Scope nat_scope.

(** Finite f32 values as integers in units of 2^-149, which is exact for comparisons, absolute value and maximum; [None] is
    NaN. Infinities are not modelled. *)
Notation fv := (option Z).

(** [a.max(b.abs())] of f32: a NaN is ignored *)
Definition fmax_abs (a : Z) (b : fv) : Z := match b with Some b => Z.max a (Z.abs b) | None => a end.

(** src/nodes/visual_sampling_filter.rs:5, 11-26 *)
Definition vis_size : nat := 10.
Record vis := Vis { vs_recalc : bool; vs_ptr : nat; vs_buf : list fv; vs_out : Z * Z }.

(** src/nodes/visual_sampling_filter.rs:29-36 [new] *)
Definition vis_new : vis := Vis false 0 (replicate vis_size (Some 0%Z)) (0, 0)%Z.

(** src/nodes/visual_sampling_filter.rs:77-86: the largest absolute values of the negative and of the other samples *)
Definition vis_peaks (buf : list fv) : Z * Z :=
  foldl (fun a v => if match v with Some v => (0 <=? v)%Z | None => false end then (a.1, fmax_abs a.2 v) else (fmax_abs a.1 v, a.2)) (0, 0)%Z buf.

(** src/nodes/visual_sampling_filter.rs:40-47, 70-92 [needs_recalc], [get] *)
Definition vis_get (s : vis) (r : bool) (x : fv) : vis * (Z * Z) :=
  if eqb (vs_recalc s) r then (s, vs_out s)
  else
    let p := (vs_ptr s + 1) mod length (vs_buf s) in
    let buf := <[p := x]> (vs_buf s) in
    let out := vis_peaks buf in
    (Vis r p buf out, out).

(** src/nodes/feedback_filter.rs:10-14 [struct FeedbackFilter]; the two maps are one, whose keys have the output or none *)
Definition fkey : Type := node_id * option nat.
Record ffilter := FFilter { ff_map : gmap fkey vis; ff_recalc : bool }.
Definition ff_new : ffilter := FFilter ∅ true.

(** src/nodes/feedback_filter.rs:21-43: [trigger_recalc], [get_led], [get_out] *)
Inductive fop :=
| FTrigger
| FGet (k : fkey) (x : fv).
Definition ff_step (s : ffilter) (o : fop) : ffilter * option (Z * Z) :=
  match o with
  | FTrigger => (FFilter (ff_map s) (negb (ff_recalc s)), None)
  | FGet k x =>
      let v := default vis_new (ff_map s !! k) in
      let '(v, out) := vis_get v (ff_recalc s) x in
      (FFilter (<[k := v]> (ff_map s)) (ff_recalc s), Some out)
  end.
Definition ff_run (ops : list fop) : ffilter := foldl (fun s o => (ff_step s o).1) ff_new ops.
