(** Specification vocabulary of the sample player *)
From Coq Require Import QArith Qround Qabs Qminmax.
From Verif Require Import Base M_Sampl.
Open Scope nat_scope.

(** The part of the sample that is played: the offset is a share of its length, up to 0.999999, and so is the length of the part *)
Definition selected {V} (rnd : Q -> Q) (data : list V) (offs len : Q) : list V :=
  let share x := rnd (inject_Z (Z.of_nat (length data)) * x)%Q in
  let first := Qfloor (share (Qmin (Qabs offs) (999999 # 1000000))) in
  let count := Qfloor (share (Qmin (Qabs len) 1) + (1 # 2)) in
  take (Z.to_nat count) (drop (Z.to_nat first) data).

(** All frames of a sequence of blocks, with the settings of their blocks *)
Definition all_frames {V R} (bs : list (sblock (V := V) (R := R) * list sframe)) : list (sblock (V := V) (R := R) * sframe) :=
  mjoin ((fun b => (fun f => (b.1, f)) <$> b.2) <$> bs).

(** The frame plays the part [sec] of a sample that is long enough *)
Definition plays {V R} (rnd : Q -> Q) (sec : list V) (x : sblock (V := V) (R := R) * sframe) : Prop :=
  exists rate data, sb_sample x.1 = Some (rate :: data) /\ 2 <= length data /\ selected rnd data (sf_offs x.2) (sf_len x.2) = sec.

(** The way of the play head in some frames *)
Definition travelled (fs : list sframe) : Q := foldr (fun f q => (sf_step f + q)%Q) 0%Q fs.

(** The sample at a position of the part that is played *)
Definition at_position {V} (interp : list V -> nat -> Q -> V) (sec : list V) (reverse : bool) (pos : Q) : V :=
  let i := Z.to_nat (Qfloor pos) in
  let f := (pos - inject_Z (Qfloor pos))%Q in
  if reverse then interp sec (length sec - 1 - i) (1 - f)%Q else interp sec i f.

(** Frames of which the first one is triggered and no other *)
Definition from_trigger {V R} (xs : list (sblock (V := V) (R := R) * sframe)) : Prop :=
  exists x rest, xs = x :: rest /\ sf_trig x.2 = true /\ Forall (fun y => sf_trig y.2 = false) rest.
