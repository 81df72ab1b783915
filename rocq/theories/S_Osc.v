(** Specification vocabulary of the generators *)
From Coq Require Import QArith Qround Qabs.
From Verif Require Import Base.
Open Scope nat_scope.

(** A rounding like that of [f32]: monotone, symmetric, and exact on integers up to 2^24 *)
Definition rounds_like_f32 (rd : Q -> Q) : Prop :=
  (forall x y, (x <= y)%Q -> (rd x <= rd y)%Q) /\ (forall x, (rd (- x) == - rd x)%Q) /\ (forall n : Z, (Z.abs n <= 2 ^ 24)%Z -> (rd (inject_Z n) == inject_Z n)%Q).

(** the fractional part of a number: what is above the next lower integer *)
Definition frac (x : Q) : Q := (x - inject_Z (Qfloor x))%Q.
(** the cycles that an oscillator runs through with these frequencies at [isr] seconds per sample *)
Definition cycles (isr : Q) (freqs : list Q) : Q := foldr (fun f a => (f * isr + a)%Q) 0%Q freqs.
(** a number of the format *)
Definition is_float (rd : Q -> Q) (x : Q) : Prop := (rd x == x)%Q.
Definition unit_interval (x : Q) : Prop := (0 <= x)%Q /\ (x < 1)%Q.
