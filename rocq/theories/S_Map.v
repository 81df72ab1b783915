(** Specification vocabulary of the signal mapping nodes *)
From Coq Require Import QArith SpecFloat.
From Verif Require Import Base.

(** [y] lies between [a] and [b], whichever is larger *)
Definition between (a b y : Q) : Prop := (a <= y <= b \/ b <= y <= a)%Q.
Definition fbetween (a b y : spec_float) : Prop :=
  (SFleb a y = true /\ SFleb y b = true) \/ (SFleb b y = true /\ SFleb y a = true).

(** The documented input range of the modes of the simple mapper: the input that gives the minimum and the one that gives the maximum *)
Definition mode_ends (mode : Z) : option (Q * Q) :=
  match mode with
  | 0 => Some (0%Q, 1%Q) | 1 => Some ((-1)%Q, 1%Q) | 2 => Some (1%Q, 0%Q) | 3 => Some (1%Q, (-1)%Q)
  | _ => None
  end%Z.
