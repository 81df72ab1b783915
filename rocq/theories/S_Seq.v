(** Specification of the row selection of the sequencer *)
From Coq Require Import QArith Qabs.
From Verif Require Import Base.
Open Scope nat_scope.

(** The numbers with a mantissa of 24 bits and a small exponent; every one is an [f32]. *)
Definition f32_grid (x : Q) : Prop :=
  exists (m : Z) (e : nat), (Z.abs m <= 2 ^ 24)%Z /\ (e <= 149)%nat /\ (x == m # Pos.pow 2 (Pos.of_nat e))%Q.

(** [rnd] rounds to a nearest element of [F]. This holds of the [f32] operations, with the [f32] values for [F], and of
    exact arithmetic, with every number for [F]. *)
Record rounds_to_nearest (F : Q -> Prop) (rnd : Q -> Q) : Prop := {
  rn_proper : forall x y, (x == y)%Q -> (rnd x == rnd y)%Q;
  rn_in : forall x, F (rnd x);
  rn_near : forall x y, F y -> (Qabs (rnd x - x) <= Qabs (y - x))%Q;
}.
