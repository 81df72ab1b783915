(** Specification vocabulary of the random walker *)
From Coq Require Import QArith Qminmax Qabs.
From Verif Require Import Base M_RndWk.
Open Scope Q_scope.

(** half the distance of neighbouring [f32] numbers between 1 and 2 *)
Definition eps : Q := 1 # 16777216.

(** Rounding to [f32], as far as it matters here: it keeps the order, it keeps rounded numbers, 0, 1 and -1, and its error is at most half the
    distance of neighbouring numbers. Exact arithmetic satisfies it as well. *)
Definition rounding (rd : Q -> Q) : Prop :=
  (forall x y, x <= y -> rd x <= rd y) /\ (forall x, rd (rd x) == rd x) /\ rd 0 == 0 /\ rd 1 == 1 /\ rd (-1) == -1 /\
  (forall x, Qabs x <= 2 -> Qabs (rd x - x) <= eps) /\ (forall x, Qabs x <= 4 -> Qabs (rd x - x) <= 2 * eps).
(** a number that is an [f32] *)
Definition float (rd : Q -> Q) (x : Q) : Prop := rd x == x.

(** Random numbers between 0 and 1 *)
Definition unit_random {G} (rnext : G -> Q * G) : Prop := forall g, 0 <= (rnext g).1 <= 1.
(** A slew limiter moves towards its target, and not beyond it *)
Definition limiter {W} (sval : W -> Q) (snext : Q -> Q -> W -> W) : Prop := forall t l w,
  (sval w <= t -> sval w <= sval (snext t l w) <= t) /\ (t <= sval w -> t <= sval (snext t l w) <= sval w).
(** A slew time of zero: it is there at once *)
Definition at_once {W} (sval : W -> Q) (snext : Q -> Q -> W -> W) : Prop := forall t w, sval (snext t 0 w) == t.

Definition limited (lo hi x : Q) : Q := Qmax lo (Qmin x hi).
(** The range of a frame: its parameters, limited to 0 ... 1, in either order *)
Definition range (i : rwin) (lo hi : Q) : Prop :=
  let a := limited 0 1 (ri_min i) in
  let b := limited 0 1 (ri_max i) in
  lo == Qmin a b /\ hi == Qmax a b.
(** all parameters of the frame are [f32] numbers *)
Definition float_frame (rd : Q -> Q) (i : rwin) : Prop :=
  float rd (ri_min i) /\ float rd (ri_max i) /\ float rd (ri_step i) /\ float rd (ri_offs i).
