(** Specification vocabulary of parameter scales *)
From Coq Require Import Reals.
Open Scope R_scope.

(** [n] and [d] map the values between [a] and [b] and the normalised values between [lo] and [hi] onto each other, strictly increasing *)
Record scale_pair (n d : R -> R) (a b lo hi : R) : Prop := {
  sp_norm : forall x, a <= x <= b -> lo <= n x <= hi;
  sp_back : forall x, a <= x <= b -> d (n x) = x;
  sp_denorm : forall v, lo <= v <= hi -> a <= d v <= b;
  sp_forth : forall v, lo <= v <= hi -> n (d v) = v;
  sp_inc : forall x y, a <= x -> x < y -> y <= b -> n x < n y;
  sp_dinc : forall v w, lo <= v -> v < w -> w <= hi -> d v < d w;
}.
