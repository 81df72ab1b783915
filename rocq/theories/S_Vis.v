(** Specification vocabulary of the visual filters *)
From Verif Require Import Base M_Vis.
Open Scope nat_scope.

(** [neg] and [pos] are the largest negative and positive excursions among some values (0 if there are none) *)
Definition peaks (vals : list fv) (neg pos : Z) : Prop :=
  (0 <= pos)%Z /\ (forall v, Some v ∈ vals -> (v <= pos)%Z) /\ (pos = 0%Z \/ Some pos ∈ vals) /\
  (0 <= neg)%Z /\ (forall v, Some v ∈ vals -> (- v <= neg)%Z) /\ (neg = 0%Z \/ Some (- neg)%Z ∈ vals).

(** The values passed for one key, each with the parity of the triggers before it: [true] at the beginning *)
Fixpoint calls (k : fkey) (r : bool) (ops : list fop) : list (bool * fv) :=
  match ops with
  | [] => []
  | FTrigger :: ops => calls k (negb r) ops
  | FGet k' x :: ops => if decide (k' = k) then (r, x) :: calls k r ops else calls k r ops
  end.

(** A value is sampled when the parity is not that of the call before *)
Fixpoint sampled (r : bool) (cs : list (bool * fv)) : list fv :=
  match cs with
  | [] => []
  | (r', x) :: cs => if eqb r r' then sampled r' cs else x :: sampled r' cs
  end.

(** The last 10 values *)
Definition window (l : list fv) : list fv := drop (length l - 10) l.
