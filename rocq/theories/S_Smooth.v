(** What a smoother delivers (C17): specification *)
From Coq Require Import QArith QArith.Qcanon.
From Verif Require Import Base M_Exec.
Open Scope nat_scope.

(** the smoother after [n] samples, and the values delivered for these samples *)
Fixpoint sm_run {V} (fadd : V -> V -> V) (s : smoother V) (n : nat) : smoother V * list V :=
  match n with
  | 0 => (s, [])
  | S n => let '(s', vs) := sm_run fadd s n in let '(s'', v) := sm_next fadd s' in (s'', vs ++ [v])
  end.

(** exact arithmetic: rational numbers *)
Definition q_of (n : nat) : Qc := Q2Qc (inject_Z (Z.of_nat n)).
Definition q_inc (current target : Qc) (n : nat) : Qc := ((target - current) / q_of n)%Qc.
Definition q_add : Qc -> Qc -> Qc := Qcplus.

(** the value [k] samples after the start of a line of [n] samples *)
Definition line (current target : Qc) (n k : nat) : Qc := (current + (target - current) * q_of k / q_of n)%Qc.
Definition between (a b x : Qc) : Prop := (a <= x <= b \/ b <= x <= a)%Qc.
