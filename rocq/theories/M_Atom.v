(** Sample values and atom data: src/dsp/satom.rs *)
From Coq Require Import String.
From Verif Require Import Base.
Open Scope nat_scope.

(** A 32 bit float is represented by its bit pattern; arithmetic on floats is always a
    parameter of the functions that use it, so the theorems hold for any arithmetic.
    Only the bit pattern of 0.0 is fixed. *)
Definition f32 := Z.
Definition f32_zero : f32 := 0%Z.

(** src/dsp/satom.rs:6-12 [enum SAtom]. A loaded sample is the vector itself instead of a
    shared pointer to it. *)
Inductive satom :=
| AStr (s : string)
| AMicro (v : list f32)
| AAudio (path : string) (data : option (list f32))
| ASetting (i : Z)
| AParam (v : f32).

Global Instance satom_eq_dec : EqDecision satom.
Proof. solve_decision. Defined.

(** src/dsp/satom.rs:63-69 [f]; [i2f] is the conversion [i64 as f32] *)
Definition atom_f (i2f : Z -> f32) (a : satom) : f32 :=
  match a with
  | ASetting i => i2f i
  | AParam v => v
  | _ => f32_zero
  end.
