(** Specification of the multiplexer *)
From Coq Require Import QArith.
From Verif Require Import Base M_Mux.
Open Scope Z_scope.

(** Where a selector that counts without bounds stands after a frame *)
Definition moved (pos : Z) (f : mframe) : Z :=
  (if mf_rst f then 0 else pos) + (if mf_up f then 1 else 0) - (if mf_down f then 1 else 0).

(** The outputs that are demanded of [n] inputs: the input whose number is the position, modulo the number of inputs *)
Fixpoint wanted (n pos : Z) (fs : list mframe) : list Q :=
  match fs with
  | [] => []
  | f :: fs => mf_ins f (Z.to_nat (moved pos f mod n)) :: wanted n (moved pos f) fs
  end.
