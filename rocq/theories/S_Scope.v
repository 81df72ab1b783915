(** Specification vocabulary of the scope *)
From Verif Require Import Base M_Scope.
Open Scope nat_scope.

Section spec.
  Context {V : Type}.

  (** The value that a call stores at position [p] (below 512) of signal [sig] (0, 1 or 2), if it does: a single write goes
      to its position modulo the size, copies do not run over the end *)
  Definition stores (o : scop V) (sig p : nat) : option (V * V) :=
    match o with
    | SWrite b i v => if (b mod 3 =? sig) && (i mod 512 =? p) then Some v else None
    | SOver b i c v => if (b mod 3 =? sig) && (i <=? p) && (p <? i + c) then Some (v, v) else None
    | _ => None
    end.

  (** The last value stored by a history of calls *)
  Definition last_stored (zero : V) (ops : list (scop V)) (sig p : nat) : V * V :=
    default (zero, zero) (last (omap (fun o => stores o sig p) ops)).

  (** The last offset and gain of a signal, the last threshold and the last mask *)
  Definition last_offs (zero : V) (ops : list (scop V)) (sig : nat) : V * V :=
    default (zero, zero) (last (omap (fun o => match o with SOffs b o g => if b mod 3 =? sig then Some (o, g) else None | _ => None end) ops)).
  Definition last_thr (ops : list (scop V)) : option V :=
    mjoin (last (omap (fun o => match o with SThr t => Some t | _ => None end) ops)).
  Definition last_mask (ops : list (scop V)) (sig : nat) : bool :=
    default false (last (omap (fun o => match o with SMask m0 m1 m2 => [m0; m1; m2] !! sig | _ => None end) ops)).
  (** The signals of one frame *)
  Definition sig_of (fr : (V * V * V) * bool) (sig : nat) : V :=
    match sig with 0 => fr.1.1.1 | 1 => fr.1.1.2 | _ => fr.1.2 end.
End spec.
