(** Specification vocabulary of the Scope node *)
From Coq Require Import QArith Qround.
From Verif Require Import Base M_Scope M_ScopeN.
Open Scope nat_scope.

(** The values of a signal in some frames *)
Definition value (sig : nat) (f : frame) : Z := let '(x, y, z, _) := f in match sig with 0 => x | 1 => y | _ => z end.
(** [m] is the pair of the largest and the smallest value of a signal in some frames *)
Definition is_peak (sig : nat) (fs : list frame) (m : Z * Z) : Prop :=
  (exists f, f ∈ fs /\ value sig f = m.1) /\ (exists f, f ∈ fs /\ value sig f = m.2) /\
  forall f, f ∈ fs -> (m.2 <= value sig f <= m.1)%Z.

(** With [spb] frames per point (a rational), point [n] ends with frame number [ends spb (S n)], counted from the begin of the recording *)
Definition ends (spb : Q) (n : nat) : nat := Z.to_nat (Qceiling (inject_Z (Z.of_nat n) * spb)).
(** The frames of point [n]: all after the end of the point before it, up to its own end *)
Definition point (spb : Q) (n : nat) (fs : list frame) : list frame :=
  let a := match n with 0 => 0 | S _ => S (ends spb n) end in
  take (S (ends spb (S n)) - a) (drop a fs).

(** A block with a long time at a sample rate (in kHz): a point shows at least one frame *)
Definition long_blk (sr : Q) (b : scblk) : Prop := (1 <= samples_per_block (clamp_time (sb_time b)) sr)%Q.
(** Offsets and gains for three signals *)
Definition three (b : scblk) : Prop := length (sb_offs b) = 3.
Definition op_ok (o : scop_op) : Prop := match o with OProc b => three b | ORate q => (0 < q)%Q end.
(** The trigger sees these values one after the other without firing; its state after that *)
Fixpoint misses {T} (chk : T -> Z -> bool * T) (t : T) (vs : list Z) : option T :=
  match vs with
  | [] => Some t
  | v :: vs => let '(hit, t) := chk t v in if hit then None else misses chk t vs
  end.
(** The number of frames of one sweep over the 512 positions when every frame fills [copies] of them *)
Definition sweep (copies : nat) : nat := (scope_samples + copies - 1) / copies.
(** All values within the limits *)
Definition bounded (big : Z) (fs : list frame) : Prop := forall f sig, f ∈ fs -> (- big <= value sig f <= big)%Z.
