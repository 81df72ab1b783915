(** The effect, envelope and control nodes in a running patch (C65): specification *)
From Verif Require Import Base M_Atom M_Graph M_Dir M_Grid S_Grid M_Layout M_Prog M_Conf S_Conf S_Sync S_Prog.
Open Scope nat_scope.

(** something goes from [a] to [b] in [n] frames, each of which goes as [frame] says *)
Definition through {S : Type} (a b : S) (n : nat) (frame : nat -> S -> S -> Prop) : Prop :=
  exists s : nat -> S, s 0 = a /\ s n = b /\ forall f, f < n -> frame f (s f) (s (Datatypes.S f)).

(** input [j] of the node of [op] is connected on the board *)
Definition connected (T : ntable) (g : grid) (op : nodeop) (j : nat) : Prop :=
  exists q d e, wire T g q d e /\ (e_to e, e_to_input e) = (op_node op, j).
(** output [o] of the node of [op] is connected on the board *)
Definition feeds_out (T : ntable) (g : grid) (op : nodeop) (o : nat) : Prop :=
  exists q d e, wire T g q d e /\ (e_from e, e_from_out e) = (op_node op, o).

(** What a stereo effect hears of the signals [a] and [b] at its inputs, if it plays a single connected input on both sides *)
Definition both_sides (con_a con_b : Prop) (a b l r : nat -> f32) : Prop :=
  (con_a -> ~ con_b -> l = a /\ r = a) /\ (con_b -> ~ con_a -> l = b /\ r = b) /\
  ((con_a <-> con_b) -> l = a /\ r = b).

(** The number that a set of ports is reported with: the sum of the powers of two of its members *)
Definition mask_of (m : N) (member : nat -> Prop) : Prop := forall j, N.testbit m (N.of_nat j) = true <-> member j.

(** The factor of the times of an envelope for its setting "mult" *)
Definition time_factor (m : Z) : Z := if decide (m = 1%Z) then 10%Z else if decide (m = 2%Z) then 100%Z else 1%Z.
