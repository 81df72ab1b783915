(** Specification vocabulary for the neighbourhood of a cell *)
From Verif Require Import Base M_Dir S_Dir M_Graph M_Grid S_Grid M_Near.
Open Scope nat_scope.

(** The directions a query asks for: those of inputs, those of outputs, or all *)
Definition input_side (d : celldir) : Prop := d = T \/ d = TL \/ d = BL.
Definition output_side (d : celldir) : Prop := d = TR \/ d = BR \/ d = B.
Definition asked_for (dir d : celldir) : Prop :=
  match dir with
  | C => input_side d \/ output_side d
  | T | TL | BL => input_side d
  | TR | BR | B => output_side d
  end.

(** In direction [d] of [p] lies the empty place [q] *)
Definition free_place (g : grid) (p : nat * nat) (d : celldir) (q : nat * nat) : Prop :=
  neighbour p d q /\ exists c, board g q = Some c /\ c_node c = Nop.

(** The port of the cell towards [d] meets a port of the neighbour at [q] *)
Definition meets (g : grid) (p : nat * nat) (c : cell) (d : celldir) (q : nat * nat) : Prop :=
  neighbour p d q /\ is_Some (edge_port c d) /\ exists c', board g q = Some c' /\ is_Some (edge_port c' (dir_flip d)).

(** A cell knows its position: it was read with [get_copy] in a matrix of up to 256 rows and columns, or placed there *)
Definition knows_position (g : grid) (p : nat * nat) (c : cell) : Prop :=
  (c_x c, c_y c) = p /\ exists c0, board g p = Some c0 /\ c = cell_at c0 p.1 p.2.

(** A signal flows between [p] and its neighbour at [q] in direction [d]: over an input of [p] or an input of [q] *)
Definition flows (g : grid) (p : nat * nat) (d : celldir) (q : nat * nat) : Prop :=
  neighbour p d q /\ exists e, connects g p d e \/ connects g q (dir_flip d) e.
