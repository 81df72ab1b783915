(** Specification of the hexagonal grid.
    Columns are stacked hexagons; odd columns are shifted down by half a cell. In doubled
    vertical coordinates the centre of cell (x,y) is (x, 2y + (x mod 2)), and the six
    neighbours of a cell are the centres at distance (0,±2) and (±1,±1). *)
From Verif Require Import Base M_Dir.
Open Scope Z_scope.

Definition center (p : nat * nat) : Z * Z :=
  (Z.of_nat p.1, 2 * Z.of_nat p.2 + Z.of_nat p.1 mod 2).

(** the geometric displacement of each direction: right/left is x, down is positive *)
Definition displacement (d : celldir) : Z * Z :=
  match d with
  | T => (0, -2) | B => (0, 2)
  | TR => (1, -1) | BR => (1, 1)
  | TL => (-1, -1) | BL => (-1, 1)
  | C => (0, 0)
  end.

(** [q] lies one step from [p] in direction [d] *)
Definition neighbour (p : nat * nat) (d : celldir) (q : nat * nat) : Prop :=
  d <> C /\
  fst (center q) = fst (center p) + fst (displacement d) /\
  snd (center q) = snd (center p) + snd (displacement d).

(** walking along a list of directions *)
Inductive walk : nat * nat -> list celldir -> nat * nat -> Prop :=
| walk_nil p : walk p [] p
| walk_cons p d q ds r : neighbour p d q -> walk q ds r -> walk p (d :: ds) r.
