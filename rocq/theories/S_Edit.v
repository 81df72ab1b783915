(** What the edits of a block program do when they succeed (C69), in terms of the blocks that can be read back. *)
From stdpp Require Import strings.
From Verif Require Import Base M_Block S_Block.
Open Scope string_scope.
Open Scope list_scope.
Open Scope nat_scope.

(** Only the block at one position differs. *)
Definition only_at (id : nat) (p : Z * Z) (b : option block) (f f' : bfun) : Prop := forall id' p',
  bf_block_at f' id' p' = if decide (id' = id /\ p' = p) then b else bf_block_at f id' p'.

(** A block of a type, labelled as asked for or with the name of the type *)
Definition made_of (ty : btype) (lbl : option string) (b : block) : Prop :=
  b_rows b = t_rows ty /\ b_typ b = t_name ty /\ b_lbl b = default (t_name ty) lbl /\
  b_inputs b = t_inputs ty /\ b_outputs b = t_outputs ty /\ b_color b = t_color ty.
Definition copy_of (b b' : block) : Prop :=
  b_rows b' = b_rows b /\ b_expanded b' = b_expanded b /\ b_typ b' = b_typ b /\ b_lbl b' = b_lbl b /\
  b_inputs b' = b_inputs b /\ b_outputs b' = b_outputs b /\ b_color b' = b_color b.

(** The areas inside of a block, and how many a type asks for: one, two or none *)
Definition inside (b : block) : list nat := from_option (fun s => [s]) [] (b_contains b).1 ++ from_option (fun s => [s]) [] (b_contains b).2.
Definition type_areas (ty : btype) : nat := if t_areas ty <=? 2 then t_areas ty else 0.

(** A block with an id that no block has, and with areas that are new *)
Definition new_id (f : bfun) (b : block) : Prop := forall id p b', bf_block_at f id p = Some b' -> b_id b' <> b_id b.
Definition new_areas (f f' : bfun) (b : block) : Prop :=
  NoDup (inside b) /\ forall s, s ∈ inside b -> length (f_areas f) <= s < length (f_areas f').

(** A block that is grabbed below its top row is put so that this row is at the target, but not above row 0. *)
Definition dest_y (y top y2 : Z) : Z := if (top <? y)%Z then Z.max (y2 - (y - top)) 0 else y2.

(** The chain at a cell: all blocks that are connected to the block there *)
Definition chain_of (f : bfun) (id : nat) (x y : Z) (l : list (Z * Z)) : Prop :=
  exists o, bf_origin_at f id (x, y) = Some o /\ NoDup l /\ forall p, p ∈ l <-> rtc (connected f id) o p.

(** The blocks at [l], moved by [(dx, dy)], meet no other block of the target area. *)
Definition fits (f : bfun) (id : nat) (l : list (Z * Z)) (id2 : nat) (dx dy : Z) : Prop := forall p b q b' c,
  p ∈ l -> bf_block_at f id p = Some b -> bf_block_at f id2 q = Some b' -> ~ (id2 = id /\ q ∈ l) ->
  covers ((p.1 + dx)%Z, (p.2 + dy)%Z) b c -> covers q b' c -> False.

(** The offsets that are tried: up to three rows up in the wanted column, the one left and the one right of it, then down likewise *)
Definition tries : list (Z * Z) :=
  mjoin ((fun ys => mjoin ((fun x => pair x <$> ys) <$> [0; -1; 1]%Z)) <$> [[0; -1; -2; -3]; [1; 2; 3]]%Z).

(** The least of some numbers *)
Definition least (zs : list Z) (m : Z) : Prop := m ∈ zs /\ forall z, z ∈ zs -> (m <= z)%Z.

(** Row [yy] has a connection from column [x] to the next within the chain. *)
Definition joined (f : bfun) (id : nat) (l : list (Z * Z)) (x yy : Z) : Prop := exists o1 o2 b1 b2,
  o1 ∈ l /\ o2 ∈ l /\ bf_block_at f id o1 = Some b1 /\ bf_block_at f id o2 = Some b2 /\ o1.1 = x /\ o2.1 = (x + 1)%Z /\
  port_on (b_rows b1) (b_outputs b1) o1.2 yy /\ port_on (b_rows b2) (b_inputs b2) o2.2 yy.
