(** Specification for block programs (C32, C33, C34, C37), in terms of the blocks that can be read back at each position. *)
From stdpp Require Import strings.
From Verif Require Import Base M_Block.
Open Scope string_scope.
Open Scope list_scope.
Open Scope nat_scope.

(** The cells a block at [o] covers: its rows, downwards. *)
Definition covers (o : Z * Z) (b : block) (c : Z * Z) : Prop :=
  c.1 = o.1 /\ (o.2 <= c.2 < o.2 + Z.of_nat (b_rows b))%Z.

(** What C32 says of a program. *)
Definition no_overlaps (f : bfun) : Prop := forall id o1 o2 b1 b2 c,
  bf_block_at f id o1 = Some b1 -> bf_block_at f id o2 = Some b2 -> covers o1 b1 c -> covers o2 b2 c -> o1 = o2.
Definition cells_resolve (f : bfun) : Prop := forall id c o,
  bf_origin_at f id c = Some o <-> exists b, bf_block_at f id o = Some b /\ covers o b c.
Definition unique_ids (f : bfun) : Prop := forall id1 id2 o1 o2 b1 b2,
  bf_block_at f id1 o1 = Some b1 -> bf_block_at f id2 o2 = Some b2 -> b_id b1 = b_id b2 -> id1 = id2 /\ o1 = o2.

(** Block types have at least one row (a block without rows could be placed upon another). *)
Definition types_ok (types : string -> option btype) : Prop := forall t ty, types t = Some ty -> 1 <= t_rows ty.

(** Chains are split with fillers of one row, as the "->" block is. *)
Definition thin_filler (types : string -> option btype) (f : bfun) (o : bop) : Prop :=
  match o with
  | BSplit _ _ _ (Some t) => forall ty, types t = Some ty -> t_rows ty = 1
  | _ => True
  end.
(** Fillers have no areas of their own, and blocks are cloned into areas that exist. *)
Definition plain (types : string -> option btype) (f : bfun) (o : bop) : Prop :=
  match o with
  | BSplit _ _ _ (Some t) => forall ty, types t = Some ty -> t_rows ty = 1 /\ t_areas ty = 0
  | BClone _ _ _ id2 _ _ => id2 < length (f_areas f)
  | _ => True
  end.

(** A history of calls that meet [ok]: each call starts from where the previous one ended, whether it reported an error or not.
    The state has the program and the snapshots saved so far. *)
Inductive edited (types : string -> option btype) (ok : bfun -> bop -> Prop) : bfun * list bsnap -> Prop :=
| edited_new : edited types ok (bfun_new, [])
| edited_step st o fuel st' e : edited types ok st -> ok st.1 o -> bf_step types fuel st o = Some (st', e) -> edited types ok st'.

(** The row of a port that is shifted must exist: a row of the block or a port of its type. *)
Definition shift_in_range (f : bfun) (o : bop) : Prop :=
  match o with
  | BShift id x y row out => forall p b, bf_origin_at f id (x, y) = Some p -> bf_block_at f id p = Some b ->
      row < Nat.max (b_rows b) (length (if out then b_outputs b else b_inputs b))
  | _ => True
  end.

(** Two blocks are connected if an output of the one is on the same height as an input of the other, in the column to the right. *)
Definition port_on (rows : nat) (ps : list (option string)) (y0 y : Z) : Prop :=
  exists r l, r < rows /\ ps !! r = Some (Some l) /\ y = (y0 + Z.of_nat r)%Z.
Definition feeds (f : bfun) (id : nat) (o1 o2 : Z * Z) : Prop := exists b1 b2 y,
  bf_block_at f id o1 = Some b1 /\ bf_block_at f id o2 = Some b2 /\ o2.1 = (o1.1 + 1)%Z /\
  port_on (b_rows b1) (b_outputs b1) o1.2 y /\ port_on (b_rows b2) (b_inputs b2) o2.2 y.
Definition connected (f : bfun) (id : nat) (o1 o2 : Z * Z) : Prop := feeds f id o1 o2 \/ feeds f id o2 o1.

(** The ports of a block, one entry for each row: what is not stored is no port. *)
Definition padded (rows : nat) (ps : list (option string)) : list (option string) := ps ++ replicate (rows - length ps) None.
Definition side (b : block) (out : bool) : list (option string) := if out then b_outputs b else b_inputs b.

(** Shifting the port at [idx], then the same port at its new row, and so on, [k] times. *)
Fixpoint shift_on (k n idx : nat) (out : bool) (b : block) : option block :=
  match k with
  | 0 => Some b
  | S k => match b_shift b idx out with Some b => shift_on k n (S idx mod n) out b | None => None end
  end.
(** Shifting at the same row, [k] times. *)
Fixpoint shift_at (k idx : nat) (out : bool) (b : block) : option block :=
  match k with
  | 0 => Some b
  | S k => match b_shift b idx out with Some b => shift_at k idx out b | None => None end
  end.
(** The block with other ports on one side. *)
Definition with_side (b : block) (out : bool) (ps : list (option string)) : block :=
  Block (b_id b) (b_rows b) (b_contains b) (b_expanded b) (b_typ b) (b_lbl b)
    (if out then b_inputs b else ps) (if out then ps else b_outputs b) (b_color b).

(** Two areas with the same content, up to their sizes. *)
Definition same_blocks (a a' : area) : Prop :=
  a_blocks a' = a_blocks a /\ a_origin a' = a_origin a /\ a_shrink a' = a_shrink a /\ a_header a' = a_header a.

(** The area a block is moved to exists. *)
Definition existing_target (f : bfun) (o : bop) : Prop :=
  match o with BMove _ _ _ id2 _ _ => id2 < length (f_areas f) | _ => True end.
Definition is_clone (o : bop) : bool := match o with BClone _ _ _ _ _ _ => true | _ => false end.

(** [f'] has the same blocks as [f] except at one position. *)
Definition same_except (id : nat) (o : Z * Z) (f f' : bfun) : Prop := forall id' o', (id', o') <> (id, o) ->
  bf_block_at f' id' o' = bf_block_at f id' o' /\ bf_origin_at f' id' o' = bf_origin_at f id' o'.
