(** When an area of a block program is large enough for what is in it (C70) *)
From stdpp Require Import strings.
From Verif Require Import Base M_Block M_Size S_Block S_Edit.
Open Scope list_scope.
Open Scope nat_scope.

(** The areas that are shown: the root, and those inside the blocks of areas that are shown *)
Definition lies_in (f : bfun) (i s : nat) : Prop := exists p b, bf_block_at f i p = Some b /\ s ∈ inside b.
Definition shown (f : bfun) (id : nat) : Prop := rtc (lies_in f) 0 id.

(** Each area is inside at most one block, and the root is inside none. *)
Definition owned_once (f : bfun) : Prop :=
  (forall i i' p p' b b' s, bf_block_at f i p = Some b -> bf_block_at f i' p' = Some b' -> s ∈ inside b -> s ∈ inside b' -> i = i' /\ p = p') /\
  (forall i, ~ lies_in f i 0).

(** A space of [w] columns and [h] rows has room for the blocks of an area, and for the areas that are shown within a block: the first below its
    header row, the second below the first and one further row, each with one row or column around. Cells left of or above the area count as 0. *)
Definition room_for (x y : Z) (w h : nat) (W H : nat) : Prop := (Z.max 0 x + Z.of_nat w < Z.of_nat W /\ Z.max 0 y + Z.of_nat h < Z.of_nat H)%Z.
Definition holds (f : bfun) (id : nat) (W H : nat) : Prop :=
  1 <= W /\ 1 <= H /\ forall p b, bf_block_at f id p = Some b ->
    (forall r, r < b_rows b -> room_for p.1 (p.2 + Z.of_nat r) 0 0 W H) /\
    (forall s, (b_contains b).1 = Some s -> room_for p.1 p.2 (bf_area_size f s).1 ((bf_area_size f s).2 + 1) W H) /\
    (forall s, (b_contains b).2 = Some s ->
       room_for p.1 p.2 (bf_area_size f s).1 ((bf_area_size f s).2 + from_option (fun s1 => (bf_area_size f s1).2 + 2) 1 (b_contains b).1) W H).

(** Areas of blocks shrink to what is in them. *)
Definition shrinks (f : bfun) (id : nat) : Prop := exists a, f_areas f !! id = Some a /\ a_shrink a = true.

(** The program that a snapshot was saved from *)
Definition saved (s : bsnap) : bfun := BFun (sn_areas s) (sn_id s) 0.
