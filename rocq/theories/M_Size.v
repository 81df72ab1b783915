(** The size of an area of a block program as users read it *)
From stdpp Require Import strings.
From Verif Require Import Base M_Block.

(** src/wblockdsp/language.rs:1775-1777 [area_size] *)
Definition bf_area_size (f : bfun) (id : nat) : nat * nat := from_option a_size (0, 0) (f_areas f !! id).
