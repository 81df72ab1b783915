(** The equal temperament (C72) *)
From Coq Require Import Reals.
Open Scope R_scope.

(** The frequency of a key of the piano, by its MIDI number: the octave is divided in twelve equal steps, key 69 has 440 Hz. Fractions are allowed. *)
Definition tempered (key : R) : R := 440 * Rpower 2 ((key - 69) / 12).

(** The keys within ten octaves of 440 Hz *)
Definition playable (key : R) : Prop := 69 - 120 <= key <= 69 + 120.
