(** Specification vocabulary of the MIDI properties *)
From Coq Require Import Sorting.Sorted.
From Verif Require Import Base M_Midi.
Open Scope nat_scope.

(** Events in the order of their times *)
Definition time_ordered (evs : list tev) : Prop := StronglySorted (fun a b => te_time a <= te_time b) evs.

(** The kinds of the events at time [t], and of those before it *)
Definition events_at (evs : list tev) (t : nat) : list midi := te_kind <$> filter (fun e => te_time e = t) evs.
Definition events_before (evs : list tev) (t : nat) : list midi := te_kind <$> filter (fun e => te_time e < t) evs.

Definition notes_of (es : list midi) : list midi := filter (fun e => midi_is_cc e = false) es.
Definition ccs_of (es : list midi) : list midi := filter (fun e => midi_is_cc e = true) es.

(** The first frame of block [i] *)
Definition block_start (sizes : list nat) (i : nat) : nat := sum_list (take i sizes).

(** No block has more events than its lists have room for *)
Definition within_limits (evs : list tev) (blocks : list (list midi * nat)) : Prop :=
  forall i inj n, blocks !! i = Some (inj, n) ->
    let evs' := te_kind <$> filter (fun e => block_start blocks.*2 i <= te_time e < block_start blocks.*2 i + n) evs in
    length (notes_of inj) + length (notes_of evs') < max_notes_per_block /\
    length (ccs_of inj) + length (ccs_of evs') < max_ccs_per_block.

(** Note [n] is held on a channel after the events [es]: it was the last one started, and not released since *)
Definition held (ch : nat) (es : list midi) (n : nat) : Prop :=
  exists pre v post, es = pre ++ NoteOn ch n v :: post /\
    (forall n' v', NoteOn ch n' v' ∉ post) /\ NoteOff ch n ∉ post.
Definition last_started (ch : nat) (es : list midi) (n : nat) (v : Z) : Prop :=
  exists pre post, es = pre ++ NoteOn ch n v :: post /\ forall n' v', NoteOn ch n' v' ∉ post.

(** A note starts on the channel *)
Definition starts (ch : nat) (es : list midi) : Prop := exists n v, NoteOn ch n v ∈ es.

(** The note events of a channel *)
Definition on_channel (ch : nat) (e : midi) : bool :=
  match e with NoteOn c _ _ | NoteOff c _ => c =? ch | CC _ _ _ => false end.
