(** Specification vocabulary of the MidiP gate modes and the MidiCC node *)
From Verif Require Import Base M_Midi S_Midi.
Open Scope nat_scope.

(** the number of notes that start on a channel *)
Definition note_ons (ch : nat) (es : list midi) : nat :=
  length (filter (fun e => match e with NoteOn c _ _ => c =? ch | _ => false end = true) es).

(** the note that was started last on a channel is released *)
Definition releases (ch : nat) (before es : list midi) : Prop :=
  exists n v, last_started ch before n v /\ NoteOff ch n ∈ es.

(** A trigger generator of its own: in each frame it is triggered a number of times and then gives a sample *)
Fixpoint trig_signal {T V} (ttrigger : T -> T) (tnext : T -> V * T) (t : T) (ons : list nat) : list V :=
  match ons with
  | [] => []
  | k :: ons => let '(v, t) := tnext (Nat.iter k ttrigger t) in v :: trig_signal ttrigger tnext t ons
  end.

(** The same for a gate generator with a gate length in every frame. A note that starts while the gate is up gives one
    frame of silence, in which the generator does not run. [up] says that the gate is up; it counts as down from the
    frame after the note was released. *)
Inductive frame_event := Starts | Releases | Neither.
Fixpoint gate_signal {Gs V L} (gtrigger : Gs -> Gs) (gnext : L -> Gs -> V * Gs) (high : V -> bool) (zero : V)
    (g : Gs) (up : bool) (fs : list (frame_event * L)) : list V :=
  match fs with
  | [] => []
  | (e, len) :: fs =>
      let g := match e with Starts => gtrigger g | _ => g end in
      match e, up with
      | Starts, true => zero :: gate_signal gtrigger gnext high zero g true fs
      | _, _ =>
          let '(v, g) := gnext len g in
          v :: gate_signal gtrigger gnext high zero g (match e with Releases => false | _ => high v end) fs
      end
  end.

Definition event_of (ch : nat) (before es : list midi) (e : frame_event) : Prop :=
  match e with
  | Starts => starts ch es
  | Releases => releases ch before es
  | Neither => ~ starts ch es /\ ~ releases ch before es
  end.

(** The value of a controller after the events [es]: that of the last event, and zero before the first one *)
Definition controller (ch cc : nat) (es : list midi) (v : Z) : Prop :=
  (exists pre post, es = pre ++ CC ch cc v :: post /\ forall w, CC ch cc w ∉ post) \/
  ((forall w, CC ch cc w ∉ es) /\ v = 0%Z).

(** A slew limiter of its own, fed with a value and a slew time in every frame *)
Fixpoint slew_signal {W V L} (snext : Z -> L -> W -> V * W) (w : W) (fs : list (Z * L)) : list V :=
  match fs with
  | [] => []
  | (x, l) :: fs => let '(v, w) := snext x l w in v :: slew_signal snext w fs
  end.

(** One of the three controllers of a MidiCC node with the given settings *)
Definition selects (chan cc1 cc2 cc3 : Z) (e : midi) : Prop :=
  exists c v, e = CC (Z.to_nat (chan mod 16)) c v /\
    (c = Z.to_nat (cc1 mod 128) \/ c = Z.to_nat (cc2 mod 128) \/ c = Z.to_nat (cc3 mod 128)).

(** The gate mode and the gate length of every frame of a sequence of blocks *)
Definition settings {L} (bs : list (Z * list L)) : list (Z * L) := mjoin ((fun b => (fun l => (b.1, l)) <$> b.2) <$> bs).
