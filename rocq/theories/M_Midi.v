(** Model of the MIDI event delivery: src/nodes/midi.rs, [feed_midi_events_from] and the block loop of
    src/nodes/node_exec.rs, and the gate of the MidiP node, src/dsp/node_midip.rs *)
From Verif Require Import Base.
Open Scope nat_scope.

(** src/nodes/midi.rs:60-65 [enum HxMidiEvent]; velocities and values are opaque *)
Inductive midi :=
| NoteOn (channel note : nat) (vel : Z)
| NoteOff (channel note : nat)
| CC (channel cc : nat) (value : Z).
Global Instance midi_eq_dec : EqDecision midi.
Proof. solve_decision. Defined.

(** src/nodes/midi.rs:5-10 [struct HxTimedEvent] *)
Record tev := TEv { te_time : nat; te_kind : midi }.

(** src/nodes/midi.rs:17-23 [is_cc] *)
Definition midi_is_cc (e : midi) : bool := match e with CC _ _ _ => true | _ => false end.

(** src/nodes/node_exec.rs:27-28 *)
Definition max_notes_per_block : nat := 512.
Definition max_ccs_per_block : nat := 1024.

(** src/nodes/midi.rs:67-69 [struct EventWindowing] and the events not yet fed to it, [events[ev_idx..]] of
    src/nodes/node_exec.rs:535-549 *)
Record feeder := Feeder { fd_win : option tev; fd_rest : list tev }.

(** The closure of src/nodes/node_exec.rs:552-563 with [feed_me], [feed] and [next_event_in_range],
    src/nodes/midi.rs:76-101. [None]: the subtraction [event.timing - to_time] underflows, which panics (debug build). *)
Definition next_event (s : feeder) (to_time block_size : nat) : option (feeder * option tev) :=
  match fd_win s, fd_rest s with
  | None, [] => Some (s, None)
  | w, rest =>
      let '(w, rest) := match w, rest with None, e :: rest => (Some e, rest) | _, _ => (w, rest) end in
      match w with
      | None => Some (Feeder None rest, None)
      | Some e =>
          if te_time e <? to_time + block_size then
            if te_time e <? to_time then None
            else Some (Feeder None rest, Some (TEv (te_time e - to_time) (te_kind e)))
          else Some (Feeder (Some e) rest, None)
      end
  end.

(** src/nodes/node_exec.rs:334-343 and 348-353: an event is added to the list of its kind *)
Definition push_event (nc : list tev * list tev) (e : tev) : list tev * list tev :=
  if midi_is_cc (te_kind e) then (nc.1, nc.2 ++ [e]) else (nc.1 ++ [e], nc.2).

(** src/nodes/node_exec.rs:348-363, the loop that asks for events. The fuel is more than the number of events left. *)
Fixpoint feed_loop (fuel : nat) (s : feeder) (offs n : nat) (nc : list tev * list tev) : option (feeder * (list tev * list tev)) :=
  match fuel with
  | 0 => None
  | S fuel =>
      let* (s, ev) := next_event s offs n in
      match ev with
      | None => Some (s, nc)
      | Some e =>
          let nc := push_event nc e in
          if (length nc.2 =? max_ccs_per_block) || (length nc.1 =? max_notes_per_block) then Some (s, nc)
          else feed_loop fuel s offs n nc
      end
  end.

(** src/nodes/node_exec.rs:330-364 [feed_midi_events_from], without the copies sent to the frontend *)
Definition feed_midi (injected : list midi) (s : feeder) (offs n : nat) : option (feeder * (list tev * list tev)) :=
  feed_loop (S (S (length (fd_rest s)))) s offs n (foldl push_event ([], []) (TEv 0 <$> rev injected)).

(** src/nodes/node_exec.rs:546-585, the block loop: every block has a number of frames and the events injected before it.
    The result holds the note and the control events that the nodes see in each block. *)
Fixpoint run_blocks (s : feeder) (offs : nat) (blocks : list (list midi * nat)) : option (list (list tev * list tev)) :=
  match blocks with
  | [] => Some []
  | (inj, n) :: blocks =>
      let* (s, nc) := feed_midi inj s offs n in
      let* rest := run_blocks s (offs + n) blocks in
      Some (nc :: rest)
  end.

(** src/nodes/midi.rs:41-58 [MidiEventPointer]: [buf] is [buf[idx..]]; all events a [while let] over [next_at(frame)] sees *)
Fixpoint take_at (frame : nat) (buf : list tev) : list midi * list tev :=
  match buf with
  | [] => ([], [])
  | e :: buf' =>
      if te_time e <=? frame then let '(es, buf'') := take_at frame buf' in (te_kind e :: es, buf'') else ([], buf)
  end.

(** The frame loop of a node: the events of the frames [frame .. frame + n) *)
Fixpoint node_reads (frame n : nat) (buf : list tev) : list (list midi) :=
  match n with
  | 0 => []
  | S n => let '(es, buf) := take_at frame buf in es :: node_reads (S frame) n buf
  end.

(** src/dsp/node_midip.rs:34-53: the part of the state of a MidiP node that the gate mode 0 uses *)
Record midip := MidiP { mp_next : Z; mp_note : nat; mp_gate : nat; mp_vel : Z }.
Definition midip_new : midip := MidiP 0 0 0 0.

(** src/dsp/node_midip.rs:135-166, one event *)
Definition midip_event (chan : nat) (s : midip) (e : midi) : midip :=
  match e with
  | NoteOn channel note vel =>
      if negb (channel =? chan) then s
      else
        let s := if 0 <? mp_gate s then MidiP 1 (mp_note s) 0 (mp_vel s) else MidiP (mp_next s) (mp_note s) 1 (mp_vel s) in
        MidiP (mp_next s) note (mp_gate s) vel
  | NoteOff channel note =>
      if negb (channel =? chan) then s
      else if mp_note s =? note then MidiP (-1) (mp_note s) (mp_gate s) (mp_vel s) else s
  | CC _ _ _ => s
  end.

(** What a MidiP node writes in one frame: gate (high or low), note and velocity *)
Record midip_out := MOut { mo_gate : bool; mo_note : nat; mo_vel : Z }.

(** src/dsp/node_midip.rs:125-196, one frame in a gate mode other than 1 and 2; the pitch is a function of the note *)
Definition midip_frame (chan : nat) (s : midip) (es : list midi) : midip * midip_out :=
  let gate := if (0 <? mp_next s)%Z then 1 else if (mp_next s <? 0)%Z then 0 else mp_gate s in
  let s := MidiP 0 (mp_note s) gate (mp_vel s) in
  let s := foldl (midip_event chan) s es in
  (s, MOut (0 <? mp_gate s) (mp_note s) (mp_vel s)).
Fixpoint midip_frames (chan : nat) (s : midip) (ess : list (list midi)) : midip * list midip_out :=
  match ess with
  | [] => (s, [])
  | es :: ess =>
      let '(s, o) := midip_frame chan s es in
      let '(s, os) := midip_frames chan s ess in
      (s, o :: os)
  end.

(** One block after the other, each with its notes; the state of the node stays *)
Fixpoint midip_blocks (chan : nat) (s : midip) (blocks : list (list tev * nat)) : list midip_out :=
  match blocks with
  | [] => []
  | (notes, n) :: blocks =>
      let '(s, os) := midip_frames chan s (node_reads 0 n notes) in
      os ++ midip_blocks chan s blocks
  end.
