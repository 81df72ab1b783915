(** Model of the MidiP node with all its gate modes, src/dsp/node_midip.rs, and of the MidiCC node,
    src/dsp/node_midicc.rs *)
From Verif Require Import Base M_Midi.
Open Scope nat_scope.

Section midip.
  (** [TrigSignal] and [GateSignal] of [synfx_dsp] with their methods [trigger] and [next]; [V] are samples, [L] gate
      lengths, and [ceil8 x] is [x.ceil() as u8] *)
  Context {T Gs V L : Type} (ttrigger : T -> T) (tnext : T -> V * T) (gtrigger : Gs -> Gs) (gnext : L -> Gs -> V * Gs)
    (ceil8 : V -> nat) (zero one : V).

  (** src/dsp/node_midip.rs:34-53 *)
  Record midipn := MidiPN { mn_core : midip; mn_trig : T; mn_gate : Gs }.

  (** src/dsp/node_midip.rs:135-166, one event *)
  Definition midipn_event (chan : nat) (s : midipn) (e : midi) : midipn :=
    let core := midip_event chan (mn_core s) e in
    match e with
    | NoteOn channel _ _ =>
        if negb (channel =? chan) then s else MidiPN core (ttrigger (mn_trig s)) (gtrigger (mn_gate s))
    | _ => MidiPN core (mn_trig s) (mn_gate s)
    end.

  (** samples of the outputs: gate, note and velocity; the pitch is a function of the note *)
  Record midipn_out := MNOut { mno_gate : V; mno_note : nat; mno_vel : Z }.

  (** src/dsp/node_midip.rs:125-196, one frame *)
  Definition midipn_frame (chan : nat) (gmode : Z) (s : midipn) (es : list midi) (glen : L) : midipn * midipn_out :=
    let c := mn_core s in
    let gate := if (0 <? mp_next c)%Z then 1 else if (mp_next c <? 0)%Z then 0 else mp_gate c in
    let s := MidiPN (MidiP 0 (mp_note c) gate (mp_vel c)) (mn_trig s) (mn_gate s) in
    let s := foldl (midipn_event chan) s es in
    let c := mn_core s in
    let '(s, v) :=
      if (gmode =? 1)%Z then let '(v, t) := tnext (mn_trig s) in (MidiPN c t (mn_gate s), v)
      else if (gmode =? 2)%Z then
        if (0 <? mp_next c)%Z then (MidiPN (MidiP (mp_next c) (mp_note c) 0 (mp_vel c)) (mn_trig s) (mn_gate s), zero)
        else let '(v, g) := gnext glen (mn_gate s) in (MidiPN (MidiP (mp_next c) (mp_note c) (ceil8 v) (mp_vel c)) (mn_trig s) g, v)
      else (s, if 0 <? mp_gate c then one else zero) in
    (s, MNOut v (mp_note c) (mp_vel c)).

  Fixpoint midipn_frames (chan : nat) (gmode : Z) (s : midipn) (fs : list (list midi * L)) : midipn * list midipn_out :=
    match fs with
    | [] => (s, [])
    | (es, glen) :: fs =>
        let '(s, o) := midipn_frame chan gmode s es glen in
        let '(s, os) := midipn_frames chan gmode s fs in
        (s, o :: os)
    end.

  (** Blocks with their notes, gate mode and the gate length of each frame *)
  Fixpoint midipn_blocks (chan : nat) (s : midipn) (blocks : list (list tev * (Z * list L))) : list midipn_out :=
    match blocks with
    | [] => []
    | (notes, (gmode, glens)) :: blocks =>
        let '(s, os) := midipn_frames chan gmode s (zip (node_reads 0 (length glens) notes) glens) in
        os ++ midipn_blocks chan s blocks
    end.
End midip.

Section midicc.
  (** [SlewValue] of [synfx_dsp] with its method [next] *)
  Context {W V L : Type} (snext : Z -> L -> W -> V * W).

  (** src/dsp/node_midicc.rs:19-27 *)
  Record midicc := MidiCC { mc_cur : Z * Z * Z; mc_slew : W * W * W }.

  (** src/dsp/node_midicc.rs:113-130, one event; the flag says whether a value was set *)
  Definition midicc_event (chan cc1 cc2 cc3 : nat) (sc : midicc * bool) (e : midi) : midicc * bool :=
    let '(s, change) := sc in
    match e with
    | CC channel cc value =>
        let '(v1, v2, v3) := mc_cur s in
        if negb (channel =? chan) then (s, change)
        else if cc =? cc1 then (MidiCC (value, v2, v3) (mc_slew s), true)
        else if cc =? cc2 then (MidiCC (v1, value, v3) (mc_slew s), true)
        else if cc =? cc3 then (MidiCC (v1, v2, value) (mc_slew s), true)
        else (s, change)
    | _ => (s, change)
    end.

  (** src/dsp/node_midicc.rs:110-136, one frame: the samples of the three outputs *)
  Definition midicc_frame (chan cc1 cc2 cc3 : nat) (sc : midicc * bool) (es : list midi) (slew : L) : (midicc * bool) * (V * V * V) :=
    let '(s, change) := foldl (midicc_event chan cc1 cc2 cc3) sc es in
    let '(v1, v2, v3) := mc_cur s in
    let '(w1, w2, w3) := mc_slew s in
    let '(o1, w1) := snext v1 slew w1 in
    let '(o2, w2) := snext v2 slew w2 in
    let '(o3, w3) := snext v3 slew w3 in
    ((MidiCC (v1, v2, v3) (w1, w2, w3), change), (o1, o2, o3)).
  Fixpoint midicc_frames (chan cc1 cc2 cc3 : nat) (sc : midicc * bool) (fs : list (list midi * L)) : (midicc * bool) * list (V * V * V) :=
    match fs with
    | [] => (sc, [])
    | (es, slew) :: fs =>
        let '(sc, o) := midicc_frame chan cc1 cc2 cc3 sc es slew in
        let '(sc, os) := midicc_frames chan cc1 cc2 cc3 sc fs in
        (sc, o :: os)
    end.

  (** src/dsp/node_midicc.rs:84-139 [process]: one block with its control events, the settings and the slew of each frame;
      the result is the samples and the LED. [i as usize % 16] is [i mod 16] for negative settings, too, as 16 divides 2^64. *)
  Definition midicc_block (chan cc1 cc2 cc3 : Z) (s : midicc) (ccs : list tev) (slews : list L) : midicc * (list (V * V * V) * bool) :=
    let n z m := Z.to_nat (z mod m)%Z in
    let '((s, change), os) :=
      midicc_frames (n chan 16%Z) (n cc1 128%Z) (n cc2 128%Z) (n cc3 128%Z) (s, false) (zip (node_reads 0 (length slews) ccs) slews) in
    (s, (os, change)).
  Fixpoint midicc_blocks (chan cc1 cc2 cc3 : Z) (s : midicc) (blocks : list (list tev * list L)) : list (list (V * V * V) * bool) :=
    match blocks with
    | [] => []
    | (ccs, slews) :: blocks =>
        let '(s, o) := midicc_block chan cc1 cc2 cc3 s ccs slews in
        o :: midicc_blocks chan cc1 cc2 cc3 s blocks
    end.
End midicc.
