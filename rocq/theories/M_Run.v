(** Model of the recording loops of the executor: src/nodes/node_exec.rs:525-660 [test_run_input] and [test_run]

    The executor is a state with one function [process] that gets the note and control events of the block, the number of frames,
    the input (the same for both channels) and the two output slices, and writes these; [None] is a panic. Setting the sample rate
    and the messages that are handled before the loop belong to the state at the start; sleeping is left out. *)
From Verif Require Import Base M_Midi.

Section run.
  Context {St X : Type} (zero : X) (process : St -> list tev -> list tev -> nat -> list X -> list X -> list X -> option (St * list X * list X)).

  (** [MAX_BLOCK_SIZE], src/dsp/mod.rs *)
  Definition max_block : nat := 128.

  (** [&v[from..from + n]] *)
  Definition range (from n : nat) (v : list X) : option (list X) := if from + n <=? length v then Some (take n (drop from v)) else None.
  (** what is in [v] after a write of a slice of it *)
  Definition put (from : nat) (slice v : list X) : list X := take from v ++ slice ++ drop (from + length slice) v.

  (** src/nodes/node_exec.rs:548-585: the loop with the frames that are left; the fuel is the number of frames *)
  Fixpoint record_loop (fuel : nat) (s : St) (ev : feeder) (offs nframes : nat) (input out_l out_r : list X) : option (St * list X * list X) :=
    match nframes with
    | 0 => Some (s, out_l, out_r)
    | _ =>
        match fuel with
        | 0 => None
        | S fuel =>
            let cur := if max_block <=? nframes then max_block else nframes in
            let nframes := nframes - cur in
            let* (ev, (notes, ccs)) := feed_midi [] ev offs cur in
            let* sl := range offs cur out_l in
            let* sr := range offs cur out_r in
            let* i := range offs cur input in
            let* (s, l, r) := process s notes ccs cur i sl sr in
            record_loop fuel s ev (offs + cur) nframes input (put offs l out_l) (put offs r out_r)
        end
    end.

  (** src/nodes/node_exec.rs:525-588 *)
  Definition record_input (s : St) (input : list X) (events : list tev) : option (St * list X * list X) :=
    let n := length input in
    record_loop n s (Feeder None events) 0 n input (replicate n zero) (replicate n zero).
  (** src/nodes/node_exec.rs:602-664, for a number of seconds with [nframes] samples *)
  Definition record (s : St) (nframes : nat) (events : list tev) : option (St * list X * list X) :=
    let input := replicate nframes zero in
    record_loop nframes s (Feeder None events) 0 nframes input (replicate nframes zero) (replicate nframes zero).
End run.
