(** Specification vocabulary of recordings *)
From Verif Require Import Base M_Midi S_Midi.

Section run.
  Context {St X : Type} (step : St -> X -> list midi -> list midi -> St * (X * X)).

  (** One frame after the other from time [t] on, each with its input sample and the events of its time *)
  Fixpoint frame_by_frame (events : list tev) (s : St) (t : nat) (input : list X) : St * list (X * X) :=
    match input with
    | [] => (s, [])
    | x :: input =>
        let '(s, o) := step s x (notes_of (events_at events t)) (ccs_of (events_at events t)) in
        let '(s, os) := frame_by_frame events s (S t) input in (s, o :: os)
    end.

  (** An engine that works frame by frame: in a block each frame reads the events of its number from the lists of the block *)
  Fixpoint through (s : St) (input : list X) (notes ccs : list (list midi)) : St * list (X * X) :=
    match input, notes, ccs with
    | x :: input, n :: notes, c :: ccs =>
        let '(s, o) := step s x n c in
        let '(s, os) := through s input notes ccs in (s, o :: os)
    | _, _, _ => (s, [])
    end.
  Definition frame_wise (s : St) (notes ccs : list tev) (n : nat) (input out_l out_r : list X) : option (St * list X * list X) :=
    let '(s, os) := through s input (node_reads 0 n notes) (node_reads 0 n ccs) in Some (s, os.*1, os.*2).
End run.

(** Blocks of 128 frames with a shorter one at the end *)
Definition block_sizes (n : nat) : list nat := replicate (n / 128) 128 ++ (if n mod 128 =? 0 then [] else [n mod 128]).
(** Fewer than 512 notes and 1024 control events in each of these blocks *)
Definition few_events (events : list tev) (n : nat) : Prop := within_limits events ((fun k => ([], k)) <$> block_sizes n).
