(** Specification vocabulary for the events that come back from the audio thread *)
From Verif Require Import Base M_Midi S_Midi M_Event.
Open Scope nat_scope.

(** The notes and the controls that the nodes have seen, in order *)
Definition delivered_notes (s : evst) : list midi := mjoin ((fun b => te_kind <$> b.1) <$> ev_blocks s).
Definition delivered_ccs (s : evst) : list midi := mjoin ((fun b => te_kind <$> b.2) <$> ev_blocks s).
Definition delivered_count (s : evst) : nat := length (delivered_notes s) + length (delivered_ccs s).

(** The observer is set from the start to the end *)
Definition observed_throughout (tr : list estep) : Prop :=
  exists tr', tr = EObserver true :: tr' /\ forall b, EObserver b ∉ tr'.

(** The frontend polls often enough: it is never more than 512 events behind *)
Definition keeps_up (tr : list estep) : Prop :=
  forall pre s, pre `prefix_of` tr -> ev_run evst_new pre = Some s -> delivered_count s <= length (ev_told s) + 512.

(** A whole call of [handle_graph_events] on a quiet audio thread: it polls until there is nothing left *)
Definition handle_all : list estep := replicate 512 EPoll.

(** What a schedule injects, and the sources of the events of its blocks *)
Definition injected_of (tr : list estep) : list midi := omap (fun c => match c with EInject e => Some e | _ => None end) tr.
Definition sources_of (tr : list estep) : list (list tev) :=
  omap (fun c => match c with EBlock fd _ _ => Some (option_list (fd_win fd) ++ fd_rest fd) | _ => None end) tr.

(** Messages on their way to the audio thread, and messages it has taken since its last block *)
Definition on_their_way (tr : list estep) : nat :=
  foldl (fun k c => match c with EInject _ | EOther => S k | EApply => k - 1 | _ => k end) 0 tr.
Definition taken_since_block (tr : list estep) : nat :=
  foldl (fun k c => match c with EApply => S k | EBlock _ _ _ => 0 | _ => k end) 0 tr.

(** The audio thread takes messages often enough, and not too many between two blocks *)
Definition in_time (tr : list estep) : Prop :=
  forall pre, pre `prefix_of` tr -> on_their_way pre <= 512 /\ taken_since_block pre <= 64.

(** A block of the nodes: first the events of [part] at its first frame, the last one first, then events of its source in their order *)
Definition block_of (part : list midi) (source : list tev) (b : list tev * list tev) : Prop :=
  exists host, (te_kind <$> host) `prefix_of` (te_kind <$> source) /\
    b.1 = (TEv 0 <$> notes_of (rev part)) ++ filter (fun e => midi_is_cc (te_kind e) = false) host /\
    b.2 = (TEv 0 <$> ccs_of (rev part)) ++ filter (fun e => midi_is_cc (te_kind e) = true) host.

(** No block is being fed *)
Definition quiet (s : evst) : Prop := ev_todo s = [].
