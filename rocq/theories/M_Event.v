(** Model of the events that come back from the audio thread: [inject_midi_event] and [next_event] of src/nodes/node_conf.rs, the
    injection and the copies sent to the frontend of src/nodes/node_exec.rs, and [handle_graph_events] of src/matrix.rs *)
From Verif Require Import Base M_Midi.
Open Scope nat_scope.

(** src/nodes/node_conf.rs:22 [NODE_COMMUNICATION_BUFFER_SIZE], used for both ring buffers at 273 and 275 *)
Definition comm_size : nat := 512.
(** src/nodes/mod.rs:8 [MAX_INJ_MIDI_EVENTS] *)
Definition max_injected : nat := 64.

(** [push] of the ring buffers (ringbuf crate) with its result ignored: a full buffer drops the new element *)
Definition ring_push {A} (r : list A) (x : A) : list A := if length r <? comm_size then r ++ [x] else r.

(** src/nodes/node_exec.rs:348-363: the loop of [feed_loop] with the kinds of the events that it pushes to [graph_event_prod], line 355 *)
Fixpoint feed_loop_ev (fuel : nat) (s : feeder) (offs n : nat) (nc : list tev * list tev) : option (feeder * (list tev * list tev) * list midi) :=
  match fuel with
  | 0 => None
  | S fuel =>
      let* (s, ev) := next_event s offs n in
      match ev with
      | None => Some (s, nc, [])
      | Some e =>
          let nc := push_event nc e in
          if (length nc.2 =? max_ccs_per_block) || (length nc.1 =? max_notes_per_block) then Some (s, nc, [te_kind e])
          else
            let* (s, nc, copies) := feed_loop_ev fuel s offs n nc in
            Some (s, nc, te_kind e :: copies)
      end
  end.

(** src/nodes/node_exec.rs:330-364 [feed_midi_events_from] with the copies of the injected events, line 342 *)
Definition feed_midi_ev (injected : list midi) (s : feeder) (offs n : nat) : option (feeder * (list tev * list tev) * list midi) :=
  let* (s, nc, copies) := feed_loop_ev (S (S (length (fd_rest s)))) s offs n (foldl push_event ([], []) (TEv 0 <$> rev injected)) in
  Some (s, nc, rev injected ++ copies).

(** The two threads. [ev_up]: the messages to the audio thread ([graph_update_prod]), [None] for one that injects nothing;
    [ev_inj]: [injected_midi] of src/nodes/node_exec.rs:63; [ev_todo]: the copies that the running block has not pushed yet;
    [ev_ring]: [graph_event_prod]; [ev_on]: an observer is set. [ev_told] and [ev_blocks] record what can be seen from outside: the
    events given to the observer, and the notes and controls the nodes see in each block. *)
Record evst := EvSt { ev_up : list (option midi); ev_inj : list midi; ev_todo : list midi; ev_ring : list midi; ev_on : bool;
  ev_told : list midi; ev_blocks : list (list tev * list tev) }.
Definition evst_new : evst := EvSt [] [] [] [] false [] [].

(** The steps of both threads, in any order. [EInject], [EOther], [EPoll] and [EObserver] are the frontend's, the others the audio
    thread's. *)
Inductive estep :=
| EInject (e : midi)
| EOther
| EApply
| EBlock (s : feeder) (offs n : nat)
| ECopy
| EPoll
| EObserver (on : bool).

(** One step. [None]: the step is not possible now, or the audio thread panics.
    - [EInject]: src/matrix.rs:1517-1519 and src/nodes/node_conf.rs:1012-1014 [inject_midi_event]; [EOther]: any other message
    - [EApply]: one round of [process_graph_updates], src/nodes/node_exec.rs:203-309, with the injection at 302-306; possible between blocks
    - [EBlock]: [feed_midi_events_from] of the next block with any source of events; the copies are pushed one by one by [ECopy]
    - [EPoll]: one round of [handle_graph_events], src/matrix.rs:1524-1533, with [next_event], src/nodes/node_conf.rs:1017-1019
    - [EObserver]: [set_observer], src/matrix.rs:548-550, or a matrix without one *)
Definition ev_step (s : evst) (c : estep) : option evst :=
  match c with
  | EInject e => Some (EvSt (ring_push (ev_up s) (Some e)) (ev_inj s) (ev_todo s) (ev_ring s) (ev_on s) (ev_told s) (ev_blocks s))
  | EOther => Some (EvSt (ring_push (ev_up s) None) (ev_inj s) (ev_todo s) (ev_ring s) (ev_on s) (ev_told s) (ev_blocks s))
  | EApply =>
      match ev_todo s, ev_up s with
      | [], m :: up =>
          let inj := match m with
                     | Some e => if length (ev_inj s) <? max_injected then ev_inj s ++ [e] else ev_inj s
                     | None => ev_inj s
                     end in
          Some (EvSt up inj [] (ev_ring s) (ev_on s) (ev_told s) (ev_blocks s))
      | _, _ => None
      end
  | EBlock fd offs n =>
      match ev_todo s with
      | [] =>
          let* (_, nc, copies) := feed_midi_ev (ev_inj s) fd offs n in
          Some (EvSt (ev_up s) [] copies (ev_ring s) (ev_on s) (ev_told s) (ev_blocks s ++ [nc]))
      | _ => None
      end
  | ECopy =>
      match ev_todo s with
      | e :: todo => Some (EvSt (ev_up s) (ev_inj s) todo (ring_push (ev_ring s) e) (ev_on s) (ev_told s) (ev_blocks s))
      | [] => None
      end
  | EPoll =>
      match ev_ring s with
      | e :: ring => Some (EvSt (ev_up s) (ev_inj s) (ev_todo s) ring (ev_on s) (if ev_on s then ev_told s ++ [e] else ev_told s) (ev_blocks s))
      | [] => Some s
      end
  | EObserver on => Some (EvSt (ev_up s) (ev_inj s) (ev_todo s) (ev_ring s) on (ev_told s) (ev_blocks s))
  end.

Fixpoint ev_run (s : evst) (tr : list estep) : option evst :=
  match tr with
  | [] => Some s
  | c :: tr => let* s := ev_step s c in ev_run s tr
  end.
