(** What a patch plays when the host calls the audio thread with blocks of various lengths (C60) *)
From Verif Require Import Base M_Atom M_Grid M_Layout M_Prog M_Conf M_Exec M_Sync M_Engine S_Prog S_Flow.
Open Scope nat_scope.

(** the values of several signals in one frame, and setting them *)
Definition at_frame (f : nat) (bufs : list (list f32)) : list f32 := (fun b => default f32_zero (b !! f)) <$> bufs.
Definition put_frame (f : nat) (vs : list f32) (bufs : list (list f32)) : list (list f32) :=
  imap (fun j b => <[f := default f32_zero (vs !! j)]> b) bufs.

(** [stp] handles the frames [f], [f + 1], ..., [f + n - 1] one after the other: from the state and the values of the parameters and
    inputs in the frame it makes the next state and the values of all outputs in the frame *)
Fixpoint run_frames {S} (stp : S -> list f32 -> list f32 -> S * list f32) (s : S) (f n : nat) (own ins outs : list (list f32))
  : S * list (list f32) :=
  match n with
  | 0 => (s, outs)
  | Datatypes.S n =>
      let '(s, vs) := stp s (at_frame f own) (at_frame f ins) in
      run_frames stp s (Datatypes.S f) n own ins (put_frame f vs outs)
  end.

(** Nodes that work frame by frame: [step] is any function that tells what a node does in one frame, given its state, which ports are
    connected and its atoms. Every node has a state of its own; what an input node will get from the host and what an output node gave to
    it are part of this state. Most nodes have this form ([for frame in 0..ctx.nframes()] in src/dsp/node_*.rs). Among those that do not:
    BiqFilt, Sampl and Scope read some parameter once in a block, FbWr/FbRd and the code nodes share a state, ExtA to ExtF
    leave their outputs as they are as long as no external parameters are set. *)
Definition frame_sem {S} (step : node_id -> N -> N -> list satom -> S -> list f32 -> list f32 -> S * list f32)
    (id : node_id) (st : node_id -> S) (nframes : nat) (outc inc : N) (ats : list satom)
    (own ins old : list (list f32)) : (node_id -> S) * list (list f32) :=
  let '(s, outs) := run_frames (step id outc inc ats) (st id) 0 nframes own ins old in
  (fun x => if decide (x = id) then s else st x, outs).

Section play.
  Context (T : ntable) (i2f : Z -> f32) (load_sample : satom -> satom).
  Context (finc : f32 -> f32 -> nat -> f32) (fadd : f32 -> f32 -> f32) (mix : f32 -> f32 -> f32 -> f32).
  Context {St : Type}.
  Context (node_sem : node_id -> St -> nat -> N -> N -> list satom ->
                      list (list f32) -> list (list f32) -> list (list f32) -> St * list (list f32)).

  (** after a block of [nframes] frames: for every node that runs and every output of it, the frames of the block *)
  Definition heard (n : engine St) (nframes : nat) : list (list (list f32)) :=
    let p := ex_prog (en_exec n) in
    (fun op => (fun j => take nframes (default [] (samples (en_heap n) (out_buf p op j)))) <$> seq 0 (kind_outs T (op_node op))) <$> np_ops p.

  (** blocks of the given lengths, one after the other: the engine at the end, and the whole signal of every output *)
  Fixpoint play (n : engine St) (blocks : list nat) : option (engine St * list (list (list f32))) :=
    match blocks with
    | [] => Some (n, heard n 0)
    | nf :: blocks =>
        let* n1 := engine_step T i2f load_sample finc fadd mix node_sem n (EBlock nf) in
        let* (n2, rest) := play n1 blocks in
        Some (n2, zip_with (zip_with app) (heard n1 nf) rest)
    end.
End play.
