(** The Code node (src/dsp/node_code.rs): the program that the engine accepted last is run on six inputs, frame by frame.

    Simplifications: the engine is another crate's (synfx_dsp_jit), an arbitrary state machine [engine]; the queue on which the accepted programs
    come is unbounded, and a program is put into it or taken from it in one step. *)
From Verif Require Import Base.
Open Scope list_scope.
Open Scope nat_scope.

(** What the engine can do: take over a program, forget its state, get a sample rate, and calculate a frame. The result of a frame is
    [(s1, s2, ret)] as in src/dsp/node_code.rs:160 *)
Record engine (F C : Type) := Engine {
  en_state : Type; en_take : en_state -> C -> en_state; en_clear : en_state -> en_state; en_rate : en_state -> F -> en_state;
  en_frame : en_state -> F -> F -> F -> F -> F -> F -> en_state * (F * F * F) }.
Arguments en_state {F C}. Arguments en_take {F C}. Arguments en_clear {F C}. Arguments en_rate {F C}. Arguments en_frame {F C}. Arguments Engine {F C}.

Section node.
  Context {F C : Type} (zero : F) (X : engine F C).

  (** src/dsp/node_code.rs:15-19 [Code]: the backend with the programs that wait for it; the field [srate] is never read *)
  Record cnode := CNode { cn_backend : option (list C * en_state X) }.

  (** src/dsp/node_code.rs:37-57 [new], with the state of a new backend *)
  Definition cnode_new (e : en_state X) : cnode := CNode (Some ([], e)).
  (** src/dsp/node_code.rs:27-35 [clone] *)
  Definition cnode_clone (c : cnode) : cnode := CNode None.

  (** The engine accepts a program for this node (in the user's thread) *)
  Definition cnode_send (c : cnode) (p : C) : cnode :=
    match cn_backend c with Some (q, e) => CNode (Some (q ++ [p], e)) | None => c end.

  (** src/dsp/node_code.rs:105-111 [set_sample_rate] *)
  Definition cnode_rate (c : cnode) (r : F) : cnode :=
    match cn_backend c with Some (q, e) => CNode (Some (q, en_rate X e r)) | None => c end.
  (** src/dsp/node_code.rs:113-118 [reset] *)
  Definition cnode_reset (c : cnode) : cnode :=
    match cn_backend c with Some (q, e) => CNode (Some (q, en_clear X e)) | None => c end.

  (** [ProcBuf::write] (src/dsp/mod.rs:804-808); outside of the buffer is a panic here *)
  Definition cn_write (buf : list F) (frame : nat) (v : F) : option (list F) :=
    if frame <? length buf then Some (<[frame := v]> buf) else None.

  (** src/dsp/node_code.rs:159-171: the loop over the frames; [led] is [(ret, s1)] *)
  Fixpoint code_frames (k frame : nat) (e : en_state X) (in1 in2 a b d g sig sig1 sig2 : list F) (led : F * F)
      : option (en_state X * (list F * list F * list F) * (F * F)) :=
    match k with
    | 0 => Some (e, (sig, sig1, sig2), led)
    | S k =>
        let* x1 := in1 !! frame in
        let* x2 := in2 !! frame in
        let* xa := a !! frame in
        let* xb := b !! frame in
        let* xd := d !! frame in
        let* xg := g !! frame in
        let '(e, (s1, s2, ret)) := en_frame X e x1 x2 xa xb xd xg in
        let* sig := cn_write sig frame ret in
        let* sig1 := cn_write sig1 frame s1 in
        let* sig2 := cn_write sig2 frame s2 in
        code_frames k (S frame) e in1 in2 a b d g sig sig1 sig2 (ret, s1)
    end.

  (** src/dsp/node_code.rs:121-178 [process]: the ports are in the order of src/dsp/mod.rs:1504-1513, and [leds] are the values that
      the node shows *)
  Definition cnode_process (c : cnode) (nframes : nat) (ins outs : list (list F)) (leds : F * F)
      : option (cnode * list (list F) * (F * F)) :=
    match ins, outs with
    | [in1; in2; a; b; d; g], [sig; sig1; sig2] =>
        match cn_backend c with
        | None => Some (c, outs, leds)
        | Some (q, e) =>
            let e := foldl (en_take X) e q in
            let* (e, (sig, sig1, sig2), led) := code_frames nframes 0 e in1 in2 a b d g sig sig1 sig2 (zero, zero) in
            Some (CNode (Some ([], e)), [sig; sig1; sig2], led)
        end
    | _, _ => None
    end.

  (** What happens to a node *)
  Inductive cevent := ESend (p : C) | ERate (r : F) | EReset | EBlock (nframes : nat) (ins : list (list F)).

  (** A node over a history; each block starts with the output buffers and LEDs that the last one left *)
  Definition cstate : Type := cnode * list (list F) * (F * F).
  Definition cnode_step (s : cstate) (ev : cevent) : option cstate :=
    let '(c, outs, leds) := s in
    match ev with
    | ESend p => Some (cnode_send c p, outs, leds)
    | ERate r => Some (cnode_rate c r, outs, leds)
    | EReset => Some (cnode_reset c, outs, leds)
    | EBlock n ins => cnode_process c n ins outs leds
    end.
  Fixpoint cnode_run (s : cstate) (evs : list cevent) : option cstate :=
    match evs with
    | [] => Some s
    | ev :: evs => let* s := cnode_step s ev in cnode_run s evs
    end.
End node.
Arguments CNode {F C X}. Arguments cn_backend {F C X}. Arguments ESend {F C}. Arguments ERate {F C}. Arguments EReset {F C}. Arguments EBlock {F C}.
