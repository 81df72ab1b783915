(** Exchanging the DSP code of the [Rust1x1] nodes while the audio thread runs: src/dsp/node_rust.rs and the dynamic node part of
    src/global.rs.

    Simplifications: [U] stands for a [Box<dyn DynamicNode1x1>] together with its inner state, [process] for one call of its
    [process] method. The crate [triple_buffer] is not part of the repository; its operations are modelled step by step as that
    crate documents them: three slots, one owned by the writer, one owned by the reader, one in between, and one atomic exchange per
    publication and per update. The mutex around [NodeGlobalData] makes the calls of the frontend one after the other, so
    there is one frontend program counter. There is one audio thread. *)
From Verif Require Import Base M_Atom M_Prog.
Open Scope nat_scope.

Section dyn.
  (** src/dsp/node_rust.rs:94-106 [RustDummyNode] is [dummy] *)
  Context {U In Out : Type} (dummy : U) (process : U -> In -> U * Out).

  (** [triple_buffer]: the slots, the slot of the [Input], the slot in between and whether it holds something new, the slot of the [Output] *)
  Record tbuf := TBuf { tb_slots : list U; tb_in : nat; tb_back : nat; tb_dirty : bool; tb_out : nat }.
  (** [TripleBuffer::default().split()] *)
  Definition tb_new : tbuf := TBuf [dummy; dummy; dummy] 1 0 false 2.
  (** the first half of [Input::write]: the value replaces (and drops) what the writer's slot held *)
  Definition tb_store (t : tbuf) (u : U) : tbuf := TBuf (<[tb_in t := u]> (tb_slots t)) (tb_in t) (tb_back t) (tb_dirty t) (tb_out t).
  (** the second half of [Input::write]: publish, an atomic exchange *)
  Definition tb_publish (t : tbuf) : tbuf := TBuf (tb_slots t) (tb_back t) (tb_in t) true (tb_out t).
  (** [Output::update] when it found something new: an atomic exchange *)
  Definition tb_swap (t : tbuf) : tbuf := TBuf (tb_slots t) (tb_in t) (tb_out t) false (tb_back t).

  (** src/dsp/node_rust.rs:123-126 [DynNodeHandle]: the buffer its [Input] belongs to and, until it is taken, its [Output] *)
  Record dhandle := DHandle { dh_input : nat; dh_output : option nat }.

  (** Where the two threads are. The audio thread runs node number [k] on input [inp]. *)
  Inductive apc := AIdle | AUpdate (k : nat) (inp : In) (new : bool) | AProcess (k : nat) (inp : In).

  (** The triple buffers allocated so far, [dyn_nodes1x1] (src/global.rs:44-46), the buffer of each [Rust1x1] node in the order
      of their construction (src/dsp/node_rust.rs:163-165), the frontend: the buffer it wrote to and has not yet published, the audio thread *)
  Record dyn := Dyn { dy_bufs : list tbuf; dy_handles : gmap nat dhandle; dy_nodes : list nat; dy_front : option nat; dy_audio : apc }.
  Definition dyn_new : dyn := Dyn [] ∅ [] None AIdle.

  (** [DynNodeHandle::new] (src/dsp/node_rust.rs:138-141), if there is none yet (src/global.rs:228-230, 248-250) *)
  Definition dyn_handle (s : dyn) (i : nat) : dyn * dhandle :=
    match dy_handles s !! i with
    | Some h => (s, h)
    | None =>
        let b := length (dy_bufs s) in
        let h := DHandle b (Some b) in
        (Dyn (dy_bufs s ++ [tb_new]) (<[i := h]> (dy_handles s)) (dy_nodes s) (dy_front s) (dy_audio s), h)
    end.

  (** src/global.rs:227-233 [send_dynamic_node1x1] up to the publication *)
  Definition dyn_send (s : dyn) (i : nat) (u : U) : option dyn :=
    match dy_front s with
    | Some _ => None
    | None =>
        let '(s, h) := dyn_handle s i in
        let* t := dy_bufs s !! dh_input h in
        Some (Dyn (<[dh_input h := tb_store t u]> (dy_bufs s)) (dy_handles s) (dy_nodes s) (Some (dh_input h)) (dy_audio s))
    end.

  (** the publication *)
  Definition dyn_publish (s : dyn) : option dyn :=
    let* b := dy_front s in
    let* t := dy_bufs s !! b in
    Some (Dyn (<[b := tb_publish t]> (dy_bufs s)) (dy_handles s) (dy_nodes s) None (dy_audio s)).

  (** src/dsp/node_rust.rs:168-175 [Rust1x1::new], src/global.rs:244-254 [get_dynamic_node1x1_buffer],
      src/dsp/node_rust.rs:147-156 [get_output_buffer] *)
  Definition dyn_create (s : dyn) (i : nat) : option dyn :=
    match dy_front s with
    | Some _ => None
    | None =>
        let '(s, h) := dyn_handle s i in
        match dh_output h with
        | Some b => Some (Dyn (dy_bufs s) (<[i := DHandle (dh_input h) None]> (dy_handles s)) (dy_nodes s ++ [b]) None (dy_audio s))
        | None =>
            let b := length (dy_bufs s) in
            Some (Dyn (dy_bufs s ++ [tb_new]) (<[i := DHandle b None]> (dy_handles s)) (dy_nodes s ++ [b]) None (dy_audio s))
        end
    end.

  (** src/dsp/node_rust.rs:221-251 [Rust1x1::process], 117-120 [DynNodeBuffer::access]: the look whether there is something new *)
  Definition dyn_look (s : dyn) (k : nat) (inp : In) : option dyn :=
    match dy_audio s with
    | AIdle =>
        let* b := dy_nodes s !! k in
        let* t := dy_bufs s !! b in
        Some (Dyn (dy_bufs s) (dy_handles s) (dy_nodes s) (dy_front s) (AUpdate k inp (tb_dirty t)))
    | _ => None
    end.
  (** the exchange, if there was *)
  Definition dyn_update (s : dyn) : option dyn :=
    match dy_audio s with
    | AUpdate k inp new =>
        let* b := dy_nodes s !! k in
        let* t := dy_bufs s !! b in
        let bufs := if new then <[b := tb_swap t]> (dy_bufs s) else dy_bufs s in
        Some (Dyn bufs (dy_handles s) (dy_nodes s) (dy_front s) (AProcess k inp))
    | _ => None
    end.
  (** the call of the user's code, which works on the slot of the reader *)
  Definition dyn_process (s : dyn) : option (dyn * Out) :=
    match dy_audio s with
    | AProcess k inp =>
        let* b := dy_nodes s !! k in
        let* t := dy_bufs s !! b in
        let* u := tb_slots t !! tb_out t in
        let '(u', out) := process u inp in
        let t' := TBuf (<[tb_out t := u']> (tb_slots t)) (tb_in t) (tb_back t) (tb_dirty t) (tb_out t) in
        Some (Dyn (<[b := t']> (dy_bufs s)) (dy_handles s) (dy_nodes s) (dy_front s) AIdle, out)
    | _ => None
    end.

  (** One step of one of the threads. [None]: the thread is elsewhere, or there is no such node. *)
  Inductive dstep := DSend (i : nat) (u : U) | DPublish | DCreate (i : nat) | DLook (k : nat) (inp : In) | DUpdate | DProcess.
  Definition dyn_step (s : dyn) (a : dstep) : option (dyn * list Out) :=
    match a with
    | DSend i u => let* s := dyn_send s i u in Some (s, [])
    | DPublish => let* s := dyn_publish s in Some (s, [])
    | DCreate i => let* s := dyn_create s i in Some (s, [])
    | DLook k inp => let* s := dyn_look s k inp in Some (s, [])
    | DUpdate => let* s := dyn_update s in Some (s, [])
    | DProcess => let* (s, o) := dyn_process s in Some (s, [o])
    end.
  Fixpoint dyn_run (s : dyn) (l : list dstep) : option (dyn * list Out) :=
    match l with
    | [] => Some (s, [])
    | a :: l =>
        let* (s, o) := dyn_step s a in
        let* (s, os) := dyn_run s l in
        Some (s, o ++ os)
    end.
End dyn.
(** The node of the library: either the dummy, which writes zeros to all frames (src/dsp/node_rust.rs:94-106), or the user's
    code. The input: the signal, the number of frames, the auxiliary signals. *)
Record rin := RIn { ri_sig : list f32; ri_frames : nat; ri_aux : list (list f32) }.
Definition rust_process {V} (p : V -> rin -> V * list f32) (u : option V) (i : rin) : option V * list f32 :=
  match u with
  | None => (None, replicate (ri_frames i) f32_zero)
  | Some v => let '(v, o) := p v i in (Some v, o)
  end.

Arguments AIdle {In}.
Arguments DPublish {U In}.
Arguments DCreate {U In}.
Arguments DUpdate {U In}.
Arguments DProcess {U In}.
