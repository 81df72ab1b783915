(** The nodes on the way of a signal from the audio device through the graph and back to the device: Inp, Amp, Mix3 and Out
    (src/dsp/node_inp.rs, node_amp.rs, node_mix3.rs, node_out.rs), for use with the engine (M_Engine.v).

    Simplifications: the float operations are parameters, the LED values are left out. All other nodes are one parameter [rest]
    with a state of its own; they have no access to the device (only Inp and Out call [NodeAudioContext::input] and [output]). *)
From stdpp Require Import strings.
From Verif Require Import Base M_Atom M_Graph M_Prog M_Nodes.
Open Scope nat_scope.

(** src/nodes/node_exec.rs:92-96 [NodeAudioContext]: the samples the device provides (channel, frame), and those written to it *)
Record device := Device { dv_in : nat -> nat -> f32; dv_out : gmap (nat * nat) f32 }.

Definition kind_amp : nat := Eval vm_compute in nid_kind (node_from_str "amp"%string).
Definition kind_mix3 : nat := Eval vm_compute in nid_kind (node_from_str "mix3"%string).
Definition kind_inp : nat := Eval vm_compute in nid_kind (node_from_str "inp"%string).
Definition kind_out : nat := Eval vm_compute in nid_kind (node_from_str "out"%string).

(** [ProcBuf::read] (src/dsp/mod.rs) of buffer [j]; the buffers have 128 samples, the theorems are about frames inside *)
Definition rd (bs : list (list f32)) (j f : nat) : f32 := default f32_zero (let* b := bs !! j in b !! f).
(** [for frame in 0..nframes { out.write(frame, v) }] *)
Definition write_frames (nframes : nat) (v : nat -> f32) (old : list f32) : list f32 :=
  imap (fun f x => if f <? nframes then v f else x) old.
Definition write_out (nframes j : nat) (v : nat -> f32) (outs : list (list f32)) : list (list f32) := alter (write_frames nframes v) j outs.

Section path.
  (** [$d_fun!], by node kind and input; the float operations; [i64] of a parameter atom *)
  Context (denorm : nat -> nat -> f32 -> f32) (fadd fmul : f32 -> f32 -> f32) (fmax0 fabs : f32 -> f32) (f2i : f32 -> Z).

  (** src/dsp/satom.rs:49-55 [i] *)
  Definition atom_i (a : satom) : Z := match a with ASetting i => i | AParam v => f2i v | _ => 0%Z end.
  Definition at_i (ats : list satom) (j : nat) : Z := from_option atom_i 0%Z (ats !! j).

  (** src/dsp/node_out.rs:66-99 *)
  Definition out_frame (mono : bool) (ins : list (list f32)) (o : gmap (nat * nat) f32) (f : nat) : gmap (nat * nat) f32 :=
    let vol := denorm kind_out 2 (rd ins 2 f) in
    <[(1, f) := fmul vol (rd ins (if mono then 0 else 1) f)]> (<[(0, f) := fmul vol (rd ins 0 f)]> o).
  Definition out_process (d : device) (nframes : nat) (ats : list satom) (ins : list (list f32)) : device :=
    Device (dv_in d) (foldl (out_frame (0 <? at_i ats 0)%Z ins) (dv_out d) (seq 0 nframes)).

  (** src/dsp/node_inp.rs:48-75 *)
  Definition inp_process (d : device) (nframes : nat) (ins outs : list (list f32)) : list (list f32) :=
    let v (c f : nat) := fmul (denorm kind_inp 0 (rd ins 0 f)) (dv_in d c f) in
    write_out nframes 1 (v 1) (write_out nframes 0 (v 0) outs).

  (** src/dsp/node_amp.rs:68-119 *)
  Definition amp_process (nframes : nat) (ats : list satom) (ins outs : list (list f32)) : list (list f32) :=
    let att (f : nat) := denorm kind_amp 2 ((if (0 <? at_i ats 0)%Z then fmax0 else fabs) (rd ins 2 f)) in
    write_out nframes 0 (fun f => fmul (fmul (rd ins 0 f) (att f)) (denorm kind_amp 1 (rd ins 1 f))) outs.

  (** src/dsp/node_mix3.rs:49-80 *)
  Definition mix3_process (nframes : nat) (ins outs : list (list f32)) : list (list f32) :=
    let ch (c f : nat) := fmul (rd ins c f) (denorm kind_mix3 (3 + c) (rd ins (3 + c) f)) in
    write_out nframes 0 (fun f => fmul (fadd (fadd (ch 0 f) (ch 1 f)) (ch 2 f)) (denorm kind_mix3 6 (rd ins 6 f))) outs.

  Context {R : Type}.
  Context (rest : node_id -> R -> nat -> N -> N -> list satom -> list (list f32) -> list (list f32) -> list (list f32) -> R * list (list f32)).

  (** [DspNode::process] of all nodes *)
  Definition path_sem (n : node_id) (st : device * R) (nframes : nat) (oc ic : N) (ats : list satom)
      (own ins outs : list (list f32)) : device * R * list (list f32) :=
    let k := nid_kind n in
    if k =? kind_out then ((out_process st.1 nframes ats ins, st.2), outs)
    else if k =? kind_inp then (st, inp_process st.1 nframes ins outs)
    else if k =? kind_amp then (st, amp_process nframes ats ins outs)
    else if k =? kind_mix3 then (st, mix3_process nframes ins outs)
    else let '(r, outs) := rest n st.2 nframes oc ic ats own ins outs in ((st.1, r), outs).
End path.
