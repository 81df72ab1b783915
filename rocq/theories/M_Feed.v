(** Model of what the audio thread reports back to the frontend: the last sample of every output port
    (src/nodes/node_conf.rs [out_fb_for], [update_output_feedback]) and the LED and phase values
    ([led_value_for], [phase_value_for]) *)
From Verif Require Import Base M_Atom M_Grid M_Layout M_Prog M_Conf M_Exec M_Sync M_Engine.
Open Scope nat_scope.

(** The crate triple_buffer 5.0.6: three copies of the value, the number of the copy that belongs to
    the producer, of the one in between and of the one that belongs to the consumer, and whether the
    one in between is new. *)
Record tbuf := TBuf { tb_slot : nat -> list f32; tb_in : nat; tb_mid : nat; tb_out : nat; tb_new : bool }.

(** [TripleBuffer::new]: three clones *)
Definition tb_create (v : list f32) : tbuf := TBuf (fun _ => v) 0 1 2 false.
(** [Input::input_buffer], written through *)
Definition tb_write (t : tbuf) (v : list f32) : tbuf :=
  TBuf (fun i => if i =? tb_in t then v else tb_slot t i) (tb_in t) (tb_mid t) (tb_out t) (tb_new t).
(** [Input::publish]: the producer's copy and the one in between change places *)
Definition tb_publish (t : tbuf) : tbuf := TBuf (tb_slot t) (tb_mid t) (tb_in t) (tb_out t) true.
(** [Output::update]: nothing if there is nothing new *)
Definition tb_update (t : tbuf) : tbuf :=
  if tb_new t then TBuf (tb_slot t) (tb_in t) (tb_out t) (tb_mid t) false else t.
(** [Output::output_buffer] *)
Definition tb_read (t : tbuf) : list f32 := tb_slot t (tb_out t).

(** what a node did in a block: its outputs, and the LED and phase value if it set them *)
Definition ran : Type := node_id * list (list f32) * (option f32 * option f32).

(** a block of the audio thread: number of the program (src/nodes/node_prog.rs:214-223 [unique_id]),
    number of frames, and what the nodes did in the order of their execution *)
Record blk := Blk { b_prog : nat; b_frames : nat; b_ran : list ran }.

(** src/nodes/node_conf.rs:285-288: number of shared LED and phase values (NODE_COMMUNICATION_BUFFER_SIZE) *)
Definition ctx_size : nat := 512.

(** [fd_ids] are the numbers of the programs in [en_queue], message by message. [fd_cur] is the number
    of the program in the audio thread. [fd_tb] are the triple buffers of the programs by number.
    [fd_held] is the number of the program whose consumer the frontend holds ([output_fb_cons],
    src/nodes/node_conf.rs:248-250), [fd_vals] is [output_fb_values] (244-246), [fd_ctx] is
    [node_ctx_values] (253-255). [fd_pend] is the block that was computed and is not published yet. [fd_log]
    records the published blocks; nothing reads it. *)
Record feed (St : Type) := Feed {
  fd_en : engine (St * list ran);
  fd_next : nat;
  fd_ids : list (option nat);
  fd_cur : nat;
  fd_tb : gmap nat tbuf;
  fd_held : option nat;
  fd_vals : list f32;
  fd_ctx : list f32;
  fd_pend : option blk;
  fd_log : list blk;
}.
Arguments Feed {St}.
Arguments fd_en {St}. Arguments fd_next {St}. Arguments fd_ids {St}. Arguments fd_cur {St}.
Arguments fd_tb {St}. Arguments fd_held {St}. Arguments fd_vals {St}. Arguments fd_ctx {St}.
Arguments fd_pend {St}. Arguments fd_log {St}.

(** Steps: a call of the matrix API, [update_output_feedback], and on the audio thread taking [k]
    messages, computing a block and publishing it; the drop thread as before. *)
Inductive fop :=
| FMx (o : mop)
| FUpdate
| FDrain (k : nat)
| FBlock (nframes : nat)
| FPublish
| FDrop.

(** The program in a message gets its number and its triple buffer (src/nodes/node_prog.rs:226-282);
    an upload makes the frontend hold its consumer (src/nodes/node_conf.rs:969), whether or not the
    message fits into the queue; [Clear] (719) does not. *)
Definition feed_sent (s : nat * list (option nat) * gmap nat tbuf * option nat) (m : gmsg)
  : nat * list (option nat) * gmap nat tbuf * option nat :=
  let '(next, ids, tb, held) := s in
  let enq (x : option nat) := if length ids <? queue_size then ids ++ [x] else ids in
  match m with
  | MNewProg p _ => (S next, enq (Some next), <[next := tb_create (np_fb p)]> tb, Some next)
  | MClear p => (S next, enq (Some next), <[next := tb_create (np_fb p)]> tb, held)
  | _ => (next, enq None, tb, held)
  end.

(** the program in use after taking messages with the programs [ids] *)
Definition feed_taken (cur : nat) (ids : list (option nat)) : nat :=
  foldl (fun c x => default c x) cur ids.

(** src/nodes/node_exec.rs:460-476: the node gets the two values that belong to the number of its
    operation; an index outside of the values panics *)
Definition ctx_set (i : nat) (v : option f32) (ctx : list f32) : list f32 :=
  match v with Some v => <[i := v]> ctx | None => ctx end.
Definition ctx_ran (ctx : list f32) (x : nodeop * ran) : option (list f32) :=
  let i := op_idx x.1 * 2 in
  if i + 2 <=? length ctx then Some (ctx_set (i + 1) x.2.2.2 (ctx_set i x.2.2.1 ctx)) else None.

Section feed.
  Context (T : ntable) (i2f : Z -> f32) (load_sample : satom -> satom).
  Context (finc : f32 -> f32 -> nat -> f32) (fadd : f32 -> f32 -> f32).
  Context (mix : f32 -> f32 -> f32 -> f32).
  Context {St : Type}.
  (** [DspNode::process] as in M_Exec, with the LED and phase value the node sets *)
  Context (node_sem : node_id -> St -> nat -> N -> N -> list satom ->
                      list (list f32) -> list (list f32) -> list (list f32) ->
                      St * list (list f32) * (option f32 * option f32)).

  (** the same, recording what the node did *)
  Definition tap (n : node_id) (st : St * list ran) (nframes : nat) (oc ic : N) (ats : list satom)
      (ps is os : list (list f32)) : (St * list ran) * list (list f32) :=
    let '(st', outs, cx) := node_sem n st.1 nframes oc ic ats ps is os in
    ((st', st.2 ++ [(n, outs, cx)]), outs).

  Local Notation estep := (engine_step T i2f load_sample finc fadd mix tap).

  Definition feed_new (w h slope : nat) (st : St) : feed St :=
    Feed (engine_new w h slope (st, [])) 1 [] 0 {[ 0 := tb_create [] ]} None [] (replicate ctx_size f32_zero) None [].

  (** one step; [None] is a panic. The audio thread takes messages and starts a block only after
      publishing the block before. *)
  Definition feed_step (s : feed St) (o : fop) : option (feed St) :=
    match o with
    | FMx o =>
        let* (_, _, ms) := matrix_step T i2f load_sample (en_heap (fd_en s)) (en_mx (fd_en s)) o in
        let* n := estep (fd_en s) (EMx o) in
        let '(next, ids, tb, held) := foldl feed_sent (fd_next s, fd_ids s, fd_tb s, fd_held s) ms in
        Some (Feed n next ids (fd_cur s) tb held (fd_vals s) (fd_ctx s) (fd_pend s) (fd_log s))
    | FUpdate =>
        (* src/nodes/node_conf.rs:994-1003 *)
        match fd_held s with
        | None => Some s
        | Some k =>
            let* t := fd_tb s !! k in
            let t := tb_update t in
            Some (Feed (fd_en s) (fd_next s) (fd_ids s) (fd_cur s) (<[k := t]> (fd_tb s)) (fd_held s)
                       (tb_read t) (fd_ctx s) (fd_pend s) (fd_log s))
        end
    | FDrain k =>
        match fd_pend s with
        | Some _ => Some s
        | None =>
            let* n := estep (fd_en s) (EDrain k) in
            Some (Feed n (fd_next s) (drop k (fd_ids s)) (feed_taken (fd_cur s) (take k (fd_ids s))) (fd_tb s)
                       (fd_held s) (fd_vals s) (fd_ctx s) None (fd_log s))
        end
    | FBlock nframes =>
        (* src/nodes/node_exec.rs:446-484: the reported values are written into the producer's copy *)
        match fd_pend s with
        | Some _ => Some s
        | None =>
            let n := fd_en s in
            let e := en_exec n in
            let* t := fd_tb s !! fd_cur s in
            let e := with_prog e (prog_with_fb (ex_prog e) (tb_slot t (tb_in t))) in
            let* n := estep (Engine (en_heap n) (en_mx n) (en_queue n) e (en_trash n) ((en_st n).1, [])) (EBlock nframes) in
            let rs := (en_st n).2 in
            let* ctx := foldm ctx_ran (fd_ctx s) (zip (np_ops (ex_prog e)) rs) in
            Some (Feed n (fd_next s) (fd_ids s) (fd_cur s)
                       (<[fd_cur s := tb_write t (np_fb (ex_prog (en_exec n)))]> (fd_tb s)) (fd_held s) (fd_vals s)
                       ctx (Some (Blk (fd_cur s) nframes rs)) (fd_log s))
        end
    | FPublish =>
        (* src/nodes/node_exec.rs:485 *)
        match fd_pend s with
        | None => Some s
        | Some b =>
            let* t := fd_tb s !! fd_cur s in
            Some (Feed (fd_en s) (fd_next s) (fd_ids s) (fd_cur s) (<[fd_cur s := tb_publish t]> (fd_tb s))
                       (fd_held s) (fd_vals s) (fd_ctx s) None (fd_log s ++ [b]))
        end
    | FDrop =>
        let* n := estep (fd_en s) EDrop in
        Some (Feed n (fd_next s) (fd_ids s) (fd_cur s) (fd_tb s) (fd_held s) (fd_vals s) (fd_ctx s) (fd_pend s) (fd_log s))
    end.

  Definition feed_run (s : feed St) (os : list fop) : option (feed St) := foldm feed_step s os.

  Definition feed_conf (s : feed St) : nconf := mx_conf (en_mx (fd_en s)).

  (** src/nodes/node_conf.rs:981-987 [out_fb_for], src/matrix.rs:1491-1493 *)
  Definition out_fb_for (s : feed St) (n : node_id) (out : nat) : option f32 :=
    match conf_inst (feed_conf s) n with
    | Some ni => let* i := local2global (ni_out ni) out in fd_vals s !! i
    | None => None
    end.

  (** src/nodes/node_conf.rs:592-598 [led_value_for], 579-585 [phase_value_for]; [None] is a panic *)
  Definition led_value_for (s : feed St) (n : node_id) : option f32 :=
    match cf_idx (feed_conf s) !! n with Some i => fd_ctx s !! (i * 2) | None => Some f32_zero end.
  Definition phase_value_for (s : feed St) (n : node_id) : option f32 :=
    match cf_idx (feed_conf s) !! n with Some i => fd_ctx s !! (i * 2 + 1) | None => Some f32_zero end.
End feed.
