(** Model of the audio thread: src/nodes/node_exec.rs, src/util.rs [Smoother] and the queues
    between the frontend and the audio thread *)
From Verif Require Import Base M_Atom M_Prog M_Grid M_Conf.
Open Scope nat_scope.

(** src/util.rs:7-14 [struct Smoother]; the value type is a parameter *)
Record smoother (V : Type) := Smoother {
  sm_slope : nat;
  sm_value : V;
  sm_inc : V;
  sm_target : V;
  sm_count : nat;
  sm_done : bool;
}.
Arguments Smoother {V}.
Arguments sm_slope {V}. Arguments sm_value {V}. Arguments sm_inc {V}.
Arguments sm_target {V}. Arguments sm_count {V}. Arguments sm_done {V}.

Section smoother.
  Context {V : Type}.
  (** [finc current target n] is [(target - current) / n]; [fadd] is addition *)
  Context (finc : V -> V -> nat -> V) (fadd : V -> V -> V) (zero : V).

  (** src/util.rs:17-19 [new] *)
  Definition sm_new : smoother V := Smoother 0 zero zero zero 0 true.

  (** src/util.rs:21-23 [set_sample_rate]; [n] is the computed number of samples *)
  Definition sm_set_slope (s : smoother V) (n : nat) : smoother V :=
    Smoother n (sm_value s) (sm_inc s) (sm_target s) (sm_count s) (sm_done s).

  (** src/util.rs:37-43 [set] *)
  Definition sm_set (s : smoother V) (current target : V) : smoother V :=
    Smoother (sm_slope s) current (finc current target (sm_slope s)) target (sm_slope s) false.

  (** src/util.rs:56-70 [next] *)
  Definition sm_next (s : smoother V) : smoother V * V :=
    match sm_count s with
    | 0 => (Smoother (sm_slope s) (sm_value s) (sm_inc s) (sm_target s) 0 true, sm_target s)
    | S n =>
        let v := fadd (sm_value s) (sm_inc s) in
        (Smoother (sm_slope s) v (sm_inc s) (sm_target s) n (sm_done s), v)
    end.
End smoother.

(** src/nodes/mod.rs:7 MAX_SMOOTHERS *)
Definition max_smoothers : nat := 40.

(** src/nodes/node_exec.rs:98-135 [struct NodeExecutor] without MIDI and monitor buffers;
    UNUSED_MONITOR_IDX in the monitored indices is [None] *)
Record exec := Exec {
  ex_prog : nprog;
  ex_sm : list (nat * smoother f32);
  ex_refresh : list (nat * f32);
  ex_mon : list (option nat);
}.

(** src/nodes/node_exec.rs:178-195 [new] with the smoothing length [n] of the sample rate *)
Definition exec_new (n : nat) : exec :=
  Exec prog_empty (replicate max_smoothers (0, sm_set_slope (sm_new f32_zero) n)) [] [].

Definition with_prog (e : exec) (p : nprog) : exec := Exec p (ex_sm e) (ex_refresh e) (ex_mon e).
Definition with_sm (e : exec) (s : list (nat * smoother f32)) : exec :=
  Exec (ex_prog e) s (ex_refresh e) (ex_mon e).

Definition prog_with_params (p : nprog) (ps : list f32) : nprog :=
  NProg (np_inp p) (np_cur p) (np_out p) ps (np_atoms p) (np_ops p) (np_mods p) (np_locked p) (np_fb p).
Definition prog_with_atoms (p : nprog) (ats : list satom) : nprog :=
  NProg (np_inp p) (np_cur p) (np_out p) (np_params p) ats (np_ops p) (np_mods p) (np_locked p) (np_fb p).
Definition prog_with_mods (p : nprog) (ms : list modop) : nprog :=
  NProg (np_inp p) (np_cur p) (np_out p) (np_params p) (np_atoms p) (np_ops p) ms (np_locked p) (np_fb p).
Definition prog_with_fb (p : nprog) (fb : list f32) : nprog :=
  NProg (np_inp p) (np_cur p) (np_out p) (np_params p) (np_atoms p) (np_ops p) (np_mods p) (np_locked p) fb.

(** index of the first element with a property *)
Fixpoint find_idx {A} (f : A -> bool) (l : list A) : option nat :=
  match l with
  | [] => None
  | x :: l => if f x then Some 0 else S <$> find_idx f l
  end.

Section exec.
  Context (finc : f32 -> f32 -> nat -> f32) (fadd : f32 -> f32 -> f32).
  (** [mix p a o] is [p + a * o], src/nodes/node_prog.rs:63 *)
  Context (mix : f32 -> f32 -> f32 -> f32).
  (** state of all DSP nodes and of everything they share (audio context, MIDI, feedback delays) *)
  Context {St : Type}.
  (** [DspNode::process]: node, shared state, number of frames, connected masks, atoms, contents of the
      parameter, input and output buffers; gives the new state and output buffer contents *)
  Context (node_sem : node_id -> St -> nat -> N -> N -> list satom ->
                      list (list f32) -> list (list f32) -> list (list f32) -> St * list (list f32)).

  (** src/nodes/node_exec.rs:375-380 [set_modamt] *)
  Definition exec_set_modamt (e : exec) (i : nat) (a : f32) : exec :=
    match np_mods (ex_prog e) !! i with
    | Some m => with_prog e (prog_with_mods (ex_prog e) (<[i := modop_set_amt m a]> (np_mods (ex_prog e))))
    | None => e
    end.

  (** src/nodes/node_exec.rs:383-408 [set_param] *)
  Definition exec_set_param (e : exec) (i : nat) (v : f32) : exec :=
    match np_params (ex_prog e) !! i with
    | None => e
    | Some cur =>
        match find_idx (fun s => negb (sm_done s.2) && (s.1 =? i)) (ex_sm e) with
        | Some j => with_sm e (alter (fun s => (s.1, sm_set finc s.2 cur v)) j (ex_sm e))
        | None =>
            match find_idx (fun s => sm_done s.2) (ex_sm e) with
            | Some j => with_sm e (alter (fun s => (i, sm_set finc s.2 cur v)) j (ex_sm e))
            | None => e
            end
        end
    end.

  (** src/nodes/node_exec.rs:203-309 [process_graph_updates], one message. The result holds the
      programs handed to the drop thread. *)
  Definition exec_message (h : heap) (e : exec) (m : gmsg) : option (heap * exec * list nprog) :=
    match m with
    | MClear p => Some (h, Exec p (ex_sm e) (ex_refresh e) [], [ex_prog e])
    | MNewProg p copy =>
        let prev := ex_prog e in
        let* h := prog_init_inputs h p in
        let '(p, prev) := if copy : bool then prog_swap p prev else (p, prev) in
        let* p := prog_assign p in
        Some (h, Exec p (ex_sm e) (ex_refresh e) [], [prev])
    | MAtom i a =>
        if i <? length (np_atoms (ex_prog e))
        then Some (h, with_prog e (prog_with_atoms (ex_prog e) (<[i := a]> (np_atoms (ex_prog e)))), [])
        else None
    | MParam i v => Some (h, exec_set_param e i v, [])
    | MModamt i a => Some (h, exec_set_modamt e i a, [])
    | MMonitor bufs => Some (h, Exec (ex_prog e) (ex_sm e) (ex_refresh e) bufs, [])
    end.

  (** the loop [while let Some(upd) = pop()] *)
  Fixpoint exec_drain (h : heap) (e : exec) (q : list gmsg) : option (heap * exec * list nprog) :=
    match q with
    | [] => Some (h, e, [])
    | m :: q =>
        let* (h, e, t) := exec_message h e m in
        let* (h, e, t') := exec_drain h e q in
        Some (h, e, t ++ t')
    end.

  (** src/nodes/node_exec.rs:413-415: the values smoothed in the previous block fill the buffers;
      the vector is used as a stack *)
  Fixpoint refresh_targets (h : heap) (inp : list nat) (l : list (nat * f32)) : option heap :=
    match l with
    | [] => Some h
    | (i, v) :: l => let* b := inp !! i in let* h := buf_fill h b v in refresh_targets h inp l
    end.

  (** src/nodes/node_exec.rs:421-426: one smoother over [n] frames, from frame [f] on *)
  Fixpoint run_smoother (h : heap) (b f n : nat) (s : smoother f32) (last : f32)
    : option (heap * smoother f32 * f32) :=
    match n with
    | 0 => Some (h, s, last)
    | S n =>
        let '(s, v) := sm_next fadd s in
        let* h := buf_write h b f v in
        run_smoother h b (S f) n s v
    end.

  (** src/nodes/node_exec.rs:417-430: all running smoothers; new refresh entries are pushed *)
  Fixpoint run_smoothers (h : heap) (inp : list nat) (nframes : nat) (params : list f32)
      (refresh : list (nat * f32)) (sms : list (nat * smoother f32))
    : option (heap * list f32 * list (nat * f32) * list (nat * smoother f32)) :=
    match sms with
    | [] => Some (h, params, refresh, [])
    | (i, s) :: sms =>
        if sm_done s then
          let* (h, params, refresh, sms) := run_smoothers h inp nframes params refresh sms in
          Some (h, params, refresh, (i, s) :: sms)
        else
          let* b := inp !! i in
          let* (h, s, v) := run_smoother h b 0 nframes s f32_zero in
          if i <? length params then
            let* (h, params, refresh, sms) :=
              run_smoothers h inp nframes (<[i := v]> params) (refresh ++ [(i, v)]) sms in
            Some (h, params, refresh, (i, s) :: sms)
          else None
    end.

  (** src/nodes/node_exec.rs:410-431 [process_smoothers] *)
  Definition exec_smoothers (h : heap) (e : exec) (nframes : nat) : option (heap * exec) :=
    let p := ex_prog e in
    let* h := refresh_targets h (np_inp p) (rev (ex_refresh e)) in
    let* (h, params, refresh, sms) := run_smoothers h (np_inp p) nframes (np_params p) [] (ex_sm e) in
    Some (h, Exec (prog_with_params p params) sms refresh (ex_mon e)).

  (** src/nodes/node_prog.rs:53-65 [ModOp::process] *)
  Definition modop_frame (m : modop) (inb outb : nat) (h : heap) (f : nat) : option heap :=
    let* a := buf_read h inb f in
    let* o := buf_read h outb f in
    buf_write h (mo_buf m) f (mix a (mo_amt m) o).
  Definition modop_process (nframes : nat) (h : heap) (m : modop) : option heap :=
    match mo_in m with
    | None => Some h
    | Some inb =>
        match mo_out m with
        | Some outb => foldm (modop_frame m inb outb) h (seq 0 nframes)
        | None => if nframes =? 0 then Some h else None
        end
    end.

  (** [v[s..e]]; an invalid range panics *)
  Definition slice {A} (r : nat * nat) (l : list A) : option (list A) :=
    if (r.1 <=? r.2) && (r.2 <=? length l) then Some (take (r.2 - r.1) (drop r.1 l)) else None.

  Definition load_bufs (h : heap) (ps : list nat) : option (list (list f32)) :=
    mapM (fun p => h_bufs h !! p) ps.
  Definition load_curs (h : heap) (ps : list (option nat)) : option (list (list f32)) :=
    mapM (fun op => let* p := op in h_bufs h !! p) ps.
  Definition store_bufs (h : heap) (ps : list nat) (bs : list (list f32)) : option heap :=
    foldm (fun h pb => buf_put h pb.1 pb.2) h (zip ps bs).

  (** src/nodes/node_exec.rs:480-482: the last frame of every output is published *)
  Definition publish (h : heap) (nframes : nat) (fb : list f32) (ip : nat * nat) : option (list f32) :=
    let* v := buf_read h ip.2 (nframes - 1) in
    if ip.1 <? length fb then Some (<[ip.1 := v]> fb) else None.

  (** src/nodes/node_exec.rs:454-483: one operation. A block without frames panics at 479. The two
      context values written by the node (led, phase) are part of the shared state. *)
  Definition exec_op (p : nprog) (nframes : nat) (w : heap * St * list f32) (op : nodeop)
    : option (heap * St * list f32) :=
    let '(h, st, fb) := w in
    let* mods := slice (op_mod op) (np_mods p) in
    let* h := foldm (modop_process nframes) h mods in
    let* params := slice (op_in op) (np_inp p) in
    let* params := load_bufs h params in
    let* atoms := slice (op_at op) (np_atoms p) in
    let* ins := slice (op_in op) (np_cur p) in
    let* ins := load_curs h ins in
    let* outp := slice (op_out op) (np_out p) in
    let* outs := load_bufs h outp in
    let '(st, outs) := node_sem (op_node op) st nframes (op_outc op) (op_inc op) atoms params ins outs in
    let* h := store_bufs h outp outs in
    if nframes =? 0 then None else
    let* fb := foldm (publish h nframes) fb (zip (seq (op_out op).1 (length outp)) outp) in
    Some (h, st, fb).

  (** src/nodes/node_exec.rs:491-505: the samples fed to the monitor for slot [i]; a free monitor
      buffer is assumed. A null pointer or an index outside of the buffers fails. *)
  Definition monitor_slot (p : nprog) (h : heap) (nframes : nat) (fed : list (nat * list f32))
      (im : nat * option nat) : option (list (nat * list f32)) :=
    match im.2 with
    | None => Some fed
    | Some idx =>
        let* b := (if 2 <? im.1 then np_out p !! idx else mjoin (np_cur p !! idx)) in
        let* s := h_bufs h !! b in
        Some (fed ++ [(im.1, take nframes s)])
    end.

  (** src/nodes/node_exec.rs:434-511 [process]; the last component is what the monitor is fed *)
  Definition exec_process (h : heap) (e : exec) (st : St) (nframes : nat)
    : option (heap * exec * St * list (nat * list f32)) :=
    let* (h, e) := exec_smoothers h e nframes in
    let p := ex_prog e in
    let* (h, st, fb) := foldm (exec_op p nframes) (h, st, np_fb p) (np_ops p) in
    let* fed := foldm (monitor_slot p h nframes) [] (zip (seq 0 (length (ex_mon e))) (ex_mon e)) in
    Some (h, with_prog e (prog_with_fb p fb), st, fed).
End exec.
