(** Model of src/monitor.rs, and of its use by src/nodes/node_exec.rs:486-505 *)
From Verif Require Import Base M_Prog.
Open Scope nat_scope.

(** Finite f32 values as integers in units of 2^-149; [None] is NaN, which [f32::min] and [f32::max] ignore *)
Notation fv := (option Z).
Definition fmin (a : Z) (b : fv) : Z := match b with Some b => Z.min a b | None => a end.
Definition fmax (a : Z) (b : fv) : Z := match b with Some b => Z.max a b | None => a end.
(** 100.0 *)
Definition hundred : Z := (100 * 2 ^ 149)%Z.

(** src/monitor.rs:15-48: MON_SIG_CNT, MONITOR_MINMAX_SAMPLES, MONITOR_INPUT_LEN_PER_SAMPLE, MONITOR_BUF_COUNT; MAX_BLOCK_SIZE *)
Definition mon_sigs : nat := 6.
Definition mm_samples : nat := 160.
Definition mm_window : nat := 900.
Definition mon_bufs : nat := 750.
Definition mon_block : nat := 128.

(** src/monitor.rs:384-395 [struct MonitorBuf]; [mb_id] is the identity of the allocation *)
Record mbuf := MBuf { mb_id : nat; mb_data : list fv; mb_len : list nat; mb_rd : list nat }.

(** src/monitor.rs:411-422 [alloc], [reset] *)
Definition mb_alloc (id : nat) : mbuf :=
  MBuf id (replicate (mon_sigs * mon_block) (Some 0%Z)) (replicate mon_sigs 0) (replicate mon_sigs 0).
Definition mb_reset (b : mbuf) : mbuf := MBuf (mb_id b) (mb_data b) (replicate mon_sigs 0) (replicate mon_sigs 0).

(** src/monitor.rs:437-445 [feed] with [data[0..len]]; the slice panics when it does not fit *)
Definition mb_feed (b : mbuf) (f : nat * list fv) : option mbuf :=
  let '(sig, data) := f in
  let sb := sig * mon_block in
  let len := length data in
  if (sb + len <=? length (mb_data b)) && (sig <? length (mb_len b))
  then Some (MBuf (mb_id b) (take sb (mb_data b) ++ data ++ drop (sb + len) (mb_data b)) (<[sig := len]> (mb_len b)) (mb_rd b))
  else None.

(** src/monitor.rs:425-435 [next_sample_for_signal]; the outer [None] is a panic *)
Definition mb_next (b : mbuf) (sig : nat) : option (mbuf * option fv) :=
  let* rd := mb_rd b !! sig in
  let* len := mb_len b !! sig in
  if len <=? rd then Some (b, None)
  else
    let* v := mb_data b !! (sig * mon_block + rd) in
    Some (MBuf (mb_id b) (mb_data b) (mb_len b) (<[sig := rd + 1]> (mb_rd b)), Some v).

(** src/monitor.rs:94-118 [struct MonitorMinMax] of one signal, [new] *)
Record mm := MM { mm_buf : list (Z * Z); mm_ptr : nat; mm_cur : Z * Z * nat }.
Definition mm_new : mm := MM (replicate mm_samples (0, 0)%Z) 0 ((hundred, - hundred)%Z, 0).

(** src/monitor.rs:126-139: one sample; the flag says that a pair was written *)
Definition mm_sample (m : mm) (v : fv) : option (mm * bool) :=
  let '(lo, hi, n) := mm_cur m in
  let lo := fmin lo v in
  let hi := fmax hi v in
  let n := n + 1 in
  if mm_window <=? n then
    if mm_ptr m <? length (mm_buf m)
    then Some (MM (<[mm_ptr m := (lo, hi)]> (mm_buf m)) ((mm_ptr m + 1) mod length (mm_buf m)) ((hundred, - hundred)%Z, 0), true)
    else None
  else Some (MM (mm_buf m) (mm_ptr m) (lo, hi, n), false).

(** src/monitor.rs:122-143 [process]; the fuel is more than a block has samples *)
Fixpoint mm_process (fuel : nat) (m : mm) (b : mbuf) (sig : nat) (new : bool) : option (mm * mbuf * bool) :=
  match fuel with
  | 0 => None
  | S fuel =>
      let* (b, v) := mb_next b sig in
      match v with
      | None => Some (m, b, new)
      | Some v =>
          let* (m, n) := mm_sample m v in
          mm_process fuel m b sig (new || n)
      end
  end.

(** src/monitor.rs:332-338 [process_mon_buf] *)
Fixpoint process_signals (ms : list mm) (b : mbuf) (sig : nat) (new : bool) : option (list mm * mbuf * bool) :=
  match ms with
  | [] => Some ([], b, new)
  | m :: ms =>
      let* (m, b, new) := mm_process (S mon_block) m b sig new in
      let* (ms, b, new) := process_signals ms b (S sig) new in
      Some (m :: ms, b, new)
  end.

(** src/monitor.rs:149-153 [MinMaxMonitorSamples] of all signals: the position and the pairs *)
Notation snapshot := (list (nat * list (Z * Z))) (only parsing).

(** The audio thread (unused buffers, the one being filled), the two ring buffers, the monitor thread (the buffer being
    processed, the accumulators, [new_data]) and what is shared with the frontend *)
Record mon := Mon {
  mo_unused : list mbuf;
  mo_held : option mbuf;
  mo_queue : list mbuf;
  mo_busy : option mbuf;
  mo_recycle : list mbuf;
  mo_procs : list mm;
  mo_new : bool;
  mo_shared : snapshot;
  mo_flag : bool;
  mo_copy : snapshot;
}.

(** src/monitor.rs:362-380 [new_monitor_processor]; the vector of unused buffers is a stack whose top is the head here *)
Definition mon_new : mon :=
  Mon (rev (mb_alloc <$> seq 0 mon_bufs)) None [] None [] (replicate mon_sigs mm_new) false
    (replicate mon_sigs (0, replicate mm_samples (0, 0)%Z)) false (replicate mon_sigs (0, replicate mm_samples (0, 0)%Z)).

(** src/monitor.rs:326-329 [minmax_slice_for_signal] *)
Definition mm_slices (ms : list mm) : snapshot := (fun m => (mm_ptr m, mm_buf m)) <$> ms.

(** Steps of the three threads. Between any two of them the other threads may run.
    - [MRecycle]: one round of [check_recycle] (65-69)
    - [MTake]: node_exec.rs:494-501, a buffer is taken and filled, if there is one; filling touches only that buffer
    - [MSend]: [send_mon_buf] (85-90)
    - [MPop], [MDone]: a round of [MonitorProcessor::process] (344-348), the part after the pop is the second step
    - [MPublish]: 242-250, under the lock
    - [MGet]: [get_minmax_monitor_samples] (270-291), under the lock *)
Inductive mact :=
| MRecycle
| MTake (feeds : list (nat * list fv))
| MSend
| MPop
| MDone
| MPublish
| MGet.

(** One step; the flag of [MTake] says that there was a buffer. A step that its thread cannot make changes nothing. *)
Definition mon_step (s : mon) (a : mact) : option (mon * bool) :=
  match a with
  | MRecycle =>
      match mo_recycle s with
      | b :: r => Some (Mon (b :: mo_unused s) (mo_held s) (mo_queue s) (mo_busy s) r (mo_procs s) (mo_new s) (mo_shared s) (mo_flag s) (mo_copy s), false)
      | [] => Some (s, false)
      end
  | MTake feeds =>
      match mo_held s, mo_unused s with
      | None, b :: u =>
          let* b := foldm mb_feed b feeds in
          Some (Mon u (Some b) (mo_queue s) (mo_busy s) (mo_recycle s) (mo_procs s) (mo_new s) (mo_shared s) (mo_flag s) (mo_copy s), true)
      | _, _ => Some (s, false)
      end
  | MSend =>
      match mo_held s with
      | Some b =>
          if length (mo_queue s) <? mon_bufs
          then Some (Mon (mo_unused s) None (mo_queue s ++ [b]) (mo_busy s) (mo_recycle s) (mo_procs s) (mo_new s) (mo_shared s) (mo_flag s) (mo_copy s), false)
          else Some (Mon (b :: mo_unused s) None (mo_queue s) (mo_busy s) (mo_recycle s) (mo_procs s) (mo_new s) (mo_shared s) (mo_flag s) (mo_copy s), false)
      | None => Some (s, false)
      end
  | MPop =>
      match mo_busy s, mo_queue s with
      | None, b :: q => Some (Mon (mo_unused s) (mo_held s) q (Some b) (mo_recycle s) (mo_procs s) (mo_new s) (mo_shared s) (mo_flag s) (mo_copy s), false)
      | _, _ => Some (s, false)
      end
  | MDone =>
      match mo_busy s with
      | Some b =>
          let* (procs, b, new) := process_signals (mo_procs s) b 0 (mo_new s) in
          let recycle := if length (mo_recycle s) <? mon_bufs then mo_recycle s ++ [mb_reset b] else mo_recycle s in
          Some (Mon (mo_unused s) (mo_held s) (mo_queue s) None recycle procs new (mo_shared s) (mo_flag s) (mo_copy s), false)
      | None => Some (s, false)
      end
  | MPublish =>
      if mo_new s
      then Some (Mon (mo_unused s) (mo_held s) (mo_queue s) (mo_busy s) (mo_recycle s) (mo_procs s) false (mm_slices (mo_procs s)) true (mo_copy s), false)
      else Some (s, false)
  | MGet =>
      if mo_flag s
      then Some (Mon (mo_unused s) (mo_held s) (mo_queue s) (mo_busy s) (mo_recycle s) (mo_procs s) (mo_new s) (mo_shared s) false (mo_shared s), false)
      else Some (s, false)
  end.

Fixpoint mon_run (s : mon) (acts : list mact) : option (mon * list bool) :=
  match acts with
  | [] => Some (s, [])
  | a :: acts =>
      let* (s, o) := mon_step s a in
      let* (s, os) := mon_run s acts in
      Some (s, o :: os)
  end.

(** src/monitor.rs:171-174 [at] *)
Definition snap_at (sn : snapshot) (sig offs : nat) : option (Z * Z) :=
  let* (ptr, buf) := sn !! sig in buf !! ((ptr + offs) mod length buf).
