(** Model of the Scope node (src/dsp/node_scope.rs) on top of the handle of [M_Scope].
    Sample values are integers (multiples of a smallest unit, [big] is 99999.0 in it; values that are not numbers are left out), times are
    exact rationals. The trigger is the [CustomTrigger] of the crate synfx_dsp: a state, its check and the setting of its threshold.
    The LED value (lines 229-232) is left out. *)
From Coq Require Import QArith Qround.
From Verif Require Import Base M_Prog M_Scope.
Open Scope nat_scope.

Section node.
  Context {T : Type} (chk : T -> Z -> bool * T) (sett : T -> Z -> T) (big : Z).

  (** src/dsp/node_scope.rs:34-42 [struct Scope] *)
  Record sn := SN { sn_h : scope Z; sn_idx : nat; sn_ft : Q; sn_sr : Q; sn_mm : list (Z * Z); sn_trig : T }.

  (** src/dsp/node_scope.rs:44-60 [new], on a new handle and with a new trigger *)
  Definition sn_new (t0 : T) : sn := SN (scope_new 0%Z) 0 0 (441 # 10) (replicate 3 (0, 0)%Z) t0.

  (** A frame: the three signals and the external trigger *)
  Definition frame : Type := Z * Z * Z * Z.
  Definition sigs (f : frame) : list Z := let '(x, y, z, _) := f in [x; y; z].
  (** What [process] gets: the denormalised time, threshold, offsets and gains, the trigger source, which inputs are connected, and the frames *)
  Record scblk := ScBlk { sb_time : Q; sb_thr : Z; sb_src : Z; sb_offs : list (Z * Z); sb_mask : bool * bool * bool; sb_frames : list frame }.

  (** src/dsp/node_scope.rs:158: [clamp(0.1, 1000.0 * 300.0)] *)
  Definition clamp_time (t : Q) : Q := if Qle_bool (1 # 10) t then if Qle_bool t 300000 then t else 300000 else 1 # 10.
  (** src/dsp/node_scope.rs:159-161 *)
  Definition samples_per_block (t sr : Q) : Q := t * sr / inject_Z (Z.of_nat scope_samples).
  Definition time_per_block (t : Q) : Q := t / inject_Z (Z.of_nat scope_samples).
  Definition sample_time (sr : Q) : Q := 1 / sr.

  (** src/dsp/node_scope.rs:166-167: external trigger or signal 1; no trigger *)
  Definition trig_in (src : Z) (f : frame) : Z := let '(x, _, _, t) := f in if (src =? 2)%Z then t else x.
  Definition trig_off (src : Z) : bool := (src =? 0)%Z.

  (** src/dsp/node_scope.rs:173: the cast to [usize] cuts off *)
  Definition copy_count (spb : Q) : nat := Nat.min (Z.to_nat (Qfloor (1 / spb))) scope_samples.

  Definition clean : list (Z * Z) := replicate 3 (- big, big)%Z.

  (** src/dsp/node_scope.rs:175-191 *)
  Definition short_frame (copies : nat) (src : Z) (s : sn) (f : frame) : option sn :=
    let* s :=
      (if sn_idx s <? scope_samples then
         let* h := foldm (fun h iv => scope_write_over h iv.1 (sn_idx s) copies iv.2) (sn_h s) (imap pair (sigs f)) in
         Some (SN h (sn_idx s + copies) (sn_ft s) (sn_sr s) (sn_mm s) (sn_trig s))
       else Some s) in
    if scope_samples <=? sn_idx s then
      if trig_off src then Some (SN (sn_h s) 0 0 (sn_sr s) (sn_mm s) (sn_trig s))
      else
        let '(hit, tr) := chk (sn_trig s) (trig_in src f) in
        if hit then Some (SN (sn_h s) 0 0 (sn_sr s) (sn_mm s) tr)
        else Some (SN (sn_h s) (sn_idx s) (sn_ft s) (sn_sr s) (sn_mm s) tr)
    else Some s.

  (** src/dsp/node_scope.rs:200-204 *)
  Definition widen (mm : list (Z * Z)) (vs : list Z) : list (Z * Z) :=
    zip_with (fun m v => (Z.max m.1 v, Z.min m.2 v)) mm vs.

  (** src/dsp/node_scope.rs:198-226 *)
  Definition long_frame (tpb st : Q) (src : Z) (s : sn) (f : frame) : option sn :=
    let* s :=
      (if sn_idx s <? scope_samples then
         let mm := widen (sn_mm s) (sigs f) in
         if Qle_bool tpb (sn_ft s) then
           let* h := foldm (fun h im => scope_write h im.1 (sn_idx s) im.2) (sn_h s) (imap pair mm) in
           Some (SN h (sn_idx s + 1) (sn_ft s - tpb + st) (sn_sr s) clean (sn_trig s))
         else Some (SN (sn_h s) (sn_idx s) (sn_ft s + st) (sn_sr s) mm (sn_trig s))
       else Some s) in
    if scope_samples <=? sn_idx s then
      let '(hit, tr) := chk (sn_trig s) (trig_in src f) in
      if hit then Some (SN (sn_h s) 0 0 (sn_sr s) clean tr)
      else if trig_off src then Some (SN (sn_h s) 0 (sn_ft s) (sn_sr s) clean tr)
      else Some (SN (sn_h s) (sn_idx s) (sn_ft s) (sn_sr s) (sn_mm s) tr)
    else Some s.

  (** src/dsp/node_scope.rs:141-156, 163-169: mask, offsets, gains and threshold of the block *)
  Definition sn_prepare (s : sn) (b : scblk) : option sn :=
    let h := scope_set_mask (sn_h s) (sb_mask b).1.1 (sb_mask b).1.2 (sb_mask b).2 in
    let* h := foldm (fun h io => scope_set_offs h io.1 io.2.1 io.2.2) h (imap pair (sb_offs b)) in
    let h := scope_set_thr h (if trig_off (sb_src b) then None else Some (sb_thr b)) in
    Some (SN h (sn_idx s) (sn_ft s) (sn_sr s) (sn_mm s) (sett (sn_trig s) (sb_thr b))).

  (** src/dsp/node_scope.rs:119-233 [process] *)
  Definition sn_process (s : sn) (b : scblk) : option sn :=
    let* s := sn_prepare s b in
    let t := clamp_time (sb_time b) in
    let spb := samples_per_block t (sn_sr s) in
    if Qle_bool 1 spb then foldm (long_frame (time_per_block t) (sample_time (sn_sr s)) (sb_src b)) s (sb_frames b)
    else foldm (short_frame (copy_count spb) (sb_src b)) s (sb_frames b).

  (** What the audio thread does with the node; src/dsp/node_scope.rs:113-115 [set_sample_rate], with the rate in kHz *)
  Inductive scop_op := ORate (khz : Q) | OProc (b : scblk).
  Definition sn_step (s : sn) (o : scop_op) : option sn :=
    match o with
    | ORate q => Some (SN (sn_h s) (sn_idx s) (sn_ft s) q (sn_mm s) (sn_trig s))
    | OProc b => sn_process s b
    end.
  Definition sn_run (s : sn) (ops : list scop_op) : option sn := foldm sn_step s ops.
End node.
Arguments sn : clear implicits.
