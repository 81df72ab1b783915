(** The effect, envelope and control nodes that pass on their work to the crate synfx_dsp: PVerb, Delay, Comb, AllP, Ad, Adsr, TsLFO, ExtA to ExtF,
    Quant, CQnt and Test (src/dsp/node_pverb.rs, node_delay.rs, node_comb.rs, node_allp.rs, node_ad.rs, node_adsr.rs, node_tslfo.rs, node_ext.rs,
    node_quant.rs, node_cqnt.rs, node_test.rs), as a part of the nodes of [M_Path].

    Simplifications: the LED values are left out; the objects of synfx_dsp are arbitrary state machines ([fxlib]); the float operations
    and conversions between [f32] and [f64] are parameters or part of these machines. *)
From Coq Require Import QArith.
From stdpp Require Import strings.
From Verif Require Import Base M_Atom M_Graph M_Prog M_Nodes M_Path.
Open Scope nat_scope.

Definition kind_pverb : nat := Eval vm_compute in nid_kind (node_from_str "pverb"%string).
Definition kind_delay : nat := Eval vm_compute in nid_kind (node_from_str "delay"%string).
Definition kind_comb : nat := Eval vm_compute in nid_kind (node_from_str "comb"%string).
Definition kind_allp : nat := Eval vm_compute in nid_kind (node_from_str "allp"%string).
Definition kind_ad : nat := Eval vm_compute in nid_kind (node_from_str "ad"%string).
Definition kind_adsr : nat := Eval vm_compute in nid_kind (node_from_str "adsr"%string).
Definition kind_tslfo : nat := Eval vm_compute in nid_kind (node_from_str "tslfo"%string).
Definition kind_exta : nat := Eval vm_compute in nid_kind (node_from_str "exta"%string).
Definition kind_extf : nat := Eval vm_compute in nid_kind (node_from_str "extf"%string).
Definition kind_quant : nat := Eval vm_compute in nid_kind (node_from_str "quant"%string).
Definition kind_cqnt : nat := Eval vm_compute in nid_kind (node_from_str "cqnt"%string).
Definition kind_test : nat := Eval vm_compute in nid_kind (node_from_str "test"%string).

(** What synfx_dsp provides: [crossfade]; [DattorroReverb] (parameters of the frame, left, right); [DelayBuffer] (interpolated tap at a time,
    tap at a number of samples, feeding a sample) and [TriggerSampleClock]; [Comb]; [AllPass]; [EnvRetrigAD] (trigger, attack, shape, decay,
    shape); [EnvRetrigADSR] (gate and the seven parameters); [Trigger] and [TriSawLFO]; [SlewValue] (target, time); [Quantizer] and
    [CtrlPitchQuantizer]; [ChangeTrig]; [TrigSignal] *)
Record fxlib := FxLib {
  x_fade : f32 -> f32 -> f32 -> f32;
  x_verb : Type; x_verb_next : x_verb -> list f32 -> f32 -> f32 -> x_verb * (f32 * f32);
  x_line : Type; x_tap : x_line -> f32 -> f32; x_tap_at : x_line -> nat -> f32; x_feed : x_line -> f32 -> x_line;
  x_clock : Type; x_clock_next : x_clock -> f32 -> x_clock * nat;
  x_comb : Type; x_feedback : x_comb -> f32 -> f32 -> f32 -> x_comb * f32; x_feedforward : x_comb -> f32 -> f32 -> f32 -> x_comb * f32;
  x_allp : Type; x_allp_next : x_allp -> f32 -> f32 -> f32 -> x_allp * f32;
  x_ad : Type; x_ad_tick : x_ad -> f32 -> f32 -> f32 -> f32 -> f32 -> x_ad * (f32 * f32);
  x_adsr : Type; x_adsr_tick : x_adsr -> f32 -> list f32 -> x_adsr * (f32 * f32);
  x_trig : Type; x_check : x_trig -> f32 -> x_trig * bool;
  x_lfo : Type; x_lfo_reset : x_lfo -> x_lfo; x_lfo_set : x_lfo -> f32 -> f32 -> x_lfo; x_lfo_next : x_lfo -> x_lfo * f32;
  x_slew : Type; x_slew_next : x_slew -> f32 -> f32 -> x_slew * f32;
  x_quant : Type; x_keys : x_quant -> Z -> x_quant; x_snap : x_quant -> f32 -> x_quant * f32;
  x_cqnt : Type; x_ckeys : x_cqnt -> Z -> Z -> Z -> x_cqnt; x_csnap : x_cqnt -> f32 -> x_cqnt * f32;
  x_change : Type; x_change_next : x_change -> f32 -> x_change * f32;
  x_pulse : Type; x_fire : x_pulse -> x_pulse; x_pulse_next : x_pulse -> x_pulse * f32;
}.

(** A node's state; every node uses the parts that it has. [s_fired] is [Test::trigger] (src/dsp/node_test.rs:14-17), [s_blocks] counts the
    blocks of the node, to tell which values it gets from the host. *)
Record fxs (X : fxlib) := FxS {
  s_verb : x_verb X; s_line : x_line X; s_clock : x_clock X; s_comb : x_comb X; s_allp : x_allp X; s_ad : x_ad X; s_adsr : x_adsr X;
  s_trig : x_trig X; s_lfo : x_lfo X; s_slew1 : x_slew X; s_slew2 : x_slew X; s_slew3 : x_slew X;
  s_quant : x_quant X; s_cqnt : x_cqnt X; s_change : x_change X; s_pulse : x_pulse X; s_fired : bool; s_blocks : nat }.
Arguments FxS {X}. Arguments s_verb {X}. Arguments s_line {X}. Arguments s_clock {X}. Arguments s_comb {X}. Arguments s_allp {X}.
Arguments s_ad {X}. Arguments s_adsr {X}. Arguments s_trig {X}. Arguments s_lfo {X}. Arguments s_slew1 {X}. Arguments s_slew2 {X}.
Arguments s_slew3 {X}. Arguments s_quant {X}. Arguments s_cqnt {X}. Arguments s_change {X}. Arguments s_pulse {X}. Arguments s_fired {X}. Arguments s_blocks {X}.

(** [outputs[j].write(frame, v)], and the writes of one frame in their order *)
Definition write1 (f : nat) (outs : list (list f32)) (jv : nat * f32) : list (list f32) := alter (insert f jv.2) jv.1 outs.
(** [for frame in f..f + n { body }]: the body gives the next state and what is written in this frame *)
Fixpoint frames {S} (body : S -> nat -> S * list (nat * f32)) (s : S) (f n : nat) (outs : list (list f32)) : S * list (list f32) :=
  match n with
  | 0 => (s, outs)
  | Datatypes.S n => let '(s, ws) := body s f in frames body s (Datatypes.S f) n (foldl (write1 f) outs ws)
  end.

Section fx.
  (** as in [M_Path]; [q2f] makes the float of a constant, [clamp x lo hi], [div] and [sub] *)
  Context (denorm : nat -> nat -> f32 -> f32) (q2f : Q -> f32) (fadd fmul fsub fdiv : f32 -> f32 -> f32) (fclamp : f32 -> f32 -> f32 -> f32) (f2i : f32 -> Z).
  (** [nctx.out_connected as f32]; [SAtom::f] (src/dsp/satom.rs) *)
  Context (n2f : N -> f32) (atom_f : satom -> f32) (X : fxlib).
  (** the host's parameters, by letter and number, as the node reads them at the start of its [k]th block; [None] as long as
      [set_external_params] was not called (src/nodes/node_exec.rs:311-313) *)
  Context (host : node_id -> nat -> option (nat -> nat -> f32)).
  Local Notation fxs := (fxs X).

  (** src/dsp/node_pverb.rs:196-205: the two inputs that are read; bits 0 and 1 tell whether they are connected *)
  Definition pverb_ins (ic : N) : nat * nat :=
    if negb (N.land ic 3 =? 3)%N then
      if (N.land ic 1 =? 1)%N then (0, 0)
      else if (N.land ic 2 =? 2)%N then (1, 1) else (0, 1)
    else (0, 1).
  (** src/dsp/node_pverb.rs:207-241; the parameters 2 to 13 are passed on as they are *)
  Definition pverb_frame (ic : N) (ins : list (list f32)) (s : fxs) (f : nat) : fxs * list (nat * f32) :=
    let '(il, ir) := pverb_ins ic in
    let i_l := rd ins il f in
    let i_r := rd ins ir f in
    let '(v, (l, r)) := x_verb_next X (s_verb s) ((fun j => rd ins j f) <$> seq 2 12) i_l i_r in
    let mix := denorm kind_pverb 14 (rd ins 14 f) in
    (FxS v (s_line s) (s_clock s) (s_comb s) (s_allp s) (s_ad s) (s_adsr s) (s_trig s) (s_lfo s) (s_slew1 s) (s_slew2 s) (s_slew3 s)
         (s_quant s) (s_cqnt s) (s_change s) (s_pulse s) (s_fired s) (s_blocks s),
     [(0, x_fade X i_l l mix); (1, x_fade X i_r r mix)]).

  (** src/dsp/node_delay.rs:104-135 *)
  Definition delay_frame (mode : Z) (ins : list (list f32)) (s : fxs) (f : nat) : fxs * list (nat * f32) :=
    let dry := rd ins 0 f in
    let '(clk, wet) :=
      if (mode =? 0)%Z then (s_clock s, x_tap X (s_line s) (denorm kind_delay 2 (rd ins 2 f)))
      else let '(clk, k) := x_clock_next X (s_clock s) (denorm kind_delay 1 (rd ins 1 f)) in (clk, x_tap_at X (s_line s) k) in
    let line := x_feed X (s_line s) (fadd dry (fmul wet (denorm kind_delay 3 (rd ins 3 f)))) in
    (FxS (s_verb s) line clk (s_comb s) (s_allp s) (s_ad s) (s_adsr s) (s_trig s) (s_lfo s) (s_slew1 s) (s_slew2 s) (s_slew3 s)
         (s_quant s) (s_cqnt s) (s_change s) (s_pulse s) (s_fired s) (s_blocks s),
     [(0, x_fade X dry wet (fclamp (denorm kind_delay 4 (rd ins 4 f)) (q2f 0) (q2f 1)))]).

  (** src/dsp/node_comb.rs:92-118 *)
  Definition comb_frame (mode : Z) (ins : list (list f32)) (s : fxs) (f : nat) : fxs * list (nat * f32) :=
    let v := rd ins 0 f in
    let time := denorm kind_comb 1 (rd ins 1 f) in
    let g := denorm kind_comb 2 (rd ins 2 f) in
    let '(c, y) := if (mode =? 0)%Z then x_feedback X (s_comb s) time g v else x_feedforward X (s_comb s) time g v in
    (FxS (s_verb s) (s_line s) (s_clock s) c (s_allp s) (s_ad s) (s_adsr s) (s_trig s) (s_lfo s) (s_slew1 s) (s_slew2 s) (s_slew3 s)
         (s_quant s) (s_cqnt s) (s_change s) (s_pulse s) (s_fired s) (s_blocks s), [(0, y)]).

  (** src/dsp/node_allp.rs:97-109 *)
  Definition allp_frame (ins : list (list f32)) (s : fxs) (f : nat) : fxs * list (nat * f32) :=
    let '(a, y) := x_allp_next X (s_allp s) (denorm kind_allp 1 (rd ins 1 f)) (denorm kind_allp 2 (rd ins 2 f)) (rd ins 0 f) in
    (FxS (s_verb s) (s_line s) (s_clock s) (s_comb s) a (s_ad s) (s_adsr s) (s_trig s) (s_lfo s) (s_slew1 s) (s_slew2 s) (s_slew3 s)
         (s_quant s) (s_cqnt s) (s_change s) (s_pulse s) (s_fired s) (s_blocks s), [(0, y)]).

  (** src/dsp/node_ad.rs:147-151, node_adsr.rs:163-167 *)
  Definition env_mult (m : Z) : f32 := match m with 1%Z => q2f 10 | 2%Z => q2f 100 | _ => q2f 1 end.
  Definition unit_clamp (v : f32) : f32 := fclamp v (q2f 0) (q2f 1).

  (** src/dsp/node_ad.rs:153-168 *)
  Definition ad_frame (mult : f32) (ins : list (list f32)) (s : fxs) (f : nat) : fxs * list (nat * f32) :=
    let trig := denorm kind_ad 1 (rd ins 1 f) in
    let atk := fmul mult (denorm kind_ad 2 (rd ins 2 f)) in
    let ashp := unit_clamp (denorm kind_ad 4 (rd ins 4 f)) in
    let dcy := fmul mult (denorm kind_ad 3 (rd ins 3 f)) in
    let dshp := fsub (q2f 1) (unit_clamp (denorm kind_ad 5 (rd ins 5 f))) in
    let '(e, (value, retrig)) := x_ad_tick X (s_ad s) trig atk ashp dcy dshp in
    (FxS (s_verb s) (s_line s) (s_clock s) (s_comb s) (s_allp s) e (s_adsr s) (s_trig s) (s_lfo s) (s_slew1 s) (s_slew2 s) (s_slew3 s)
         (s_quant s) (s_cqnt s) (s_change s) (s_pulse s) (s_fired s) (s_blocks s),
     [(0, fmul (denorm kind_ad 0 (rd ins 0 f)) value); (1, retrig)]).

  (** src/dsp/node_adsr.rs:169-190; the parameters in the order attack_ms, attack_shape, decay_ms, decay_shape, release_ms, release_shape, sustain *)
  Definition adsr_frame (mult : f32) (ins : list (list f32)) (s : fxs) (f : nat) : fxs * list (nat * f32) :=
    let dn j := denorm kind_adsr j (rd ins j f) in
    let ps := [fmul mult (dn 2); unit_clamp (dn 6); fmul mult (dn 3); fsub (q2f 1) (unit_clamp (dn 7));
               fmul mult (dn 5); fsub (q2f 1) (unit_clamp (dn 8)); unit_clamp (dn 4)] in
    let '(e, (value, retrig)) := x_adsr_tick X (s_adsr s) (dn 1) ps in
    (FxS (s_verb s) (s_line s) (s_clock s) (s_comb s) (s_allp s) (s_ad s) e (s_trig s) (s_lfo s) (s_slew1 s) (s_slew2 s) (s_slew3 s)
         (s_quant s) (s_cqnt s) (s_change s) (s_pulse s) (s_fired s) (s_blocks s),
     [(0, fmul (dn 0) value); (1, retrig)]).

  (** src/dsp/node_tslfo.rs:96-106 *)
  Definition tslfo_frame (ins : list (list f32)) (s : fxs) (f : nat) : fxs * list (nat * f32) :=
    let '(t, hit) := x_check X (s_trig s) (denorm kind_tslfo 1 (rd ins 1 f)) in
    let lfo := if hit then x_lfo_reset X (s_lfo s) else s_lfo s in
    let time := fclamp (denorm kind_tslfo 0 (rd ins 0 f)) (q2f (1 # 10)) (q2f 300000) in
    let lfo := x_lfo_set X lfo (fdiv (q2f 1000) time) (denorm kind_tslfo 2 (rd ins 2 f)) in
    let '(lfo, y) := x_lfo_next X lfo in
    (FxS (s_verb s) (s_line s) (s_clock s) (s_comb s) (s_allp s) (s_ad s) (s_adsr s) t lfo (s_slew1 s) (s_slew2 s) (s_slew3 s)
         (s_quant s) (s_cqnt s) (s_change s) (s_pulse s) (s_fired s) (s_blocks s), [(0, y)]).

  (** src/dsp/node_ext.rs:94-108 *)
  Definition ext_frame (k : nat) (p : nat -> f32) (ins : list (list f32)) (s : fxs) (f : nat) : fxs * list (nat * f32) :=
    let ms := denorm k 0 (rd ins 0 f) in
    let '(w1, y1) := x_slew_next X (s_slew1 s) (p 0) ms in
    let '(w2, y2) := x_slew_next X (s_slew2 s) (p 1) ms in
    let '(w3, y3) := x_slew_next X (s_slew3 s) (p 2) ms in
    (FxS (s_verb s) (s_line s) (s_clock s) (s_comb s) (s_allp s) (s_ad s) (s_adsr s) (s_trig s) (s_lfo s) w1 w2 w3
         (s_quant s) (s_cqnt s) (s_change s) (s_pulse s) (s_fired s) (s_blocks s),
     [(0, fmul (denorm k 1 (rd ins 1 f)) y1); (1, fmul (denorm k 2 (rd ins 2 f)) y2); (2, fmul (denorm k 3 (rd ins 3 f)) y3)]).

  (** src/dsp/node_quant.rs:84-93; the output numbers are those of CQnt *)
  Definition quant_frame (ins : list (list f32)) (s : fxs) (f : nat) : fxs * list (nat * f32) :=
    let '(q, pitch) := x_snap X (s_quant s) (rd ins 0 f) in
    let '(c, t) := x_change_next X (s_change s) pitch in
    (FxS (s_verb s) (s_line s) (s_clock s) (s_comb s) (s_allp s) (s_ad s) (s_adsr s) (s_trig s) (s_lfo s) (s_slew1 s) (s_slew2 s) (s_slew3 s)
         q (s_cqnt s) c (s_pulse s) (s_fired s) (s_blocks s),
     [(1, t); (0, fadd pitch (denorm kind_quant 1 (rd ins 1 f)))]).

  (** src/dsp/node_cqnt.rs:119-126 *)
  Definition cqnt_frame (ins : list (list f32)) (s : fxs) (f : nat) : fxs * list (nat * f32) :=
    let '(q, pitch) := x_csnap X (s_cqnt s) (denorm kind_cqnt 0 (rd ins 0 f)) in
    let '(c, t) := x_change_next X (s_change s) pitch in
    (FxS (s_verb s) (s_line s) (s_clock s) (s_comb s) (s_allp s) (s_ad s) (s_adsr s) (s_trig s) (s_lfo s) (s_slew1 s) (s_slew2 s) (s_slew3 s)
         (s_quant s) q c (s_pulse s) (s_fired s) (s_blocks s),
     [(1, t); (0, fadd pitch (denorm kind_cqnt 1 (rd ins 1 f)))]).

  (** src/dsp/node_test.rs:109-124; the loop carries [trigger] *)
  Definition test_frame (oc ic : N) (p : f32) (ts : bool * fxs) (f : nat) : bool * fxs * list (nat * f32) :=
    let '(trigger, s) := ts in
    let pulse := if trigger then x_fire X (s_pulse s) else s_pulse s in
    let '(pulse, t) := x_pulse_next X pulse in
    (false, FxS (s_verb s) (s_line s) (s_clock s) (s_comb s) (s_allp s) (s_ad s) (s_adsr s) (s_trig s) (s_lfo s) (s_slew1 s) (s_slew2 s) (s_slew3 s)
         (s_quant s) (s_cqnt s) (s_change s) pulse (s_fired s) (s_blocks s),
     [(0, p); (1, t); (2, if negb (N.land oc (N.shiftl 1 0) =? 0)%N then q2f 1 else q2f 0);
      (3, if negb (N.land ic (N.shiftl 1 0) =? 0)%N then q2f 1 else q2f 0); (5, n2f oc)]).
  (** src/dsp/node_test.rs:100-107: whether this block triggers, and the flag after it *)
  Definition test_arm (fired : bool) (trig : Z) : bool * bool :=
    if negb fired && (0 <? trig)%Z then (true, true)
    else if negb fired && (trig =? 0)%Z then (false, (0 <? trig)%Z)
    else if fired then (fired, false) else (fired, (0 <? trig)%Z).

  Definition with_quant (s : fxs) (q : x_quant X) (c : x_cqnt X) : fxs :=
    FxS (s_verb s) (s_line s) (s_clock s) (s_comb s) (s_allp s) (s_ad s) (s_adsr s) (s_trig s) (s_lfo s) (s_slew1 s) (s_slew2 s) (s_slew3 s)
        q c (s_change s) (s_pulse s) (s_fired s) (s_blocks s).
  Definition with_fired (s : fxs) (b : bool) : fxs :=
    FxS (s_verb s) (s_line s) (s_clock s) (s_comb s) (s_allp s) (s_ad s) (s_adsr s) (s_trig s) (s_lfo s) (s_slew1 s) (s_slew2 s) (s_slew3 s)
        (s_quant s) (s_cqnt s) (s_change s) (s_pulse s) b (s_blocks s).
  Definition next_block (s : fxs) : fxs :=
    FxS (s_verb s) (s_line s) (s_clock s) (s_comb s) (s_allp s) (s_ad s) (s_adsr s) (s_trig s) (s_lfo s) (s_slew1 s) (s_slew2 s) (s_slew3 s)
        (s_quant s) (s_cqnt s) (s_change s) (s_pulse s) (s_fired s) (S (s_blocks s)).

  (** [process] of these nodes: a block *)
  Definition fx_process (n : node_id) (s : fxs) (nframes : nat) (oc ic : N) (ats : list satom) (ins outs : list (list f32)) : fxs * list (list f32) :=
    let k := nid_kind n in
    let a j := at_i f2i ats j in
    let run body s := frames body s 0 nframes outs in
    if k =? kind_pverb then run (pverb_frame ic ins) s
    else if k =? kind_delay then run (delay_frame (a 0) ins) s
    else if k =? kind_comb then run (comb_frame (a 0) ins) s
    else if k =? kind_allp then run (allp_frame ins) s
    else if k =? kind_ad then run (ad_frame (env_mult (a 0)) ins) s
    else if k =? kind_adsr then run (adsr_frame (env_mult (a 0)) ins) s
    else if k =? kind_tslfo then run (tslfo_frame ins) s
    else if (kind_exta <=? k) && (k <=? kind_extf) then
      let s' := next_block s in
      match host n (s_blocks s) with
      | Some p => run (ext_frame k (p (k - kind_exta)) ins) s'
      | None => (s', outs)
      end
    else if k =? kind_quant then run (quant_frame ins) (with_quant s (x_keys X (s_quant s) (a 0)) (s_cqnt s))
    else if k =? kind_cqnt then run (cqnt_frame ins) (with_quant s (s_quant s) (x_ckeys X (s_cqnt s) (a 0) (a 1) (a 2)))
    else if k =? kind_test then
      let '(fired, trigger) := test_arm (s_fired s) (a 1) in
      let '((_, s), outs) := frames (test_frame oc ic (from_option atom_f f32_zero (ats !! 0))) (trigger, with_fired s fired) 0 nframes outs in
      (s, outs)
    else (s, outs).

  (** How Mux9 and Scope look at their connections: src/dsp/node_mux9.rs:157 and src/scope_handle.rs:78-82; the rest of them is in [M_Mux]
      and [M_ScopeN] *)
  Definition mux9_slct_connected (ic : N) : bool := (N.land ic 1 =? 1)%N.
  Definition scope_connected (ic : N) : bool * bool * bool :=
    (negb (N.land ic 1 =? 0)%N, negb (N.land ic 2 =? 0)%N, negb (N.land ic 4 =? 0)%N).

  (** These nodes beside the others: every node has its own state ([fx]), other nodes are [other] *)
  Context {R : Type}.
  Context (other : node_id -> R -> nat -> N -> N -> list satom -> list (list f32) -> list (list f32) -> list (list f32) -> R * list (list f32)).
  Definition fx_kinds : list nat :=
    [kind_pverb; kind_delay; kind_comb; kind_allp; kind_ad; kind_adsr; kind_tslfo; kind_quant; kind_cqnt; kind_test] ++ seq kind_exta 6.
  Definition fx_rest (n : node_id) (st : (node_id -> fxs) * R) (nframes : nat) (oc ic : N) (ats : list satom)
      (own ins outs : list (list f32)) : (node_id -> fxs) * R * list (list f32) :=
    if decide (nid_kind n ∈ fx_kinds) then
      let '(s, outs) := fx_process n (st.1 n) nframes oc ic ats ins outs in
      ((fun m => if decide (m = n) then s else st.1 m, st.2), outs)
    else let '(r, outs) := other n st.2 nframes oc ic ats own ins outs in ((st.1, r), outs).
End fx.
