(** The oscillators BOsc, VOsc and BowStri (src/dsp/node_bosc.rs, node_vosc.rs, node_bowstri.rs), as a part of the nodes of [M_Path].

    Simplifications: the oscillators, filters and delay lines of synfx_dsp are arbitrary state machines ([genlib]), the float operations are
    parameters ([fops]). [reset] and new nodes after [clear] are left out; the sample rate is that of the last [set_sample_rate]. *)
From Coq Require Import QArith.
From stdpp Require Import strings.
From Verif Require Import Base M_Atom M_Graph M_Prog M_Nodes M_Path M_Fx.
Open Scope nat_scope.

Definition kind_bosc : nat := Eval vm_compute in nid_kind (node_from_str "bosc"%string).
Definition kind_vosc : nat := Eval vm_compute in nid_kind (node_from_str "vosc"%string).
Definition kind_bowstri : nat := Eval vm_compute in nid_kind (node_from_str "bowstri"%string).

(** The operations on [f32]: constants, [+], [-], [*], [/], [-x], [max], [clamp x lo hi], [abs], [powf(-4.0)], [x <= 0.0] *)
Record fops (F : Type) := FOps {
  o_q : Q -> F; o_add : F -> F -> F; o_sub : F -> F -> F; o_mul : F -> F -> F; o_div : F -> F -> F; o_neg : F -> F;
  o_max : F -> F -> F; o_clamp : F -> F -> F -> F; o_abs : F -> F; o_pow4 : F -> F; o_le0 : F -> bool }.
Arguments FOps {F}. Arguments o_q {F}. Arguments o_add {F}. Arguments o_sub {F}. Arguments o_mul {F}. Arguments o_div {F}. Arguments o_neg {F}.
Arguments o_max {F}. Arguments o_clamp {F}. Arguments o_abs {F}. Arguments o_pow4 {F}. Arguments o_le0 {F}.

(** What synfx_dsp provides: [PolyBlepOscillator] (frequency, inverse sample rate, and the pulse width); [VPSOscillator] (frequency, inverse
    sample rate, d, v) with [limit_v]; [apply_distortion]; [Oversampling::downsample] of the filled buffer; [DelayBuffer] (tap at a number of samples, feed);
    [FixedOnePole]; [Biquad] *)
Record genlib (F : Type) := GenLib {
  g_blep : Type; g_sin : g_blep -> F -> F -> g_blep * F; g_tri : g_blep -> F -> F -> g_blep * F; g_saw : g_blep -> F -> F -> g_blep * F;
  g_pulse : g_blep -> F -> F -> F -> g_blep * F; g_pulse_no_dc : g_blep -> F -> F -> F -> g_blep * F;
  g_vps : Type; g_vps_next : g_vps -> F -> F -> F -> F -> g_vps * F; g_limit_v : F -> F -> F; g_distort : F -> F -> Z -> F;
  g_over : Type; g_down : g_over -> list F -> g_over * F;
  g_line : Type; g_tap : g_line -> F -> F; g_feed : g_line -> F -> g_line;
  g_pole : Type; g_pole_next : g_pole -> F -> g_pole * F;
  g_biq : Type; g_tick : g_biq -> F -> g_biq * F;
}.
Arguments g_blep {F}. Arguments g_sin {F}. Arguments g_tri {F}. Arguments g_saw {F}. Arguments g_pulse {F}. Arguments g_pulse_no_dc {F}.
Arguments g_vps {F}. Arguments g_vps_next {F}. Arguments g_limit_v {F}. Arguments g_distort {F}. Arguments g_over {F}. Arguments g_down {F}.
Arguments g_line {F}. Arguments g_tap {F}. Arguments g_feed {F}. Arguments g_pole {F}. Arguments g_pole_next {F}. Arguments g_biq {F}. Arguments g_tick {F}.
Arguments GenLib {F}.

(** src/dsp/node_vosc.rs:24 *)
Definition oversampling : nat := 4.

Section cores.
  Context {F : Type} (O : fops F) (X : genlib F).

  (** src/dsp/node_bosc.rs:140-182: the wave of a frame by the setting; [israte] is [1.0 / srate] (src/dsp/node_bosc.rs:113-115) *)
  Definition bosc_wave (wtype : Z) (srate : F) (o : g_blep X) (freq pw : F) : g_blep X * F :=
    let israte := o_div O (o_q O 1) srate in
    match wtype with
    | 0%Z => g_sin X o freq israte
    | 1%Z => g_tri X o freq israte
    | 2%Z => g_saw X o freq israte
    | 3%Z => g_pulse_no_dc X o freq israte pw
    | _ => g_pulse X o freq israte pw
    end.

  (** src/dsp/node_vosc.rs:163-167: [for b in overbuf { .. }] *)
  Fixpoint vosc_over (k : nat) (o : g_vps X) (freq israte d v damt : F) (dist : Z) : g_vps X * list F :=
    match k with
    | 0 => (o, [])
    | S k =>
        let '(o, s) := g_vps_next X o freq israte d v in
        let '(o, bs) := vosc_over k o freq israte d v damt dist in
        (o, g_distort X s damt dist :: bs)
    end.
  (** src/dsp/node_vosc.rs:154-169 and 173-185: a frame with the frequency, and [v], [d], [vs], [damt] after [denorm];
      [israte]: src/dsp/node_vosc.rs:114-117 *)
  Definition vosc_frame (oversample : bool) (dist : Z) (srate : F) (st : g_vps X * g_over X) (freq v d vs damt : F) : g_vps X * g_over X * F :=
    let '(o, ov) := st in
    let israte := o_div O (o_q O 1) (o_mul O srate (o_q O (inject_Z (Z.of_nat oversampling)))) in
    let v := o_clamp O v (o_q O 0) (o_q O 1) in
    let d := o_clamp O d (o_q O 0) (o_q O 1) in
    let vs := o_clamp O vs (o_q O 0) (o_q O 20) in
    let damt := o_clamp O damt (o_q O 0) (o_q O 1) in
    let v := g_limit_v X d (o_add O v vs) in
    if oversample then
      let '(o, bs) := vosc_over oversampling o freq israte d v damt dist in
      let '(ov, y) := g_down X ov bs in
      (o, ov, y)
    else
      let '(o, s) := g_vps_next X o freq (o_mul O israte (o_q O (inject_Z (Z.of_nat oversampling)))) d v in
      (o, ov, g_distort X s damt dist).

  (** src/dsp/node_bowstri.rs:29-35; [st_body] has six filters *)
  Record string_ := String_ { st_nut : g_line X; st_bridge : g_line X; st_pole : g_pole X; st_body : list (g_biq X) }.

  (** src/dsp/node_bowstri.rs:92-95: one filter after the other *)
  Fixpoint body_chain (fs : list (g_biq X)) (y : F) : list (g_biq X) * F :=
    match fs with
    | [] => ([], y)
    | f :: fs => let '(f, y) := g_tick X f y in let '(fs, y) := body_chain fs y in (f :: fs, y)
    end.

  (** src/dsp/node_bowstri.rs:72-78: the lengths of the two parts of the string, in samples *)
  Definition string_lengths (srate freq pos : F) : F * F :=
    let total := o_div O srate (o_max O freq (o_q O 20)) in
    let total := if o_le0 O total then o_q O (3 # 10) else total in
    let at_ := o_clamp O (o_div O (o_add O pos (o_q O 1)) (o_q O 2)) (o_q O (1 # 100)) (o_q O (99 # 100)) in
    (o_mul O total (o_sub O (o_q O 1) at_), o_mul O total at_).
  (** src/dsp/node_bowstri.rs:83-90: what leaves the bow towards the bridge and the nut *)
  Definition bow_joint (vel force nut bridge : F) : F * F :=
    let dv := o_sub O (o_mul O (o_q O (1 # 4)) vel) (o_add O nut bridge) in
    let phat := o_clamp O (o_pow4 O (o_abs O (o_add O (o_mul O (o_add O dv (o_q O (1 # 1000))) force) (o_q O (3 # 4))))) (o_q O (1 # 100)) (o_q O (98 # 100)) in
    let phat := o_mul O phat dv in
    (o_add O nut phat, o_add O bridge phat).
  (** src/dsp/node_bowstri.rs:71-98 *)
  Definition string_frame (srate : F) (s : string_) (freq vel force pos : F) : string_ * F :=
    let '(nut_l, bridge_l) := string_lengths srate freq pos in
    let nut := o_neg O (g_tap X (st_nut s) nut_l) in
    let brid := g_tap X (st_bridge s) bridge_l in
    let '(pole, b) := g_pole_next X (st_pole s) brid in
    let bridge := o_neg O b in
    let '(to_bridge, to_nut) := bow_joint vel force nut bridge in
    let '(body, y) := body_chain (st_body s) bridge in
    (String_ (g_feed X (st_nut s) to_nut) (g_feed X (st_bridge s) to_bridge) pole body, y).

  (** src/dsp/node_bowstri.rs:171-176: the correction of the pitch by the normalized frequency *)
  Definition tune_correction (freq : F) : F :=
    o_mul O (o_mul O (o_add O (o_clamp O freq (o_q O (-2 # 10)) (o_q O 1)) (o_q O (2 # 10))) (o_q O 10)) (o_q O (12 # 10000)).
End cores.
Arguments String_ {F X}. Arguments st_nut {F X}. Arguments st_bridge {F X}. Arguments st_pole {F X}. Arguments st_body {F X}.

(** A node's state: every node uses the parts that it has; [gs_led] is its LED value *)
Record gens (X : genlib f32) := GenS { gs_blep : g_blep X; gs_vps : g_vps X; gs_over : g_over X; gs_string : string_ X; gs_led : f32 }.
Arguments GenS {X}. Arguments gs_blep {X}. Arguments gs_vps {X}. Arguments gs_over {X}. Arguments gs_string {X}. Arguments gs_led {X}.

Section gen.
  Context (denorm : nat -> nat -> f32 -> f32) (O : fops f32) (X : genlib f32) (srate : f32) (f2i : f32 -> Z).
  Local Notation gens := (gens X).

  (** [denorm_offs::<node>::freq(freq, offs, frame)] (src/dsp/mod.rs:2405-2412) for port 0 of a node of kind [k] *)
  Definition denorm_freq (k : nat) (ins : list (list f32)) (offs : f32) (f : nat) : f32 := denorm k 0 (o_add O (rd ins 0 f) offs).

  (** a frame of BOsc: src/dsp/node_bosc.rs:140-182 *)
  Definition bosc_body (wtype : Z) (ins : list (list f32)) (s : gens) (f : nat) : gens * list (nat * f32) :=
    let '(o, y) := bosc_wave O X wtype srate (gs_blep s) (denorm_freq kind_bosc ins (rd ins 1 f) f) (denorm kind_bosc 2 (rd ins 2 f)) in
    (GenS o (gs_vps s) (gs_over s) (gs_string s) (gs_led s), [(0, y)]).
  (** a frame of VOsc: src/dsp/node_vosc.rs:154-185 *)
  Definition vosc_body (oversample : bool) (dist : Z) (ins : list (list f32)) (s : gens) (f : nat) : gens * list (nat * f32) :=
    let dn j := denorm kind_vosc j (rd ins j f) in
    let '(o, ov, y) := vosc_frame O X oversample dist srate (gs_vps s, gs_over s) (denorm_freq kind_vosc ins (rd ins 1 f) f) (dn 3) (dn 2) (dn 4) (dn 5) in
    (GenS (gs_blep s) o ov (gs_string s) (gs_led s), [(0, y)]).
  (** a frame of BowStri: src/dsp/node_bowstri.rs:170-188; [last_val] is the LED value *)
  Definition bowstri_body (ins : list (list f32)) (s : gens) (f : nat) : gens * list (nat * f32) :=
    let dn j := denorm kind_bowstri j (rd ins j f) in
    let freq := denorm_freq kind_bowstri ins (o_add O (tune_correction O (rd ins 0 f)) (rd ins 1 f)) f in
    let '(st, y) := string_frame O X srate (gs_string s) freq (dn 2) (dn 3) (dn 4) in
    (GenS (gs_blep s) (gs_vps s) (gs_over s) st y, [(0, y)]).

  Definition with_led (s : gens) (v : f32) : gens := GenS (gs_blep s) (gs_vps s) (gs_over s) (gs_string s) v.

  (** [process] of a block: src/dsp/node_bosc.rs:121-186, node_vosc.rs:124-189, node_bowstri.rs:151-193. [dist.i() as u8] truncates.
      A block of no frames panics in BOsc and VOsc with overflow checks; it is left out here. *)
  Definition gen_process (n : node_id) (s : gens) (nframes : nat) (oc ic : N) (ats : list satom) (ins outs : list (list f32)) : gens * list (list f32) :=
    let k := nid_kind n in
    let a j := at_i f2i ats j in
    let run body s := frames body s 0 nframes outs in
    if k =? kind_bosc then
      let '(s, outs) := run (bosc_body (a 0) ins) s in (with_led s (rd outs 0 (nframes - 1)), outs)
    else if k =? kind_vosc then
      let '(s, outs) := run (vosc_body (a 1%nat =? 1)%Z (a 0%nat mod 256)%Z ins) s in (with_led s (rd outs 0 (nframes - 1)), outs)
    else if k =? kind_bowstri then run (bowstri_body ins) (with_led s (o_q O 0))
    else (s, outs).

  (** These nodes beside the others: every node has its own state, other nodes are [other] *)
  Context {R : Type}.
  Context (other : node_id -> R -> nat -> N -> N -> list satom -> list (list f32) -> list (list f32) -> list (list f32) -> R * list (list f32)).
  Definition gen_kinds : list nat := [kind_bosc; kind_vosc; kind_bowstri].
  Definition gen_rest (n : node_id) (st : (node_id -> gens) * R) (nframes : nat) (oc ic : N) (ats : list satom)
      (own ins outs : list (list f32)) : (node_id -> gens) * R * list (list f32) :=
    if decide (nid_kind n ∈ gen_kinds) then
      let '(s, outs) := gen_process n (st.1 n) nframes oc ic ats ins outs in
      ((fun m => if decide (m = n) then s else st.1 m, st.2), outs)
    else let '(r, outs) := other n st.2 nframes oc ic ats own ins outs in ((st.1, r), outs).
End gen.
