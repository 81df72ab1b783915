(** The graphs that the nodes offer for their view: [graph_fun] of src/dsp/node_ad.rs, node_adsr.rs, node_bosc.rs, node_vosc.rs, node_tslfo.rs
    and node_test.rs; the other nodes offer none.

    Simplifications: the envelope, the oscillators and the LFO of synfx_dsp are arbitrary state machines, the float operations parameters;
    the graph of Ad is in exact arithmetic. *)
From Coq Require Import QArith.
From stdpp Require Import strings.
From Verif Require Import Base M_Atom M_Graph M_Nodes M_Gen.
Open Scope string_scope.
Open Scope list_scope.
Open Scope nat_scope.

(** src/dsp/mod.rs:703-709 [trait GraphAtomData], without the phase and LED values, which no graph uses *)
Record gdata (F : Type) := GData { gd_get : nat -> option satom; gd_denorm : nat -> F; gd_norm : nat -> F }.
Arguments GData {F}. Arguments gd_get {F}. Arguments gd_denorm {F}. Arguments gd_norm {F}.

(** [NodeId::Ad(0).inp_param("atk").unwrap().inp()]; [None] is the panic of [unwrap] *)
Definition port (kind name : string) : option nat := pa_idx <$> inp_param (node_from_str kind) name.

(** The drawing of a graph: the points with their next points; [init] is set for the first one (src/dsp/mod.rs:344-353) *)
Fixpoint draw_from {F S} (g : S -> bool -> F -> F -> option (S * F)) (init : bool) (s : S) (pts : list (F * F)) : option (S * list F) :=
  match pts with
  | [] => Some (s, [])
  | (x, xn) :: pts =>
      let* (s, y) := g s init x xn in
      let* (s, ys) := draw_from g false s pts in
      Some (s, y :: ys)
  end.
Definition draw_graph {F S} (g : S -> bool -> F -> F -> option (S * F)) (s : S) (pts : list (F * F)) : option (S * list F) := draw_from g true s pts.

(** src/dsp/node_ad.rs:79-114, exactly; [bend] is [sqrt4_to_pow4] *)
Definition graph_ad (bend : Q -> Q -> Q) (gd : gdata Q) (s : unit) (init : bool) (x xn : Q) : option (unit * Q) :=
  let* atk_idx := port "ad" "atk" in
  let* dcy_idx := port "ad" "dcy" in
  let* ashp_idx := port "ad" "ashp" in
  let* dshp_idx := port "ad" "dshp" in
  let atk := gd_norm gd atk_idx in
  let dcy := gd_norm gd dcy_idx in
  let ashp := gd_denorm gd ashp_idx in
  let dshp := gd_denorm gd dshp_idx in
  let a := (atk * (1 # 2))%Q in
  let d := (dcy * (1 # 2))%Q in
  Some (s,
    if Qle_bool x a then
      if negb (Qle_bool xn a) then 1%Q
      else if negb (Qle_bool (1 # 10000) a) then 0%Q
      else bend (1 - ((a - x) / a))%Q ashp
    else if Qle_bool (x - a)%Q d then
      if negb (Qle_bool (1 # 10000) d) then 0%Q
      else bend ((d - (x - a)) / d)%Q dshp
    else 0%Q).

(** src/dsp/satom.rs:49-55 [i]; [f2i] is [as i64] *)
Definition atom_i (f2i : f32 -> Z) (a : satom) : Z :=
  match a with ASetting i => i | AParam v => f2i v | _ => 0%Z end.

(** [EnvADSRParams] of synfx_dsp *)
Record adsr (F : Type) := Adsr { ap_attack : F; ap_attack_shape : F; ap_decay : F; ap_decay_shape : F; ap_sustain : F; ap_release : F; ap_release_shape : F }.
Arguments Adsr {F}. Arguments ap_attack {F}. Arguments ap_attack_shape {F}. Arguments ap_decay {F}. Arguments ap_decay_shape {F}.
Arguments ap_sustain {F}. Arguments ap_release {F}. Arguments ap_release_shape {F}.

Section graphs.
  Context {F : Type} (O : fops F) (X : genlib F).

  (** [EnvRetrigADSR] with [reset] and [tick], which may change the parameters; the comparison [x > 0.70] *)
  Context {E : Type} (e_reset : E -> E) (e_tick : E -> F -> adsr F -> E * adsr F * F) (above : F -> bool).

  (** src/dsp/node_adsr.rs:198-200 [sq], which is [x.powf(0.3)] *)
  Context (sq : F -> F).
  (** src/dsp/node_adsr.rs:95-128 *)
  Definition graph_adsr (gd : gdata F) (s : E * adsr F) (init : bool) (x xn : F) : option (E * adsr F * F) :=
    let '(env, params) := s in
    let q := o_q O in
    if init then
      let* atk_idx := port "adsr" "atk" in
      let* dcy_idx := port "adsr" "dcy" in
      let* sus_idx := port "adsr" "sus" in
      let* rel_idx := port "adsr" "rel" in
      let* ashp_idx := port "adsr" "ashp" in
      let* dshp_idx := port "adsr" "dshp" in
      let* rshp_idx := port "adsr" "rshp" in
      let ms i := o_mul O (sq (o_div O (gd_denorm gd i) (q 1000%Q))) (q 180%Q) in
      let unit i := o_clamp O (gd_denorm gd i) (q 0%Q) (q 1%Q) in
      Some (e_reset env,
        Adsr (ms atk_idx) (gd_denorm gd ashp_idx) (ms dcy_idx) (o_sub O (q 1%Q) (unit dshp_idx)) (unit sus_idx) (ms rel_idx) (o_sub O (q 1%Q) (unit rshp_idx)),
        q 0%Q)
    else
      let gate := if above x then q 0%Q else q 1%Q in
      let '(env, params, sig) := e_tick env gate params in
      Some (env, params, sig).

  (** The conversion of [a.i()]; [PolyBlepOscillator::reset], [VPSOscillator::reset] *)
  Context (f2i : f32 -> Z) (b_reset : g_blep X -> g_blep X) (v_reset : g_vps X -> g_vps X).

  (** src/dsp/node_bosc.rs:95-97: the start of the triangle wave *)
  Fixpoint warm (n : nat) (o : g_blep X) (freq israte : F) : g_blep X :=
    match n with 0 => o | S n => warm n (g_tri X o freq israte).1 freq israte end.
  (** src/dsp/node_bosc.rs:71-111 *)
  Definition graph_bosc (gd : gdata F) (osc : g_blep X) (init : bool) (x xn : F) : option (g_blep X * F) :=
    let q := o_q O in
    let israte := o_div O (q 1%Q) (q 128%Q) in
    let* wtype := port "bosc" "wtype" in
    let* pw := port "bosc" "pw" in
    let wtype := from_option (atom_i f2i) 0%Z (gd_get gd wtype) in
    let pw := gd_denorm gd pw in
    let freq := q 2%Q in
    let osc := if init then let osc := b_reset osc in if (wtype =? 1)%Z then warm 256 osc freq israte else osc else osc in
    let half y := o_mul O (o_add O y (q 1%Q)) (q (1 # 2)) in
    let '(osc, s) :=
      match wtype with
      | 0%Z => let '(o, y) := g_sin X osc freq israte in (o, half y)
      | 1%Z => let '(o, y) := g_tri X osc freq israte in (o, half y)
      | 2%Z => let '(o, y) := g_saw X osc freq israte in (o, half y)
      | 3%Z => let '(o, y) := g_pulse_no_dc X osc freq israte pw in (o, half y)
      | _ => let '(o, y) := g_pulse X osc freq israte pw in (o, half y)
      end in
    Some (osc, o_add O (o_mul O s (q (9 # 10))) (q (5 # 100))).

  (** src/dsp/node_vosc.rs:83-110 *)
  Definition graph_vosc (gd : gdata F) (osc : g_vps X) (init : bool) (x xn : F) : option (g_vps X * F) :=
    let q := o_q O in
    let israte := o_div O (q 1%Q) (q 128%Q) in
    let osc := if init then v_reset osc else osc in
    let* v := port "vosc" "v" in
    let* vs := port "vosc" "vs" in
    let* d := port "vosc" "d" in
    let* damt := port "vosc" "damt" in
    let* dist := port "vosc" "dist" in
    let v := o_clamp O (gd_denorm gd v) (q 0%Q) (q 1%Q) in
    let d := o_clamp O (gd_denorm gd d) (q 0%Q) (q 1%Q) in
    let vs := o_clamp O (gd_denorm gd vs) (q 0%Q) (q 20%Q) in
    let damt := gd_denorm gd damt in
    let dist := from_option (atom_i f2i) 0%Z (gd_get gd dist) in
    let v := g_limit_v X d (o_add O v vs) in
    let '(osc, s) := g_vps_next X osc (q 1%Q) israte d v in
    let s := g_distort X s damt (dist mod 256)%Z in
    Some (osc, o_mul O (o_add O s (q 1%Q)) (q (1 # 2))).

  (** [TriSawLFO] of synfx_dsp; [f32::sqrt] *)
  Context {L : Type} (l_reset : L -> L) (l_set : L -> F -> F -> L) (l_next : L -> L * F) (sqrt : F -> F).
  (** src/dsp/node_tslfo.rs:47-64 *)
  Definition graph_tslfo (gd : gdata F) (lfo : L) (init : bool) (x xn : F) : option (L * F) :=
    let q := o_q O in
    let* lfo :=
      if init then
        let lfo := l_reset lfo in
        let* time_idx := port "tslfo" "time" in
        let* rev_idx := port "tslfo" "rev" in
        let time := sqrt (gd_norm gd time_idx) in
        let rev := gd_norm gd rev_idx in
        Some (l_set lfo (o_add O (o_mul O (q 5%Q) (o_sub O (q 1%Q) time)) (o_mul O time (q 1%Q))) rev)
      else Some lfo in
    Some (l_next lfo).

  (** src/dsp/node_test.rs:63-65 *)
  Definition graph_test (gd : gdata F) (s : unit) (init : bool) (x xn : F) : option (unit * F) := Some (s, x).
End graphs.
