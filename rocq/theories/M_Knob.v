(** Model of the rounding of knob values ([ParamId::round]: src/dsp/mod.rs:1014-1038, 1073-1277, 1384-1401, 2085-2095, 2365-2373),
    in exact arithmetic *)
From stdpp Require Import strings.
From Verif Require Import Base M_Nodes M_Norm.
From Coq Require Import Reals Qreals.
Open Scope R_scope.

(** The rounding macros ([r_*]) and the macros for the steps of a knob ([stp_*]) *)
Inductive rkind := RId | RSig | RVol | RGain | RDriv | RDet | RDc | REms | RTms | RFms | RTmz | RFq | RVps | RLfot.
Inductive stepk := StpD | StpM | StpF | StpV.

(** src/dsp/mod.rs:1418-1784 [node_list]: the columns of the rounding functions and of the steps, which [node_rows] leaves out.
    Extracted from the source text. *)
Definition knob_rows : list (string * list (string * rkind * stepk)) :=
  [
    ("amp", [("inp", RId, StpD); ("gain", RGain, StpV); ("att", RId, StpD)]);
    ("mix3", [("ch1", RId, StpD); ("ch2", RId, StpD); ("ch3", RId, StpD); ("vol1", RVol, StpV); ("vol2", RVol, StpV); ("vol3", RVol,
       StpV); ("ovol", RVol, StpV)]);
    ("mux9", [("slct", RId, StpD); ("t_rst", RId, StpD); ("t_up", RId, StpD); ("t_down", RId, StpD); ("in_1", RId, StpD); ("in_2", RId,
       StpD); ("in_3", RId, StpD); ("in_4", RId, StpD); ("in_5", RId, StpD); ("in_6", RId, StpD); ("in_7", RId, StpD); ("in_8", RId,
       StpD); ("in_9", RId, StpD)]);
    ("smap", [("inp", RId, StpD); ("min", RSig, StpD); ("max", RSig, StpD)]);
    ("map", [("inp", RId, StpD); ("atv", RId, StpD); ("offs", RSig, StpD); ("imin", RSig, StpD); ("imax", RSig, StpD); ("min", RSig,
       StpD); ("max", RSig, StpD)]);
    ("quant", [("freq", RId, StpD); ("oct", RSig, StpD)]);
    ("cqnt", [("inp", RId, StpD); ("oct", RSig, StpD)]);
    ("tseq", [("clock", RId, StpD); ("trig", RId, StpD)]);
    ("code", [("in1", RId, StpD); ("in2", RId, StpD); ("alpha", RId, StpD); ("beta", RId, StpD); ("delta", RId, StpD); ("gamma", RId,
       StpD)]);
    ("rust1x1", [("inp", RId, StpD); ("alpha", RId, StpD); ("beta", RId, StpD); ("delta", RId, StpD); ("gamma", RId, StpD)]);
    ("sampl", [("freq", RFq, StpD); ("trig", RId, StpD); ("offs", RId, StpD); ("len", RId, StpD); ("dcms", RDc, StpM); ("det", RDet,
       StpF)]);
    ("sin", [("freq", RFq, StpD); ("det", RDet, StpF); ("pm", RId, StpD)]);
    ("bosc", [("freq", RFq, StpD); ("det", RDet, StpF); ("pw", RId, StpD)]);
    ("vosc", [("freq", RFq, StpD); ("det", RDet, StpF); ("d", RId, StpD); ("v", RId, StpD); ("vs", RVps, StpD); ("damt", RId, StpD)]);
    ("bowstri", [("freq", RFq, StpD); ("det", RDet, StpF); ("vel", RId, StpD); ("force", RId, StpD); ("pos", RId, StpD)]);
    ("midip", [("det", RDet, StpF); ("glen", RLfot, StpF)]);
    ("midicc", [("slew", RTmz, StpM)]);
    ("exta", [("slew", RTmz, StpM); ("atv1", RId, StpD); ("atv2", RId, StpD); ("atv3", RId, StpD)]);
    ("extb", [("slew", RTmz, StpM); ("atv1", RId, StpD); ("atv2", RId, StpD); ("atv3", RId, StpD)]);
    ("extc", [("slew", RTmz, StpM); ("atv1", RId, StpD); ("atv2", RId, StpD); ("atv3", RId, StpD)]);
    ("extd", [("slew", RTmz, StpM); ("atv1", RId, StpD); ("atv2", RId, StpD); ("atv3", RId, StpD)]);
    ("exte", [("slew", RTmz, StpM); ("atv1", RId, StpD); ("atv2", RId, StpD); ("atv3", RId, StpD)]);
    ("extf", [("slew", RTmz, StpM); ("atv1", RId, StpD); ("atv2", RId, StpD); ("atv3", RId, StpD)]);
    ("inp", [("vol", RVol, StpV)]);
    ("out", [("ch1", RId, StpD); ("ch2", RId, StpD); ("vol", RVol, StpV)]);
    ("fbwr", [("inp", RId, StpD)]);
    ("fbrd", [("vol", RVol, StpV)]);
    ("scope", [("in1", RId, StpD); ("in2", RId, StpD); ("in3", RId, StpD); ("time", RLfot, StpF); ("trig", RId, StpD); ("thrsh", RId,
       StpD); ("off1", RId, StpD); ("off2", RId, StpD); ("off3", RId, StpD); ("gain1", RGain, StpV); ("gain2", RGain, StpV); ("gain3",
       RGain, StpV)]);
    ("ad", [("inp", RId, StpD); ("trig", RId, StpD); ("atk", REms, StpM); ("dcy", REms, StpM); ("ashp", RId, StpD); ("dshp", RId,
       StpD)]);
    ("adsr", [("inp", RId, StpD); ("gate", RId, StpD); ("atk", REms, StpM); ("dcy", REms, StpM); ("sus", RId, StpD); ("rel", REms,
       StpM); ("ashp", RId, StpD); ("dshp", RId, StpD); ("rshp", RId, StpD)]);
    ("tslfo", [("time", RLfot, StpF); ("trig", RId, StpD); ("rev", RId, StpD)]);
    ("rndwk", [("trig", RId, StpD); ("step", RId, StpD); ("offs", RId, StpD); ("min", RId, StpD); ("max", RId, StpD); ("slew", RTmz,
       StpM)]);
    ("delay", [("inp", RId, StpD); ("trig", RId, StpD); ("time", RTms, StpM); ("fb", RId, StpD); ("mix", RId, StpD)]);
    ("allp", [("inp", RId, StpD); ("time", RFms, StpM); ("g", RId, StpD)]);
    ("comb", [("inp", RId, StpD); ("time", RFms, StpM); ("g", RId, StpD)]);
    ("noise", [("atv", RId, StpD); ("offs", RSig, StpD)]);
    ("formfm", [("freq", RFq, StpD); ("det", RDet, StpF); ("form", RFq, StpD); ("side", RId, StpD); ("peak", RId, StpD)]);
    ("sfilter", [("inp", RId, StpD); ("freq", RFq, StpD); ("res", RId, StpD)]);
    ("fvafilt", [("in_l", RId, StpD); ("in_r", RId, StpD); ("freq", RFq, StpD); ("res", RId, StpD); ("drive", RDriv, StpV)]);
    ("biqfilt", [("inp", RId, StpD); ("freq", RFq, StpD); ("q", RId, StpD); ("gain", RGain, StpV)]);
    ("pverb", [("in_l", RId, StpD); ("in_r", RId, StpD); ("predly", RTmz, StpM); ("size", RId, StpD); ("dcy", RId, StpD); ("ilpf", RFq,
       StpD); ("ihpf", RFq, StpD); ("dif", RId, StpD); ("dmix", RId, StpD); ("mspeed", RId, StpD); ("mshp", RId, StpD); ("mdepth", RId,
       StpD); ("rlpf", RFq, StpD); ("rhpf", RFq, StpD); ("mix", RId, StpD)]);
    ("test", [("f", RId, StpD)])
  ]%string.

(** src/dsp/mod.rs:1247-1270 [stp_d], [stp_m], [stp_f], [stp_v] *)
Definition steps (s : stepk) : Z * Z :=
  match s with StpD => (20, 100) | StpM => (20, 200) | StpF => (20, 1000) | StpV => (40, 1000) end%Z.

(** The entry of a parameter in the node list *)
Definition knob_of (p : paramid) : option (prow * rkind * stepk) :=
  let* r := row_of (pa_node p) in
  let* q := first (fun q => pr_idx q =? pa_idx p)%nat (nr_ins r) in
  let* row := first (fun e => String.eqb (fst e) (nr_str r)) knob_rows in
  let* e := first (fun e => String.eqb (fst (fst e)) (pr_name q)) (snd row) in
  Some (q, snd (fst e), snd e).

(** [f32::round]: to the nearest integer, half-way cases away from zero *)
Definition rround (x : R) : R := if Rle_dec 0 x then IZR (Int_part (x + 1 / 2)) else - IZR (Int_part (1 / 2 - x)).

(** src/dsp/mod.rs:1025-1036: the rounding macro that [define_db] makes *)
Definition r_db (coef2db db2coef : R -> R) (min max : R) (x : R) (coarse : bool) : R :=
  if coarse then
    let db := coef2db (d_db db2coef min max x) in n_db coef2db min max (db2coef (rround (db * 2) * (1 / 2)))
  else
    let db := coef2db (d_db db2coef min max x) in n_db coef2db min max (db2coef (rround (db * 10) * (1 / 10))).

(** src/dsp/mod.rs:1073-1082 [r_det] *)
Definition r_det (x : R) (coarse : bool) : R :=
  if coarse then n_det (rround (d_det x)) else n_det (rround (d_det x * 100) / 100).

(** src/dsp/mod.rs:1084-1093 [r_s] *)
Definition r_s (x : R) (coarse : bool) : R := if coarse then rround (x * 10) / 10 else rround (x * 100) / 100.

(** src/dsp/mod.rs:1095-1104 [r_dc_ms], 1106-1115 [r_ems]: the same code for the scales [declick] and [env] *)
Definition r_ms (n d : R -> R) (x : R) (coarse : bool) : R :=
  if coarse then n (rround (d x)) else n (rround (d x * 10) / 10).

(** src/dsp/mod.rs:1117-1132 [r_tms], 1134-1149 [r_fms], 1151-1166 [r_tmz]: the same code for the scales [time], [ftme] and [timz] *)
Definition r_tms (n d : R -> R) (x : R) (coarse : bool) : R :=
  if coarse then
    if Rlt_dec 1000 (d x) then n (rround (d x / 100) * 100)
    else if Rlt_dec 100 (d x) then n (rround (d x / 10) * 10)
    else n (rround (d x))
  else n (rround (d x * 10) / 10).

(** src/dsp/mod.rs:1168-1188 [r_fq] *)
Definition r_fq (x : R) (coarse : bool) : R :=
  if coarse then rround (x * 10) / 10
  else
    let p := d_pit x in
    if Rlt_dec p 10 then n_pit (rround (p * 10) / 10)
    else if Rlt_dec p 100 then n_pit (rround p)
    else if Rlt_dec p 1000 then n_pit (rround (p / 10) * 10)
    else if Rlt_dec p 10000 then n_pit (rround (p / 100) * 100)
    else n_pit (rround (p / 1000) * 1000).

(** src/dsp/mod.rs:1190-1199 [r_vps] *)
Definition r_vps (x : R) (coarse : bool) : R :=
  if coarse then n_lin 0 20 (rround (d_lin 0 20 x)) else n_lin 0 20 (rround (d_lin 0 20 x * 10) / 10).

(** src/dsp/mod.rs:1201-1245 [r_lfot] *)
Definition r_lfot (n d : R -> R) (x : R) (coarse : bool) : R :=
  let denv := d x in
  if coarse then
    if Rlt_dec denv 10 then
      let hz := 1000 / denv in
      let hz := rround (hz / 10) * 10 in
      n (1000 / hz)
    else if Rlt_dec denv 250 then n (rround (denv / 5) * 5)
    else if Rlt_dec denv 1500 then n (rround (denv / 50) * 50)
    else if Rlt_dec denv 2500 then n (rround (denv / 100) * 100)
    else if Rlt_dec denv 5000 then n (rround (denv / 500) * 500)
    else if Rlt_dec denv 60000 then n (rround (denv / 1000) * 1000)
    else n (rround (denv / 5000) * 5000)
  else
    if Rlt_dec denv 10 then
      let hz := 1000 / denv in
      let hz := rround hz in
      n (1000 / hz)
    else if Rlt_dec denv 100 then n (rround denv)
    else if Rlt_dec denv 1000 then n (rround (denv / 5) * 5)
    else if Rlt_dec denv 2500 then n (rround (denv / 10) * 10)
    else if Rlt_dec denv 25000 then n (rround (denv / 100) * 100)
    else n (rround (denv / 500) * 500).

(** The rounding macros by name; src/dsp/mod.rs:1273-1277 [r_id]; the ranges of the scales are those of lines 1384-1401 *)
Definition round_fun (coef2db db2coef : R -> R) (k : rkind) (x : R) (coarse : bool) : R :=
  match k with
  | RId => x
  | RSig => r_s x coarse
  | RVol => r_db coef2db db2coef (-90) 18 x coarse
  | RGain => r_db coef2db db2coef (-24) 24 x coarse
  | RDriv => r_db coef2db db2coef 0 24 x coarse
  | RDet => r_det x coarse
  | RDc => r_ms (n_exp 0 50) (d_exp 0 50) x coarse
  | REms => r_ms (n_exp 0 1000) (d_exp 0 1000) x coarse
  | RTms => r_tms (n_exp (1 / 2) 5000) (d_exp (1 / 2) 5000) x coarse
  | RFms => r_tms (n_exp (1 / 10) 1000) (d_exp (1 / 10) 1000) x coarse
  | RTmz => r_tms (n_exp 0 5000) (d_exp 0 5000) x coarse
  | RFq => r_fq x coarse
  | RVps => r_vps x coarse
  | RLfot => r_lfot (n_exp6 (1 / 10) 300000) (d_exp6 (1 / 10) 300000) x coarse
  end.

(** src/dsp/mod.rs:2085-2095 [ParamId::round] and 2365-2373 [mod round], which clamps to the normalised range *)
Definition param_round (coef2db db2coef : R -> R) (p : paramid) (v : R) (coarse : bool) : R :=
  match knob_of p with
  | None => 0
  | Some (q, k, _) => rclamp (round_fun coef2db db2coef k v coarse) (Q2R (pr_min q)) (Q2R (pr_max q))
  end.

(** src/dsp/mod.rs:2109-2119 [ParamId::denorm] *)
Definition param_denorm (db2coef : R -> R) (p : paramid) (v : R) : R :=
  match knob_of p with
  | None => 0
  | Some (q, _, _) => denormalize db2coef (pr_denorm q) v
  end.

(** src/dsp/mod.rs:2011-2021 [param_steps]; 2023-2033 [param_min_max]: the second pair of its result *)
Definition param_steps (p : paramid) : option (Q * Q) := (fun e => (pr_min e.1.1, pr_max e.1.1)) <$> knob_of p.
Definition param_knob_steps (p : paramid) : option (Z * Z) := (fun e => steps e.2) <$> knob_of p.
