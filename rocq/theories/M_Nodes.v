(** The node list (src/dsp/mod.rs:1418-1784) and the name tables that the macro [make_node_info_enum] (src/dsp/mod.rs:1890-2560)
    makes of it. The table was extracted from the source text. *)
From Coq Require Import QArith.
From stdpp Require Import strings.
From Verif Require Import Base M_Atom M_Conf.
Open Scope string_scope.
Open Scope nat_scope.

(** The normalising ([n_*]) and denormalising ([d_*]) macros (src/dsp/mod.rs:937-1081, 1384-1397) *)
Inductive scale := SId | SGain | SVol | SDriv | SPit | SDet | SDeclick | SEnv | SLfot | STime | SFtme | STimz | SVps.

(** What an atom is created with ([$at_fun($at_init)]) *)
Inductive ainit := ISetting (i : Z) | IAudio | IParam (v : Q).

(** src/dsp/mod.rs:896-904 [enum UICategory] *)
Inductive ucat := CNone | COsc | CMod | CNtoM | CSignal | CCtrl | CIOUtil.
Global Instance ucat_eq_dec : EqDecision ucat.
Proof. solve_decision. Defined.

(** The three kinds of entries of a node: [(idx name norm denorm round format steps min, max, default)], without the round, format
    and step functions; [{idx atom_idx name init ui format min max}], without the format function; [[idx name]] *)
Record prow := PRow { pr_idx : nat; pr_name : string; pr_norm : scale; pr_denorm : scale; pr_min : Q; pr_max : Q; pr_def : Q }.
Record arow := ARow { ar_idx : nat; ar_at : nat; ar_name : string; ar_init : ainit; ar_ui : string; ar_min : Z; ar_max : Z }.
Record orow := ORow { or_idx : nat; or_name : string }.
Record nrow := NRow { nr_str : string; nr_variant : string; nr_cat : ucat; nr_ins : list prow; nr_ats : list arow; nr_outs : list orow }.
Arguments PRow _ _ _ _ _%Q _%Q _%Q.
Arguments ARow _ _ _ _ _ _%Z _%Z.
Arguments ISetting _%Z.
Arguments IParam _%Q.

(** src/dsp/mod.rs:1418-1784 [node_list]; the first entry, [nop => Nop], has no ports and is kind 0 *)
Definition node_rows : list nrow :=
  [ (* src/dsp/mod.rs:1423-1431 *)
    NRow "amp" "Amp" CSignal
      [PRow 0 "inp" SId SId (-1 # 1) (1 # 1) (0 # 1);
      PRow 1 "gain" SGain SGain (0 # 1) (1 # 1) (1 # 1);
      PRow 2 "att" SId SId (0 # 1) (1 # 1) (1 # 1)]
      [ARow 3 0 "neg_att" (ISetting 1) "mode" 0 1]
      [ORow 0 "sig"];
    (* src/dsp/mod.rs:1432-1440 *)
    NRow "mix3" "Mix3" CNtoM
      [PRow 0 "ch1" SId SId (-1 # 1) (1 # 1) (0 # 1);
      PRow 1 "ch2" SId SId (-1 # 1) (1 # 1) (0 # 1);
      PRow 2 "ch3" SId SId (-1 # 1) (1 # 1) (0 # 1);
      PRow 3 "vol1" SVol SVol (0 # 1) (1 # 1) (1 # 1);
      PRow 4 "vol2" SVol SVol (0 # 1) (1 # 1) (1 # 1);
      PRow 5 "vol3" SVol SVol (0 # 1) (1 # 1) (1 # 1);
      PRow 6 "ovol" SVol SVol (0 # 1) (1 # 1) (1 # 1)]
      []
      [ORow 0 "sig"];
    (* src/dsp/mod.rs:1441-1456 *)
    NRow "mux9" "Mux9" CNtoM
      [PRow 0 "slct" SId SId (0 # 1) (1 # 1) (0 # 1);
      PRow 1 "t_rst" SId SId (-1 # 1) (1 # 1) (0 # 1);
      PRow 2 "t_up" SId SId (-1 # 1) (1 # 1) (0 # 1);
      PRow 3 "t_down" SId SId (-1 # 1) (1 # 1) (0 # 1);
      PRow 4 "in_1" SId SId (-1 # 1) (1 # 1) (0 # 1);
      PRow 5 "in_2" SId SId (-1 # 1) (1 # 1) (0 # 1);
      PRow 6 "in_3" SId SId (-1 # 1) (1 # 1) (0 # 1);
      PRow 7 "in_4" SId SId (-1 # 1) (1 # 1) (0 # 1);
      PRow 8 "in_5" SId SId (-1 # 1) (1 # 1) (0 # 1);
      PRow 9 "in_6" SId SId (-1 # 1) (1 # 1) (0 # 1);
      PRow 10 "in_7" SId SId (-1 # 1) (1 # 1) (0 # 1);
      PRow 11 "in_8" SId SId (-1 # 1) (1 # 1) (0 # 1);
      PRow 12 "in_9" SId SId (-1 # 1) (1 # 1) (0 # 1)]
      [ARow 13 0 "in_cnt" (ISetting 3) "mode" 0 8]
      [ORow 0 "sig"];
    (* src/dsp/mod.rs:1457-1463 *)
    NRow "smap" "SMap" CCtrl
      [PRow 0 "inp" SId SId (-1 # 1) (1 # 1) (0 # 1);
      PRow 1 "min" SId SId (-1 # 1) (1 # 1) (-1 # 1);
      PRow 2 "max" SId SId (-1 # 1) (1 # 1) (1 # 1)]
      [ARow 3 1 "mode" (ISetting 0) "mode" 0 3; ARow 4 0 "clip" (ISetting 0) "mode" 0 1]
      [ORow 0 "sig"];
    (* src/dsp/mod.rs:1464-1473 *)
    NRow "map" "Map" CCtrl
      [PRow 0 "inp" SId SId (-1 # 1) (1 # 1) (0 # 1);
      PRow 1 "atv" SId SId (-1 # 1) (1 # 1) (1 # 1);
      PRow 2 "offs" SId SId (-1 # 1) (1 # 1) (0 # 1);
      PRow 3 "imin" SId SId (-1 # 1) (1 # 1) (-1 # 1);
      PRow 4 "imax" SId SId (-1 # 1) (1 # 1) (1 # 1);
      PRow 5 "min" SId SId (-1 # 1) (1 # 1) (-1 # 1);
      PRow 6 "max" SId SId (-1 # 1) (1 # 1) (1 # 1)]
      [ARow 7 0 "clip" (ISetting 0) "mode" 0 1]
      [ORow 0 "sig"];
    (* src/dsp/mod.rs:1474-1479 *)
    NRow "quant" "Quant" CCtrl
      [PRow 0 "freq" SPit SPit (-1 # 1) (5647131 # 10000000) (440 # 1);
      PRow 1 "oct" SId SId (-1 # 1) (1 # 1) (0 # 1)]
      [ARow 2 0 "keys" (ISetting 0) "keys" 0 0]
      [ORow 0 "sig"; ORow 1 "t"];
    (* src/dsp/mod.rs:1480-1487 *)
    NRow "cqnt" "CQnt" CCtrl
      [PRow 0 "inp" SId SId (0 # 1) (1 # 1) (0 # 1);
      PRow 1 "oct" SId SId (-1 # 1) (1 # 1) (0 # 1)]
      [ARow 2 0 "keys" (ISetting 0) "keys" 0 0; ARow 3 1 "omin" (ISetting 0) "mode" 0 4; ARow 4 2 "omax" (ISetting 0) "mode" 0 4]
      [ORow 0 "sig"; ORow 1 "t"];
    (* src/dsp/mod.rs:1488-1503 *)
    NRow "tseq" "TSeq" CMod
      [PRow 0 "clock" SId SId (0 # 1) (1 # 1) (0 # 1);
      PRow 1 "trig" SId SId (-1 # 1) (1 # 1) (0 # 1)]
      [ARow 2 0 "cmode" (ISetting 1) "mode" 0 2]
      [ORow 0 "trk1"; ORow 1 "trk2"; ORow 2 "trk3"; ORow 3 "trk4"; ORow 4 "trk5"; ORow 5 "trk6"; ORow 6 "gat1"; ORow 7 "gat2"; ORow 8 "gat3"; ORow 9 "gat4"; ORow 10 "gat5"; ORow 11 "gat6"];
    (* src/dsp/mod.rs:1504-1513 *)
    NRow "code" "Code" CSignal
      [PRow 0 "in1" SId SId (-1 # 1) (1 # 1) (0 # 1);
      PRow 1 "in2" SId SId (-1 # 1) (1 # 1) (0 # 1);
      PRow 2 "alpha" SId SId (-1 # 1) (1 # 1) (0 # 1);
      PRow 3 "beta" SId SId (-1 # 1) (1 # 1) (0 # 1);
      PRow 4 "delta" SId SId (-1 # 1) (1 # 1) (0 # 1);
      PRow 5 "gamma" SId SId (-1 # 1) (1 # 1) (0 # 1)]
      []
      [ORow 0 "sig"; ORow 1 "sig1"; ORow 2 "sig2"];
    (* src/dsp/mod.rs:1514-1520 *)
    NRow "rust1x1" "Rust1x1" CSignal
      [PRow 0 "inp" SId SId (-1 # 1) (1 # 1) (0 # 1);
      PRow 1 "alpha" SId SId (-1 # 1) (1 # 1) (0 # 1);
      PRow 2 "beta" SId SId (-1 # 1) (1 # 1) (0 # 1);
      PRow 3 "delta" SId SId (-1 # 1) (1 # 1) (0 # 1);
      PRow 4 "gamma" SId SId (-1 # 1) (1 # 1) (0 # 1)]
      []
      [ORow 0 "sig"];
    (* src/dsp/mod.rs:1521-1532 *)
    NRow "sampl" "Sampl" COsc
      [PRow 0 "freq" SPit SPit (-1 # 1) (564713133 # 1000000000) (440 # 1);
      PRow 1 "trig" SId SId (-1 # 1) (1 # 1) (0 # 1);
      PRow 2 "offs" SId SId (0 # 1) (1 # 1) (0 # 1);
      PRow 3 "len" SId SId (0 # 1) (1 # 1) (1 # 1);
      PRow 4 "dcms" SDeclick SDeclick (0 # 1) (1 # 1) (3 # 1);
      PRow 5 "det" SDet SDet (-1 # 5) (1 # 5) (0 # 1)]
      [ARow 6 0 "sample" IAudio "sample" 0 0; ARow 7 1 "pmode" (ISetting 0) "mode" 0 1; ARow 8 2 "dclick" (ISetting 0) "mode" 0 1; ARow 9 3 "dir" (ISetting 0) "mode" 0 1]
      [ORow 0 "sig"];
    (* src/dsp/mod.rs:1536-1540 *)
    NRow "sin" "Sin" COsc
      [PRow 0 "freq" SPit SPit (-1 # 1) (5647131 # 10000000) (440 # 1);
      PRow 1 "det" SDet SDet (-1 # 5) (1 # 5) (0 # 1);
      PRow 2 "pm" SId SId (-1 # 1) (1 # 1) (0 # 1)]
      []
      [ORow 0 "sig"];
    (* src/dsp/mod.rs:1541-1546 *)
    NRow "bosc" "BOsc" COsc
      [PRow 0 "freq" SPit SPit (-1 # 1) (5647131 # 10000000) (440 # 1);
      PRow 1 "det" SDet SDet (-1 # 5) (1 # 5) (0 # 1);
      PRow 2 "pw" SId SId (0 # 1) (1 # 1) (1 # 2)]
      [ARow 3 0 "wtype" (ISetting 0) "mode" 0 4]
      [ORow 0 "sig"];
    (* src/dsp/mod.rs:1547-1556 *)
    NRow "vosc" "VOsc" COsc
      [PRow 0 "freq" SPit SPit (-1 # 1) (5647131 # 10000000) (440 # 1);
      PRow 1 "det" SDet SDet (-1 # 5) (1 # 5) (0 # 1);
      PRow 2 "d" SId SId (0 # 1) (1 # 1) (1 # 2);
      PRow 3 "v" SId SId (0 # 1) (1 # 1) (1 # 2);
      PRow 4 "vs" SVps SVps (0 # 1) (1 # 1) (0 # 1);
      PRow 5 "damt" SId SId (0 # 1) (1 # 1) (0 # 1)]
      [ARow 6 0 "dist" (ISetting 0) "mode" 0 3; ARow 7 1 "ovrsmpl" (ISetting 1) "mode" 0 1]
      [ORow 0 "sig"];
    (* src/dsp/mod.rs:1557-1563 *)
    NRow "bowstri" "BowStri" COsc
      [PRow 0 "freq" SPit SPit (-1 # 1) (5647131 # 10000000) (440 # 1);
      PRow 1 "det" SDet SDet (-1 # 5) (1 # 5) (0 # 1);
      PRow 2 "vel" SId SId (0 # 1) (1 # 1) (1 # 2);
      PRow 3 "force" SId SId (0 # 1) (1 # 1) (1 # 2);
      PRow 4 "pos" SId SId (0 # 1) (1 # 1) (1 # 2)]
      []
      [ORow 0 "sig"];
    (* src/dsp/mod.rs:1564-1571 *)
    NRow "midip" "MidiP" CIOUtil
      [PRow 0 "det" SDet SDet (-1 # 5) (1 # 5) (0 # 1);
      PRow 1 "glen" SLfot SLfot (0 # 1) (1 # 1) (250 # 1)]
      [ARow 2 0 "chan" (ISetting 0) "mode" 0 15; ARow 3 1 "gmode" (ISetting 0) "mode" 0 2]
      [ORow 0 "freq"; ORow 1 "gate"; ORow 2 "vel"];
    (* src/dsp/mod.rs:1572-1580 *)
    NRow "midicc" "MidiCC" CIOUtil
      [PRow 0 "slew" STimz STimz (0 # 1) (1 # 1) (0 # 1)]
      [ARow 1 0 "chan" (ISetting 0) "mode" 0 15; ARow 2 1 "cc1" (ISetting 0) "mode" 0 127; ARow 3 2 "cc2" (ISetting 0) "mode" 0 127; ARow 4 3 "cc3" (ISetting 0) "mode" 0 127]
      [ORow 0 "sig1"; ORow 1 "sig2"; ORow 2 "sig3"];
    (* src/dsp/mod.rs:1581-1588 *)
    NRow "exta" "ExtA" CIOUtil
      [PRow 0 "slew" STimz STimz (0 # 1) (1 # 1) (0 # 1);
      PRow 1 "atv1" SId SId (-1 # 1) (1 # 1) (1 # 1);
      PRow 2 "atv2" SId SId (-1 # 1) (1 # 1) (1 # 1);
      PRow 3 "atv3" SId SId (-1 # 1) (1 # 1) (1 # 1)]
      []
      [ORow 0 "sig1"; ORow 1 "sig2"; ORow 2 "sig3"];
    (* src/dsp/mod.rs:1589-1596 *)
    NRow "extb" "ExtB" CIOUtil
      [PRow 0 "slew" STimz STimz (0 # 1) (1 # 1) (0 # 1);
      PRow 1 "atv1" SId SId (-1 # 1) (1 # 1) (1 # 1);
      PRow 2 "atv2" SId SId (-1 # 1) (1 # 1) (1 # 1);
      PRow 3 "atv3" SId SId (-1 # 1) (1 # 1) (1 # 1)]
      []
      [ORow 0 "sig1"; ORow 1 "sig2"; ORow 2 "sig3"];
    (* src/dsp/mod.rs:1597-1604 *)
    NRow "extc" "ExtC" CIOUtil
      [PRow 0 "slew" STimz STimz (0 # 1) (1 # 1) (0 # 1);
      PRow 1 "atv1" SId SId (-1 # 1) (1 # 1) (1 # 1);
      PRow 2 "atv2" SId SId (-1 # 1) (1 # 1) (1 # 1);
      PRow 3 "atv3" SId SId (-1 # 1) (1 # 1) (1 # 1)]
      []
      [ORow 0 "sig1"; ORow 1 "sig2"; ORow 2 "sig3"];
    (* src/dsp/mod.rs:1605-1612 *)
    NRow "extd" "ExtD" CIOUtil
      [PRow 0 "slew" STimz STimz (0 # 1) (1 # 1) (0 # 1);
      PRow 1 "atv1" SId SId (-1 # 1) (1 # 1) (1 # 1);
      PRow 2 "atv2" SId SId (-1 # 1) (1 # 1) (1 # 1);
      PRow 3 "atv3" SId SId (-1 # 1) (1 # 1) (1 # 1)]
      []
      [ORow 0 "sig1"; ORow 1 "sig2"; ORow 2 "sig3"];
    (* src/dsp/mod.rs:1613-1620 *)
    NRow "exte" "ExtE" CIOUtil
      [PRow 0 "slew" STimz STimz (0 # 1) (1 # 1) (0 # 1);
      PRow 1 "atv1" SId SId (-1 # 1) (1 # 1) (1 # 1);
      PRow 2 "atv2" SId SId (-1 # 1) (1 # 1) (1 # 1);
      PRow 3 "atv3" SId SId (-1 # 1) (1 # 1) (1 # 1)]
      []
      [ORow 0 "sig1"; ORow 1 "sig2"; ORow 2 "sig3"];
    (* src/dsp/mod.rs:1621-1628 *)
    NRow "extf" "ExtF" CIOUtil
      [PRow 0 "slew" STimz STimz (0 # 1) (1 # 1) (0 # 1);
      PRow 1 "atv1" SId SId (-1 # 1) (1 # 1) (1 # 1);
      PRow 2 "atv2" SId SId (-1 # 1) (1 # 1) (1 # 1);
      PRow 3 "atv3" SId SId (-1 # 1) (1 # 1) (1 # 1)]
      []
      [ORow 0 "sig1"; ORow 1 "sig2"; ORow 2 "sig3"];
    (* src/dsp/mod.rs:1629-1632 *)
    NRow "inp" "Inp" CIOUtil
      [PRow 0 "vol" SVol SVol (0 # 1) (1 # 1) (1 # 1)]
      []
      [ORow 0 "sig1"; ORow 1 "sig2"];
    (* src/dsp/mod.rs:1633-1642 *)
    NRow "out" "Out" CIOUtil
      [PRow 0 "ch1" SId SId (-1 # 1) (1 # 1) (0 # 1);
      PRow 1 "ch2" SId SId (-1 # 1) (1 # 1) (0 # 1);
      PRow 2 "vol" SVol SVol (0 # 1) (1 # 1) (1 # 1)]
      [ARow 3 0 "mono" (ISetting 0) "mode" 0 1]
      [];
    (* src/dsp/mod.rs:1643-1644 *)
    NRow "fbwr" "FbWr" CIOUtil
      [PRow 0 "inp" SId SId (-1 # 1) (1 # 1) (0 # 1)]
      []
      [];
    (* src/dsp/mod.rs:1645-1647 *)
    NRow "fbrd" "FbRd" CIOUtil
      [PRow 0 "vol" SVol SVol (0 # 1) (1 # 1) (1 # 1)]
      []
      [ORow 0 "sig"];
    (* src/dsp/mod.rs:1648-1661 *)
    NRow "scope" "Scope" CIOUtil
      [PRow 0 "in1" SId SId (-1 # 1) (1 # 1) (0 # 1);
      PRow 1 "in2" SId SId (-1 # 1) (1 # 1) (0 # 1);
      PRow 2 "in3" SId SId (-1 # 1) (1 # 1) (0 # 1);
      PRow 3 "time" SLfot SLfot (0 # 1) (1 # 1) (1000 # 1);
      PRow 4 "trig" SId SId (-1 # 1) (1 # 1) (0 # 1);
      PRow 5 "thrsh" SId SId (-1 # 1) (1 # 1) (0 # 1);
      PRow 6 "off1" SId SId (-1 # 1) (1 # 1) (0 # 1);
      PRow 7 "off2" SId SId (-1 # 1) (1 # 1) (0 # 1);
      PRow 8 "off3" SId SId (-1 # 1) (1 # 1) (0 # 1);
      PRow 9 "gain1" SGain SGain (0 # 1) (1 # 1) (1 # 1);
      PRow 10 "gain2" SGain SGain (0 # 1) (1 # 1) (1 # 1);
      PRow 11 "gain3" SGain SGain (0 # 1) (1 # 1) (1 # 1)]
      [ARow 12 0 "tsrc" (ISetting 0) "mode" 0 2]
      [];
    (* src/dsp/mod.rs:1662-1671 *)
    NRow "ad" "Ad" CMod
      [PRow 0 "inp" SId SId (-1 # 1) (1 # 1) (1 # 1);
      PRow 1 "trig" SId SId (-1 # 1) (1 # 1) (0 # 1);
      PRow 2 "atk" SEnv SEnv (0 # 1) (1 # 1) (3 # 1);
      PRow 3 "dcy" SEnv SEnv (0 # 1) (1 # 1) (10 # 1);
      PRow 4 "ashp" SId SId (0 # 1) (1 # 1) (1 # 2);
      PRow 5 "dshp" SId SId (0 # 1) (1 # 1) (1 # 2)]
      [ARow 6 0 "mult" (ISetting 0) "mode" 0 2]
      [ORow 0 "sig"; ORow 1 "eoet"];
    (* src/dsp/mod.rs:1672-1684 *)
    NRow "adsr" "Adsr" CMod
      [PRow 0 "inp" SId SId (-1 # 1) (1 # 1) (1 # 1);
      PRow 1 "gate" SId SId (-1 # 1) (1 # 1) (0 # 1);
      PRow 2 "atk" SEnv SEnv (0 # 1) (1 # 1) (3 # 1);
      PRow 3 "dcy" SEnv SEnv (0 # 1) (1 # 1) (10 # 1);
      PRow 4 "sus" SId SId (0 # 1) (1 # 1) (1 # 2);
      PRow 5 "rel" SEnv SEnv (0 # 1) (1 # 1) (40 # 1);
      PRow 6 "ashp" SId SId (0 # 1) (1 # 1) (1 # 2);
      PRow 7 "dshp" SId SId (0 # 1) (1 # 1) (1 # 2);
      PRow 8 "rshp" SId SId (0 # 1) (1 # 1) (1 # 2)]
      [ARow 9 0 "mult" (ISetting 0) "mode" 0 2]
      [ORow 0 "sig"; ORow 1 "eoet"];
    (* src/dsp/mod.rs:1685-1689 *)
    NRow "tslfo" "TsLFO" CMod
      [PRow 0 "time" SLfot SLfot (0 # 1) (1 # 1) (1000 # 1);
      PRow 1 "trig" SId SId (-1 # 1) (1 # 1) (0 # 1);
      PRow 2 "rev" SId SId (0 # 1) (1 # 1) (1 # 2)]
      []
      [ORow 0 "sig"];
    (* src/dsp/mod.rs:1690-1697 *)
    NRow "rndwk" "RndWk" CMod
      [PRow 0 "trig" SId SId (-1 # 1) (1 # 1) (0 # 1);
      PRow 1 "step" SId SId (0 # 1) (1 # 1) (1 # 5);
      PRow 2 "offs" SId SId (-1 # 1) (1 # 1) (0 # 1);
      PRow 3 "min" SId SId (0 # 1) (1 # 1) (0 # 1);
      PRow 4 "max" SId SId (0 # 1) (1 # 1) (1 # 1);
      PRow 5 "slew" STimz STimz (0 # 1) (1 # 1) (75 # 1)]
      []
      [ORow 0 "sig"];
    (* src/dsp/mod.rs:1698-1705 *)
    NRow "delay" "Delay" CSignal
      [PRow 0 "inp" SId SId (-1 # 1) (1 # 1) (0 # 1);
      PRow 1 "trig" SId SId (-1 # 1) (1 # 1) (0 # 1);
      PRow 2 "time" STime STime (0 # 1) (1 # 1) (250 # 1);
      PRow 3 "fb" SId SId (-1 # 1) (1 # 1) (0 # 1);
      PRow 4 "mix" SId SId (0 # 1) (1 # 1) (1 # 2)]
      [ARow 5 0 "mode" (ISetting 0) "mode" 0 1]
      [ORow 0 "sig"];
    (* src/dsp/mod.rs:1706-1710 *)
    NRow "allp" "AllP" CSignal
      [PRow 0 "inp" SId SId (-1 # 1) (1 # 1) (0 # 1);
      PRow 1 "time" SFtme SFtme (0 # 1) (1 # 1) (25 # 1);
      PRow 2 "g" SId SId (-1 # 1) (1 # 1) (7 # 10)]
      []
      [ORow 0 "sig"];
    (* src/dsp/mod.rs:1711-1716 *)
    NRow "comb" "Comb" CSignal
      [PRow 0 "inp" SId SId (-1 # 1) (1 # 1) (0 # 1);
      PRow 1 "time" SFtme SFtme (0 # 1) (1 # 1) (25 # 1);
      PRow 2 "g" SId SId (-1 # 1) (1 # 1) (7 # 10)]
      [ARow 3 0 "mode" (ISetting 0) "mode" 0 1]
      [ORow 0 "sig"];
    (* src/dsp/mod.rs:1717-1721 *)
    NRow "noise" "Noise" COsc
      [PRow 0 "atv" SId SId (-1 # 1) (1 # 1) (1 # 2);
      PRow 1 "offs" SId SId (-1 # 1) (1 # 1) (0 # 1)]
      [ARow 2 0 "mode" (ISetting 0) "mode" 0 1]
      [ORow 0 "sig"];
    (* src/dsp/mod.rs:1722-1728 *)
    NRow "formfm" "FormFM" COsc
      [PRow 0 "freq" SPit SPit (-1 # 1) (5647131 # 10000000) (440 # 1);
      PRow 1 "det" SDet SDet (-1 # 5) (1 # 5) (0 # 1);
      PRow 2 "form" SPit SPit (-1 # 1) (5647131 # 10000000) (440 # 1);
      PRow 3 "side" SId SId (0 # 1) (1 # 1) (1 # 5);
      PRow 4 "peak" SId SId (0 # 1) (1 # 1) (2 # 5)]
      []
      [ORow 0 "sig"];
    (* src/dsp/mod.rs:1729-1734 *)
    NRow "sfilter" "SFilter" CSignal
      [PRow 0 "inp" SId SId (-1 # 1) (1 # 1) (0 # 1);
      PRow 1 "freq" SPit SPit (-1 # 1) (5647131 # 10000000) (1000 # 1);
      PRow 2 "res" SId SId (0 # 1) (1 # 1) (1 # 2)]
      [ARow 3 0 "ftype" (ISetting 8) "mode" 0 13]
      [ORow 0 "sig"];
    (* src/dsp/mod.rs:1735-1745 *)
    NRow "fvafilt" "FVaFilt" CSignal
      [PRow 0 "in_l" SId SId (-1 # 1) (1 # 1) (0 # 1);
      PRow 1 "in_r" SId SId (-1 # 1) (1 # 1) (0 # 1);
      PRow 2 "freq" SPit SPit (-1 # 1) (6883 # 12500) (1000 # 1);
      PRow 3 "res" SId SId (0 # 1) (1 # 1) (1 # 2);
      PRow 4 "drive" SDriv SDriv (0 # 1) (1 # 1) (1 # 1)]
      [ARow 5 0 "ftype" (ISetting 0) "mode" 0 2; ARow 6 1 "smode" (ISetting 0) "mode" 0 4; ARow 7 2 "lmode" (ISetting 0) "mode" 0 10]
      [ORow 0 "sig_l"; ORow 1 "sig_r"];
    (* src/dsp/mod.rs:1746-1753 *)
    NRow "biqfilt" "BiqFilt" CSignal
      [PRow 0 "inp" SId SId (-1 # 1) (1 # 1) (0 # 1);
      PRow 1 "freq" SPit SPit (-1 # 1) (5647131 # 10000000) (1000 # 1);
      PRow 2 "q" SId SId (0 # 1) (1 # 1) (1 # 2);
      PRow 3 "gain" SGain SGain (0 # 1) (1 # 1) (1 # 1)]
      [ARow 4 0 "ftype" (ISetting 0) "mode" 0 1; ARow 5 1 "order" (ISetting 0) "mode" 0 3]
      [ORow 0 "sig"];
    (* src/dsp/mod.rs:1754-1771 *)
    NRow "pverb" "PVerb" CSignal
      [PRow 0 "in_l" SId SId (-1 # 1) (1 # 1) (0 # 1);
      PRow 1 "in_r" SId SId (-1 # 1) (1 # 1) (0 # 1);
      PRow 2 "predly" STimz STimz (0 # 1) (1 # 1) (0 # 1);
      PRow 3 "size" SId SId (0 # 1) (1 # 1) (1 # 2);
      PRow 4 "dcy" SId SId (0 # 1) (1 # 1) (1 # 4);
      PRow 5 "ilpf" SPit SPit (-1 # 1) (5647131 # 10000000) (22050 # 1);
      PRow 6 "ihpf" SPit SPit (-1 # 1) (5647131 # 10000000) (0 # 1);
      PRow 7 "dif" SId SId (0 # 1) (1 # 1) (1 # 1);
      PRow 8 "dmix" SId SId (0 # 1) (1 # 1) (1 # 1);
      PRow 9 "mspeed" SId SId (0 # 1) (1 # 1) (0 # 1);
      PRow 10 "mshp" SId SId (0 # 1) (1 # 1) (1 # 2);
      PRow 11 "mdepth" SId SId (0 # 1) (1 # 1) (1 # 5);
      PRow 12 "rlpf" SPit SPit (-1 # 1) (5647131 # 10000000) (22050 # 1);
      PRow 13 "rhpf" SPit SPit (-1 # 1) (5647131 # 10000000) (0 # 1);
      PRow 14 "mix" SId SId (0 # 1) (1 # 1) (1 # 2)]
      []
      [ORow 0 "sig_l"; ORow 1 "sig_r"];
    (* src/dsp/mod.rs:1772-1781 *)
    NRow "test" "Test" CIOUtil
      [PRow 0 "f" SId SId (0 # 1) (1 # 1) (1 # 2)]
      [ARow 1 0 "p" (IParam (0 # 1)) "knob" 0 10; ARow 2 1 "trig" (IParam (0 # 1)) "knob" 0 0]
      [ORow 0 "sig"; ORow 1 "tsig"; ORow 2 "out2"; ORow 3 "out3"; ORow 4 "out4"; ORow 5 "outc"] ].

(** The arm of [match self] for a node kind; [Nop] has none *)
Definition row_of (n : node_id) : option nrow :=
  match nid_kind n with 0 => None | S k => node_rows !! k end.

(** Arms of a [match] are tried in order *)
Definition first {A} (f : A -> bool) (l : list A) : option A := snd <$> list_find f l.

(** src/dsp/mod.rs:1964-1969 [struct ParamId] *)
Record paramid := ParamId { pa_name : string; pa_node : node_id; pa_idx : nat }.

(** src/dsp/mod.rs:2151-2156 [to_instance]: the number is truncated to [u8] *)
Definition to_instance (n : node_id) (i : nat) : node_id :=
  match nid_kind n with 0 => Nop | S _ => NId (nid_kind n) (i mod 256) end.

(** src/dsp/mod.rs:2165-2172 [eq_variant] *)
Definition eq_variant (a b : node_id) : bool := nid_kind a =? nid_kind b.

(** src/dsp/mod.rs:2176-2196 [label], [name], [from_str]; the arm of [nop] comes first, then those of the list *)
Definition node_label (n : node_id) : string := from_option nr_variant "Nop" (row_of n).
Definition node_name (n : node_id) : string := from_option nr_str "nop" (row_of n).
Definition node_from_str (s : string) : node_id :=
  if decide (s = "nop") then Nop
  else match list_find (fun r => nr_str r = s) node_rows with
       | Some (k, _) => NId (S k) 0
       | None => Nop
       end.

(** src/dsp/mod.rs:2236-2252 [atom_param_by_idx] *)
Definition atom_param_by_idx (n : node_id) (idx : nat) : option paramid :=
  let* r := row_of n in
  let* a := first (fun a => ar_at a =? idx) (nr_ats r) in
  Some (ParamId (ar_name a) n (ar_idx a)).

(** src/dsp/mod.rs:2254-2268 [inp_param_by_idx] *)
Definition inp_param_by_idx (n : node_id) (idx : nat) : option paramid :=
  let* r := row_of n in
  let* p := first (fun p => pr_idx p =? idx) (nr_ins r) in
  Some (ParamId (pr_name p) n (pr_idx p)).

(** src/dsp/mod.rs:2270-2289 [param_by_idx]: the arms of the inputs come before those of the atoms *)
Definition param_by_idx (n : node_id) (idx : nat) : option paramid :=
  let* r := row_of n in
  match first (fun p => pr_idx p =? idx) (nr_ins r) with
  | Some p => Some (ParamId (pr_name p) n (pr_idx p))
  | None =>
      let* a := first (fun a => ar_idx a =? idx) (nr_ats r) in
      Some (ParamId (ar_name a) n (ar_idx a))
  end.

(** src/dsp/mod.rs:2291-2310 [inp_param] *)
Definition inp_param (n : node_id) (name : string) : option paramid :=
  let* r := row_of n in
  match first (fun p => String.eqb (pr_name p) name) (nr_ins r) with
  | Some p => Some (ParamId (pr_name p) n (pr_idx p))
  | None =>
      let* a := first (fun a => String.eqb (ar_name a) name) (nr_ats r) in
      Some (ParamId (ar_name a) n (ar_idx a))
  end.

(** src/dsp/mod.rs:2312-2322 [inp] *)
Definition node_inp (n : node_id) (name : string) : option nat :=
  let* r := row_of n in pr_idx <$> first (fun p => String.eqb (pr_name p) name) (nr_ins r).

(** src/dsp/mod.rs:2324-2335 [inp_name_by_idx] *)
Definition inp_name_by_idx (n : node_id) (idx : nat) : option string :=
  let* r := row_of n in
  match first (fun p => pr_idx p =? idx) (nr_ins r) with
  | Some p => Some (pr_name p)
  | None => ar_name <$> first (fun a => ar_idx a =? idx) (nr_ats r)
  end.

(** src/dsp/mod.rs:2337-2347 [out_name_by_idx], 2349-2359 [out] *)
Definition out_name_by_idx (n : node_id) (idx : nat) : option string :=
  let* r := row_of n in or_name <$> first (fun o => or_idx o =? idx) (nr_outs r).
Definition node_out (n : node_id) (name : string) : option nat :=
  let* r := row_of n in or_idx <$> first (fun o => String.eqb (or_name o) name) (nr_outs r).

(** src/dsp/mod.rs:1987-1998 [is_atom] *)
Definition param_is_atom (p : paramid) : bool :=
  match row_of (pa_node p) with
  | None => false
  | Some r =>
      if first (fun q => pr_idx q =? pa_idx p) (nr_ins r) then false
      else if first (fun a => ar_idx a =? pa_idx p) (nr_ats r) then true else false
  end.

(** src/dsp/mod.rs:2024-2034 [param_min_max], without the steps; 2049-2059 [setting_min_max] *)
Definition param_min_max (p : paramid) : option (Q * Q) :=
  let* r := row_of (pa_node p) in
  (fun q => (pr_min q, pr_max q)) <$> first (fun q => pr_idx q =? pa_idx p) (nr_ins r).
Definition setting_min_max (p : paramid) : option (Z * Z) :=
  let* r := row_of (pa_node p) in
  (fun a => (ar_min a, ar_max a)) <$> first (fun a => ar_idx a =? pa_idx p) (nr_ats r).

(** src/dsp/mod.rs:2061-2072 [as_atom_def]: the default of an input (to be normalised with the given scale), or of an atom.
    For an unknown index the code returns a parameter 0.0, here [None]. *)
Definition atom_def (p : paramid) : option (scale * Q + ainit) :=
  let* r := row_of (pa_node p) in
  match first (fun q => pr_idx q =? pa_idx p) (nr_ins r) with
  | Some q => Some (inl (pr_norm q, pr_def q))
  | None => (fun a => inr (ar_init a)) <$> first (fun a => ar_idx a =? pa_idx p) (nr_ats r)
  end.

(** src/dsp/mod.rs:2493-2505 [ni]: the lists of names of a [NodeInfo] *)
Definition info_inputs (n : node_id) : list string := from_option (fun r => pr_name <$> nr_ins r) [] (row_of n).
Definition info_atoms (n : node_id) : list string := from_option (fun r => ar_name <$> nr_ats r) [] (row_of n).
Definition info_outputs (n : node_id) : list string := from_option (fun r => or_name <$> nr_outs r) [] (row_of n).

(** src/dsp/mod.rs:2544-2558 [in_name], [at_name], [out_name]; 2583-2585 [out_count], [in_count], [at_count] *)
Definition info_in_name (n : node_id) (i : nat) : option string :=
  match info_inputs n !! i with
  | Some s => Some s
  | None => info_atoms n !! i
  end.
Definition info_at_name (n : node_id) (i : nat) : option string := info_atoms n !! i.
Definition info_out_name (n : node_id) (i : nat) : option string := info_outputs n !! i.
Definition in_count (n : node_id) : nat := length (info_inputs n).
Definition at_count (n : node_id) : nat := length (info_atoms n).
Definition out_count (n : node_id) : nat := length (info_outputs n).

(** src/dsp/mod.rs:1786-1816 [UICategory::get_node_ids] *)
Definition get_node_ids (c : ucat) (skip : nat) : list node_id :=
  drop skip ((fun p => NId (S p.1) 0) <$> filter (fun p => nr_cat p.2 = c) (imap pair node_rows)).

(** The table that the model of the frontend is about (M_Conf.v); the float values are a parameter.
    [nt_at_id k j] is the index of what [atom_param_by_idx] finds (src/nodes/node_conf.rs uses it to go over the atoms). *)
Definition ainit_atom (q2f : Q -> f32) (a : ainit) : satom :=
  match a with ISetting i => ASetting i | IAudio => AAudio "" None | IParam v => AParam (q2f v) end.
Definition hexo_table (def : nat -> nat -> f32) (norm denorm : nat -> nat -> f32 -> f32) (q2f : Q -> f32) : ntable :=
  NTable (fun k => (0 <? k) && (k <=? length node_rows))
    (fun k => in_count (NId k 0)) (fun k => at_count (NId k 0)) (fun k => out_count (NId k 0))
    (fun k j => from_option pa_idx 0 (atom_param_by_idx (NId k 0) j)) def
    (fun k j => match atom_param_by_idx (NId k 0) j with
                | Some p => match atom_def p with Some (inr a) => ainit_atom q2f a | _ => AParam f32_zero end
                | None => AParam f32_zero
                end)
    norm denorm.
