(** Model of src/matrix.rs with its NodeConfigurator: synchronisation with the audio thread, and the
    whole engine of frontend, message queue, audio thread and drop thread *)
From Verif Require Import Base M_Atom M_Graph M_Dir M_Grid M_Layout M_Prog M_Conf M_Exec.
Open Scope nat_scope.

(** src/matrix.rs:474-535 [struct Matrix]; the monitored cell is kept, observer, properties and the
    generation counter are left out *)
Record matrix := Matrix { mx_lay : layout; mx_conf : nconf; mx_mon : cell }.

Section sync.
  Context (T : ntable) (i2f : Z -> f32) (load_sample : satom -> satom).

  (** [NodeId::param_by_idx] (src/dsp/mod.rs:2290-2310) knows inputs and atoms *)
  Definition table_param (n : node_id) (i : nat) : bool :=
    (i <? nt_ins T (nid_kind n)) || is_atom T (n, i).

  (** src/matrix.rs:1006-1017 [monitor_cell] *)
  Definition matrix_monitor (m : matrix) (c : cell) : matrix * list gmsg :=
    (Matrix (mx_lay m) (mx_conf m) c,
     conf_monitor (mx_conf m) (c_node c) [c_in1 c; c_in2 c; c_in3 c] [c_out1 c; c_out2 c; c_out3 c]).

  (** src/matrix.rs:1025-1030 [remonitor_cell] *)
  Definition matrix_remonitor (m : matrix) : option (matrix * list gmsg) :=
    let* oc := grid_get (lay_grid (mx_lay m)) (c_x (mx_mon m)) (c_y (mx_mon m)) in
    match oc with
    | Some c => Some (matrix_monitor m c)
    | None => Some (m, [])
    end.

  (** src/matrix.rs:1463-1487 [sync]: new heap, matrix, messages for the audio thread and result *)
  Definition matrix_sync (h : heap) (m : matrix) : option (heap * matrix * list gmsg * option merror) :=
    let* c := conf_create_cells T (mx_conf m) (c_node <$> g_cells (lay_grid (mx_lay m))) in
    let* l := layout_scan table_param (mx_lay m) in
    let* (go, order, ok) := gord_calculate_order (lay_order l) [] in
    let l := Layout (lay_grid l) (lay_saved l) go (lay_edges l) (lay_inputs l) in
    if negb ok then Some (h, Matrix l c (mx_mon m), [], Some CycleDetected) else
    let* (h, c, p) := conf_program T h c order (lay_edges l) in
    let* (m, ms) := matrix_remonitor (Matrix l c (mx_mon m)) in
    Some (h, m, MNewProg p true :: ms, None).

  (** src/matrix.rs:800-819 [clear] *)
  Definition matrix_clear (h : heap) (m : matrix) : option (heap * matrix * list gmsg) :=
    let l := mx_lay m in
    let g := lay_grid l in
    let l := Layout (Grid (g_w g) (g_h g) ((fun _ => cell_empty Nop) <$> g_cells g)) None
                    (gord_clear (lay_order l)) [] [] in
    let '(c, ms1) := conf_delete_nodes (mx_conf m) in
    let '(m, ms2) := matrix_monitor (Matrix l c (mx_mon m)) (cell_empty Nop) in
    let* (h, m, ms3, _) := matrix_sync h m in
    Some (h, m, ms1 ++ ms2 ++ ms3).

  (** src/matrix.rs:1042-1048 [set_param] *)
  Definition matrix_set_param (m : matrix) (p : pid) (a : satom) : matrix * list gmsg :=
    let '(c, ms) := conf_set_param T i2f load_sample (mx_conf m) p a in (Matrix (mx_lay m) c (mx_mon m), ms).

  (** src/matrix.rs:1056-1077 [set_param_modamt] *)
  Definition matrix_set_modamt (h : heap) (m : matrix) (p : pid) (v : option f32)
    : option (heap * matrix * list gmsg * option merror) :=
    let '(c, ms, b) := conf_set_modamt T (mx_conf m) p v in
    let m := Matrix (mx_lay m) c (mx_mon m) in
    if b : bool then
      let* (h, m, ms', r) := matrix_sync h m in Some (h, m, ms ++ ms', r)
    else Some (h, m, ms, None).

  (** src/matrix.rs:1260-1262 [get_unused_instance_node_id] *)
  Definition matrix_unused (fuel : nat) (m : matrix) (n : node_id) : option node_id :=
    conf_unused fuel (mx_conf m) n.

  (** the parameter part of src/matrix.rs:912-951 [from_repr]: [load_dumped_param_values] *)
  Definition matrix_load (m : matrix) (ps : list (pid * f32 * option f32)) (ats : list (pid * satom))
      (normalize : bool) : matrix * list gmsg :=
    let '(c, ms) := conf_load T i2f load_sample (mx_conf m) ps ats normalize in
    (Matrix (mx_lay m) c (mx_mon m), ms).

  (** Calls of the matrix API. [MxLay] is a call that only works on the layout (placing cells, checks,
      transactions); it is only taken if it does not synchronise or clear inside of a
      transaction's closure. *)
  Inductive mop :=
  | MxLay (o : lop)
  | MxSync
  | MxClear
  | MxSet (p : pid) (a : satom)
  | MxModamt (p : pid) (v : option f32)
  | MxLoad (ps : list (pid * f32 * option f32)) (ats : list (pid * satom)) (normalize : bool)
  | MxMonitor (c : cell).

  Fixpoint lop_pure (o : lop) : bool :=
    match o with
    | LSync | LClear => false
    | LChange body | LChangeErr body => forallb lop_pure body
    | _ => true
    end.

  (** one call: new heap, matrix and the messages sent; [None] is a panic *)
  Definition matrix_step (h : heap) (m : matrix) (o : mop) : option (heap * matrix * list gmsg) :=
    match o with
    | MxLay o =>
        if lop_pure o then
          let* (l, _) := lay_step table_param (mx_lay m) o in
          Some (h, Matrix l (mx_conf m) (mx_mon m), [])
        else Some (h, m, [])
    | MxSync => let* (h, m, ms, _) := matrix_sync h m in Some (h, m, ms)
    | MxClear => matrix_clear h m
    | MxSet p a => let '(m, ms) := matrix_set_param m p a in Some (h, m, ms)
    | MxModamt p v => let* (h, m, ms, _) := matrix_set_modamt h m p v in Some (h, m, ms)
    | MxLoad ps ats nrm => let '(m, ms) := matrix_load m ps ats nrm in Some (h, m, ms)
    | MxMonitor c => let '(m, ms) := matrix_monitor m c in Some (h, m, ms)
    end.

  (** src/matrix.rs:527-545 [new] *)
  Definition matrix_new (w hh : nat) : matrix := Matrix (layout_new w hh) conf_new (cell_empty Nop).

  (** a history of calls on a new matrix; the messages are in order *)
  Definition matrix_step_log (s : heap * matrix * list gmsg) (o : mop) : option (heap * matrix * list gmsg) :=
    let* (h, m, ms) := matrix_step s.1.1 s.1.2 o in Some (h, m, s.2 ++ ms).
  Definition matrix_run (s : heap * matrix * list gmsg) (os : list mop) : option (heap * matrix * list gmsg) :=
    foldm matrix_step_log s os.
End sync.
