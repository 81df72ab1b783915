(** Model of the observer, the properties and the generation counter of src/matrix.rs *)
From stdpp Require Import strings.
From Verif Require Import Base M_Atom M_Graph M_Dir M_Grid M_Layout M_Prog M_Conf M_Exec M_Sync M_Nodes M_Repr M_Patch.
Open Scope nat_scope.

(** src/matrix.rs:448-471 [trait MatrixObserver]: the calls of an observer. [midi_event] is left out (see M_Midi). *)
Inductive note :=
| NProp (key : string)
| NMon (c : cell)
| NParam (p : pid)
| NMatrix
| NAll.

(** src/matrix.rs:474-535 [struct Matrix] with the fields that M_Sync leaves out: properties, generation counter and whether there is an
    observer. The counter is a [usize] in the code; that it wraps around after 2^64 steps is left out. *)
Record observed := Observed { ob_mx : matrix; ob_props : gmap string satom; ob_gen : nat; ob_on : bool }.

(** src/matrix.rs:540-556 [new] *)
Definition observed_new (w h : nat) : observed := Observed (matrix_new w h) ∅ 0 false.

(** [if let Some(obs) = &self.observer { obs.… }] *)
Definition tell (o : observed) (n : note) : list note := if ob_on o then [n] else [].

(** src/matrix.rs:548-550 [set_observer] *)
Definition obs_set_observer (o : observed) : observed := Observed (ob_mx o) (ob_props o) (ob_gen o) true.

(** src/matrix.rs:975-981 [set_prop] *)
Definition obs_set_prop (o : observed) (key : string) (v : satom) : observed * list note :=
  let o := Observed (ob_mx o) (<[key := v]> (ob_props o)) (S (ob_gen o)) (ob_on o) in (o, tell o (NProp key)).

(** src/matrix.rs:985-987 [get_prop] *)
Definition obs_get_prop (o : observed) (key : string) : option satom := ob_props o !! key.

(** src/matrix.rs:1006-1017 [monitor_cell] *)
Definition obs_monitor (o : observed) (c : cell) : observed * list gmsg * list note :=
  let '(m, ms) := matrix_monitor (ob_mx o) c in
  let o := Observed m (ob_props o) (ob_gen o) (ob_on o) in (o, ms, tell o (NMon (mx_mon m))).

(** src/matrix.rs:1025-1030 [remonitor_cell] *)
Definition obs_remonitor (o : observed) : option (observed * list gmsg * list note) :=
  let m := ob_mx o in
  let* oc := grid_get (lay_grid (mx_lay m)) (c_x (mx_mon m)) (c_y (mx_mon m)) in
  match oc with
  | Some c => Some (obs_monitor o c)
  | None => Some (o, [], [])
  end.

Section obs.
  Context (T : ntable) (i2f : Z -> f32) (load_sample : satom -> satom).

  (** src/matrix.rs:1463-1487 [sync]: new heap and matrix, messages for the audio thread, calls of the observer and result *)
  Definition obs_sync (h : heap) (o : observed) : option (heap * observed * list gmsg * list note * option merror) :=
    let m := ob_mx o in
    let* c := conf_create_cells T (mx_conf m) (c_node <$> g_cells (lay_grid (mx_lay m))) in
    let* l := layout_scan (table_param T) (mx_lay m) in
    let* (go, order, ok) := gord_calculate_order (lay_order l) [] in
    let l := Layout (lay_grid l) (lay_saved l) go (lay_edges l) (lay_inputs l) in
    if negb ok then Some (h, Observed (Matrix l c (mx_mon m)) (ob_props o) (ob_gen o) (ob_on o), [], [], Some CycleDetected) else
    let* (h, c, p) := conf_program T h c order (lay_edges l) in
    let* (o, ms, ns) := obs_remonitor (Observed (Matrix l c (mx_mon m)) (ob_props o) (S (ob_gen o)) (ob_on o)) in
    Some (h, o, MNewProg p true :: ms, ns ++ tell o NMatrix, None).

  (** src/matrix.rs:800-819 [clear] *)
  Definition obs_clear (h : heap) (o : observed) : option (heap * observed * list gmsg * list note) :=
    let m := ob_mx o in
    let l := mx_lay m in
    let g := lay_grid l in
    let l := Layout (Grid (g_w g) (g_h g) ((fun _ => cell_empty Nop) <$> g_cells g)) None
                    (gord_clear (lay_order l)) [] [] in
    let '(c, ms1) := conf_delete_nodes (mx_conf m) in
    let '(o, ms2, ns2) := obs_monitor (Observed (Matrix l c (mx_mon m)) ∅ (ob_gen o) (ob_on o)) (cell_empty Nop) in
    let* (h, o, ms3, ns3, _) := obs_sync h o in
    Some (h, o, ms1 ++ ms2 ++ ms3, ns2 ++ ns3 ++ tell o NAll).

  (** src/matrix.rs:1042-1048 [set_param] *)
  Definition obs_set_param (o : observed) (p : pid) (a : satom) : observed * list gmsg * list note :=
    let '(m, ms) := matrix_set_param T i2f load_sample (ob_mx o) p a in
    let o := Observed m (ob_props o) (S (ob_gen o)) (ob_on o) in (o, ms, tell o (NParam p)).

  (** src/matrix.rs:1056-1077 [set_param_modamt]: the observer is taken away while [sync] runs *)
  Definition obs_set_modamt (h : heap) (o : observed) (p : pid) (v : option f32)
    : option (heap * observed * list gmsg * list note * option merror) :=
    let '(c, ms, b) := conf_set_modamt T (mx_conf (ob_mx o)) p v in
    let m := Matrix (mx_lay (ob_mx o)) c (mx_mon (ob_mx o)) in
    if b : bool then
      let ns := tell o (NParam p) in
      let* (h, o', ms', ns', r) := obs_sync h (Observed m (ob_props o) (ob_gen o) false) in
      Some (h, Observed (ob_mx o') (ob_props o') (ob_gen o') (ob_on o), ms ++ ms', ns ++ ns', r)
    else Some (h, Observed m (ob_props o) (S (ob_gen o)) (ob_on o), ms, [], None).

  (** src/matrix.rs:912-951 [from_repr]; the patterns and block functions (931-945) are left out here, see M_Patch *)
  Definition obs_load (h : heap) (o : observed) (r : mrepr) : option (heap * observed * list gmsg * list note * option merror) :=
    let* (h, o, ms1, ns1) := obs_clear h o in
    let '(m, ms2) := matrix_load T i2f load_sample (ob_mx o)
        ((fun e : paramid * f32 * option f32 => (repr_pid e.1.1, e.1.2, e.2)) <$> mr_params r)
        ((fun e : paramid * satom => (repr_pid e.1, e.2)) <$> mr_atoms r) (1 <? mr_version r)%Z in
    let props := foldl (fun (ps : gmap string satom) (e : string * satom) => <[e.1 := e.2]> ps) (ob_props o) (mr_props r) in
    let* l := foldm load_cell (mx_lay m) (mr_cells r) in
    let* (h, o, ms3, ns3, e) := obs_sync h (Observed (Matrix l (mx_conf m) (mx_mon m)) props (ob_gen o) (ob_on o)) in
    Some (h, o, ms1 ++ ms2 ++ ms3, ns1 ++ ns3 ++ tell o NAll, e).

  (** Calls of the API; [OLay] is one that works on the layout only (as [MxLay] of M_Sync) *)
  Inductive ocall :=
  | OLay (l : lop)
  | OSync
  | OClear
  | OSet (p : pid) (a : satom)
  | OModamt (p : pid) (v : option f32)
  | OLoad (r : mrepr)
  | OMonitor (c : cell)
  | OProp (key : string) (v : satom)
  | OObserver.

  (** one call: new heap and matrix, messages for the audio thread, calls of the observer, reported error; [None] is a panic *)
  Definition obs_step (h : heap) (o : observed) (c : ocall) : option (heap * observed * list gmsg * list note * option merror) :=
    match c with
    | OLay l =>
        if lop_pure l then
          let* (l, r) := lay_step (table_param T) (mx_lay (ob_mx o)) l in
          Some (h, Observed (Matrix l (mx_conf (ob_mx o)) (mx_mon (ob_mx o))) (ob_props o) (ob_gen o) (ob_on o), [], [], r)
        else Some (h, o, [], [], None)
    | OSync => obs_sync h o
    | OClear => let* (h, o, ms, ns) := obs_clear h o in Some (h, o, ms, ns, None)
    | OSet p a => let '(o, ms, ns) := obs_set_param o p a in Some (h, o, ms, ns, None)
    | OModamt p v => obs_set_modamt h o p v
    | OLoad r => obs_load h o r
    | OMonitor c => let '(o, ms, ns) := obs_monitor o c in Some (h, o, ms, ns, None)
    | OProp k v => let '(o, ns) := obs_set_prop o k v in Some (h, o, [], ns, None)
    | OObserver => Some (h, obs_set_observer o, [], [], None)
    end.
End obs.
