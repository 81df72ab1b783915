(** Model of the layout transactions of src/matrix.rs (Matrix without its NodeConfigurator) *)
From Verif Require Import Base M_Dir M_Graph M_Grid.
Open Scope nat_scope.

(** The layout part of src/matrix.rs:474-535 [struct Matrix].
    [lay_inputs] is the set [assigned_inputs] as a list of (node, parameter index). *)
Record layout := Layout {
  lay_grid : grid;
  lay_saved : option (list cell);
  lay_order : gord;
  lay_edges : list edge_t;
  lay_inputs : list (node_id * nat);
}.

Section layout.
  (** whether [NodeId::param_by_idx] (src/dsp/mod.rs) knows the input: the theorems hold for
      every node table *)
  Context (is_param : node_id -> nat -> bool).

  (** src/matrix.rs:540-556 [new] *)
  Definition layout_new (w h : nat) : layout := Layout (grid_new w h) None gord_new [] [].

  Definition with_grid (m : layout) (g : grid) : layout :=
    Layout g (lay_saved m) (lay_order m) (lay_edges m) (lay_inputs m).

  (** src/matrix.rs:1356-1360: the assigned inputs of the edges *)
  Definition used_inputs (es : list edge_t) : list (node_id * nat) :=
    filter (fun p => is_param p.1 p.2 = true) ((fun e => (e_to e, e_to_input e)) <$> es).

  (** src/matrix.rs:1296-1361 [update_graph_ordering_and_edges] *)
  Definition layout_scan (m : layout) : option layout :=
    let* (go, es) := scan (lay_grid m) (lay_order m) in
    Some (Layout (lay_grid m) (lay_saved m) go es (used_inputs es)).

  (** src/matrix.rs:1430-1451 [check] *)
  Definition layout_check (m : layout) : option (layout * option merror) :=
    let* (go, es, r) := grid_check (lay_grid m) (lay_order m) in
    Some (Layout (lay_grid m) (lay_saved m) go es (used_inputs es), r).

  (** src/matrix.rs:1463-1487 [sync], layout part: scanning and ordering; the program building
      and upload do not touch the layout *)
  Definition layout_sync (m : layout) : option (layout * option merror) :=
    let* m := layout_scan m in
    let* (go, _, ok) := gord_calculate_order (lay_order m) [] in
    Some (Layout (lay_grid m) (lay_saved m) go (lay_edges m) (lay_inputs m),
          if ok : bool then None else Some CycleDetected).

  (** src/matrix.rs:661-664 [save_matrix] *)
  Definition layout_save (m : layout) : layout :=
    Layout (lay_grid m) (Some (g_cells (lay_grid m))) (lay_order m) (lay_edges m) (lay_inputs m).

  (** src/matrix.rs:671-675 [restore_matrix] *)
  Definition layout_restore (m : layout) : layout :=
    match lay_saved m with
    | Some cs => Layout (Grid (g_w (lay_grid m)) (g_h (lay_grid m)) cs) None
                        (lay_order m) (lay_edges m) (lay_inputs m)
    | None => m
    end.

  (** src/matrix.rs:781-790 [place] *)
  Definition layout_place (m : layout) (x y : nat) (c : cell) : option layout :=
    let* g := grid_place (lay_grid m) x y c in Some (with_grid m g).

  (** src/matrix.rs:744-766 [place_multiple] *)
  Fixpoint layout_place_cells (m : layout) (cs : list cell) : option (layout * option merror) :=
    match cs with
    | [] => Some (m, None)
    | c :: cs =>
        let* oc := grid_get (lay_grid m) (c_x c) (c_y c) in
        match oc with
        | Some existing =>
            if negb (cell_is_empty existing) then Some (m, Some (NonEmptyCell existing))
            else let* m := layout_place m (c_x c) (c_y c) c in layout_place_cells m cs
        | None => Some (m, Some PosOutOfRange)
        end
    end.

  Definition layout_place_multiple (m : layout) (cs : list cell) : option (layout * option merror) :=
    let* (m, r) := layout_place_cells m cs in
    match r with Some e => Some (m, Some e) | None => layout_check m end.

  (** src/matrix.rs:800-819 [clear], layout part, including the final [sync] whose result is ignored *)
  Definition layout_clear (m : layout) : option layout :=
    let g := lay_grid m in
    let m := Layout (Grid (g_w g) (g_h g) ((fun _ => cell_empty Nop) <$> g_cells g)) None
                    (gord_clear (lay_order m)) [] [] in
    let* (m, _) := layout_sync m in Some m.

  (** Operations a caller can perform, also inside the closure of a transaction.
      [LChange]/[LChangeErr] are the nested transactions with their closure's operations. *)
  Inductive lop :=
  | LPlace (x y : nat) (c : cell)
  | LPlaceMultiple (cs : list cell)
  | LCheck
  | LSync
  | LFail (e : merror)   (* the closure returns an error of its own *)
  | LSave
  | LRestore
  | LClear
  | LChange (body : list lop)
  | LChangeErr (body : list lop).

  (** src/matrix.rs:699-713 [change_matrix]: the closure cannot fail, so the errors of the
      operations inside are dropped. src/matrix.rs:717-734 [change_matrix_err]: the closure's
      operations are chained with [?]. *)
  Section run.
    Context (step : layout -> lop -> option (layout * option merror)).

    Fixpoint run_ignoring (m : layout) (os : list lop) : option layout :=
      match os with
      | [] => Some m
      | o :: os => let* (m, _) := step m o in run_ignoring m os
      end.

    Fixpoint run_until_err (m : layout) (os : list lop) : option (layout * option merror) :=
      match os with
      | [] => Some (m, None)
      | o :: os =>
          let* (m, r) := step m o in
          match r with Some e => Some (m, Some e) | None => run_until_err m os end
      end.
  End run.

  Definition finish_change (m : layout) : option (layout * option merror) :=
    let* (m, r) := layout_check m in
    match r with Some e => Some (layout_restore m, Some e) | None => Some (m, None) end.

  Definition change_matrix (f : layout -> option layout) (m : layout) : option (layout * option merror) :=
    let* m := f (layout_save m) in finish_change m.

  Definition change_matrix_err (f : layout -> option (layout * option merror)) (m : layout)
      : option (layout * option merror) :=
    let* (m, r) := f (layout_save m) in
    match r with Some e => Some (layout_restore m, Some e) | None => finish_change m end.

  (** one API call; the recursion through nested transactions is structural on the operation *)
  Fixpoint lay_step (m : layout) (o : lop) {struct o} : option (layout * option merror) :=
    match o with
    | LPlace x y c => let* m := layout_place m x y c in Some (m, None)
    | LPlaceMultiple cs => layout_place_multiple m cs
    | LCheck => layout_check m
    | LSync => layout_sync m
    | LFail e => Some (m, Some e)
    | LSave => Some (layout_save m, None)
    | LRestore => Some (layout_restore m, None)
    | LClear => let* m := layout_clear m in Some (m, None)
    | LChange body =>
        change_matrix (fun m => (fix go (m : layout) (os : list lop) {struct os} : option layout :=
                           match os with
                           | [] => Some m
                           | o :: os => let* (m, _) := lay_step m o in go m os
                           end) m body) m
    | LChangeErr body =>
        change_matrix_err (fun m => (fix go (m : layout) (os : list lop) {struct os} : option (layout * option merror) :=
                           match os with
                           | [] => Some (m, None)
                           | o :: os =>
                               let* (m, r) := lay_step m o in
                               match r with Some e => Some (m, Some e) | None => go m os end
                           end) m body) m
    end.
End layout.
