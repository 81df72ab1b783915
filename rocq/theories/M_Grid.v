(** Model of the cells and the grid layout of src/matrix.rs *)
From Verif Require Import Base M_Dir M_Graph.
Open Scope nat_scope.

(** src/matrix.rs:37-53 [struct Cell]; ports and positions are [u8] values *)
Record cell := Cell {
  c_node : node_id;
  c_x : nat; c_y : nat;
  c_out1 : option nat; c_out2 : option nat; c_out3 : option nat;
  c_in1 : option nat; c_in2 : option nat; c_in3 : option nat;
}.

Global Instance cell_eq_dec : EqDecision cell.
Proof. solve_decision. Defined.

(** [as u8] *)
Definition u8 (n : nat) : nat := n mod 256.

(** src/matrix.rs:68-76 [Cell::empty], [Cell::empty_at] *)
Definition cell_empty_at (n : node_id) (x y : nat) : cell := Cell n x y None None None None None None.
Definition cell_empty (n : node_id) : cell := cell_empty_at n 0 0.

(** src/matrix.rs:135-137 [is_empty] *)
Definition cell_is_empty (c : cell) : bool := bool_decide (c_node c = Nop).

(** src/matrix.rs:128-133 [with_pos_of]; also used for the position update in [place] *)
Definition cell_at (c : cell) (x y : nat) : cell :=
  Cell (c_node c) x y (c_out1 c) (c_out2 c) (c_out3 c) (c_in1 c) (c_in2 c) (c_in3 c).

(** src/matrix.rs:143-152 [set_node_id] *)
Definition cell_set_node_id (c : cell) (n : node_id) : cell :=
  Cell n (c_x c) (c_y c) None None None None None None.

(** src/matrix.rs:154-156 [set_node_id_keep_ios] *)
Definition cell_set_node_id_keep_ios (c : cell) (n : node_id) : cell :=
  Cell n (c_x c) (c_y c) (c_out1 c) (c_out2 c) (c_out3 c) (c_in1 c) (c_in2 c) (c_in3 c).

(** src/matrix.rs:203-213 [local_port_idx] *)
Definition local_port_idx (c : cell) (d : celldir) : option nat :=
  match d with
  | TR => c_out1 c | BR => c_out2 c | B => c_out3 c
  | BL => c_in3 c | TL => c_in2 c | T => c_in1 c
  | C => None
  end.

(** src/matrix.rs:191-201 [has_dir_set] *)
Definition has_dir_set (c : cell) (d : celldir) : bool :=
  match d with
  | TR => bool_decide (is_Some (c_out1 c)) | BR => bool_decide (is_Some (c_out2 c))
  | B => bool_decide (is_Some (c_out3 c)) | BL => bool_decide (is_Some (c_in3 c))
  | TL => bool_decide (is_Some (c_in2 c)) | T => bool_decide (is_Some (c_in1 c))
  | C => false
  end.

(** src/matrix.rs:215-244 [clear_io_dir] *)
Definition clear_io_dir (c : cell) (d : celldir) : cell :=
  let '(Cell n x y o1 o2 o3 i1 i2 i3) := c in
  match d with
  | TR => Cell n x y None o2 o3 i1 i2 i3
  | BR => Cell n x y o1 None o3 i1 i2 i3
  | B => Cell n x y o1 o2 None i1 i2 i3
  | BL => Cell n x y o1 o2 o3 i1 i2 None
  | TL => Cell n x y o1 o2 o3 i1 None i3
  | T => Cell n x y o1 o2 o3 None i2 i3
  | C => Cell n x y None None None None None None
  end.

(** src/matrix.rs:246-269 [set_io_dir] *)
Definition set_io_dir (c : cell) (d : celldir) (idx : nat) : cell :=
  let '(Cell n x y o1 o2 o3 i1 i2 i3) := c in
  let v := Some (u8 idx) in
  match d with
  | TR => Cell n x y v o2 o3 i1 i2 i3
  | BR => Cell n x y o1 v o3 i1 i2 i3
  | B => Cell n x y o1 o2 v i1 i2 i3
  | BL => Cell n x y o1 o2 o3 i1 i2 v
  | TL => Cell n x y o1 o2 o3 i1 v i3
  | T => Cell n x y o1 o2 o3 v i2 i3
  | C => c
  end.

(** The grid part of src/matrix.rs:474-535 [struct Matrix] *)
Record grid := Grid { g_w : nat; g_h : nat; g_cells : list cell }.

(** src/matrix.rs:540-556 [Matrix::new], grid part *)
Definition grid_new (w h : nat) : grid := Grid w h (replicate (w * h) (cell_empty Nop)).

(** src/matrix.rs:781-790 [place]; [None] is an index panic *)
Definition grid_place (g : grid) (x y : nat) (c : cell) : option grid :=
  let c := cell_at c (u8 x) (u8 y) in
  if decide (g_w g <= x \/ g_h g <= y) then Some g
  else if decide (x * g_h g + y < length (g_cells g))
       then Some (Grid (g_w g) (g_h g) (<[x * g_h g + y := c]> (g_cells g)))
       else None.

(** src/matrix.rs:1248-1254 [get]. Outer option: index panic; inner: the result *)
Definition grid_get (g : grid) (x y : nat) : option (option cell) :=
  if decide (g_w g <= x \/ g_h g <= y) then Some None
  else Some <$> g_cells g !! (x * g_h g + y).

(** src/matrix.rs:1237-1246 [get_copy] *)
Definition grid_get_copy (g : grid) (x y : nat) : option (option cell) :=
  let* oc := grid_get g x y in
  Some ((fun c => cell_at c (u8 x) (u8 y)) <$> oc).

(** src/matrix.rs:1102-1112 [get_adjacent] *)
Definition get_adjacent (g : grid) (x y : nat) (d : celldir) : option (option cell) :=
  let '(ox, oy) := dir_as_offs d x in
  let nx := (Z.of_nat x + ox)%Z in
  let ny := (Z.of_nat y + oy)%Z in
  if decide ((nx < 0)%Z \/ (ny < 0)%Z \/ g_w g <= Z.to_nat nx \/ g_h g <= Z.to_nat ny) then Some None
  else Some <$> g_cells g !! (Z.to_nat nx * g_h g + Z.to_nat ny).

(** src/matrix.rs:1079-1100 [get_adjacent_output] *)
Definition get_adjacent_output (g : grid) (x y : nat) (d : celldir) : option (option (node_id * nat)) :=
  if dir_is_output d then Some None
  else
    let* oc := get_adjacent g x y d in
    match oc with
    | None => Some None
    | Some c =>
        if decide (c_node c = Nop) then Some None
        else
          Some (let* o := match d with T => c_out3 c | TL => c_out2 c | BL => c_out1 c | _ => None end in
                Some (c_node c, o))
    end.

(** src/matrix.rs:1114-1126 [adjacent_edge_has_input] *)
Definition adjacent_edge_has_input (g : grid) (x y : nat) (d : celldir) : option bool :=
  let* oc := get_adjacent g x y d in
  Some match oc with
       | Some c => match d with
                   | TR => bool_decide (is_Some (c_in3 c))
                   | BR => bool_decide (is_Some (c_in2 c))
                   | B => bool_decide (is_Some (c_in1 c))
                   | _ => false
                   end
       | None => false
       end.

(** one listed connection: ((cell, dir, port), (cell, dir, port, position)) *)
Definition conn_entry : Type := (cell * celldir * nat) * (cell * celldir * nat * (nat * nat)).

(** src/matrix.rs:1142-1175 [get_connections] *)
Definition get_connections_edge (g : grid) (x y : nat) (this : cell) (e : nat) : option (list conn_entry) :=
  let dir := dir_from e in
  match local_port_idx this dir with
  | None => Some []
  | Some io =>
      match dir_offs_pos dir (x, y) with
      | None => Some []
      | Some (nx, ny) =>
          if negb (bool_decide (nx < g_w g /\ ny < g_h g)) then Some []
          else
            let* oc := grid_get g nx ny in
            match oc with
            | None => Some []
            | Some other =>
                match local_port_idx other (dir_flip dir) with
                | None => Some []
                | Some oio => Some [((this, dir, io), (other, dir_flip dir, oio, (nx, ny)))]
                end
            end
      end
  end.

Definition get_connections (g : grid) (x y : nat) : option (option (list conn_entry)) :=
  let* oc := grid_get g x y in
  match oc with
  | None => Some None
  | Some this => let* ls := mapM (get_connections_edge g x y this) (seq 0 6) in Some (Some (mjoin ls))
  end.

(** src/matrix.rs:437-443 [struct Edge] *)
Record edge_t := Edge { e_from : node_id; e_from_out : nat; e_to : node_id; e_to_input : nat }.

Global Instance edge_t_eq_dec : EqDecision edge_t.
Proof. solve_decision. Defined.

(** the double loop [for x in 0..w { for y in 0..h {] *)
Definition positions (w h : nat) : list (nat * nat) :=
  seq 0 w ≫= (fun x => (fun y => (x, y)) <$> seq 0 h).

(** src/matrix.rs:1314-1353: one of the three match statements *)
Definition scan_input (c : cell) (inp : option nat) (outp : option (node_id * nat))
    (acc : gord * list edge_t) : option (gord * list edge_t) :=
  match inp, outp with
  | Some i, Some (n, o) =>
      let '(go, es) := acc in
      let* go := gord_add_edge go n (c_node c) in
      Some (go, es ++ [Edge n o (c_node c) i])
  | _, _ => Some acc
  end.

(** src/matrix.rs:1303-1355: body of the scan *)
Definition scan_cell (g : grid) (acc : gord * list edge_t) (p : nat * nat)
    : option (gord * list edge_t) :=
  let '(x, y) := p in
  let* c := g_cells g !! (x * g_h g + y) in
  if decide (c_node c = Nop) then Some acc
  else
    let '(go, es) := acc in
    let acc := (fst (gord_add_node go (c_node c)), es) in
    let* o1 := get_adjacent_output g x y T in
    let* o2 := get_adjacent_output g x y TL in
    let* o3 := get_adjacent_output g x y BL in
    let* acc := scan_input c (c_in1 c) o1 acc in
    let* acc := scan_input c (c_in2 c) o2 acc in
    scan_input c (c_in3 c) o3 acc.

(** src/matrix.rs:1296-1356 [update_graph_ordering_and_edges]; [None] is a panic *)
Definition scan (g : grid) (go : gord) : option (gord * list edge_t) :=
  foldl (fun acc p => let* acc := acc in scan_cell g acc p)
        (Some (gord_clear go, [])) (positions (g_w g) (g_h g)).

(** src/matrix.rs:428-434 [MatrixError] *)
Inductive merror :=
| CycleDetected
| DuplicatedInput (output1 output2 : node_id * nat)
| NonEmptyCell (c : cell)
| PosOutOfRange.

(** src/matrix.rs:1433-1443: the duplicate search; the hash map as an association list *)
Fixpoint find_dup (seen : list ((node_id * nat) * (node_id * nat))) (es : list edge_t) : option merror :=
  match es with
  | [] => None
  | e :: es =>
      match list_find (fun kv => fst kv = (e_to e, e_to_input e)) seen with
      | Some (_, (_, o1)) => Some (DuplicatedInput o1 (e_from e, e_from_out e))
      | None => find_dup (((e_to e, e_to_input e), (e_from e, e_from_out e)) :: seen) es
      end
  end.

(** src/matrix.rs:1430-1451 [check]: returns the updated ordering, the edges and the error.
    [None] is a panic. *)
Definition grid_check (g : grid) (go : gord) : option (gord * list edge_t * option merror) :=
  let* (go, es) := scan g go in
  match find_dup [] es with
  | Some e => Some (go, es, Some e)
  | None =>
      let* (go, _, ok) := gord_calculate_order go [] in
      Some (go, es, if ok : bool then None else Some CycleDetected)
  end.
