(** Specification of the layout: what the user sees on the hexagonal board. *)
From Verif Require Import Base M_Dir S_Dir M_Graph M_Grid.
Open Scope nat_scope.

Definition in_bounds (g : grid) (p : nat * nat) : Prop := p.1 < g_w g /\ p.2 < g_h g.

(** Well-formed grids have exactly one cell per position. *)
Definition grid_wf (g : grid) : Prop := length (g_cells g) = g_w g * g_h g.

(** The board as a function from positions to cells (what [get] observes). *)
Definition board (g : grid) (p : nat * nat) : option cell :=
  match grid_get g p.1 p.2 with Some oc => oc | None => None end.

(** The port of a cell that lies on the edge towards direction [d]:
    inputs are at the top, top-left and bottom-left edges, outputs at the opposite ones. *)
Definition input_port (c : cell) (d : celldir) : option nat :=
  match d with T => c_in1 c | TL => c_in2 c | BL => c_in3 c | _ => None end.
Definition output_port (c : cell) (d : celldir) : option nat :=
  match d with B => c_out3 c | BR => c_out2 c | TR => c_out1 c | _ => None end.

(** Cell [p] receives the connection [e] over its edge [d]. *)
Definition connects (g : grid) (p : nat * nat) (d : celldir) (e : edge_t) : Prop :=
  exists c q c', board g p = Some c /\ c_node c <> Nop /\
    neighbour p d q /\ board g q = Some c' /\ c_node c' <> Nop /\
    input_port c d = Some (e_to_input e) /\ c_node c = e_to e /\
    output_port c' (dir_flip d) = Some (e_from_out e) /\ c_node c' = e_from e.

(** Some connection goes from node [a] to node [b]. *)
Definition feeds (g : grid) (a b : node_id) : Prop :=
  exists p d e, connects g p d e /\ e_from e = a /\ e_to e = b.

Definition layout_acyclic (g : grid) : Prop := forall n, ~ clos_trans _ (feeds g) n n.

(** Two different connections end at the same input of the same node. *)
Definition duplicated_input (g : grid) (o1 o2 : node_id * nat) : Prop :=
  exists p1 d1 e1 p2 d2 e2,
    connects g p1 d1 e1 /\ connects g p2 d2 e2 /\ (p1, d1) <> (p2, d2) /\
    e_to e1 = e_to e2 /\ e_to_input e1 = e_to_input e2 /\
    o1 = (e_from e1, e_from_out e1) /\ o2 = (e_from e2, e_from_out e2).

(** Fan-out limit of the graph ordering, in terms of the layout: no node feeds more than 64
    different nodes. *)
Definition fanout_ok (g : grid) : Prop :=
  forall a l, NoDup l -> (forall b, b ∈ l -> feeds g a b) -> length l <= MAX_NODE_EDGES.

(** The port, input or output, on the edge towards [d]. *)
Definition edge_port (c : cell) (d : celldir) : option nat :=
  match input_port c d with Some i => Some i | None => output_port c d end.

(** A history of placements. *)
Definition grid_run (g : grid) (ps : list (nat * nat * cell)) : option grid :=
  foldl (fun g pc => let* g := g in grid_place g pc.1.1 pc.1.2 pc.2) (Some g) ps.
