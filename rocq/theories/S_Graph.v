(** Specification of the node graph: plain node list and connection list. *)
From Verif Require Import Base M_Graph.

(** The abstract graph a history of calls describes. An edge from an unknown node is ignored
    (but its target is added). *)
Record sgraph := SG { sg_nodes : list node_id; sg_edges : list (node_id * node_id) }.

Definition sg_add (n : node_id) (s : list node_id) : list node_id :=
  if decide (n ∈ s) then s else s ++ [n].

Definition sg_step (s : sgraph) (o : gop) : sgraph :=
  match o with
  | GClear => SG [] []
  | GAddNode n => SG (sg_add n (sg_nodes s)) (sg_edges s)
  | GAddEdge a b =>
      let ns := sg_add b (sg_nodes s) in
      SG ns (if decide (a ∈ ns) then (a, b) :: sg_edges s else sg_edges s)
  | GOrder => s
  end.

Definition sg_run (s : sgraph) (os : list gop) : sgraph := foldl sg_step s os.
Definition sg_empty := SG [] [].

Definition edge (s : sgraph) (a b : node_id) : Prop := (a, b) ∈ sg_edges s.

(** a non-empty directed path *)
Definition reach (s : sgraph) : node_id -> node_id -> Prop := clos_trans _ (edge s).
(** a possibly empty directed path *)
Definition reach0 (s : sgraph) : node_id -> node_id -> Prop := clos_refl_trans _ (edge s).

Definition acyclic (s : sgraph) : Prop := forall n, ~ reach s n n.

(** number of distinct targets of [a] *)
Definition targets (s : sgraph) (a : node_id) : list node_id :=
  remove_dups (snd <$> filter (fun e => fst e = a) (sg_edges s)).

Definition within_limit (s : sgraph) : Prop :=
  forall a, length (targets s a) <= MAX_NODE_EDGES.
