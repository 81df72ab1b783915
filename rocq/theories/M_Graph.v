(** Model of src/nodes/node_graph_ordering.rs *)
From Verif Require Import Base.

(** src/nodes/node_graph_ordering.rs:9 *)
Definition MAX_NODE_EDGES : nat := 64.

(** src/nodes/node_graph_ordering.rs:12-20 [struct Node].
    Simplification: the array [edges] together with [unused_idx] is the list of the
    first [unused_idx] entries; entries beyond are never read. *)
Record gnode := GNode { gn_id : node_id; gn_edges : list nat }.

Global Instance gnode_inhabited : Inhabited gnode := populate (GNode Nop []).

(** src/nodes/node_graph_ordering.rs:23-25 [Node::new] and 27-31 [Node::clear] *)
Definition gnode_new : gnode := GNode Nop [].

(** src/nodes/node_graph_ordering.rs:33-42 [Node::add_edge];
    [None] is the array index panic for the 65th distinct target. *)
Definition gnode_add_edge (n : gnode) (ni : nat) : option gnode :=
  if decide (ni ∈ gn_edges n) then Some n
  else if decide (length (gn_edges n) < MAX_NODE_EDGES)
       then Some (GNode (gn_id n) (gn_edges n ++ [ni]))
       else None.

(** src/nodes/node_graph_ordering.rs:46-52 [struct NodeGraphOrdering] *)
Record gord := GOrd {
  go_node2idx : gmap node_id nat;
  go_count : nat;
  go_nodes : list gnode;
  go_indeg : list nat;
}.

(** src/nodes/node_graph_ordering.rs:55-62 [new] *)
Definition gord_new : gord := GOrd ∅ 0 (replicate 256 gnode_new) (replicate 256 0).

(** src/nodes/node_graph_ordering.rs:64-67 [clear]: the node vector keeps its stale entries *)
Definition gord_clear (g : gord) : gord := GOrd ∅ 0 (go_nodes g) (go_indeg g).

(** [Vec::resize] growing only, as used in lines 76-79 *)
Definition vec_grow {A} (l : list A) (n : nat) (x : A) : list A :=
  l ++ replicate (n - length l) x.

(** src/nodes/node_graph_ordering.rs:69-87 [add_node] *)
Definition gord_add_node (g : gord) (n : node_id) : gord * nat :=
  match go_node2idx g !! n with
  | Some idx => (g, idx)
  | None =>
      let idx := go_count g in
      let cnt := S idx in
      let grow := bool_decide (length (go_nodes g) < cnt) in
      let nodes := if grow then vec_grow (go_nodes g) cnt gnode_new else go_nodes g in
      let indeg := if grow then vec_grow (go_indeg g) cnt 0 else go_indeg g in
      (GOrd (<[n := idx]> (go_node2idx g)) cnt (<[idx := GNode n []]> nodes) indeg, idx)
  end.

(** src/nodes/node_graph_ordering.rs:99-105 [add_edge] (with [get_node_mut], 94-97).
    [None] is a panic (edge array overflow or index out of bounds). *)
Definition gord_add_edge (g : gord) (from to : node_id) : option gord :=
  let '(g, to_idx) := gord_add_node g to in
  match go_node2idx g !! from with
  | None => Some g
  | Some fi =>
      fn ← go_nodes g !! fi;
      fn' ← gnode_add_edge fn to_idx;
      Some (GOrd (go_node2idx g) (go_count g) (<[fi := fn']> (go_nodes g)) (go_indeg g))
  end.

(** src/nodes/node_graph_ordering.rs:107-132 [has_path]; the stack's top is the list head.
    Results: [None] = fuel exhausted or index panic (excluded by the theorems);
    [Some r] = the function returned [r : Option<bool>].
    The pushes of line 123-127 leave the last edge on top. *)
Fixpoint has_path_loop (fuel : nat) (g : gord) (to : node_id)
    (visited : list node_id) (stack : list node_id) : option (option bool) :=
  match fuel with
  | 0 => None
  | S fuel =>
      match stack with
      | [] => Some (Some false)
      | n :: stack =>
          if decide (n ∈ visited) then Some None
          else if decide (n = to) then Some (Some true)
          else
            pushed ← match go_node2idx g !! n with
                     | None => Some []
                     | Some i =>
                         node ← go_nodes g !! i;
                         mapM (fun j => gn_id <$> go_nodes g !! j) (gn_edges node)
                     end;
            has_path_loop fuel g to (n :: visited) (rev pushed ++ stack)
      end
  end.

(** Enough fuel for any graph: one iteration per pushed stack entry; proven sufficient. *)
Definition has_path_fuel (g : gord) : nat :=
  2 + sum_list_with (fun n => length (gn_edges n)) (take (go_count g) (go_nodes g)).

Definition gord_has_path (g : gord) (from to : node_id) : option (option bool) :=
  has_path_loop (has_path_fuel g) g to [] [from].

(** src/nodes/node_graph_ordering.rs:147-151: counting the inputs of each node *)
Definition bump (ind : option (list nat)) (j : nat) : option (list nat) :=
  ind ← ind; d ← ind !! j; Some (<[j := S d]> ind).

Definition calc_indeg (g : gord) : option (list nat) :=
  foldl (fun ind n => foldl bump ind (gn_edges n))
        (Some (replicate (length (go_indeg g)) 0))
        (take (go_count g) (go_nodes g)).

(** src/nodes/node_graph_ordering.rs:171-179: visiting the outputs of one node.
    [None]: index panic or subtraction underflow. *)
Fixpoint visit_edges (es : list nat) (ind deq : list nat) : option (list nat * list nat) :=
  match es with
  | [] => Some (ind, deq)
  | j :: es =>
      d ← ind !! j;
      match d with
      | 0 => None
      | S d' =>
          let ind := <[j := d']> ind in
          visit_edges es ind (if decide (d' = 0) then deq ++ [j] else deq)
      end
  end.

(** src/nodes/node_graph_ordering.rs:164-180: the main loop *)
Fixpoint kahn_loop (fuel : nat) (nodes : list gnode) (ind deq : list nat)
    (visited : nat) (out : list node_id) : option (list nat * nat * list node_id) :=
  match fuel with
  | 0 => None
  | S fuel =>
      match deq with
      | [] => Some (ind, visited, out)
      | i :: deq =>
          node ← nodes !! i;
          '(ind, deq) ← visit_edges (gn_edges node) ind deq;
          kahn_loop fuel nodes ind deq (S visited) (out ++ [gn_id node])
      end
  end.

(** src/nodes/node_graph_ordering.rs:139-190 [calculate_order]; [out] is appended to.
    The outer [option] is a panic (or fuel exhaustion), excluded by the theorems. *)
Definition gord_calculate_order (g : gord) (out : list node_id)
    : option (gord * list node_id * bool) :=
  ind ← calc_indeg g;
  let deq := filter (fun i => ind !! i = Some 0) (seq 0 (go_count g)) in
  '(ind, visited, out) ← kahn_loop (S (go_count g)) (go_nodes g) ind deq 0 out;
  let g' := GOrd (go_node2idx g) (go_count g) (go_nodes g) ind in
  if decide (visited = go_count g) then Some (g', out, true) else Some (g', [], false).

(** Histories of API calls on one ordering. *)
Inductive gop :=
  GClear | GAddNode (n : node_id) | GAddEdge (a b : node_id)
| GOrder. (* a call of [calculate_order] with some output vector; modifies [in_degree] *)

Definition gord_step (g : gord) (o : gop) : option gord :=
  match o with
  | GClear => Some (gord_clear g)
  | GAddNode n => Some (fst (gord_add_node g n))
  | GAddEdge a b => gord_add_edge g a b
  | GOrder => fst ∘ fst <$> gord_calculate_order g []
  end.

Definition gord_run (g : gord) (os : list gop) : option gord :=
  foldl (fun g o => g ← g; gord_step g o) (Some g) os.
