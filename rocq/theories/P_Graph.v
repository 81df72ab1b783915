(** Properties C01, C02, C03: node graph ordering. *)
From Verif Require Import Base M_Graph S_Graph L_Graph.

(** C01. Whatever history of calls built the graph: if an order is reported, it lists every node
    of the graph exactly once and nothing else, and the source of each connection comes before
    its target. [out] is what the output vector held before; the order is appended. *)
Theorem C01_order_sound : forall os g out g' out',
  gord_run gord_new os = Some g ->
  gord_calculate_order g out = Some (g', out', true) ->
  exists ord, out' = out ++ ord /\ NoDup ord /\
    (forall n, n ∈ ord <-> n ∈ sg_nodes (sg_run sg_empty os)) /\
    (forall a b, edge (sg_run sg_empty os) a b -> before ord a b).
Proof. exact order_sound. Qed.
Print Assumptions C01_order_sound.

(** C02. The computation never panics and always answers; it answers [true] iff the connections
    are acyclic, and a rejected graph yields an empty order. *)
Theorem C02_order_iff_acyclic : forall os g out,
  gord_run gord_new os = Some g ->
  exists g' out' ok, gord_calculate_order g out = Some (g', out', ok) /\
    (ok = true <-> acyclic (sg_run sg_empty os)) /\
    (ok = false -> out' = []).
Proof. exact order_iff_acyclic. Qed.
Print Assumptions C02_order_iff_acyclic.

(** C02, building the graph: no call panics as long as, at every point of the history, each node has at
    most 64 distinct targets. *)
Theorem C02_build_no_panic : forall os,
  (forall os1 os2, os = os1 ++ os2 -> within_limit (sg_run sg_empty os1)) ->
  is_Some (gord_run gord_new os).
Proof. exact build_no_panic. Qed.
Print Assumptions C02_build_no_panic.

(** The limit is real: connecting one node to 65 others panics. *)
Theorem C02_unlimited_fanout_refuted :
  exists os, gord_run gord_new os = None.
Proof. exact fanout_refuted. Qed.
Print Assumptions C02_unlimited_fanout_refuted.

(** C03. The path query always terminates without panic, and its answers are right when it gives one. *)
Theorem C03_has_path_sound : forall os g a b,
  gord_run gord_new os = Some g ->
  exists r, gord_has_path g a b = Some r /\
    (r = Some true -> reach0 (sg_run sg_empty os) a b) /\
    (r = Some false -> ~ reach0 (sg_run sg_empty os) a b).
Proof. exact has_path_sound. Qed.
Print Assumptions C03_has_path_sound.

(** C03: it does not answer every acyclic query: [None] on an acyclic diamond. *)
Theorem C03_has_path_total_on_acyclic_refuted :
  exists os g a b, gord_run gord_new os = Some g /\ acyclic (sg_run sg_empty os) /\
    gord_has_path g a b = Some None.
Proof. exact has_path_diamond. Qed.
Print Assumptions C03_has_path_total_on_acyclic_refuted.

(** Non-vacuity: a history with a reset, duplicate edges, a dropped edge and an ordering in the middle. *)
Definition ex_n (k : nat) : node_id := NId k 0.
Definition ex_ops : list gop :=
  [GAddEdge (ex_n 9) (ex_n 8); GClear;
   GAddNode (ex_n 3); GAddEdge (ex_n 3) (ex_n 1); GOrder; GAddEdge (ex_n 1) (ex_n 2);
   GAddEdge (ex_n 3) (ex_n 2); GAddEdge (ex_n 3) (ex_n 2); GAddEdge (ex_n 7) (ex_n 4)].

Example ex_order : exists g g', gord_run gord_new ex_ops = Some g /\
  gord_calculate_order g [] = Some (g', [ex_n 3; ex_n 4; ex_n 1; ex_n 2], true).
Proof. eexists. eexists. split; vm_compute; reflexivity. Qed.

Example ex_cycle : exists g g', gord_run gord_new (ex_ops ++ [GAddEdge (ex_n 2) (ex_n 3)]) = Some g /\
  gord_calculate_order g [ex_n 5] = Some (g', [], false).
Proof. eexists. eexists. split; vm_compute; reflexivity. Qed.

Example ex_path : exists g, gord_run gord_new ex_ops = Some g /\
  gord_has_path g (ex_n 3) (ex_n 2) = Some (Some true) /\
  gord_has_path g (ex_n 1) (ex_n 4) = Some (Some false).
Proof. eexists. split; [|split]; vm_compute; reflexivity. Qed.
