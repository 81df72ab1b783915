(** Specification vocabulary for the synchronised matrix *)
From Verif Require Import Base M_Atom M_Graph M_Dir M_Grid S_Grid M_Layout M_Prog M_Conf M_Exec M_Sync.
Open Scope nat_scope.

(** matrices (with the messages sent so far) that some history of API calls leads to *)
Definition matrix_reachable (T : ntable) (i2f : Z -> f32) (load_sample : satom -> satom)
    (h : heap) (m : matrix) (sent : list gmsg) : Prop :=
  exists w hh os, matrix_run T i2f load_sample (Heap ∅ 0, matrix_new w hh, []) os = Some (h, m, sent).

(** the node of some cell of the board *)
Definition on_board (g : grid) (n : node_id) : Prop :=
  n <> Nop /\ exists p c, board g p = Some c /\ c_node c = n.

(** the DSP nodes that exist, in order of creation *)
Definition created (c : nconf) : list node_id := (cf_nodes c).*1.

(** [order] runs every node of the board once, sources before their readers *)
Definition good_order (g : grid) (order : list node_id) : Prop :=
  NoDup order /\ (forall n, n ∈ order <-> on_board g n) /\ (forall a b, feeds g a b -> before order a b).
