(** One block evaluates the graph as a dataflow program (C13): specification *)
From Verif Require Import Base M_Atom M_Graph M_Dir M_Grid S_Grid M_Layout M_Prog M_Conf M_Exec M_Sync M_Engine S_Conf S_Sync S_Prog.
Open Scope nat_scope.

(** the samples behind a pointer *)
Definition samples (h : heap) (b : option nat) : option (list f32) := let* x := b in h_bufs h !! x.

Section flow.
  Context (T : ntable) (mix : f32 -> f32 -> f32 -> f32).
  Context {St : Type}.
  Context (node_sem : node_id -> St -> nat -> N -> N -> list satom ->
                      list (list f32) -> list (list f32) -> list (list f32) -> St * list (list f32)).

  (** The node of [op] ran once, from state [s] to [s']. Its parameters, inputs and outputs were those that
      the buffers hold at the end of the block ([h']), its outputs before were those at the
      start ([h]). *)
  Definition node_ran (p : nprog) (nframes : nat) (h h' : heap) (op : nodeop) (s s' : St) : Prop :=
    exists ats own ins old outs,
      length ats = kind_ats T (op_node op) /\ length own = kind_ins T (op_node op) /\ length ins = kind_ins T (op_node op) /\
      length old = kind_outs T (op_node op) /\ length outs = kind_outs T (op_node op) /\
      (forall j, j < length ats -> ats !! j = np_atoms p !! ((op_at op).1 + j)) /\
      (forall j, j < length own -> own !! j = samples h' (own_buf p op j)) /\
      (forall j, j < length ins -> ins !! j = samples h' (read_buf p op j)) /\
      (forall j, j < length old -> old !! j = samples h (out_buf p op j)) /\
      (forall j, j < length outs -> outs !! j = samples h' (out_buf p op j)) /\
      node_sem (op_node op) s nframes (op_outc op) (op_inc op) ats own ins old = (s', outs).

  (** the modulator's buffer holds the mix of the two signals as they are at the end of the block *)
  Definition modulator_ran (nframes : nat) (h' : heap) (mo : modop) : Prop :=
    exists own sig res, samples h' (mo_in mo) = Some own /\ samples h' (mo_out mo) = Some sig /\
      h_bufs h' !! mo_buf mo = Some res /\
      forall f, f < nframes -> exists a o, own !! f = Some a /\ sig !! f = Some o /\ res !! f = Some (mix a (mo_amt mo) o).

  (** every node ran once, in the order of the program, and read what its sources computed in this block *)
  Definition dataflow (p : nprog) (nframes : nat) (h h' : heap) (st st' : St) : Prop :=
    (exists sts : list St, sts !! 0 = Some st /\ sts !! length (np_ops p) = Some st' /\
       forall i op, np_ops p !! i = Some op -> exists s s', sts !! i = Some s /\ sts !! S i = Some s' /\
         node_ran p nframes h h' op s s') /\
    (forall mo, mo ∈ np_mods p -> is_Some (mo_in mo) -> modulator_ran nframes h' mo).
End flow.

(** Engines reached by any interleaving of steps, while never more than 256 nodes exist (see
    [C12_257_nodes_refuted]) *)
Section small.
  Context (T : ntable) (i2f : Z -> f32) (load_sample : satom -> satom).
  Context (finc : f32 -> f32 -> nat -> f32) (fadd : f32 -> f32 -> f32) (mix : f32 -> f32 -> f32 -> f32).
  Context {St : Type}.
  Context (node_sem : node_id -> St -> nat -> N -> N -> list satom ->
                      list (list f32) -> list (list f32) -> list (list f32) -> St * list (list f32)).
  Inductive small_reachable : engine St -> Prop :=
  | small_new w h slope st : small_reachable (engine_new w h slope st)
  | small_step n o n' : small_reachable n ->
      engine_step T i2f load_sample finc fadd mix node_sem n o = Some n' ->
      length (created (mx_conf (en_mx n'))) <= 256 -> small_reachable n'.
End small.
