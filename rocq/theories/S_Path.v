(** What is heard is what is connected (C51): specification *)
From Verif Require Import Base M_Atom M_Graph M_Dir M_Grid S_Grid M_Layout M_Prog M_Conf M_Exec M_Sync M_Engine M_Path S_Conf S_Sync S_Prog S_Flow.
Open Scope nat_scope.

(** [s] is the signal that arrives at input [j] of the node of [op] in this block of [nframes] frames, whose results are in [h]: the
    input's own value if nothing is connected, otherwise output [o] of the node that is connected on the board [g], mixed into the
    input's own value if the input has a modulation amount *)
Definition arrives (T : ntable) (mix : f32 -> f32 -> f32 -> f32) (g : grid) (modamt : gmap (node_id * nat) (option f32)) (p : nprog) (nframes : nat) (h : heap)
    (op : nodeop) (j : nat) (s : nat -> f32) : Prop :=
  exists own, samples h (own_buf p op j) = Some own /\
  ((forall q d e, wire T g q d e -> (e_to e, e_to_input e) <> (op_node op, j)) /\ (forall f, f < nframes -> own !! f = Some (s f)) \/
   exists q d e src sig, wire T g q d e /\ (e_to e, e_to_input e) = (op_node op, j) /\
     src ∈ np_ops p /\ op_node src = e_from e /\ samples h (out_buf p src (e_from_out e)) = Some sig /\
     forall f, f < nframes -> exists x, sig !! f = Some x /\
       match mjoin (modamt !! (op_node op, j)) with
       | None => s f = x
       | Some _ => exists k mo v, modulates T modamt p k mo op j src (e_from_out e) /\ own !! f = Some v /\ s f = mix v (mo_amt mo) x
       end).

(** [s] is the signal at output [o] of the node of [op] *)
Definition leaves (p : nprog) (nframes : nat) (h : heap) (op : nodeop) (o : nat) (s : nat -> f32) : Prop :=
  exists b, samples h (out_buf p op o) = Some b /\ forall f, f < nframes -> b !! f = Some (s f).

Definition is_out (op : nodeop) : Prop := nid_kind (op_node op) = kind_out.

(** The engine [n] was reached by any interleaving of steps in which every message fits into the queue and never more than 256 nodes
    exist, and the board [g] with the modulation amounts [modamt] is the last one that was published: [sync] without error,
    [set_param_modamt] of an input without error, unless it only changes an amount, and [clear] publish the board as it is after the call. *)
Section serves.
  Context (T : ntable) (i2f : Z -> f32) (load_sample : satom -> satom).
  Context (finc : f32 -> f32 -> nat -> f32) (fadd : f32 -> f32 -> f32) (mix : f32 -> f32 -> f32 -> f32).
  Context {St : Type}.
  Context (node_sem : node_id -> St -> nat -> N -> N -> list satom ->
                      list (list f32) -> list (list f32) -> list (list f32) -> St * list (list f32)).

  Definition publishes (n : engine St) (o : eop) : bool :=
    match o with
    | EMx MxSync => match matrix_sync T (en_heap n) (en_mx n) with Some (_, _, _, None) => true | _ => false end
    | EMx MxClear => true
    | EMx (MxModamt p v) =>
        match conf_get_modamt (mx_conf (en_mx n)) p, v with
        | Some _, Some _ => false
        | _, _ => negb (is_atom T p) && match matrix_set_modamt T (en_heap n) (en_mx n) p v with Some (_, _, _, None) => true | _ => false end
        end
    | _ => false
    end.

  Inductive serves : grid -> gmap (node_id * nat) (option f32) -> engine St -> Prop :=
  | serves_new w h slope st : serves (lay_grid (mx_lay (matrix_new w h))) ∅ (engine_new w h slope st)
  | serves_next g modamt n o n' : serves g modamt n ->
      (forall o' h m ms, o = EMx o' -> matrix_step T i2f load_sample (en_heap n) (en_mx n) o' = Some (h, m, ms) ->
         length (en_queue n) + length ms <= 512) ->
      engine_step T i2f load_sample finc fadd mix node_sem n o = Some n' -> length (created (mx_conf (en_mx n'))) <= 256 ->
      serves (if publishes n o then lay_grid (mx_lay (en_mx n')) else g) (if publishes n o then cf_modamt (mx_conf (en_mx n')) else modamt) n'.
End serves.
