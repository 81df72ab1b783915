(** What it means that a running program follows the layout (C12, C13) *)
From Verif Require Import Base M_Atom M_Graph M_Dir M_Grid S_Grid M_Layout M_Prog M_Conf S_Conf S_Sync.
Open Scope nat_scope.

Definition kind_outs (T : ntable) (n : node_id) : nat := nt_outs T (nid_kind n).
Definition kind_ins (T : ntable) (n : node_id) : nat := nt_ins T (nid_kind n).
Definition kind_ats (T : ntable) (n : node_id) : nat := nt_ats T (nid_kind n).

(** a connection of the layout between ports that the node kinds have *)
Definition wire (T : ntable) (g : grid) (p : nat * nat) (d : celldir) (e : edge_t) : Prop :=
  connects g p d e /\ e_from_out e < kind_outs T (e_from e) /\ e_to_input e < kind_ins T (e_to e).

(** buffers of an operation in its program: output [j], the own buffer of input [j] (holding the parameter
    value), and the buffer input [j] is read from *)
Definition out_buf (p : nprog) (op : nodeop) (j : nat) : option nat := np_out p !! ((op_out op).1 + j).
Definition own_buf (p : nprog) (op : nodeop) (j : nat) : option nat := np_inp p !! ((op_in op).1 + j).
Definition read_buf (p : nprog) (op : nodeop) (j : nat) : option nat := mjoin (np_cur p !! ((op_in op).1 + j)).

Definition ranges_disjoint (r r' : nat * nat) : Prop := forall x, r.1 <= x < r.2 -> r'.1 <= x < r'.2 -> False.
Definition range_of (r : nat * nat) (size total : nat) : Prop := r.2 = r.1 + size /\ r.2 <= total.

(** The modulator for input [j] of the operation, number [k] of those the operation has, computes the
    signal from the input's own value and output [o] of [src] *)
Definition modulates (T : ntable) (modamt : gmap (node_id * nat) (option f32)) (p : nprog) (k : nat) (mo : modop)
    (op : nodeop) (j : nat) (src : nodeop) (o : nat) : Prop :=
  modulated T modamt (op_node op) !! k = Some j /\ (np_mods p !! ((op_mod op).1 + k)) = Some mo /\
  is_Some (mo_in mo) /\ mo_in mo = own_buf p op j /\ is_Some (mo_out mo) /\ mo_out mo = out_buf p src o.

Record wired (T : ntable) (g : grid) (modamt : gmap (node_id * nat) (option f32)) (p : nprog) : Prop := {
  (** every node of the board runs once, after the nodes it reads from *)
  w_order : good_order g (op_node <$> np_ops p);
  (** every operation has ports of its own *)
  w_sizes : forall op, op ∈ np_ops p ->
    range_of (op_out op) (kind_outs T (op_node op)) (length (np_out p)) /\
    range_of (op_in op) (kind_ins T (op_node op)) (length (np_inp p)) /\
    range_of (op_at op) (kind_ats T (op_node op)) (length (np_atoms p)) /\
    range_of (op_mod op) (length (modulated T modamt (op_node op))) (length (np_mods p));
  w_disjoint : forall op op', op ∈ np_ops p -> op' ∈ np_ops p -> op_node op <> op_node op' ->
    ranges_disjoint (op_out op) (op_out op') /\ ranges_disjoint (op_in op) (op_in op') /\
    ranges_disjoint (op_at op) (op_at op') /\ ranges_disjoint (op_mod op) (op_mod op');
  (** an input without connection reads its own buffer; a connected input reads the connected output (one
      of them, if there are several connections), or the modulator that mixes this output into the
      input's own value if the input has a modulation amount *)
  w_read : forall op j, op ∈ np_ops p -> j < kind_ins T (op_node op) -> is_Some (read_buf p op j) /\
    ((forall q d e, wire T g q d e -> (e_to e, e_to_input e) <> (op_node op, j)) /\ read_buf p op j = own_buf p op j \/
     exists q d e src, wire T g q d e /\ (e_to e, e_to_input e) = (op_node op, j) /\
       src ∈ np_ops p /\ op_node src = e_from e /\
       match mjoin (modamt !! (op_node op, j)) with
       | None => read_buf p op j = out_buf p src (e_from_out e)
       | Some _ => exists k mo, modulates T modamt p k mo op j src (e_from_out e) /\ read_buf p op j = Some (mo_buf mo)
       end);
  (** all other modulators are inactive *)
  w_mods : forall m mo, np_mods p !! m = Some mo -> mo_in mo = None \/
    exists q d e src dst k, wire T g q d e /\
      src ∈ np_ops p /\ op_node src = e_from e /\ dst ∈ np_ops p /\ op_node dst = e_to e /\
      m = (op_mod dst).1 + k /\ modulates T modamt p k mo dst (e_to_input e) src (e_from_out e);
  (** the nodes know which of their ports are connected *)
  w_in_flags : forall op j, op ∈ np_ops p -> (N.testbit (op_inc op) (N.of_nat j) = true <->
    exists q d e, wire T g q d e /\ (e_to e, e_to_input e) = (op_node op, j));
  w_out_flags : forall op j, op ∈ np_ops p -> (N.testbit (op_outc op) (N.of_nat j) = true <->
    exists q d e, wire T g q d e /\ (e_from e, e_from_out e) = (op_node op, j));
}.

(** The same for a program that is not made from a layout: [E] tells the connections that it has, the order is left out. *)
Definition wire_in (T : ntable) (E : edge_t -> Prop) (e : edge_t) : Prop :=
  E e /\ e_from_out e < kind_outs T (e_from e) /\ e_to_input e < kind_ins T (e_to e).
Record wired_by (T : ntable) (E : edge_t -> Prop) (modamt : gmap (node_id * nat) (option f32)) (p : nprog) : Prop := {
  wb_sizes : forall op, op ∈ np_ops p ->
    range_of (op_out op) (kind_outs T (op_node op)) (length (np_out p)) /\
    range_of (op_in op) (kind_ins T (op_node op)) (length (np_inp p)) /\
    range_of (op_at op) (kind_ats T (op_node op)) (length (np_atoms p)) /\
    range_of (op_mod op) (length (modulated T modamt (op_node op))) (length (np_mods p));
  wb_disjoint : forall op op', op ∈ np_ops p -> op' ∈ np_ops p -> op_node op <> op_node op' ->
    ranges_disjoint (op_out op) (op_out op') /\ ranges_disjoint (op_in op) (op_in op') /\
    ranges_disjoint (op_at op) (op_at op') /\ ranges_disjoint (op_mod op) (op_mod op');
  wb_read : forall op j, op ∈ np_ops p -> j < kind_ins T (op_node op) -> is_Some (read_buf p op j) /\
    ((forall e, wire_in T E e -> (e_to e, e_to_input e) <> (op_node op, j)) /\ read_buf p op j = own_buf p op j \/
     exists e src, wire_in T E e /\ (e_to e, e_to_input e) = (op_node op, j) /\
       src ∈ np_ops p /\ op_node src = e_from e /\
       match mjoin (modamt !! (op_node op, j)) with
       | None => read_buf p op j = out_buf p src (e_from_out e)
       | Some _ => exists k mo, modulates T modamt p k mo op j src (e_from_out e) /\ read_buf p op j = Some (mo_buf mo)
       end);
  wb_mods : forall m mo, np_mods p !! m = Some mo -> mo_in mo = None \/
    exists e src dst k, wire_in T E e /\
      src ∈ np_ops p /\ op_node src = e_from e /\ dst ∈ np_ops p /\ op_node dst = e_to e /\
      m = (op_mod dst).1 + k /\ modulates T modamt p k mo dst (e_to_input e) src (e_from_out e);
  wb_in_flags : forall op j, op ∈ np_ops p -> (N.testbit (op_inc op) (N.of_nat j) = true <->
    exists e, wire_in T E e /\ (e_to e, e_to_input e) = (op_node op, j));
  wb_out_flags : forall op j, op ∈ np_ops p -> (N.testbit (op_outc op) (N.of_nat j) = true <->
    exists e, wire_in T E e /\ (e_from e, e_from_out e) = (op_node op, j));
}.

(** the program holds the parameter values, atoms and modulation amounts of the configuration *)
Record carries (T : ntable) (c : nconf) (p : nprog) : Prop := {
  ca_param : forall op j, op ∈ np_ops p -> j < kind_ins T (op_node op) ->
    is_Some (np_params p !! ((op_in op).1 + j)) /\ np_params p !! ((op_in op).1 + j) = cf_pvals c !! (op_node op, j);
  ca_atom : forall op j, op ∈ np_ops p -> j < kind_ats T (op_node op) ->
    is_Some (np_atoms p !! ((op_at op).1 + j)) /\
    np_atoms p !! ((op_at op).1 + j) = cf_avals c !! (op_node op, nt_at_id T (nid_kind (op_node op)) j);
  ca_amt : forall op k j, op ∈ np_ops p -> modulated T (cf_modamt c) (op_node op) !! k = Some j ->
    is_Some (mjoin (cf_modamt c !! (op_node op, j))) /\
    mo_amt <$> np_mods p !! ((op_mod op).1 + k) = mjoin (cf_modamt c !! (op_node op, j));
}.
