(** Specification vocabulary for chains of cells (C38) *)
From stdpp Require Import strings.
From Verif Require Import Base M_Atom M_Dir S_Dir M_Grid S_Grid M_Conf M_Sync M_Nodes S_Nodes M_Chain.
Open Scope string_scope.
Open Scope list_scope.
Open Scope nat_scope.

(** The edges for inputs and outputs of the cells of a chain that goes in direction [d] *)
Definition input_side (d : celldir) : celldir := match d with T | B => T | TL | BR => TL | BL | TR => BL | C => C end.
Definition output_side (d : celldir) : celldir := match d with T | B => B | TL | BR => BR | BL | TR => TR | C => C end.

(** the node a name stands for *)
Definition named (name : string) (n : node_id) : Prop :=
  name = "nop" /\ n = Nop \/ known n /\ nid_inst n = 0 /\ node_name n = name.

(** The calls that add a node, and the node they ask for *)
Definition adds (o : chop) : bool := match o with CNode _ _ _ | CAdd _ => true | _ => false end.
Definition nodes_of (os : list chop) : list chop := List.filter adds os.
Definition asks_for (o : chop) (n : node_id) : Prop :=
  match o with CNode name _ _ => named name n | CAdd c => n = c_node c | _ => False end.

(** the cell of a call that adds a node *)
Definition describes (d : celldir) (o : chop) (c : cell) : Prop :=
  match o with
  | CNode name inp out =>
      named name (c_node c) /\
      (forall e, input_port c e = if decide (e = input_side d) then (let* i := inp in node_inp (c_node c) i) else None) /\
      (forall e, output_port c e = if decide (e = output_side d) then (let* i := out in node_out (c_node c) i) else None)
  | CAdd c' => c = c'
  | _ => False
  end.

(** The node whose parameters are set next: the one added last, or the one chosen by index *)
Fixpoint cursor_from (n cur : nat) (os : list chop) : nat :=
  match os with
  | [] => cur
  | CFor i :: os => cursor_from n (Nat.min i n) os
  | o :: os => if adds o then cursor_from (S n) n os else cursor_from n cur os
  end.
Definition cursor (os : list chop) : nat := cursor_from 0 0 os.

(** Call number [j] sets parameter [i] of the [k]-th node to [v]. *)
Definition set_call (os : list chop) (j k i : nat) (v : cval) : Prop := exists name o n p,
  os !! j = Some (CSet name v) /\ cursor (take j os) = k /\ nodes_of (take j os) !! k = Some o /\ asks_for o n /\
  inp_param n name = Some p /\ pa_idx p = i.

(** All names exist, and parameters are set on nodes that were added before. *)
Definition well_described (os : list chop) : Prop := forall j o, os !! j = Some o ->
  match o with
  | CNode name inp out => exists n, named name n /\ (forall i, inp = Some i -> is_Some (node_inp n i)) /\ (forall i, out = Some i -> is_Some (node_out n i))
  | CAdd c => c_node c = Nop \/ known (c_node c)
  | CFor i => True
  | CSet name v => exists k i, set_call os j k i v
  end.

(** A call with a name that does not exist *)
Definition ill_named (os : list chop) (j : nat) : Prop :=
  match os !! j with
  | Some (CNode name inp out) => (forall n, ~ named name n) \/
      exists n, named name n /\ ((exists i, inp = Some i /\ node_inp n i = None) \/ (exists i, out = Some i /\ node_out n i = None))
  | Some (CSet name v) => exists o n, nodes_of (take j os) !! cursor (take j os) = Some o /\ asks_for o n /\ inp_param n name = None
  | _ => False
  end.

(** The instances of the nodes: the first one of a kind is an unused one, further ones are counted up from it. *)
Definition numbered (unused : node_id -> option node_id) (asked ids : list node_id) : Prop :=
  length ids = length asked /\ forall k a n, asked !! k = Some a -> ids !! k = Some n ->
    ((forall j a', j < k -> asked !! j = Some a' -> nid_kind a' <> nid_kind a) -> unused a = Some n) /\
    (forall j a' n', j < k -> asked !! j = Some a' -> ids !! j = Some n' -> nid_kind a' = nid_kind a ->
       (forall i a', j < i -> i < k -> asked !! i = Some a' -> nid_kind a' <> nid_kind a) ->
       n = if decide (nid_kind a = 0) then Nop else NId (nid_kind a) ((nid_inst n' + 1) mod 256)).

(** [c'] is cell [c] with node [n], at position [p] *)
Definition cell_put (c : cell) (n : node_id) (p : nat * nat) (c' : cell) : Prop :=
  c_node c' = n /\ c_x c' = u8 p.1 /\ c_y c' = u8 p.2 /\ (forall e, input_port c' e = input_port c e) /\ (forall e, output_port c' e = output_port c e).

(** the value a call gives to parameter [i] of node [n] *)
Definition given (T : ntable) (n : node_id) (i : nat) (v : cval) : satom :=
  match v with VDenorm v => AParam (nt_norm T (nid_kind n) i v) | VNorm v => AParam v | VAtom a => a end.
