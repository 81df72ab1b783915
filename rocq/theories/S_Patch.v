(** Specification for loading a patch (C26). *)
From stdpp Require Import strings.
From Verif Require Import Base M_Atom M_Graph M_Dir M_Grid S_Grid M_Layout M_Prog M_Conf M_Exec M_Sync S_Sync M_Nodes M_Track S_Track M_Block S_Block
  M_Json M_Repr M_Patch.
Open Scope string_scope.
Open Scope list_scope.
Open Scope nat_scope.

(** Block functions that were made by editing, and by loading the snapshots of others *)
Inductive made (types : string -> option btype) : bfun -> Prop :=
| made_new : made types bfun_new
| made_step f o fuel f' sn e : made types f -> plain types f o -> bf_step types fuel (f, []) o = Some (f', sn, e) -> made types f'
| made_load f g fuel f' : made types f -> made types g -> bf_load fuel f (bf_save g) = Some f' -> made types f'.

(** A patch that the API can make: the matrix by a history of calls, each pattern and each block function too. Whoever has a block function
    has its code engine. *)
Definition patch_made {V} (zero : V) (T : ntable) (i2f : Z -> f32) (load_sample : satom -> satom) (types : string -> option btype)
    (h : heap) (p : patch V) : Prop :=
  (exists sent, matrix_reachable T i2f load_sample h (pc_mx p) sent) /\
  (forall i q, pc_pats p !! i = Some q -> exists os, pat_run (pat_new zero max_pattern_len) os = Some q) /\
  (forall i f, pc_funs p !! i = Some f -> made types f /\ i ∈ pc_engs p).

Definition patch_grid {V} (p : patch V) : grid := lay_grid (mx_lay (pc_mx p)).

(** The cell at a position, if it is not empty *)
Definition cell_there {V} (p : patch V) (x y : nat) : option cell :=
  match board (patch_grid p) (x, y) with
  | Some c => if decide (c_node c = Nop) then None else Some c
  | None => None
  end.

(** Ports are 8 bit numbers, and the matrix has at most 256 rows and columns. *)
Definition ports_8bit (c : cell) : Prop :=
  forall i, Some i ∈ [c_out1 c; c_out2 c; c_out3 c; c_in1 c; c_in2 c; c_in3 c] -> i < 256.
Definition grid_8bit (g : grid) : Prop :=
  g_w g <= 256 /\ g_h g <= 256 /\ forall q c, board g q = Some c -> ports_8bit c.

(** What synchronising the layout needs: known nodes, at most 64 targets of a node, and no input number 32 (C12) *)
Definition layout_syncs (T : ntable) (g : grid) : Prop :=
  (forall n, on_board g n -> nt_known T (nid_kind n) = true) /\ fanout_ok g /\
  (forall q d e, connects g q d e -> e_to_input e <> max_node_inputs).

(** A pattern that has some data or a column type other than the default; a block function that has some block *)
Definition pattern_set {V} (q : pattern V) : Prop :=
  (exists c t, pt_types q !! c = Some t /\ t <> CValue) \/ (exists r c v, get2 (pt_data q) r c = Some (Some v)).
Definition has_block (f : bfun) : Prop := exists id o b, bf_block_at f id o = Some b.

(** The same pattern: cells, column types, number of rows, step and cursor *)
Definition same_pattern {V} (q q' : pattern V) : Prop :=
  pt_data q' = pt_data q /\ pt_types q' = pt_types q /\ pt_rows q' = pt_rows q /\ pt_step q' = pt_step q /\ pt_cursor q' = pt_cursor q.

(** Numbers that are saved: those below [n], and the following ones as long as there is no gap *)
Definition saved_id (n : nat) (there : nat -> Prop) (i : nat) : Prop := i < n \/ forall j, n <= j <= i -> there j.

(** The stored values survive converting to the unit of the description and back. *)
Definition values_convert (T : ntable) (c : nconf) : Prop :=
  forall p v, conf_get_param T c p = Some (AParam v) -> is_atom T p = false ->
    nt_norm T (nid_kind p.1) p.2 (nt_denorm T (nid_kind p.1) p.2 v) = v.

(** A file has the path of a sample, not its data. *)
Definition unloaded (a : satom) : satom := match a with AAudio path _ => AAudio path None | a => a end.
Definition unloaded_repr (r : mrepr) : mrepr :=
  MRepr (mr_cells r) (mr_params r) ((fun e : paramid * satom => (e.1, unloaded e.2)) <$> mr_atoms r) (mr_patterns r)
    ((fun e : string * satom => (e.1, unloaded e.2)) <$> mr_props r) (mr_blocks r) (mr_version r).

(** [p'] has what [p] has, and else what [q] had. Values of nodes that [p] does not have are gone: other parameters only get values (the
    defaults) if their nodes are created, and no modulation. *)
Record loaded_as {V} (T : ntable) (p q p' : patch V) : Prop := {
  la_cells : forall x y, cell_there p' x y = cell_there p x y;
  la_size : g_w (patch_grid p') = g_w (patch_grid p) /\ g_h (patch_grid p') = g_h (patch_grid p);
  la_params : forall k a, conf_get_param T (mx_conf (pc_mx p)) k = Some a ->
    conf_get_param T (mx_conf (pc_mx p')) k = Some a /\
    (is_atom T k = false -> conf_get_modamt (mx_conf (pc_mx p')) k = conf_get_modamt (mx_conf (pc_mx p)) k);
  la_params_only : forall k, conf_get_param T (mx_conf (pc_mx p)) k = None ->
    conf_get_modamt (mx_conf (pc_mx p')) k = None /\
    forall a, conf_get_param T (mx_conf (pc_mx p')) k = Some a -> k.1 ∈ created (mx_conf (pc_mx p'));
  la_pats : forall i s, pc_pats p !! i = Some s -> pattern_set s -> saved_id 128 (fun j => is_Some (pc_pats p !! j)) i ->
    exists s', pc_pats p' !! i = Some s' /\ same_pattern s s';
  la_pats_other : forall i, (forall s, pc_pats p !! i = Some s -> ~ pattern_set s) \/ ~ saved_id 128 (fun j => is_Some (pc_pats p !! j)) i ->
    pc_pats p' !! i = pc_pats q !! i;
  la_funs : forall i f, pc_funs p !! i = Some f -> has_block f -> saved_id 32 (fun j => j ∈ pc_engs p) i ->
    exists f', pc_funs p' !! i = Some f' /\ Forall2 same_blocks (f_areas f) (f_areas f') /\ f_next f' = f_next f;
  la_funs_other : forall i, pc_funs p !! i = None \/ ~ saved_id 32 (fun j => j ∈ pc_engs p) i -> pc_funs p' !! i = pc_funs q !! i;
}.
