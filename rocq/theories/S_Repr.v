(** Specification for saved descriptions (C24, C35). *)
From stdpp Require Import strings.
From Verif Require Import Base M_Atom M_Json M_Nodes S_Nodes M_Track M_Block M_Repr.
Open Scope string_scope.
Open Scope list_scope.
Open Scope nat_scope.

(** What machine integers hold: sizes below 2^63 (those between 2^63 and 2^64 are not read back from JSON), [i64], [i32]. *)
Definition size_fits (n : nat) : Prop := (Z.of_nat n < 2 ^ 63)%Z.
Definition i64_fits (z : Z) : Prop := (- 2 ^ 63 <= z < 2 ^ 63)%Z.
Definition i32_fits (z : Z) : Prop := (- 2 ^ 31 <= z < 2 ^ 31)%Z.

(** Block programs whose numbers fit *)
Definition block_fits (b : block) : Prop :=
  size_fits (b_id b) /\ size_fits (b_rows b) /\ size_fits (b_color b) /\
  (forall n, (b_contains b).1 = Some n \/ (b_contains b).2 = Some n -> size_fits n).
Definition area_fits (a : area) : Prop :=
  size_fits (a_size a).1 /\ size_fits (a_size a).2 /\
  forall p b, a_blocks a !! p = Some b -> i64_fits p.1 /\ i64_fits p.2 /\ block_fits b.
Definition prog_fits (f : bfun) : Prop := size_fits (f_next f) /\ Forall area_fits (f_areas f).
(** A hash map gives its entries in any order. *)
Definition any_order (ord : area -> list (Z * Z * block)) : Prop := forall a, ord a ≡ₚ map_to_list (a_blocks a).

(** Nodes that exist, with an instance number of 8 bits *)
Definition known_node (n : node_id) : Prop := known n /\ nid_inst n < 256.
(** A port of a cell: none, or the index of an input parameter or an output of the node *)
Definition port_in (count : nat) (p : Z) : Prop := p = (-1)%Z \/ (0 <= p < Z.of_nat count)%Z.
Definition ports_in (count : nat) (t : Z * Z * Z) : Prop := port_in count t.1.1 /\ port_in count t.1.2 /\ port_in count t.2.
Definition cell_fits (c : cellrepr) : Prop :=
  known_node (cr_node c) /\ size_fits (cr_x c) /\ size_fits (cr_y c) /\
  ports_in (in_count (cr_node c)) (cr_inp c) /\ ports_in (out_count (cr_node c)) (cr_out c).
(** A parameter of a known node: an entry of its list of inputs and atoms *)
Definition known_param (p : paramid) : Prop := known_node (pa_node p) /\ param_by_idx (pa_node p) (pa_idx p) = Some p.
(** Finite numbers (a number that is not finite has no JSON) *)
Definition finite (v : f32) : Prop := f32_finite v = true.
Definition param_fits (e : paramid * f32 * option f32) : Prop := known_param e.1.1 /\ finite e.1.2 /\ forall m, e.2 = Some m -> finite m.
(** Atoms; a sample is saved by its path, so the data must not be loaded *)
Definition atom_fits (a : satom) : Prop :=
  match a with
  | AStr _ => True
  | AMicro v => length v = 8 /\ Forall finite v
  | AAudio _ d => d = None
  | ASetting i => i64_fits i
  | AParam v => finite v
  end.
(** Patterns of 6 columns and 256 rows *)
Definition pattern_fits (p : patrepr) : Prop :=
  length (pr_types p) = 6 /\ Forall (fun t => 0 <= t < 256)%Z (pr_types p) /\
  length (pr_data p) = 256 /\ Forall (fun r => length r = 6 /\ Forall i32_fits r) (pr_data p) /\
  size_fits (pr_rows p) /\ size_fits (pr_step p) /\ size_fits (pr_cursor p).1 /\ size_fits (pr_cursor p).2.
Definition snap_fits (s : bsnap) : Prop :=
  size_fits (sn_id s) /\ Forall (fun a => area_fits a /\ a_origin a = origin_map (a_blocks a)) (sn_areas s).
Definition opt_ok {A} (P : A -> Prop) (o : option A) : Prop := forall a, o = Some a -> P a.
Definition repr_fits (r : mrepr) : Prop :=
  Forall cell_fits (mr_cells r) /\ Forall param_fits (mr_params r) /\
  Forall (fun e => known_param e.1 /\ atom_fits e.2) (mr_atoms r) /\ Forall (fun e => atom_fits e.2) (mr_props r) /\
  Forall (opt_ok pattern_fits) (mr_patterns r) /\ Forall (opt_ok snap_fits) (mr_blocks r) /\ i64_fits (mr_version r).

(** The same description, up to the order of the parameters, atoms and properties, which are lists of entries with keys. *)
Definition same_repr (r r' : mrepr) : Prop :=
  mr_cells r' = mr_cells r /\ mr_params r' ≡ₚ mr_params r /\ mr_atoms r' ≡ₚ mr_atoms r /\ mr_patterns r' = mr_patterns r /\
  mr_props r' ≡ₚ mr_props r /\ mr_blocks r' = mr_blocks r /\ mr_version r' = mr_version r.
