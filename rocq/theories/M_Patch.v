(** Model of a whole patch: the matrix with its properties, the patterns and the block functions, and its description
    (src/matrix.rs:864-951 [to_repr], [from_repr]; src/global.rs for the shared data) *)
From stdpp Require Import strings.
From Verif Require Import Base M_Atom M_Graph M_Dir M_Grid M_Layout M_Prog M_Conf M_Exec M_Sync M_Nodes M_Track M_Block M_Json M_Repr.
Open Scope string_scope.
Open Scope list_scope.
Open Scope nat_scope.

(** ** Cells *)

(** src/matrix.rs:96-111 [Cell::to_repr] *)
Definition port_to_repr (p : option nat) : Z := match p with Some i => Z.of_nat i | None => (-1)%Z end.
Definition cell_to_repr (c : cell) : cellrepr :=
  CellRepr (c_node c) (c_x c) (c_y c) (port_to_repr (c_in1 c), port_to_repr (c_in2 c), port_to_repr (c_in3 c))
    (port_to_repr (c_out1 c), port_to_repr (c_out2 c), port_to_repr (c_out3 c)).

(** src/matrix.rs:113-126 [Cell::from_repr] *)
Definition port_from_repr (z : Z) : option nat := if (z <? 0)%Z then None else Some (u8 (Z.to_nat z)).
Definition cell_from_repr (c : cellrepr) : cell :=
  let '(i1, i2, i3) := cr_inp c in
  let '(o1, o2, o3) := cr_out c in
  Cell (cr_node c) (u8 (cr_x c)) (u8 (cr_y c)) (port_from_repr o1) (port_from_repr o2) (port_from_repr o3)
    (port_from_repr i1) (port_from_repr i2) (port_from_repr i3).

(** The keys of the parameter store (M_Conf) and the parameter ids of the description. The code has one type for both; the name is that of
    the table. *)
Definition pid_repr (p : node_id * nat) : paramid :=
  match param_by_idx p.1 p.2 with Some q => q | None => ParamId "" p.1 p.2 end.
Definition repr_pid (q : paramid) : node_id * nat := (pa_node q, pa_idx q).

(** [while i < lo || has(i) { i += 1 }]: the number of entries; [fuel] is the number of things that exist *)
Fixpoint count_from (has : nat -> bool) (fuel i : nat) : nat :=
  match fuel with 0 => i | S fuel => if has i then count_from has fuel (S i) else i end.

Section patch.
  Context {V : Type} (zero : V).
  Context (T : ntable) (i2f : Z -> f32) (load_sample : satom -> satom).
  (** bound for the searches of [recalculate] in block functions *)
  Context (fuel : nat).

  (** src/matrix.rs:474-535 [struct Matrix] and src/global.rs [NodeGlobalData], as far as a description has it: the properties, the
      patterns of the allocated trackers, the block functions and the allocated code engines *)
  Record patch := Patch {
    pc_mx : matrix;
    pc_props : gmap string satom;
    pc_pats : gmap nat (pattern V);
    pc_funs : gmap nat bfun;
    pc_engs : gset nat;
  }.

  (** src/matrix.rs:540-556 [new] *)
  Definition patch_new (w h : nat) : patch := Patch (matrix_new w h) ∅ ∅ ∅ ∅.

  (** src/wblockdsp/language.rs:1185-1187 [is_unset] *)
  Definition bf_is_unset (f : bfun) : bool := f_gen f =? 0.

  (** src/matrix.rs:864-904 [to_repr]. The loops allocate what does not exist yet; a new pattern or block function is unset, and that
      it exists afterwards is left out. *)
  Definition patch_to_repr (p : patch) : mrepr :=
    let '(ps, ats) := conf_dump T (mx_conf (pc_mx p)) in
    let cells := filter (fun c => cell_is_empty c = false) (g_cells (lay_grid (mx_lay (pc_mx p)))) in
    let pat i := match pc_pats p !! i with Some q => if pat_is_unset q then None else Some (pat_to_repr q) | None => None end in
    let fn i := match pc_funs p !! i with Some f => if bf_is_unset f then None else Some (bf_save f) | None => None end in
    MRepr (cell_to_repr <$> cells)
      ((fun e : (node_id * nat) * f32 * option f32 => (pid_repr e.1.1, e.1.2, e.2)) <$> ps)
      ((fun e : (node_id * nat) * satom => (pid_repr e.1, e.2)) <$> ats)
      (pat <$> seq 0 (count_from (fun i => bool_decide (is_Some (pc_pats p !! i))) (size (pc_pats p)) 128))
      (map_to_list (pc_props p))
      (fn <$> seq 0 (count_from (fun i => bool_decide (i ∈ pc_engs p)) (size (pc_engs p)) 32))
      2.

  (** src/matrix.rs:926-929: the cells are placed where they say *)
  Definition load_cell (l : layout) (c : cellrepr) : option layout :=
    let c := cell_from_repr c in layout_place l (c_x c) (c_y c) c.

  (** src/matrix.rs:931-937: patterns that the description has are loaded *)
  Definition load_pattern (ps : gmap nat (pattern V)) (e : nat * option patrepr) : option (gmap nat (pattern V)) :=
    match e.2 with
    | Some r => let* q := pat_from_repr (default (pat_new zero max_pattern_len) (ps !! e.1)) r in Some (<[e.1 := q]> ps)
    | None => Some ps
    end.

  (** src/matrix.rs:939-945: the same for block functions; the code engine is allocated with it *)
  Definition load_fun (fs : gmap nat bfun * gset nat) (e : nat * option bsnap) : option (gmap nat bfun * gset nat) :=
    match e.2 with
    | Some s => let* f := bf_load fuel (default bfun_new (fs.1 !! e.1)) s in Some (<[e.1 := f]> fs.1, {[e.1]} ∪ fs.2)
    | None => Some fs
    end.

  (** src/matrix.rs:912-951 [from_repr]: new heap, patch, messages to the audio thread and result; [None] is a panic *)
  Definition patch_load (h : heap) (p : patch) (r : mrepr) : option (heap * patch * list gmsg * option merror) :=
    let* (h, m, ms1) := matrix_clear T h (pc_mx p) in
    let '(m, ms2) := matrix_load T i2f load_sample m
        ((fun e : paramid * f32 * option f32 => (repr_pid e.1.1, e.1.2, e.2)) <$> mr_params r)
        ((fun e : paramid * satom => (repr_pid e.1, e.2)) <$> mr_atoms r) (1 <? mr_version r)%Z in
    let props := foldl (fun (ps : gmap string satom) (e : string * satom) => <[e.1 := e.2]> ps) ∅ (mr_props r) in
    let* l := foldm load_cell (mx_lay m) (mr_cells r) in
    let* pats := foldm load_pattern (pc_pats p) (imap pair (mr_patterns r)) in
    let* (fs, es) := foldm load_fun (pc_funs p, pc_engs p) (imap pair (mr_blocks r)) in
    let* (h, m, ms3, e) := matrix_sync T h (Matrix l (mx_conf m) (mx_mon m)) in
    Some (h, Patch m props pats fs es, ms1 ++ ms2 ++ ms3, e).
End patch.
Arguments patch : clear implicits.
