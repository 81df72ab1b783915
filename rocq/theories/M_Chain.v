(** Model of src/chain_builder.rs: chains of cells that are described by calls and then placed. *)
From stdpp Require Import strings.
From Verif Require Import Base M_Atom M_Dir M_Grid M_Layout M_Conf M_Exec M_Sync M_Nodes.
Open Scope string_scope.
Open Scope list_scope.
Open Scope nat_scope.

(** src/chain_builder.rs:64-69 [ChainError] *)
Inductive cherr := UnknownNodeId (s : string) | UnknownOutput (n : node_id) (s : string) | UnknownInput (n : node_id) (s : string).

(** src/chain_builder.rs:29-33 [MatrixChainLink], 55-60 [MatrixCellChain] *)
Record clink := CLink { lk_cell : cell; lk_dir : celldir; lk_params : list (paramid * satom) }.
Record chain := Chain { ch_links : list clink; ch_err : option cherr; ch_dir : celldir; ch_idx : nat }.

(** src/chain_builder.rs:75-77 [new] *)
Definition chain_new (d : celldir) : chain := Chain [] None d 0.

(** src/chain_builder.rs:79-93 [output_dir], [input_dir] *)
Definition chain_out_dir (d : celldir) : celldir := if dir_is_output d then d else dir_flip d.
Definition chain_in_dir (d : celldir) : celldir := if dir_is_input d then d else dir_flip d.

(** src/chain_builder.rs:96-103 [params_for_idx] *)
Definition chain_params_for (ch : chain) (i : nat) : chain :=
  Chain (ch_links ch) (ch_err ch) (ch_dir ch) (if length (ch_links ch) <=? i then length (ch_links ch) else i).

(** src/matrix.rs:278-302 [set_input_by_name], [set_output_by_name]: [None] is the error *)
Definition set_input_by_name (c : cell) (name : string) (d : celldir) : option cell :=
  let* i := node_inp (c_node c) name in Some (set_io_dir c d i).
Definition set_output_by_name (c : cell) (name : string) (d : celldir) : option cell :=
  let* i := node_out (c_node c) name in Some (set_io_dir c d i).

(** src/chain_builder.rs:159-166 [spawn_cell_from_node_id_name] *)
Definition spawn_cell (name : string) : option cell :=
  let n := node_from_str name in
  if bool_decide (n = Nop) && negb (String.eqb name "nop") then None else Some (cell_empty n).

(** src/chain_builder.rs:171-174 [add_link] *)
Definition chain_add (ch : chain) (c : cell) : chain :=
  Chain (ch_links ch ++ [CLink c (ch_dir ch) []]) (ch_err ch) (ch_dir ch) (length (ch_links ch)).

Definition chain_fail (ch : chain) (e : cherr) : chain := Chain (ch_links ch) (Some e) (ch_dir ch) (ch_idx ch).

(** src/chain_builder.rs:178-234 [node], [node_out], [node_inp], [node_io]: a port that does not exist is noted and the cell is added
    without it *)
Definition chain_node (ch : chain) (name : string) (inp out : option string) : chain :=
  match spawn_cell name with
  | None => chain_fail ch (UnknownNodeId name)
  | Some c =>
      let '(ch, c) := match inp with
                      | None => (ch, c)
                      | Some i => match set_input_by_name c i (chain_in_dir (ch_dir ch)) with
                                  | Some c => (ch, c)
                                  | None => (chain_fail ch (UnknownInput (c_node c) i), c)
                                  end
                      end in
      let '(ch, c) := match out with
                      | None => (ch, c)
                      | Some o => match set_output_by_name c o (chain_out_dir (ch_dir ch)) with
                                  | Some c => (ch, c)
                                  | None => (chain_fail ch (UnknownOutput (c_node c) o), c)
                                  end
                      end in
      chain_add ch c
  end.

Section chain.
  Context (T : ntable) (i2f : Z -> f32) (load_sample : satom -> satom).

  (** the values of src/chain_builder.rs:110-156 [set_denorm], [set_norm], [set_atom] *)
  Inductive cval := VDenorm (v : f32) | VNorm (v : f32) | VAtom (a : satom).
  Definition cval_atom (p : paramid) (v : cval) : satom :=
    match v with
    | VDenorm v => AParam (nt_norm T (nid_kind (pa_node p)) (pa_idx p) v)
    | VNorm v => AParam v
    | VAtom a => a
    end.

  (** src/chain_builder.rs:110-156; [None] is the panic of [expect] *)
  Definition chain_set (ch : chain) (param : string) (v : cval) : option chain :=
    let* l := ch_links ch !! ch_idx ch in
    Some match inp_param (c_node (lk_cell l)) param with
         | Some p => Chain (<[ch_idx ch := CLink (lk_cell l) (lk_dir l) (lk_params l ++ [(p, cval_atom p v)])]> (ch_links ch))
                           (ch_err ch) (ch_dir ch) (ch_idx ch)
         | None => chain_fail ch (UnknownInput (c_node (lk_cell l)) param)
         end.

  (** The calls that describe a chain *)
  Inductive chop :=
  | CNode (name : string) (inp out : option string)
  | CAdd (c : cell)
  | CFor (i : nat)
  | CSet (param : string) (v : cval).
  Definition chain_step (ch : chain) (o : chop) : option chain :=
    match o with
    | CNode name inp out => Some (chain_node ch name inp out)
    | CAdd c => Some (chain_add ch c)
    | CFor i => Some (chain_params_for ch i)
    | CSet param v => chain_set ch param v
    end.
  Fixpoint chain_run (ch : chain) (os : list chop) : option chain :=
    match os with
    | [] => Some ch
    | o :: os => let* ch := chain_step ch o in chain_run ch os
    end.

  (** src/chain_builder.rs:257-283: the links are placed one after the other. A position is [usize] and goes below zero by wrapping around,
      which is never on the matrix; here it is an integer. The map has the instance number that was used last for a node name. *)
  Definition place_at (l : layout) (p : Z * Z) (c : cell) : option layout :=
    if ((0 <=? p.1) && (0 <=? p.2))%Z then layout_place l (Z.to_nat p.1) (Z.to_nat p.2) c else Some l.
  Fixpoint place_links (fuel : nat) (conf : nconf) (last : gmap string nat) (l : layout) (p : Z * Z) (ks : list clink) : option layout :=
    match ks with
    | [] => Some l
    | k :: ks =>
        let c := lk_cell k in
        let name := node_name (c_node c) in
        let* (n, i) := match last !! name with
                       | Some i => Some (to_instance (c_node c) (i + 1), i + 1)
                       | None => let* n := conf_unused fuel conf (c_node c) in Some (n, nid_inst n)
                       end in
        let* l := place_at l p (cell_set_node_id_keep_ios c n) in
        let offs := dir_as_offs (lk_dir k) (Z.to_nat (p.1 mod 2)) in
        place_links fuel conf (<[name := i]> last) l (p.1 + offs.1, p.2 + offs.2)%Z ks
    end.

  (** src/chain_builder.rs:285-289 *)
  Definition chain_params (m : matrix) (ks : list clink) : matrix * list gmsg :=
    foldl (fun (s : matrix * list gmsg) (q : paramid * satom) =>
             let '(m, ms) := matrix_set_param T i2f load_sample s.1 (pa_node q.1, pa_idx q.1) q.2 in (m, s.2 ++ ms))
          (m, []) (mjoin (lk_params <$> ks)).

  (** src/chain_builder.rs:240-292 [place]: an error is taken out of the chain. [None] is a panic or a search for an unused instance
      that does not end. *)
  Definition chain_place (fuel : nat) (m : matrix) (ch : chain) (x y : nat) : option (matrix * chain * list gmsg * option cherr) :=
    match ch_err ch with
    | Some e => Some (m, Chain (ch_links ch) None (ch_dir ch) (ch_idx ch), [], Some e)
    | None =>
        let* l := place_links fuel (mx_conf m) ∅ (mx_lay m) (Z.of_nat x, Z.of_nat y) (ch_links ch) in
        let '(m, ms) := chain_params (Matrix l (mx_conf m) (mx_mon m)) (ch_links ch) in
        Some (m, ch, ms, None)
    end.
End chain.
