(** Model of the queries of a cell about its neighbourhood and the setters by name, src/matrix.rs *)
From stdpp Require Import strings.
From Verif Require Import Base M_Dir M_Graph M_Grid M_Nodes.
Open Scope nat_scope.
Open Scope list_scope.

(** src/matrix.rs:329-335, 367-374 and 393-400: the directions that are looked at *)
Definition dir_options (d : celldir) : list celldir :=
  if decide (d = C) then [T; TL; BL; TR; BR; B]
  else if dir_is_input d then [T; TL; BL]
  else [TR; BR; B].

(** src/matrix.rs:337-343 and 376-382: the loop over the directions. [None] is a panic of [get]. *)
Fixpoint free_ports (g : grid) (c : cell) (ds : list celldir) : option (list (celldir * (nat * nat))) :=
  match ds with
  | [] => Some []
  | d :: ds =>
      let* here := match dir_offs_pos d (c_x c, c_y c) with
                   | Some pos =>
                       let* oc := grid_get g pos.1 pos.2 in
                       Some (if from_option cell_is_empty false oc then [(d, pos)] else [])
                   | None => Some []
                   end in
      let* rest := free_ports g c ds in
      Some (here ++ rest)
  end.

(** src/matrix.rs:361-386 [find_all_adjacent_free] *)
Definition find_all_adjacent_free (g : grid) (c : cell) (dir : celldir) : option (list (celldir * (nat * nat))) :=
  free_ports g c (dir_options dir).

(** src/matrix.rs:322-356 [find_first_adjacent_free] *)
Definition find_first_adjacent_free (g : grid) (c : cell) (dir : celldir) : option (option (celldir * option nat)) :=
  let* free := free_ports g c (dir_options dir) in
  Some (match list_find (fun d => has_dir_set c d = true) (free.*1) with
        | Some (_, d) => Some (d, local_port_idx c d)
        | None => match free with (d, _) :: _ => Some (d, None) | [] => None end
        end).

(** src/matrix.rs:411-423 [is_port_dir_connected] *)
Definition is_port_dir_connected (g : grid) (c : cell) (d : celldir) : option (option (nat * nat)) :=
  if has_dir_set c d then
    match dir_offs_pos d (c_x c, c_y c) with
    | Some pos =>
        let* oc := grid_get g pos.1 pos.2 in
        Some (match oc with Some c' => if has_dir_set c' (dir_flip d) then Some pos else None | None => None end)
    | None => Some None
    end
  else Some None.

(** src/matrix.rs:390-408 [find_unconnected_ports] *)
Fixpoint unconnected (g : grid) (c : cell) (ds : list celldir) : option (list celldir) :=
  match ds with
  | [] => Some []
  | d :: ds =>
      let* r := is_port_dir_connected g c d in
      let* rest := unconnected g c ds in
      Some (match r with None => d :: rest | Some _ => rest end)
  end.
Definition find_unconnected_ports (g : grid) (c : cell) (dir : celldir) : option (list celldir) := unconnected g c (dir_options dir).

(** src/matrix.rs:278-285 [set_input_by_name], 295-302 [set_output_by_name]: the cell and whether the name was found *)
Definition set_input_by_name (c : cell) (name : string) (d : celldir) : cell * bool :=
  match node_inp (c_node c) name with Some idx => (set_io_dir c d idx, true) | None => (c, false) end.
Definition set_output_by_name (c : cell) (name : string) (d : celldir) : cell * bool :=
  match node_out (c_node c) name with Some idx => (set_io_dir c d idx, true) | None => (c, false) end.

(** src/matrix.rs:1184-1235 [edge_label]. [known]: [info_for] knows the node; [room]: the length of the buffer; a text that does not fit
    is an error of [write!]. *)
Definition edge_label (g : grid) (known : node_id -> bool) (room : nat) (c : cell) (d : celldir) : option (option (string * bool)) :=
  if decide (c_node c = Nop) then Some None
  else
    let out_idx := match d with TR => Some (c_out1 c) | BR => Some (c_out2 c) | B => Some (c_out3 c) | _ => None end in
    let in_idx := match d with BL => Some (c_in3 c) | TL => Some (c_in2 c) | T => Some (c_in1 c) | _ => None end in
    if negb (known (c_node c)) then Some None
    else
      let finish (name : option string) (con : bool) : option (string * bool) :=
        let* s := name in if String.length s <=? room then Some (s, con) else None in
      match out_idx, in_idx with
      | Some o, _ =>
          let* con := adjacent_edge_has_input g (c_x c) (c_y c) d in
          Some (finish (let* i := o in info_out_name (c_node c) i) con)
      | None, Some i => Some (finish (let* i := i in info_in_name (c_node c) i) false)
      | None, None => Some None
      end.
