(** Model of src/matrix_repr.rs and of the snapshot part of src/wblockdsp/language.rs: descriptions of a matrix and their JSON trees. *)
From stdpp Require Import strings.
From Verif Require Import Base M_Atom M_Json M_Nodes M_Track M_Block.
Open Scope string_scope.
Open Scope list_scope.
Open Scope nat_scope.

(** src/matrix_repr.rs:190-199 [enum MatrixDeserError], as far as reading a tree makes them; the texts of the JSON values are left out *)
Inductive derr := BadVersion | UnknownNode (s : string) | UnknownParamId | InvalidAtom.
(** Reading: [None] is a panic *)
Notation rd A := (option (derr + A)).
Definition ok {A} (a : A) : rd A := Some (inr a).
Definition err {A} (e : derr) : rd A := Some (inl e).
(** the [?] operator *)
Definition try {A B} (r : rd A) (f : A -> rd B) : rd B :=
  match r with None => None | Some (inl e) => Some (inl e) | Some (inr a) => f a end.
(** a loop that pushes to a vector *)
Fixpoint read_all {A} (f : json -> rd A) (l : list json) : rd (list A) :=
  match l with
  | [] => ok []
  | v :: l => try (f v) (fun a => try (read_all f l) (fun r => ok (a :: r)))
  end.

(** ** Snapshots of block programs *)

(** src/wblockdsp/language.rs:182-213 [Block::serialize] *)
Definition port_json (p : option string) : json := match p with Some s => JStr s | None => JNull end.
Definition block_json (b : block) : json :=
  let c o := match o with Some n => jnat n | None => JNull end in
  JObj [("color", jnat (b_color b)); ("contains", JArr [c (b_contains b).1; c (b_contains b).2]); ("expanded", JBool (b_expanded b));
        ("id", JInt (to_i64 (Z.of_nat (b_id b)))); ("inputs", JArr (port_json <$> b_inputs b)); ("lbl", JStr (b_lbl b));
        ("outputs", JArr (port_json <$> b_outputs b)); ("rows", JInt (to_i64 (Z.of_nat (b_rows b)))); ("typ", JStr (b_typ b))].

(** src/wblockdsp/language.rs:216-264 [Block::deserialize] *)
Definition block_read (v : json) : block :=
  let c j := match as_i64 j with Some z => Some (to_usize z) | None => None end in
  Block (usize_of (jkey v "id") 0) (usize_of (jkey v "rows") 0) (c (jidx (jkey v "contains") 0), c (jidx (jkey v "contains") 1))
    (default true (as_bool (jkey v "expanded"))) (default "?" (as_str (jkey v "typ"))) (default "?" (as_str (jkey v "lbl")))
    (as_str <$> elems (jkey v "inputs")) (as_str <$> elems (jkey v "outputs")) (usize_of (jkey v "color") 0).

(** src/wblockdsp/language.rs:898-921 [BlockArea::serialize]; [ord] is the order in which the hash map gives the blocks *)
Definition area_json (ord : area -> list (Z * Z * block)) (a : area) : json :=
  JObj [("auto_shrink", JBool (a_shrink a));
        ("blocks", JArr ((fun p : Z * Z * block => JObj [("block", block_json p.2); ("x", JInt p.1.1); ("y", JInt p.1.2)]) <$> ord a));
        ("header", JStr (a_header a));
        ("size", JArr [JInt (to_i64 (Z.of_nat (a_size a).1)); JInt (to_i64 (Z.of_nat (a_size a).2))])].

(** src/wblockdsp/language.rs:925-949 [BlockArea::deserialize] *)
Definition area_read (v : json) : area :=
  let bs := foldl (fun (m : gmap (Z * Z) block) (b : json) =>
      <[(default 0%Z (as_i64 (jkey b "x")), default 0%Z (as_i64 (jkey b "y"))) := block_read (jkey b "block")]> m) ∅ (elems (jkey v "blocks")) in
  Area bs (origin_map bs) (usize_of (jidx (jkey v "size") 0) 0, usize_of (jidx (jkey v "size") 1) 0)
    (default true (as_bool (jkey v "auto_shrink"))) (default "" (as_str (jkey v "header"))).

(** src/wblockdsp/language.rs:1119-1136, 1138-1152 [BlockFunSnapshot::serialize], [deserialize] *)
Definition snap_json (ord : area -> list (Z * Z * block)) (s : bsnap) : json :=
  JObj [("VERSION", JInt 1); ("areas", JArr (area_json ord <$> sn_areas s)); ("current_block_id_counter", jnat (sn_id s))].
Definition snap_read (v : json) : bsnap :=
  BSnap (area_read <$> elems (jkey v "areas")) (usize_of (jkey v "current_block_id_counter") 0).

(** ** Cells *)

(** src/matrix_repr.rs:9-16 [struct CellRepr]; the ports are [i16] *)
Record cellrepr := CellRepr { cr_node : node_id; cr_x : nat; cr_y : nat; cr_inp : Z * Z * Z; cr_out : Z * Z * Z }.

(** src/matrix_repr.rs:18-25 [deserialize_node_id]; [i64 as usize], and then [as u8] in [to_instance] *)
Definition read_node_id (v : json) (i1 i2 : nat) : rd node_id :=
  let s := default "???" (as_str (jidx v i1)) in
  let n := node_from_str s in
  if decide (n = Nop) then err (UnknownNode s)
  else ok (to_instance n (Z.to_nat (to_u8 (default 0%Z (as_i64 (jidx v i2)))))).

(** src/matrix_repr.rs:27-45 [inp2idx], [out2idx] *)
Definition port_idx (find : string -> option nat) (v : json) : Z :=
  let i := to_i16 (default (-2)%Z (as_i64 v)) in
  if (-2 <? i)%Z then i
  else match as_str v with Some s => match find s with Some n => Z.of_nat n | None => (-1)%Z end | None => (-1)%Z end.

(** src/matrix_repr.rs:47-61 [inp_idx2value], [out_idx2value] *)
Definition port_value (name : nat -> option string) (i : Z) : json :=
  if (i =? -1)%Z then JInt (-1) else match name (Z.to_nat (to_u8 i)) with Some s => JStr s | None => JInt (-1) end.

(** src/matrix_repr.rs:64-81, 83-101 [CellRepr::serialize], [deserialize] *)
Definition three {A} (f : Z -> A) (t : Z * Z * Z) : list A := [f t.1.1; f t.1.2; f t.2].
Definition cell_json (c : cellrepr) : json :=
  let n := cr_node c in
  JArr [JStr (node_name n); jnat (nid_inst n); jnat (cr_x c); jnat (cr_y c);
        JArr (three (port_value (inp_name_by_idx n)) (cr_inp c)); JArr (three (port_value (out_name_by_idx n)) (cr_out c))].
Definition cell_read (v : json) : rd cellrepr :=
  try (read_node_id v 0 1) (fun n =>
    let three_of j (f : string -> option nat) := (port_idx f (jidx j 0), port_idx f (jidx j 1), port_idx f (jidx j 2)) in
    ok (CellRepr n (usize_of (jidx v 2) 0) (usize_of (jidx v 3) 0) (three_of (jidx v 4) (node_inp n)) (three_of (jidx v 5) (node_out n)))).

(** ** Patterns *)

(** src/matrix_repr.rs:115-147 [PatternRepr::serialize] *)
Definition pattern_json (p : patrepr) : json :=
  JObj [("col_types", JArr (JInt <$> pr_types p)); ("cursor_col", jnat (pr_cursor p).2); ("cursor_row", jnat (pr_cursor p).1);
        ("data", JArr ((fun r : list Z => JArr (JInt <$> r)) <$> pr_data p)); ("edit_step", jnat (pr_step p)); ("rows", jnat (pr_rows p))].

(** writing into a fixed array: a panic beyond its end *)
Fixpoint overwrite {A} (old new : list A) : option (list A) :=
  match new, old with
  | [], _ => Some old
  | _ :: _, [] => None
  | x :: new, _ :: old => let* r := overwrite old new in Some (x :: r)
  end.
(** src/matrix_repr.rs:149-180 [PatternRepr::deserialize]: 6 columns, 256 rows. A row that is no array is left as it is, wherever it stands. *)
Fixpoint read_rows (old : list (list Z)) (rows : list json) : option (list (list Z)) :=
  match rows, old with
  | [], _ => Some old
  | JArr cs :: rows, r :: old =>
      let* r := overwrite r ((fun c => to_i32 (default (-1)%Z (as_i64 c))) <$> cs) in
      let* rs := read_rows old rows in Some (r :: rs)
  | JArr [] :: rows, [] => read_rows [] rows
  | JArr _ :: _, [] => None
  | _ :: rows, r :: old => let* rs := read_rows old rows in Some (r :: rs)
  | _ :: rows, [] => read_rows [] rows
  end.
Definition pattern_read (v : json) : option patrepr :=
  let* ts := overwrite (replicate 6 0%Z) ((fun c => to_u8 (default 0%Z (as_i64 c))) <$> elems (jkey v "col_types")) in
  let* d := read_rows (replicate 256 (replicate 6 (-1)%Z)) (elems (jkey v "data")) in
  Some (PatRepr ts d (usize_of (jkey v "rows") 0) (usize_of (jkey v "edit_step") 0) (usize_of (jkey v "cursor_row") 0, usize_of (jkey v "cursor_col") 0)).

(** ** Atoms *)

(** src/matrix_repr.rs:272-280 [serialize_atom]; a micro sample of fewer than eight values panics *)
Definition atom_json (a : satom) : option json :=
  match a with
  | AMicro v => if 8 <=? length v then Some (JArr (JStr "ms" :: (jf32 <$> take 8 v))) else None
  | AStr s => Some (JArr [JStr "s"; JStr s])
  | AAudio s _ => Some (JArr [JStr "as"; JStr s])
  | ASetting i => Some (JArr [JStr "i"; JInt i])
  | AParam p => Some (JArr [JStr "p"; jf32 p])
  end.

Section repr.
(** [i64 as f64 as f32] *)
Context (i2f : Z -> f32).

(** src/matrix_repr.rs:225-270 [deserialize_atom] *)
Definition atom_read (v : json) : rd satom :=
  let need {A} (o : option A) (f : A -> satom) := match o with Some a => ok (f a) | None => err InvalidAtom end in
  let tag := default "?" (as_str (jidx v 0)) in
  if String.eqb tag "i" then need (as_i64 (jidx v 1)) ASetting
  else if String.eqb tag "p" then need (as_f32 i2f (jidx v 1)) AParam
  else if String.eqb tag "s" then need (as_str (jidx v 1)) AStr
  else if String.eqb tag "as" then need (as_str (jidx v 1)) (fun s => AAudio s None)
  else if String.eqb tag "ms" then need (mapM (fun i => as_f32 i2f (jidx v (S i))) (seq 0 8)) AMicro
  else err InvalidAtom.

(** ** Descriptions *)

(** src/matrix_repr.rs:183-192 [struct MatrixRepr] *)
Record mrepr := MRepr {
  mr_cells : list cellrepr; mr_params : list (paramid * f32 * option f32); mr_atoms : list (paramid * satom);
  mr_patterns : list (option patrepr); mr_props : list (string * satom); mr_blocks : list (option bsnap); mr_version : Z;
}.

(** the order of the keys: text, or name, node and index of a parameter (src/dsp/mod.rs:1963-1968, derived) *)
Definition str_leb (a b : string) : bool := match String.compare a b with Gt => false | _ => true end.
Definition lex (c d : comparison) : comparison := match c with Eq => d | _ => c end.
Definition pid_cmp (p q : paramid) : comparison :=
  lex (String.compare (pa_name p) (pa_name q))
    (lex (Nat.compare (nid_kind (pa_node p)) (nid_kind (pa_node q)))
       (lex (Nat.compare (nid_inst (pa_node p)) (nid_inst (pa_node q))) (Nat.compare (pa_idx p) (pa_idx q)))).
Definition pid_leb (p q : paramid) : bool := match pid_cmp p q with Gt => false | _ => true end.
(** [sort_by] is stable *)
Fixpoint sort_ins {A} (le : A -> A -> bool) (x : A) (l : list A) : list A :=
  match l with [] => [x] | y :: l => if le x y then x :: y :: l else y :: sort_ins le x l end.
Definition sort {A} (le : A -> A -> bool) (l : list A) : list A := foldr (sort_ins le) [] l.

(** src/matrix_repr.rs:428-430: [serialize] sorts the description itself *)
Definition repr_sort (r : mrepr) : mrepr :=
  MRepr (mr_cells r) (sort (fun a b => pid_leb a.1.1 b.1.1) (mr_params r)) (sort (fun a b => pid_leb a.1 b.1) (mr_atoms r))
    (mr_patterns r) (sort (fun a b => str_leb a.1 b.1) (mr_props r)) (mr_blocks r) (mr_version r).

(** src/matrix_repr.rs:423-508 [MatrixRepr::serialize], the tree it prints; [None] is a panic *)
Definition pid_json (p : paramid) : list json := [JStr (node_name (pa_node p)); jnat (nid_inst (pa_node p)); JStr (pa_name p)].
Definition param_json (e : paramid * f32 * option f32) : json :=
  JArr (pid_json e.1.1 ++ [jf32 e.1.2] ++ match e.2 with Some m => [jf32 m] | None => [] end).
Definition repr_json (ord : area -> list (Z * Z * block)) (r : mrepr) : option json :=
  let r := repr_sort r in
  let* ats := mapM (fun e : paramid * satom => let* a := atom_json e.2 in Some (JArr (pid_json e.1 ++ [a]))) (mr_atoms r) in
  let* pps := mapM (fun e : string * satom => let* a := atom_json e.2 in Some (JArr [JStr e.1; a])) (mr_props r) in
  Some (JObj [("VERSION", JInt (mr_version r)); ("atoms", JArr ats);
              ("block_funs", JArr ((fun b => match b with Some s => snap_json ord s | None => JNull end) <$> mr_blocks r));
              ("cells", JArr (cell_json <$> mr_cells r)); ("params", JArr (param_json <$> mr_params r));
              ("patterns", JArr ((fun p => match p with Some p => pattern_json p | None => JNull end) <$> mr_patterns r));
              ("props", JArr pps)]).

(** src/matrix_repr.rs:353-371: a parameter entry *)
Definition param_read (v : json) : rd (paramid * f32 * option f32) :=
  try (read_node_id v 0 1) (fun n =>
    match inp_param n (default "" (as_str (jidx v 2))) with
    | Some p => ok (p, default f32_zero (as_f32 i2f (jidx v 3)), as_f32 i2f (jidx v 4))
    | None => err UnknownParamId
    end).
(** src/matrix_repr.rs:373-387: an atom entry; a parameter that is not known is left out *)
Definition atom_entry_read (v : json) : rd (option (paramid * satom)) :=
  try (read_node_id v 0 1) (fun n =>
    match inp_param n (default "" (as_str (jidx v 2))) with
    | Some p => try (atom_read (jidx v 3)) (fun a => ok (Some (p, a)))
    | None => ok None
    end).
(** src/matrix_repr.rs:389-395: a property *)
Definition prop_read (v : json) : rd (string * satom) :=
  try (atom_read (jidx v 1)) (fun a => ok (default "" (as_str (jidx v 0)), a)).

(** src/matrix_repr.rs:328-420 [MatrixRepr::deserialize], after parsing *)
Definition repr_read (v : json) : rd mrepr :=
  let ver := match jget v "VERSION" with Some j => default 0%Z (as_i64 j) | None => 2%Z end in
  if (2 <? ver)%Z then err BadVersion else
  try (read_all cell_read (elems (jkey v "cells"))) (fun cs =>
  try (read_all param_read (elems (jkey v "params"))) (fun ps =>
  try (read_all atom_entry_read (elems (jkey v "atoms"))) (fun ats =>
  try (read_all prop_read (elems (jkey v "props"))) (fun pps =>
  try (read_all (fun p => if is_obj p then match pattern_read p with Some p => ok (Some p) | None => None end else ok None) (elems (jkey v "patterns"))) (fun pts =>
  try (read_all (fun p => ok (if is_obj p then Some (snap_read p) else None)) (elems (jkey v "block_funs"))) (fun bs =>
  ok (MRepr cs ps (omap id ats) pts pps bs ver))))))).
End repr.
