(** Model of the editor of the visual block language (src/wblockdsp/language.rs): blocks, areas, chains and edit operations.
    Coordinates ([i64]) are integers and sizes ([usize]) are naturals without overflow. *)
From stdpp Require Import strings.
From Verif Require Import Base.
Open Scope string_scope.
Open Scope list_scope.
Open Scope nat_scope.

Notation pos := (Z * Z)%type (only parsing).

(** src/wblockdsp/language.rs:68-92 [struct Block] *)
Record block := Block {
  b_id : nat; b_rows : nat; b_contains : option nat * option nat; b_expanded : bool; b_typ : string; b_lbl : string;
  b_inputs : list (option string); b_outputs : list (option string); b_color : nat;
}.
Definition b_with_id (b : block) (i : nat) : block :=
  Block i (b_rows b) (b_contains b) (b_expanded b) (b_typ b) (b_lbl b) (b_inputs b) (b_outputs b) (b_color b).
Definition b_with_contains (b : block) (c : option nat * option nat) : block :=
  Block (b_id b) (b_rows b) c (b_expanded b) (b_typ b) (b_lbl b) (b_inputs b) (b_outputs b) (b_color b).
Definition b_with_ports (b : block) (ins outs : list (option string)) : block :=
  Block (b_id b) (b_rows b) (b_contains b) (b_expanded b) (b_typ b) (b_lbl b) ins outs (b_color b).

(** src/wblockdsp/language.rs:561-568 [struct BlockArea] *)
Record area := Area {
  a_blocks : gmap pos block; a_origin : gmap pos pos; a_size : nat * nat; a_shrink : bool; a_header : string;
}.

(** src/wblockdsp/language.rs:972-983 [struct BlockType], without category, user input and description *)
Record btype := BType { t_name : string; t_rows : nat; t_inputs : list (option string); t_outputs : list (option string); t_areas : nat; t_color : nat }.

(** src/wblockdsp/language.rs:1155-1163 [struct BlockFun]: areas, counter of the id generator, generation. The language is a parameter,
    the work queues are local. *)
Record bfun := BFun { f_areas : list area; f_next : nat; f_gen : nat }.

(** src/wblockdsp/language.rs:1103-1110 [enum BlockDSPError] *)
Inductive berr :=
| UnknownArea (id : nat) | UnknownLanguageType (t : string) | NoBlockAt (id : nat) (x y : Z)
| CircularAction (id id2 : nat) | NoSpaceAvailable (id : nat) (x y : Z) (rows : nat).

(** ** Blocks *)

(** src/wblockdsp/language.rs:112-127 [shift_port]; [Vec::remove] panics for an index out of range *)
Definition shift_list (rows : nat) (v : list (option string)) (idx : nat) : option (list (option string)) :=
  let v := if length v <? rows then v ++ replicate (rows - length v) None else v in
  let* e := v !! idx in
  let to := S idx mod length v in
  let v := delete idx v in
  Some (take to v ++ e :: drop to v).
Definition b_shift (b : block) (idx : nat) (output : bool) : option block :=
  if b_rows b <=? 1 then Some b
  else if output then let* v := shift_list (b_rows b) (b_outputs b) idx in Some (b_with_ports b (b_inputs b) v)
  else let* v := shift_list (b_rows b) (b_inputs b) idx in Some (b_with_ports b v (b_outputs b)).

(** src/wblockdsp/language.rs:131-139 [for_output_ports], 158-166 [for_input_ports]: the rows with a port *)
Definition has_port (ps : list (option string)) (r : nat) : bool := match ps !! r with Some (Some _) => true | _ => false end.
Definition port_rows (rows : nat) (ps : list (option string)) : list nat := filter (fun r => has_port ps r = true) (seq 0 rows).

(** ** Areas *)

(** src/wblockdsp/language.rs:571-579 [new] *)
Definition area_new (w h : nat) : area := Area ∅ ∅ (w, h) false "".

(** src/wblockdsp/language.rs:874-882 [update_origin_map]. The code goes over a hash map, in any order; here over some order. *)
Definition origin_cells (bs : gmap pos block) : list (pos * pos) :=
  mjoin ((fun p : pos * block => (fun r => ((p.1.1, (p.1.2 + Z.of_nat r)%Z), p.1)) <$> seq 0 (b_rows p.2)) <$> map_to_list bs).
Definition origin_map (bs : gmap pos block) : gmap pos pos := list_to_map (origin_cells bs).
Definition a_with_blocks (a : area) (bs : gmap pos block) : area := Area bs (origin_map bs) (a_size a) (a_shrink a) (a_header a).

(** src/wblockdsp/language.rs:884-894 [check_space_at] *)
Definition space_at (a : area) (x y : Z) (rows : nat) : bool :=
  forallb (fun r => match a_origin a !! (x, (y + Z.of_nat r)%Z) with Some _ => false | None => true end) (seq 0 rows).

(** src/wblockdsp/language.rs:731-740 [ref_at], [ref_at_origin] *)
Definition ref_at (a : area) (x y : Z) : option (block * pos) :=
  let* o := a_origin a !! (x, y) in
  let* b := a_blocks a !! o in
  Some (b, o).

(** src/wblockdsp/language.rs:753-776 [find_port_at]: the block's origin and the row *)
Definition find_port_at (a : area) (x y : Z) (output : bool) : option (pos * nat) :=
  let* (b, o) := ref_at a x y in
  let r := Z.to_nat (y - o.2) in
  if has_port (if output then b_outputs b else b_inputs b) r then Some (o, r) else None.

(** src/wblockdsp/language.rs:786-789 [set_block_at], 778-784 [set_blocks_from], 791-800 [remove_at] *)
Definition set_block_at (a : area) (x y : Z) (b : block) : area := a_with_blocks a (<[(x, y) := b]> (a_blocks a)).
Definition set_blocks_from (a : area) (l : list (block * pos)) : area :=
  a_with_blocks a (foldl (fun bs p => <[p.2 := p.1]> bs) (a_blocks a) l).
Definition area_remove_at (a : area) (x y : Z) : option (area * (block * pos)) :=
  let* o := a_origin a !! (x, y) in
  let* b := a_blocks a !! o in
  Some (a_with_blocks a (delete o (a_blocks a)), (b, o)).

(** ** Chains *)

(** src/wblockdsp/language.rs:625-633: the cells next to the ports of a block, and whether an output is expected there *)
Definition port_cells (b : block) (o : pos) : list (Z * Z * bool) :=
  ((fun r => (o.1 - 1, o.2 + Z.of_nat r, true)%Z) <$> port_rows (b_rows b) (b_inputs b)) ++
  ((fun r => (o.1 + 1, o.2 + Z.of_nat r, false)%Z) <$> port_rows (b_rows b) (b_outputs b)).

(** src/wblockdsp/language.rs:644-651: the blocks that are connected to these ports *)
Definition neighbours (a : area) (b : block) (o : pos) : list pos :=
  omap (fun c : Z * Z * bool => fst <$> find_port_at a c.1.1 c.1.2 c.2) (port_cells b o).

(** src/wblockdsp/language.rs:605-652: the loop of [chain_at]; [None] is out of fuel *)
Fixpoint chain_loop (fuel : nat) (a : area) (dq : list pos) (blocks : gset pos) : option (gset pos) :=
  match fuel with
  | 0 => None
  | S fuel =>
      match dq with
      | [] => Some blocks
      | p :: dq =>
          match ref_at a p.1 p.2 with
          | Some (b, o) => if bool_decide (o ∈ blocks) then chain_loop fuel a dq blocks
                           else chain_loop fuel a (dq ++ neighbours a b o) ({[o]} ∪ blocks)
          | None => chain_loop fuel a dq blocks
          end
      end
  end.
Definition chain_fuel (a : area) : nat := 2 + sum_list ((fun p : pos * block => 2 * b_rows p.2) <$> map_to_list (a_blocks a)).

(** src/wblockdsp/language.rs:593-654 [chain_at]: the positions of the chain; [None] is out of fuel, [Some None] is no block *)
Definition chain_at (a : area) (x y : Z) : option (option (gset pos)) :=
  match ref_at a x y with
  | Some (_, o) => let* s := chain_loop (chain_fuel a) a [o] ∅ in Some (Some s)
  | None => Some None
  end.

(** src/wblockdsp/language.rs:399-401 [sort_load_pos]: a stable sort *)
Definition pos_leb (p q : pos) : bool := (p.1 <? q.1)%Z || ((p.1 =? q.1)%Z && (p.2 <=? q.2)%Z).
Fixpoint load_insert (p : block * pos) (l : list (block * pos)) : list (block * pos) :=
  match l with
  | [] => [p]
  | q :: l => if pos_leb p.2 q.2 then p :: q :: l else q :: load_insert p l
  end.
Definition load_sort (l : list (block * pos)) : list (block * pos) := foldr load_insert [] l.

(** src/wblockdsp/language.rs:476-486 [remove_load]. The set of positions is a hash set, whose order does not matter because of the sort. *)
Definition remove_load (a : area) (s : gset pos) : area * list (block * pos) :=
  let '(a, l) := foldl (fun (st : area * list (block * pos)) (p : pos) =>
    match area_remove_at st.1 p.1 p.2 with
    | Some (a, q) => (a, st.2 ++ [q])
    | None => st
    end) (a, []) (elements s) in
  (a, load_sort l).

(** src/wblockdsp/language.rs:464-474 [clone_load]; the new ids depend on the order of the hash set. The result is the new counter and the load. *)
Definition clone_load (a : area) (s : gset pos) (next : nat) : nat * list (block * pos) :=
  let '(n, l) := foldl (fun (st : nat * list (block * pos)) (p : pos) =>
    match ref_at a p.1 p.2 with
    | Some (b, o) => (S st.1, st.2 ++ [(b_with_id b (S st.1), o)])
    | None => st
    end) (next, []) (elements s) in
  (n, load_sort l).

(** src/wblockdsp/language.rs:370-376 [move_by_offs] *)
Definition load_move (l : list (block * pos)) (dx dy : Z) : list (block * pos) :=
  (fun p => (p.1, (p.2.1 + dx, p.2.2 + dy)%Z)) <$> l.

(** src/wblockdsp/language.rs:378-397 [normalize_load_pos] *)
Definition load_normalize (l : list (block * pos)) : list (block * pos) * pos :=
  let mx := foldl (fun m (p : block * pos) => Z.min m p.2.1) 100000000%Z l in
  let my := foldl (fun m (p : block * pos) => Z.min m p.2.2) 100000000%Z l in
  (load_sort (load_move l (- mx) (- my)), (mx, my)).

(** src/wblockdsp/language.rs:529-542 [area_has_space_for_load] *)
Definition has_space (a : area) (l : list (block * pos)) (dx dy : Z) : bool :=
  forallb (fun p : block * pos => space_at a (p.2.1 + dx) (p.2.2 + dy) (b_rows p.1)) l.

(** src/wblockdsp/language.rs:493-527 [try_fit_load_into_space] *)
Definition fit_offsets : list (Z * Z) :=
  [(0, 0); (0, -1); (0, -2); (0, -3); (-1, 0); (-1, -1); (-1, -2); (-1, -3); (1, 0); (1, -1); (1, -2); (1, -3);
   (0, 1); (0, 2); (0, 3); (-1, 1); (-1, 2); (-1, 3); (1, 1); (1, 2); (1, 3)]%Z.
Fixpoint try_fit (a : area) (l : list (block * pos)) (offs : list (Z * Z)) : option (list (block * pos)) :=
  match offs with
  | [] => None
  | o :: offs => if has_space a l o.1 o.2 then Some (load_move l o.1 o.2) else try_fit a l offs
  end.

(** src/wblockdsp/language.rs:403-426 [get_connected_inputs_from_load_at_x] *)
Definition connected_inputs (l : list (block * pos)) (xs : Z) : list pos :=
  let outs := mjoin ((fun p : block * pos => (fun r => p.2.2 + Z.of_nat r)%Z <$> port_rows (b_rows p.1) (b_outputs p.1)) <$>
                       filter (fun p : block * pos => p.2.1 = xs) l) in
  mjoin ((fun p : block * pos => (fun r => (p.2.1, p.2.2 + Z.of_nat r)%Z) <$>
            filter (fun r => (p.2.2 + Z.of_nat r)%Z ∈ outs) (port_rows (b_rows p.1) (b_inputs p.1))) <$>
           filter (fun p : block * pos => p.2.1 = (xs + 1)%Z) l).

(** src/wblockdsp/language.rs:986-993 [touch_contains], 995-1013 [instanciate_block] *)
Definition touch_contains (t : btype) (b : block) : block :=
  b_with_contains b (match t_areas t with 1 => (Some 1, None) | 2 => (Some 1, Some 1) | _ => (None, None) end).
Definition instanciate_block (t : btype) (inp : option string) (id : nat) : block :=
  touch_contains t (Block id (t_rows t) (None, None) true (t_name t) (default (t_name t) inp) (t_inputs t) (t_outputs t) (t_color t)).

(** src/wblockdsp/language.rs:435-462 [split_load_after_x]: new counter and load *)
Definition split_load (l : list (block * pos)) (xs ys : Z) (filler : option btype) (next : nat) : nat * list (block * pos) :=
  let cs := connected_inputs l xs in
  let l := (fun p => (p.1, ((if (xs <? p.2.1)%Z then p.2.1 + 1 else p.2.1), p.2.2)%Z)) <$> l in
  let '(n, l) :=
    match filler with
    | None => (next, l)
    | Some t => foldl (fun (st : nat * list (block * pos)) (c : pos) =>
                  if (c.2 =? ys)%Z then st else (S st.1, st.2 ++ [(instanciate_block t None (S st.1), c)])) (next, l) cs
    end in
  (n, load_sort l).

(** ** Areas of a program *)

(** src/wblockdsp/language.rs:806-816 [get_direct_sub_areas]; the order is that of a hash map *)
Definition opt_list {A} (o : option A) : list A := match o with Some x => [x] | None => [] end.
Definition block_subs (b : block) : list nat := opt_list (b_contains b).1 ++ opt_list (b_contains b).2.
Definition sub_areas (a : area) : list nat := mjoin (block_subs <$> (map_to_list (a_blocks a)).*2).

(** src/wblockdsp/language.rs:1472-1500 [all_sub_areas_of]. The search has no record of visited areas: it goes on forever if areas contain
    each other (out of fuel) and panics for an unknown area; both are [None]. *)
Fixpoint all_subs (fuel : nat) (fs : list area) (dq : list nat) : option (list nat) :=
  match fuel with
  | 0 => None
  | S fuel =>
      match dq with
      | [] => Some []
      | i :: dq =>
          let* a := fs !! i in
          let* l := all_subs fuel fs (dq ++ sub_areas a) in
          Some (i :: l)
      end
  end.
Definition all_sub_areas_of (fuel : nat) (fs : list area) (b : block) : option (list nat) := all_subs fuel fs (block_subs b).

(** src/wblockdsp/language.rs:818-872 [resolve_size] *)
Definition resolve_size (a : area) (sub : nat -> nat * nat) : nat * nat :=
  let '(w, h) := foldl (fun (m : nat * nat) (p : pos * pos) => (Nat.max m.1 (Z.to_nat p.1.1 + 1), Nat.max m.2 (Z.to_nat p.1.2 + 1)))
                   (1, 1) (map_to_list (a_origin a)) in
  let '(w, h) := foldl (fun (m : nat * nat) (p : pos * block) =>
      let x := Z.to_nat p.1.1 in let y := Z.to_nat p.1.2 in
      let '(m, ph) := match (b_contains p.2).1 with
                      | Some s => let '(sw, sh) := sub s in let sh := sh + 1 in ((Nat.max m.1 (x + sw + 1), Nat.max m.2 (y + sh + 1)), 1 + sh)
                      | None => (m, 1)
                      end in
      match (b_contains p.2).2 with
      | Some s => let '(sw, sh) := sub s in let sh := sh + ph in (Nat.max m.1 (x + sw + 1), Nat.max m.2 (y + sh + 1))
      | None => m
      end) (w, h) (map_to_list (a_blocks a)) in
  if a_shrink a then (w, h) else (Nat.max (a_size a).1 w, Nat.max (a_size a).2 h).

(** src/wblockdsp/language.rs:1388-1450 [recalculate_area_sizes]: first the parents and the leaves are searched from the root down, then
    the sizes are made from the leaves up. An unknown area and a search that does not end are [None]. *)
Fixpoint recalc_down (fuel : nat) (fs : list area) (work : list nat) (parents : list nat) (sizes : list (nat * nat)) (leaves : list nat)
  : option (list nat * list (nat * nat) * list nat) :=
  match fuel with
  | 0 => None
  | S fuel =>
      match work with
      | [] => Some (parents, sizes, leaves)
      | i :: work =>
          let* a := fs !! i in
          let subs := sub_areas a in
          let sizes := <[i := resolve_size a (fun _ => (0, 0))]> sizes in
          match subs with
          | [] => recalc_down fuel fs work parents sizes (i :: leaves)
          | _ =>
              if forallb (fun s => s <? length fs) subs then
                recalc_down fuel fs (rev subs ++ work) (foldl (fun ps s => <[s := i]> ps) parents subs) sizes leaves
              else None
          end
      end
  end.
Fixpoint recalc_up (fuel : nat) (fs : list area) (work : list nat) (parents : list nat) (sizes : list (nat * nat)) : option (list area) :=
  match fuel with
  | 0 => None
  | S fuel =>
      match work with
      | [] => Some fs
      | i :: work =>
          let* a := fs !! i in
          let s := resolve_size a (fun j => default (0, 0) (sizes !! j)) in
          let fs := <[i := Area (a_blocks a) (a_origin a) s (a_shrink a) (a_header a)]> fs in
          let work := if 0 <? i then work ++ [default 0 (parents !! i)] else work in
          recalc_up fuel fs work parents (<[i := s]> sizes)
      end
  end.
Definition recalculate (fuel : nat) (f : bfun) : option bfun :=
  let fs := f_areas f in
  let* (ps, ss, ls) := recalc_down fuel fs [0] (replicate (length fs) 0) (replicate (length fs) (0, 0)) [] in
  let* fs := recalc_up fuel fs ls ps ss in
  Some (BFun fs (f_next f) (f_gen f)).

(** ** Edit operations. [None] is a panic or a search without end; otherwise the new program and the error, if any. *)
Section edit.
(** the types of the block language, by name, and a bound for the searches through the areas *)
Context (types : string -> option btype) (fuel : nat).

Definition f_with_area (f : bfun) (i : nat) (a : area) : bfun := BFun (<[i := a]> (f_areas f)) (f_next f) (f_gen f).
Definition f_bump (f : bfun) : bfun := BFun (f_areas f) (f_next f) (S (f_gen f)).

(** src/wblockdsp/language.rs:1174-1183 [new] *)
Definition bfun_new : bfun := BFun [area_new 16 16] 0 0.

(** src/wblockdsp/language.rs:1203-1208 [shift_port] *)
Definition bf_shift (f : bfun) (id : nat) (x y : Z) (row : nat) (output : bool) : option bfun :=
  match (let* a := f_areas f !! id in let* r := ref_at a x y in Some (a, r)) with
  | Some (a, (b, o)) =>
      let* b := b_shift b row output in
      Some (f_bump (f_with_area f id (Area (<[o := b]> (a_blocks a)) (a_origin a) (a_size a) (a_shrink a) (a_header a))))
  | None => Some f
  end.

(** src/wblockdsp/language.rs:1714-1728 [create_areas_for_block] *)
Definition shrink_area : area := Area ∅ ∅ (1, 1) true "".
Definition create_areas (f : bfun) (b : block) : bfun * block :=
  let '(fs, c0) := match (b_contains b).1 with Some _ => (f_areas f ++ [shrink_area], Some (length (f_areas f))) | None => (f_areas f, None) end in
  let '(fs, c1) := match (b_contains b).2 with Some _ => (fs ++ [shrink_area], Some (length fs)) | None => (fs, None) end in
  (BFun fs (f_next f) (f_gen f), b_with_contains b (c0, c1)).

(** src/wblockdsp/language.rs:1730-1766 [instanciate_at] *)
Definition bf_instanciate (f : bfun) (id : nat) (x y : Z) (typ : string) (inp : option string) : bfun * option berr :=
  match f_areas f !! id with
  | None => (f, Some (UnknownArea id))
  | Some a =>
      match types typ with
      | None => (f, Some (UnknownLanguageType typ))
      | Some t =>
          if negb (space_at a x y (t_rows t)) then (f, Some (NoSpaceAvailable id x y (t_rows t))) else
          let b := instanciate_block t inp (S (f_next f)) in
          let f := BFun (f_areas f) (S (f_next f)) (f_gen f) in
          let '(f, b) := create_areas f b in
          let f := f_bump f in
          match f_areas f !! id with
          | Some a => (f_with_area f id (set_block_at a x y b), None)
          | None => (f, None)
          end
      end
  end.

(** src/wblockdsp/language.rs:1768-1773 [remove_at] *)
Definition bf_remove (f : bfun) (id : nat) (x y : Z) : bfun * option berr :=
  match f_areas f !! id with
  | None => (f, Some (UnknownArea id))
  | Some a =>
      match area_remove_at a x y with
      | None => (f, Some (NoBlockAt id x y))
      | Some (a, _) => (f_bump (f_with_area f id a), None)
      end
  end.

(** src/wblockdsp/language.rs:1548-1553, 1691-1696: grabbing a block below its top row *)
Definition grab_y (y yo y2 : Z) : Z := if (yo <? y)%Z then Z.max (y2 - (y - yo)) 0 else y2.

(** src/wblockdsp/language.rs:1672-1712 [move_block_from_to], with 1452-1470 [area_is_subarea_of] *)
Definition bf_move (f : bfun) (id : nat) (x y : Z) (id2 : nat) (x2 y2 : Z) : option (bfun * option berr) :=
  let* circ := match (let* a := f_areas f !! id in ref_at a x y) with
               | Some (b, _) => let* l := all_sub_areas_of fuel (f_areas f) b in Some (bool_decide (id2 ∈ l))
               | None => Some false
               end in
  if circ : bool then Some (f, Some (CircularAction id id2)) else
  match f_areas f !! id with
  | None => Some (f, Some (UnknownArea id))
  | Some a =>
      match area_remove_at a x y with
      | None => Some (f, Some (NoBlockAt id x y))
      | Some (a', (b, o)) =>
          let f := f_with_area f id a' in
          let y2 := grab_y y o.2 y2 in
          match f_areas f !! id2 with
          | None => Some (f, Some (UnknownArea id2))
          | Some a2 =>
              let f := f_bump f in
              if space_at a2 x2 y2 (b_rows b) then Some (f_with_area f id2 (set_block_at a2 x2 y2 b), None)
              else
                let f := match f_areas f !! id with Some a => f_with_area f id (set_block_at a o.1 o.2 b) | None => f end in
                Some (f, Some (NoSpaceAvailable id2 x2 y2 (b_rows b)))
          end
      end
  end.

(** src/wblockdsp/language.rs:1521-1565 [clone_block_from_to] *)
Definition bf_clone (f : bfun) (id : nat) (x y : Z) (id2 : nat) (x2 y2 : Z) : bfun * option berr :=
  match f_areas f !! id with
  | None => (f, Some (UnknownArea id))
  | Some a =>
      match ref_at a x y with
      | None => (f, Some (NoBlockAt id x y))
      | Some (b, o) =>
          let b := b_with_id b (S (f_next f)) in
          let f := BFun (f_areas f) (S (f_next f)) (f_gen f) in
          let b := match types (b_typ b) with Some t => touch_contains t b | None => b end in
          let '(f, b) := create_areas f b in
          let y2 := grab_y y o.2 y2 in
          match f_areas f !! id2 with
          | None => (f, Some (UnknownArea id2))
          | Some a2 =>
              if space_at a2 x2 y2 (b_rows b) then (f_bump (f_with_area f id2 (set_block_at a2 x2 y2 b)), None)
              else (f, Some (NoSpaceAvailable id2 x2 y2 (b_rows b)))
          end
      end
  end.

(** src/wblockdsp/language.rs:1502-1519 [retrieve_block_chain_at], for its effect on the program *)
Definition bf_retrieve (f : bfun) (id : nat) (x y : Z) (remove : bool) : option (bfun * option (list (block * pos))) :=
  match f_areas f !! id with
  | None => Some (f, None)
  | Some a =>
      let* oc := chain_at a x y in
      match oc with
      | None => Some (f, None)
      | Some s =>
          if remove then let '(a, l) := remove_load a s in Some (f_with_area f id a, Some l)
          else let '(n, l) := clone_load a s (f_next f) in Some (BFun (f_areas f) n (f_gen f), Some l)
      end
  end.

(** src/wblockdsp/language.rs:1567-1603 [split_block_chain_after] *)
Definition bf_split (f : bfun) (id : nat) (x y : Z) (filler : option string) : option (bfun * option berr) :=
  match f_areas f !! id with
  | None => Some (f, Some (UnknownArea id))
  | Some a =>
      let* oc := chain_at a x y in
      match oc with
      | None => Some (f, Some (NoBlockAt id x y))
      | Some s =>
          let '(a, l) := remove_load a s in
          match (match filler with None => Some None | Some t => match types t with Some t => Some (Some t) | None => None end end) with
          | None => Some (f, Some (UnknownLanguageType (default "" filler)))
          | Some t =>
              let '(n, l) := split_load l x y t (f_next f) in
              let f := BFun (f_areas f) n (f_gen f) in
              if has_space a l 0 0 then Some (f_with_area (f_bump f) id (set_blocks_from a l), None)
              else Some (f, Some (NoSpaceAvailable id x y 0))
          end
      end
  end.

(** src/wblockdsp/language.rs:544-558 [area_is_subarea_of_loaded] *)
Definition load_contains (fs : list area) (l : list (block * pos)) (id2 : nat) : option bool :=
  let* ls := mapM (fun p : block * pos => all_sub_areas_of fuel fs p.1) l in Some (bool_decide (id2 ∈ (mjoin ls : list nat))).

(** src/wblockdsp/language.rs:1605-1670 [move_block_chain_from_to] *)
Definition bf_move_chain (f : bfun) (id : nat) (x y : Z) (id2 : nat) (x2 y2 : Z) : option (bfun * option berr) :=
  match f_areas f !! id with
  | None => Some (f, Some (UnknownArea id))
  | Some a =>
      let* oc := chain_at a x y in
      match oc with
      | None => Some (f, Some (NoBlockAt id x y))
      | Some s =>
          let '(a, l) := remove_load a s in
          let f := f_bump f in
          if id2 =? id then
            match try_fit a (load_move l (x2 - x) (y2 - y)) fit_offsets with
            | None => Some (f, Some (NoSpaceAvailable id x2 y2 0))
            | Some l => Some (f_bump (f_with_area f id (set_blocks_from a l)), None)
            end
          else
            let* circ := load_contains (f_areas f) l id2 in
            if circ : bool then Some (f, Some (CircularAction id id2)) else
            let '(l, o) := load_normalize l in
            let l := load_move l (Z.max (o.1 - x + x2) 0) (Z.max (o.2 - y + y2) 0) in
            match f_areas f !! id2 with
            | None => Some (f, Some (UnknownArea id))
            | Some a2 =>
                match try_fit a2 l fit_offsets with
                | None => Some (f, Some (NoSpaceAvailable id x2 y2 1))
                | Some l => Some (f_bump (f_with_area (f_with_area f id a) id2 (set_blocks_from a2 l)), None)
                end
            end
      end
  end.

(** src/wblockdsp/language.rs:1112-1116 [struct BlockFunSnapshot], 1210-1222 [save_snapshot], [load_snapshot] *)
Record bsnap := BSnap { sn_areas : list area; sn_id : nat }.
Definition bf_save (f : bfun) : bsnap := BSnap (f_areas f) (f_next f).
Definition bf_load (f : bfun) (s : bsnap) : option bfun :=
  let* f := recalculate fuel (BFun (sn_areas s) (sn_id s) (f_gen f)) in Some (f_bump f).

(** Reading a program: src/wblockdsp/language.rs:1779-1786 [block_at], [origin_at] *)
Definition bf_block_at (f : bfun) (id : nat) (p : pos) : option block := let* a := f_areas f !! id in a_blocks a !! p.
Definition bf_origin_at (f : bfun) (id : nat) (p : pos) : option pos := let* a := f_areas f !! id in a_origin a !! p.

(** The calls of the editor *)
Inductive bop :=
| BInst (id : nat) (x y : Z) (typ : string) (inp : option string)
| BRemove (id : nat) (x y : Z)
| BMove (id : nat) (x y : Z) (id2 : nat) (x2 y2 : Z)
| BClone (id : nat) (x y : Z) (id2 : nat) (x2 y2 : Z)
| BShift (id : nat) (x y : Z) (row : nat) (output : bool)
| BRetrieve (id : nat) (x y : Z) (remove : bool)
| BSplit (id : nat) (x y : Z) (filler : option string)
| BMoveChain (id : nat) (x y : Z) (id2 : nat) (x2 y2 : Z)
| BRecalc
| BSave
| BLoad (k : nat).

(** One call. The state has the program and the snapshots that were saved so far; [BLoad k] loads the one saved [k]-th. *)
Definition bf_step (st : bfun * list bsnap) (o : bop) : option (bfun * list bsnap * option berr) :=
  let '(f, sn) := st in
  match o with
  | BInst id x y t i => let '(f, e) := bf_instanciate f id x y t i in Some (f, sn, e)
  | BRemove id x y => let '(f, e) := bf_remove f id x y in Some (f, sn, e)
  | BMove id x y id2 x2 y2 => let* (f, e) := bf_move f id x y id2 x2 y2 in Some (f, sn, e)
  | BClone id x y id2 x2 y2 => let '(f, e) := bf_clone f id x y id2 x2 y2 in Some (f, sn, e)
  | BShift id x y r out => let* f := bf_shift f id x y r out in Some (f, sn, None)
  | BRetrieve id x y r => let* (f, _) := bf_retrieve f id x y r in Some (f, sn, None)
  | BSplit id x y fl => let* (f, e) := bf_split f id x y fl in Some (f, sn, e)
  | BMoveChain id x y id2 x2 y2 => let* (f, e) := bf_move_chain f id x y id2 x2 y2 in Some (f, sn, e)
  | BRecalc => let* f := recalculate fuel f in Some (f, sn, None)
  | BSave => Some (f, sn ++ [bf_save f], None)
  | BLoad k => match sn !! k with Some s => let* f := bf_load f s in Some (f, sn, None) | None => Some (f, sn, None) end
  end.
End edit.
