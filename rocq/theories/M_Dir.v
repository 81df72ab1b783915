(** Model of src/cell_dir.rs *)
From Verif Require Import Base.
Open Scope Z_scope.

(** src/cell_dir.rs:6-15 *)
Inductive celldir := TR | BR | B | BL | TL | T | C.

Global Instance celldir_eq_dec : EqDecision celldir.
Proof. solve_decision. Defined.

(** src/cell_dir.rs:18-28 [CellDir::from] *)
Definition dir_from (edge : nat) : celldir :=
  match edge with
  | 0 => TR | 1 => BR | 2 => B | 3 => BL | 4 => TL | 5 => T | _ => C
  end%nat.

(** src/cell_dir.rs:30-40 [flip] (the centre flips to [T] as in the source) *)
Definition dir_flip (d : celldir) : celldir :=
  match d with
  | TR => BL | BR => TL | B => T | BL => TR | TL => BR | T => B | C => T
  end.

(** src/cell_dir.rs:54-56 [as_edge] *)
Definition dir_as_edge (d : celldir) : nat :=
  match d with TR => 0 | BR => 1 | B => 2 | BL => 3 | TL => 4 | T => 5 | C => 6 end%nat.

(** src/cell_dir.rs:43-46 [is_output], 49-51 [is_input] *)
Definition dir_is_output (d : celldir) : bool := bool_decide (dir_as_edge d <= 2)%nat.
Definition dir_is_input (d : celldir) : bool := negb (dir_is_output d).

(** src/cell_dir.rs:137-154 [as_offs] *)
Definition dir_as_offs (d : celldir) (x : nat) : Z * Z :=
  let even := Nat.even x in
  match d with
  | TR => (1, if even then -1 else 0)
  | BR => (1, if even then 0 else 1)
  | B => (0, 1)
  | BL => (-1, if even then 0 else 1)
  | TL => (-1, if even then -1 else 0)
  | T => (0, -1)
  | C => (0, 0)
  end.

(** src/cell_dir.rs:125-135 [offs_pos]. Simplification: unbounded integers instead of [i32]
    (the code's coordinates stay far below 2^31). *)
Definition dir_offs_pos (d : celldir) (p : nat * nat) : option (nat * nat) :=
  let '(ox, oy) := dir_as_offs d p.1 in
  let nx := Z.of_nat p.1 + ox in
  let ny := Z.of_nat p.2 + oy in
  if decide (0 <= nx /\ 0 <= ny) then Some (Z.to_nat nx, Z.to_nat ny) else None.

(** one comparison of [are_adjacent] *)
Definition is_at (d : celldir) (a b : nat * nat) : bool :=
  let '(ox, oy) := dir_as_offs d a.1 in
  bool_decide (Z.of_nat b.1 = Z.of_nat a.1 + ox /\ Z.of_nat b.2 = Z.of_nat a.2 + oy).

(** src/cell_dir.rs:159-190 [are_adjacent], comparisons in source order *)
Definition dir_are_adjacent (a b : nat * nat) : option celldir :=
  if is_at T a b then Some T
  else if is_at TL a b then Some TL
  else if is_at BL a b then Some BL
  else if is_at TR a b then Some TR
  else if is_at BR a b then Some BR
  else if is_at B a b then Some B
  else None.

(** squared distance, src/cell_dir.rs:93-94. Simplification: exact integers instead of [f32]
    (the [f32] computation is exact while both differences are below 2^11). *)
Definition dist2 (a b : nat * nat) : Z :=
  (Z.of_nat b.1 - Z.of_nat a.1) * (Z.of_nat b.1 - Z.of_nat a.1) +
  (Z.of_nat b.2 - Z.of_nat a.2) * (Z.of_nat b.2 - Z.of_nat a.2).

(** src/cell_dir.rs:89-106: the inner loop over the six edges; state is
    (min_distance, min_dir, min_new_a) *)
Definition path_pick (a b : nat * nat) : Z * celldir * (nat * nat) :=
  foldl (fun '(md, mdir, mpos) e =>
           let dir := dir_from e in
           match dir_offs_pos dir a with
           | Some np => let dist := dist2 np b in
                        if bool_decide (dist < md) then (dist, dir, np) else (md, mdir, mpos)
           | None => (md, mdir, mpos)
           end)
        (99999, C, a) (seq 0 6).

(** src/cell_dir.rs:76-123 [path_from_to]; the fuel is the code's own [defensive_max] *)
Fixpoint path_loop (defensive_max : nat) (a b : nat * nat) : list celldir :=
  match defensive_max with
  | O => []
  | S k =>
      if decide (a = b) then []
      else
        let '(md, mdir, mpos) := path_pick a b in
        if bool_decide (md < 99999) then mdir :: path_loop k mpos b else []
  end.

Definition path_from_to (a b : nat * nat) : list celldir := path_loop 1024 a b.
