(** Model of the pattern editor and tracker sequencer: src/dsp/tracker/pattern.rs, src/dsp/tracker/mod.rs
    and the row selection of src/dsp/tracker/sequencer.rs *)
From Coq Require Import String Ascii.
From Verif Require Import Base.
Open Scope nat_scope.

(** src/dsp/tracker/mod.rs:12-14 *)
Definition max_cols : nat := 6.
Definition max_pattern_len : nat := 256.
Definition max_ringbuf_size : nat := 64.

(** src/dsp/tracker/mod.rs:16-22 [enum PatternColType] *)
Inductive coltype := CNote | CStep | CValue | CGate.
Global Instance coltype_eq_dec : EqDecision coltype.
Proof. solve_decision. Defined.

(** Reading and writing [v[row][col]]; [None] is an index out of range, which panics *)
Definition get2 {A} (l : list (list A)) (r c : nat) : option A := let* row := l !! r in row !! c.
Definition put2 {A} (l : list (list A)) (r c : nat) (x : A) : option (list (list A)) :=
  let* row := l !! r in
  if c <? length row then Some (<[r := <[c := x]> row]> l) else None.

(** [format!("{:03x}", v)] for a [u16] *)
Definition hex_digit (n : Z) : ascii :=
  ascii_of_nat (Z.to_nat (if n <? 10 then 48 + n else 87 + n))%Z.
Fixpoint hex_fuel (fuel : nat) (n : Z) : list ascii :=
  match fuel with
  | 0 => []
  | S fuel => if (n <? 16)%Z then [hex_digit n] else hex_fuel fuel (n / 16)%Z ++ [hex_digit (n mod 16)%Z]
  end.
Definition hex3 (n : Z) : list ascii :=
  let ds := hex_fuel 4 n in replicate (3 - length ds) "0"%char ++ ds.

(** src/dsp/tracker/pattern.rs:10-21 [struct PatternData]; [V] is the type of sample values *)
Record pattern (V : Type) := Pattern {
  pt_types : list coltype;
  pt_data : list (list (option Z));
  pt_out : list (list (V * nat));
  pt_strings : list (list (option (list ascii)));
  pt_cursor : nat * nat;
  pt_rows : nat;
  pt_step : nat;
  pt_dirty : list bool;
  pt_gen : nat;
}.
Arguments Pattern {V}.
Arguments pt_types {V}. Arguments pt_data {V}. Arguments pt_out {V}. Arguments pt_strings {V}.
Arguments pt_cursor {V}. Arguments pt_rows {V}. Arguments pt_step {V}. Arguments pt_dirty {V}. Arguments pt_gen {V}.

(** src/matrix_repr.rs:107-113 [struct PatternRepr]; [pr_types] has always [MAX_COLS] elements *)
Record patrepr := PatRepr {
  pr_types : list Z;
  pr_data : list (list Z);
  pr_rows : nat;
  pr_step : nat;
  pr_cursor : nat * nat;
}.

Section pattern.
  (** Sample values: [val v] is [(v & 0xFFF) / 0xFFF], [note v] is [((v - 69) * 0.1) / 12] clamped to
      [-1, 1], [gate v] is [f32::from_bits(v)] and [lerp s e i n] is [s * (1 - i/n) + e * (i/n)]. *)
  Context {V : Type} (zero : V) (val note gate : Z -> V) (lerp : V -> V -> nat -> nat -> V).

  (** src/dsp/tracker/pattern.rs:24-36 [new] *)
  Definition pat_new (rows : nat) : pattern V :=
    Pattern (replicate max_cols CValue) (replicate max_pattern_len (replicate max_cols None))
      (replicate max_cols (replicate max_pattern_len (zero, 0)))
      (replicate max_pattern_len (replicate max_cols None)) (2, 2) rows 4 (replicate max_cols true) 0.

  (** src/dsp/tracker/pattern.rs:40-56 [is_unset] *)
  Definition pat_is_unset (p : pattern V) : bool :=
    forallb (fun t => bool_decide (t = CValue)) (pt_types p) &&
    forallb (forallb (fun c => bool_decide (c = None))) (pt_data p).

  (** src/dsp/tracker/pattern.rs:58-83 [to_repr] *)
  Definition type_code (t : coltype) : Z :=
    match t with CValue => 0 | CNote => 1 | CStep => 2 | CGate => 3 end.
  Definition pat_to_repr (p : pattern V) : patrepr :=
    PatRepr (type_code <$> pt_types p)
      ((fun row : list (option Z) => (fun c : option Z => match c with Some v => v | None => (-1)%Z end) <$> row) <$> pt_data p)
      (pt_rows p) (pt_step p) (pt_cursor p).

  (** src/dsp/tracker/pattern.rs:114-118 [modified_col] *)
  Definition dirty_col (d : list bool) (col : nat) : list bool := <[col := true]> d.

  (** src/dsp/tracker/pattern.rs:85-108 [from_repr]. A repr with more columns or cells than the pattern panics.
      [as u16] keeps the lower 16 bits. The cached strings are kept. *)
  Definition code_type (z : Z) : coltype :=
    if (z =? 1)%Z then CNote else if (z =? 2)%Z then CStep else if (z =? 3)%Z then CGate else CValue.
  Definition cell_of (z : Z) : option Z := if (z <? 0)%Z then None else Some (z mod 65536)%Z.
  Fixpoint set_types (i : nat) (ts : list coltype) (d : list bool) (zs : list Z) : option (list coltype * list bool) :=
    match zs with
    | [] => Some (ts, d)
    | z :: zs => if i <? length ts then set_types (S i) (<[i := code_type z]> ts) (dirty_col d i) zs else None
    end.
  Fixpoint set_row (r c : nat) (data : list (list (option Z))) (zs : list Z) : option (list (list (option Z))) :=
    match zs with
    | [] => Some data
    | z :: zs => let* data := put2 data r c (cell_of z) in set_row r (S c) data zs
    end.
  Fixpoint set_rows_data (r : nat) (data : list (list (option Z))) (rs : list (list Z)) : option (list (list (option Z))) :=
    match rs with
    | [] => Some data
    | zs :: rs => let* data := set_row r 0 data zs in set_rows_data (S r) data rs
    end.
  Definition pat_from_repr (p : pattern V) (r : patrepr) : option (pattern V) :=
    let* (ts, d) := set_types 0 (pt_types p) (pt_dirty p) (pr_types r) in
    let* data := set_rows_data 0 (pt_data p) (pr_data r) in
    Some (Pattern ts data (pt_out p) (pt_strings p) (pr_cursor r) (pr_rows r) (pr_step r) d (S (pt_gen p))).

  (** src/dsp/tracker/pattern.rs:268-285 [get_cell]: the shown text and the pattern with its filled cache *)
  Definition pat_get_cell (p : pattern V) (row col : nat) : option (pattern V * option (list ascii)) :=
    if length (pt_data p) <=? row then Some (p, None)
    else let* row0 := pt_data p !! 0 in
    if length row0 <=? col then Some (p, None)
    else
      let* s := get2 (pt_strings p) row col in
      match s with
      | Some s => Some (p, Some s)
      | None =>
          let* c := get2 (pt_data p) row col in
          match c with
          | None => Some (p, None)
          | Some v =>
              let* ss := put2 (pt_strings p) row col (Some (hex3 v)) in
              Some (Pattern (pt_types p) (pt_data p) (pt_out p) ss (pt_cursor p) (pt_rows p) (pt_step p) (pt_dirty p) (pt_gen p),
                    Some (hex3 v))
          end
      end.

  (** src/dsp/tracker/pattern.rs:287-299 [clear_cell] and 312-324 [set_cell_value] *)
  Definition pat_put (p : pattern V) (row col : nat) (c : option Z) : option (pattern V) :=
    if length (pt_data p) <=? row then Some p
    else let* row0 := pt_data p !! 0 in
    if length row0 <=? col then Some p
    else
      let* data := put2 (pt_data p) row col c in
      let* ss := put2 (pt_strings p) row col None in
      Some (Pattern (pt_types p) data (pt_out p) ss (pt_cursor p) (pt_rows p) (pt_step p)
              (dirty_col (pt_dirty p) col) (S (pt_gen p))).

  (** src/dsp/tracker/pattern.rs:301-310 [get_cell_value] *)
  Definition pat_get_value (p : pattern V) (row col : nat) : option Z :=
    if length (pt_data p) <=? row then Some 0%Z
    else let* row0 := pt_data p !! 0 in
    if length row0 <=? col then Some 0%Z
    else let* c := get2 (pt_data p) row col in Some (default 0%Z c).

  (** src/dsp/tracker/pattern.rs:233-237 [change_value]; an overflow of [i16] panics (debug build) *)
  Definition i16_of (n : Z) : Z := (let z := n mod 65536 in if z <? 32768 then z else z - 65536)%Z.
  Definition pat_change (p : pattern V) (row col : nat) (offs : Z) : option (pattern V) :=
    let* v := pat_get_value p row col in
    let z := (i16_of v + offs)%Z in
    if ((-32768 <=? z) && (z <=? 32767))%Z
    then pat_put p row col (Some (Z.min (Z.max z 0) 4095))
    else None.

  (** src/dsp/tracker/pattern.rs:358-362 [set_rows] *)
  Definition pat_set_rows (p : pattern V) (rows : nat) : pattern V :=
    Pattern (pt_types p) (pt_data p) (pt_out p) (pt_strings p) (pt_cursor p) (rows `min` length (pt_data p)) (pt_step p)
      (dirty_col (pt_dirty p) 0) (S (pt_gen p)).

  (** src/dsp/tracker/pattern.rs:364-398 [set_col_note_type], [set_col_step_type], [set_col_value_type],
      [set_col_gate_type] *)
  Definition pat_set_type (p : pattern V) (col : nat) (t : coltype) : pattern V :=
    if length (pt_types p) <=? col then p
    else Pattern (<[col := t]> (pt_types p)) (pt_data p) (pt_out p) (pt_strings p) (pt_cursor p) (pt_rows p) (pt_step p)
           (dirty_col (pt_dirty p) col) (S (pt_gen p)).

  (** src/dsp/tracker/pattern.rs:400-409 [set_cursor], [set_edit_step] *)
  Definition pat_set_cursor (p : pattern V) (row col : nat) : pattern V :=
    Pattern (pt_types p) (pt_data p) (pt_out p) (pt_strings p) (row, col) (pt_rows p) (pt_step p) (pt_dirty p) (S (pt_gen p)).
  Definition pat_set_step (p : pattern V) (s : nat) : pattern V :=
    Pattern (pt_types p) (pt_data p) (pt_out p) (pt_strings p) (pt_cursor p) (pt_rows p) s (pt_dirty p) (S (pt_gen p)).

  (** Writing [v[i]]; an index out of range panics *)
  Definition put1 {A} (l : list A) (i : nat) (x : A) : option (list A) :=
    if i <? length l then Some (<[i := x]> l) else None.

  (** src/dsp/tracker/pattern.rs:167-174: rows [start + 1 .. end) get interpolated values *)
  Definition interpolate (out : list (V * nat)) (s e : V) (start end_ : nat) : list (V * nat) :=
    foldl (fun out idx => <[idx := (lerp s e (idx - start) (end_ - start), 0)]> out) out (seq (start + 1) (end_ - (start + 1))).

  (** src/dsp/tracker/pattern.rs:142-186, the loop of the value columns; [cells r] is [self.data[r][col]]. The
      fuel bounds the number of iterations; running out of it is [None] too. *)
  Fixpoint value_loop (fuel : nat) (cells : nat -> option (option Z)) (rows : nat) (start_value : V) (start end_ : nat)
      (out : list (V * nat)) : option (list (V * nat)) :=
    match fuel with
    | 0 => None
    | S fuel =>
        if length out <? end_ then Some out
        else
          let brk := end_ =? rows in
          let end_ := if brk then end_ - 1 else end_ in
          let* c := cells end_ in
          let cur := if brk then Some (default zero (val <$> c)) else val <$> c in
          match cur with
          | None => value_loop fuel cells rows start_value start (end_ + 1) out
          | Some end_value =>
              let* out := put1 out start (start_value, 0) in
              let* out := put1 out end_ (end_value, 1) in
              let out := if 1 <? end_ - start then interpolate out start_value end_value start end_ else out in
              if brk then Some out
              else value_loop fuel cells rows end_value end_ (end_ + 1) out
          end
    end.

  (** src/dsp/tracker/pattern.rs:187-227: note and step columns hold the last value, gate columns carry bits *)
  Fixpoint hold_loop (conv : Z -> V) (cells : nat -> option (option Z)) (cur : V) (r n : nat) : option (list (V * nat)) :=
    match n with
    | 0 => Some []
    | S n =>
        let* c := cells r in
        let '(cur, g) := match c with Some v => (conv v, 1) | None => (cur, 0) end in
        let* rest := hold_loop conv cells cur (S r) n in
        Some ((cur, g) :: rest)
    end.
  Fixpoint gate_loop (cells : nat -> option (option Z)) (r n : nat) : option (list (V * nat)) :=
    match n with
    | 0 => Some []
    | S n =>
        let* c := cells r in
        let* rest := gate_loop cells (S r) n in
        Some ((match c with Some v => (gate v, 1) | None => (gate 61440%Z, 0) end) :: rest)
    end.

  (** src/dsp/tracker/pattern.rs:134-229 [sync_out_data] *)
  Definition pat_sync (p : pattern V) (col : nat) : option (pattern V) :=
    let* out := pt_out p !! col in
    if pt_rows p =? 0 then Some p
    else
      let* t := pt_types p !! col in
      let cells r := get2 (pt_data p) r col in
      let* out :=
        match t with
        | CValue => value_loop (length out + 2) cells (pt_rows p) zero 0 0 out
        | CNote => hold_loop note cells zero 0 (length out)
        | CStep => hold_loop val cells zero 0 (length out)
        | CGate => gate_loop cells 0 (length out)
        end in
      Some (Pattern (pt_types p) (pt_data p) (<[col := out]> (pt_out p)) (pt_strings p) (pt_cursor p) (pt_rows p) (pt_step p)
              (pt_dirty p) (pt_gen p)).

  (** src/dsp/tracker/mod.rs:27-35 [enum PatternUpdateMsg] *)
  Record patmsg := PatMsg { pm_col : nat; pm_type : coltype; pm_len : nat; pm_data : list (V * nat) }.

  (** src/dsp/tracker/mod.rs:50-54 [struct TrackerBackend] with the rows and columns of its [PatternSequencer] *)
  Record backend := Backend { bk_rows : nat; bk_data : list (list (V * nat)); bk_types : list coltype }.

  (** src/dsp/tracker/mod.rs:37-42 [struct Tracker] and the backend that was handed out last; the queue is that
      between them *)
  Record tracker := Tracker { tr_pat : pattern V; tr_queue : list patmsg; tr_back : backend }.

  (** src/dsp/tracker/sequencer.rs:45-57 [PatternSequencer::new], src/dsp/tracker/mod.rs:112-126 *)
  Definition backend_new : backend :=
    Backend max_pattern_len (replicate max_cols (replicate max_pattern_len (zero, 0))) (replicate max_cols CValue).

  (** src/dsp/tracker/mod.rs:73-83 [Tracker::new] followed by the first [get_backend] *)
  Definition tracker_new : tracker := Tracker (pat_new max_pattern_len) [] backend_new.

  (** src/dsp/tracker/mod.rs:112-126 [get_backend], when a backend was handed out before *)
  Definition tracker_get_backend (t : tracker) : tracker := Tracker (tr_pat t) [] backend_new.

  (** src/dsp/tracker/pattern.rs:120-128 [col_is_modified_reset], src/dsp/tracker/mod.rs:89-110
      [send_one_update]: the first modified column is sent; a full queue drops the message *)
  Fixpoint first_dirty (d : list bool) (i : nat) : option nat :=
    match d with
    | [] => None
    | b :: d => if b : bool then Some i else first_dirty d (S i)
    end.
  Definition tracker_send (t : tracker) : option (tracker * bool) :=
    let p := tr_pat t in
    match first_dirty (take max_cols (pt_dirty p)) 0 with
    | None => Some (t, false)
    | Some col =>
        let p := Pattern (pt_types p) (pt_data p) (pt_out p) (pt_strings p) (pt_cursor p) (pt_rows p) (pt_step p)
                   (<[col := false]> (pt_dirty p)) (pt_gen p) in
        let* p := pat_sync p col in
        let* out := pt_out p !! col in
        let m := PatMsg col (default CStep (pt_types p !! col)) (pt_rows p) out in
        Some (Tracker p (if length (tr_queue t) <? max_ringbuf_size then tr_queue t ++ [m] else tr_queue t) (tr_back t), true)
    end.

  (** src/dsp/tracker/sequencer.rs:67-71 [set_col]: the zip of both *)
  Fixpoint copy_onto {A} (dst src : list A) : list A :=
    match dst, src with
    | _ :: dst, x :: src => x :: copy_onto dst src
    | _, _ => dst
    end.

  (** src/dsp/tracker/mod.rs:130-144 [check_updates] *)
  Definition tracker_recv (t : tracker) : option (tracker * bool) :=
    match tr_queue t with
    | [] => Some (t, false)
    | m :: q =>
        let b := tr_back t in
        let* types := put1 (bk_types b) (pm_col m) (pm_type m) in
        let* old := bk_data b !! pm_col m in
        Some (Tracker (tr_pat t) q (Backend (pm_len m) (<[pm_col m := copy_onto old (pm_data m)]> (bk_data b)) types), true)
    end.

  (** calls of the pattern editor; the cell values are [u16] and the offsets [i16]. A repr with another number of
      column types does not exist in Rust. *)
  Inductive pop :=
  | PPut (row col : nat) (v : Z)
  | PClear (row col : nat)
  | PChange (row col : nat) (offs : Z)
  | PGet (row col : nat)
  | PRows (rows : nat)
  | PType (col : nat) (t : coltype)
  | PCursor (row col : nat)
  | PStep (s : nat)
  | PRepr (r : patrepr).

  Definition pat_step (p : pattern V) (o : pop) : option (pattern V) :=
    match o with
    | PPut r c v => pat_put p r c (Some (v mod 65536)%Z)
    | PClear r c => pat_put p r c None
    | PChange r c offs => pat_change p r c offs
    | PGet r c => fst <$> pat_get_cell p r c
    | PRows n => Some (pat_set_rows p n)
    | PType c t => Some (pat_set_type p c t)
    | PCursor r c => Some (pat_set_cursor p r c)
    | PStep s => Some (pat_set_step p s)
    | PRepr r => if length (pr_types r) =? max_cols then pat_from_repr p r else None
    end.

  (** steps of the editor, of the sending side and of the backend *)
  Inductive trop := TEdit (o : pop) | TSend | TRecv | TBackend.
  Definition track_step (t : tracker) (o : trop) : option tracker :=
    match o with
    | TEdit o => let* p := pat_step (tr_pat t) o in Some (Tracker p (tr_queue t) (tr_back t))
    | TSend => fst <$> tracker_send t
    | TRecv => fst <$> tracker_recv t
    | TBackend => Some (tracker_get_backend t)
    end.
End pattern.
