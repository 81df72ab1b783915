(** Specification vocabulary of the pattern and tracker properties *)
From Coq Require Import String Ascii.
From Verif Require Import Base M_Prog M_Track.
Open Scope nat_scope.

(** A pattern after a history of editor calls, none of which panicked *)
Definition pat_run {V} (p : pattern V) (os : list pop) : option (pattern V) := foldm pat_step p os.

(** No call of the history loads a stored pattern *)
Definition is_load (o : pop) : bool := match o with PRepr _ => true | _ => false end.
Definition no_load (os : list pop) : Prop := Forall (fun o => is_load o = false) os.

(** What a user of the editor sees of a cell: its text *)
Definition shown {V} (p : pattern V) (r c : nat) : option (option (list ascii)) := snd <$> pat_get_cell p r c.

(** The text of a number: its digits in base 16 in lower case, at least three of them, and no zero in front of more than three *)
Definition hex_digits : list ascii := ["0"; "1"; "2"; "3"; "4"; "5"; "6"; "7"; "8"; "9"; "a"; "b"; "c"; "d"; "e"; "f"]%char.
Definition hex_text (v : Z) (s : list ascii) : Prop := exists ds : list nat,
  Forall2 (fun d c => hex_digits !! d = Some c) ds s /\ foldl (fun (x : Z) (d : nat) => 16 * x + Z.of_nat d)%Z 0%Z ds = v /\
  3 <= length ds /\ (3 < length ds -> head ds <> Some 0).

(** What a column with the given cells plays when the pattern has [rows] rows: the list of (value, gate flag) of
    all rows. [cells r] is the value given in row [r], if any. *)
Section plays.
  Context {V : Type} (zero : V) (val note gate : Z -> V) (lerp : V -> V -> nat -> nat -> V).

  (** the rows between which a value column interpolates: the given values, and zero in an empty first or last row *)
  Definition anchor (cells : nat -> option Z) (rows r : nat) : option V :=
    match cells r with
    | Some v => Some (val v)
    | None => if (r =? 0) || (r + 1 =? rows) then Some zero else None
    end.

  Definition plays_values (cells : nat -> option Z) (rows : nat) (out : list (V * nat)) : Prop :=
    (forall r v, r < rows -> anchor cells rows r = Some v -> out !! r = Some (v, if r + 1 =? rows then 1 else 0)) /\
    (forall a r b s e, a < r < b -> b < rows ->
       anchor cells rows a = Some s -> anchor cells rows b = Some e ->
       (forall i, a < i < b -> anchor cells rows i = None) ->
       out !! r = Some (lerp s e (r - a) (b - a), 0)).

  (** the last given value at or before row [r] *)
  Definition last_given (cells : nat -> option Z) (r : nat) (x : option Z) : Prop :=
    match x with
    | Some v => exists r0, r0 <= r /\ cells r0 = Some v /\ forall i, r0 < i <= r -> cells i = None
    | None => forall i, i <= r -> cells i = None
    end.

  Definition plays_held (conv : Z -> V) (cells : nat -> option Z) (out : list (V * nat)) : Prop :=
    forall r x, r < max_pattern_len -> last_given cells r x ->
      out !! r = Some (match x with Some v => conv v | None => zero end, if cells r then 1 else 0).

  Definition plays_gates (cells : nat -> option Z) (out : list (V * nat)) : Prop :=
    forall r, r < max_pattern_len ->
      out !! r = Some (match cells r with Some v => (gate v, 1) | None => (gate 61440%Z, 0) end).

  Definition column_plays (t : coltype) (cells : nat -> option Z) (rows : nat) (out : list (V * nat)) : Prop :=
    match t with
    | CValue => plays_values cells rows out
    | CNote => plays_held note cells out
    | CStep => plays_held val cells out
    | CGate => plays_gates cells out
    end.
End plays.

(** The cells of a column as the editor shows them *)
Definition column {V} (p : pattern V) (c : nat) (r : nat) : option Z := default None (get2 (pt_data p) r c).

(** Histories of an editor, a sender and one backend in which no message is dropped. The list holds for every
    column the number of rows the pattern had when the column was sent last. *)
Section history.
  Context {V : Type} (zero : V) (val note gate : Z -> V) (lerp : V -> V -> nat -> nat -> V).

  Inductive history : @tracker V -> list nat -> Prop :=
  | h_new : history (tracker_new zero) (replicate max_cols 0)
  | h_edit t sent o t' :
      history t sent -> track_step zero val note gate lerp t (TEdit o) = Some t' -> history t' sent
  | h_send t sent t' col :
      history t sent -> length (tr_queue t) < max_ringbuf_size ->
      tracker_send zero val note gate lerp t = Some (t', true) ->
      pt_dirty (tr_pat t) !! col = Some true -> pt_dirty (tr_pat t') !! col = Some false ->
      history t' (<[col := pt_rows (tr_pat t)]> sent)
  | h_recv t sent t' :
      history t sent -> track_step zero val note gate lerp t TRecv = Some t' -> history t' sent.
End history.
