(** Specification of the gate columns of the sequencer, after the manual in src/dsp/node_tseq.rs:115-150 *)
From Coq Require Import QArith Qround Qminmax.
From Verif Require Import Base M_Track S_Track M_Seq.
Open Scope nat_scope.

(** A gate cell has three hexadecimal digits. The last one is the length of the gates in 16ths, less one; the middle one
    is 15 for one gate in the row and 0 for 16 gates; the first one is the chance to fire in 16ths, less one. *)
Definition gate_length (v : Z) : Q := (inject_Z (v mod 16 + 1) / 16)%Q.
Definition gate_count (v : Z) : Z := (16 - (v / 16) mod 16)%Z.
Definition gate_chance (v : Z) : Q := (inject_Z ((v / 256) mod 16 + 1) / 16)%Q.

(** The play head of phase [p] in row [r] of a pattern, measured in gates of that row; [rnd] is the rounding of the
    arithmetic. In exact arithmetic it is [(p * (rows - eps) - r) * gate_count v]. *)
Definition gate_head (rnd : Q -> Q) (eps : Q) (rows r : nat) (v : Z) (p : Q) : Q :=
  rnd ((rnd (p * rnd (inject_Z (Z.of_nat rows) - eps)) - inject_Z (Z.of_nat r)) * inject_Z (gate_count v))%Q.

(** the head is in the high part of the [k]-th gate *)
Definition in_gate (v : Z) (head : Q) (k : Z) : Prop :=
  (inject_Z k <= head)%Q /\ (head < inject_Z k + 1)%Q /\ (head <= inject_Z k + gate_length v)%Q.

(** phases beyond the pattern are those of its ends *)
Definition clip (p : Q) : Q := Qmax 0 (Qmin 1 p).

(** the head is in row [r] *)
Definition head_in_row (rnd : Q -> Q) (eps : Q) (rows : nat) (p : Q) (r : nat) : Prop :=
  (inject_Z (Z.of_nat r) <= rnd (p * rnd (inject_Z (Z.of_nat rows) - eps)) /\
   rnd (p * rnd (inject_Z (Z.of_nat rows) - eps)) < inject_Z (Z.of_nat r) + 1)%Q.

(** What a frame of a gate column gives: the track output and the gate output *)
Definition gate_sounds {V} (zero one : V) (cell : option Z) (head : Z -> Q) (fires : bool) (o : V * nat) : Prop :=
  match cell with
  | None => o = (zero, 0)
  | Some v =>
      ((exists k, in_gate v (head v) k) -> fires = true -> o = (one, 1)) /\
      ((~ exists k, in_gate v (head v) k) \/ fires = false -> o = (zero, 1))
  end.

(** The number that decides in row [r] of column [c]: the last number drawn for the column if it was drawn for row [r],
    and a new one otherwise. *)
Definition decides {G} (next_open01 : G -> Q * G) (st : gatest) (c r : nat) (u : Q) (st' : gatest) : Prop :=
  (gs_vals st !! c = Some (r, u) /\ st' = st) \/
  (exists r0 u0, gs_vals st !! c = Some (r0, u0) /\ r0 <> r /\ next_open01 (gs_rng st) = (u, gs_rng st') /\
     gs_vals st' = <[c := (r, u)]> (gs_vals st)).

(** Rows that are left to chance. An empty row takes a number too, but never sounds. *)
Definition by_chance (cell : option Z) : Prop :=
  match cell with Some v => (gate_chance v < 1)%Q | None => True end.

(** Whether a row fires *)
Definition row_fires {G} (next_open01 : G -> Q * G) (cell : option Z) (st : gatest) (c r : nat) (fires : bool) (st' : gatest) : Prop :=
  (by_chance cell -> exists u, decides next_open01 st c r u st' /\
     forall v, cell = Some v -> (fires = true <-> (u <= gate_chance v)%Q)) /\
  (~ by_chance cell -> fires = true /\ st' = st).

(** The sequencer node over several blocks of phases: for every block the samples of its six columns *)
Fixpoint tseq_run {V G} (rnd : Q -> Q) (mix : V -> V -> Q -> V) (next_open01 : G -> Q * G) (bits : V -> Z) (zero one : V)
    (b : backend) (st : gatest) (blocks : list (list Q)) : option (gatest * list (list (list (V * nat)))) :=
  match blocks with
  | [] => Some (st, [])
  | ps :: blocks =>
      let* (st, o) := tseq_play rnd mix next_open01 bits zero one b st ps in
      let* (st, os) := tseq_run rnd mix next_open01 bits zero one b st blocks in
      Some (st, o :: os)
  end.
(** the samples of one column, one block after the other *)
Definition track_of {A} (c : nat) (os : list (list (list A))) : list A := mjoin ((fun o => default [] (o !! c)) <$> os).

(** A backend with six columns of 256 rows that plays no more rows than that *)
Definition back_shaped {V} (b : @backend V) : Prop :=
  length (bk_types b) = 6 /\ length (bk_data b) = 6 /\
  Forall (fun d => length d = 256) (bk_data b) /\ bk_rows b <= 256.

(** A column that plays gates from the given cells *)
Definition gate_column {V} (gate : Z -> V) (b : @backend V) (c : nat) (cells : nat -> option Z) : Prop :=
  c < 6 /\ bk_types b !! c = Some CGate /\ (exists d, bk_data b !! c = Some d /\ plays_gates gate cells d) /\
  (forall r v, cells r = Some v -> (0 <= v < 4096)%Z) /\ 0 < bk_rows b <= 256.
